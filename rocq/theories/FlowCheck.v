(** Deciding by evaluation that a concrete network is valid and acyclic; used by examples and counterexamples only. *)
From Verif Require Import Common GridModel FlowSpec GridProofs FlowProofs.

Definition each_cell (a0 a1 : Z) (P : cell -> bool) : bool := forallb P (cells2 0 a0 0 a1).
Lemma each_cell_spec a0 a1 P : each_cell a0 a1 P = true -> forall x, inside a0 a1 x -> P x = true.
Proof.
  unfold each_cell. rewrite forallb_forall. intros H [r c] [H0 H1]. apply H. cbn [fst snd] in *. apply in_cells2. lia.
Qed.

(** [rank] decreases downstream. *)
Definition network_check (a0 a1 : Z) (nd : Z -> bool) (f rank : cell -> Z) : bool :=
  each_cell a0 a1 (fun x => nd (f x) || cell_eqb (towards f x) x || negb (insideb a0 a1 (towards f x)) ||
    (negb (nd (f (towards f x))) && (rank (towards f x) <? rank x))).

Lemma insideb_iff a0 a1 x : insideb a0 a1 x = true <-> inside a0 a1 x.
Proof. unfold insideb, inside. rewrite !andb_true_iff, !Z.leb_le, !Z.ltb_lt. tauto. Qed.
Lemma network_check_step a0 a1 nd f rank : network_check a0 a1 nd f rank = true ->
  forall x y, drains a0 a1 nd f x y -> inside a0 a1 y -> nd (f y) = false /\ rank y < rank x.
Proof.
  intros H x y [D1 [D2 [D3 D4]]] Hy. pose proof (each_cell_spec _ _ _ H x D1) as E. cbv beta in E. rewrite D2, <- D3 in E.
  rewrite (proj2 (insideb_iff a0 a1 y) Hy) in E.
  assert (N : cell_eqb y x = false).
  { unfold cell_eqb. destruct ((fst y =? fst x) && (snd y =? snd x)) eqn:Q; [|reflexivity]. apply andb_true_iff in Q. rewrite !Z.eqb_eq in Q.
    exfalso. apply D4. destruct x, y. cbn [fst snd] in Q. f_equal; tauto. }
  rewrite N in E. cbn [orb negb] in E. apply andb_true_iff in E. destruct E as [E1 E2]. apply negb_true_iff in E1. apply Z.ltb_lt in E2. now split.
Qed.
Lemma network_check_ok a0 a1 nd f rank : network_check a0 a1 nd f rank = true -> valid_network a0 a1 nd f /\ acyclic a0 a1 nd f.
Proof.
  intros H. pose proof (network_check_step _ _ _ _ _ H) as S. split.
  - intros x y D Hy. now apply (S x y).
  - intros x y D P.
    assert (Q : forall u v, path a0 a1 nd f u v -> inside a0 a1 u /\ rank v <= rank u).
    { clear - S. induction 1 as [u Hu _|u v w D P [IH1 IH2]]; [split; [exact Hu|lia]|]. split; [apply D|]. destruct (S u v D IH1). lia. }
    destruct (Q y x P) as [Hy L]. destruct (S x y D Hy). lia.
Qed.

(** A network of 4 x 6 cells with two outlets, three cells on a border and one cell without a flow direction; 255 is no-data *)
Definition ex_flow (x : list Z) : Z :=
  nth (Z.to_nat (nth 0 x 0 * 6 + nth 1 x 0)) [6; 6; 3; 255; 6; 3;  9; 5; 3; 1; 4; 2;  8; 7; 6; 6; 3; 4;  6; 6; 6; 9; 5; 4] 0.
Definition ex_no_data (v : Z) : bool := v =? 255.
Definition ex_rank (x : cell) : Z :=
  - nth (Z.to_nat (fst x * 6 + snd x)) [1; 5; 6; 0; 1; 2;  3; 1; 1; 8; 1; 1;  1; 1; 9; 11; 18; 2;  1; 2; 3; 4; 20; 19] 0.
Lemma ex_network : valid_network 4 6 ex_no_data (fun x => ex_flow [fst x; snd x]) /\ acyclic 4 6 ex_no_data (fun x => ex_flow [fst x; snd x]).
Proof. apply (network_check_ok 4 6 ex_no_data _ ex_rank). vm_compute. reflexivity. Qed.

(** A network of a single row, in a single partition: the water of three cells flows east. *)
Definition row_flow (x : list Z) : Z := nth (Z.to_nat (nth 1 x 0)) [6; 6; 5] 0.
Lemma row_network : valid_network 1 3 ex_no_data (fun x => row_flow [fst x; snd x]) /\ acyclic 1 3 ex_no_data (fun x => row_flow [fst x; snd x]).
Proof. apply (network_check_ok 1 3 ex_no_data _ (fun x => - snd x)). vm_compute. reflexivity. Qed.
