(** Acyclic networks: a rank, and values defined by following the network downstream. *)
From Verif Require Import Common CommonProofs GridModel GridProofs FlowSpec FlowModel RouterModel FlowProofs FlowProofs2 FlowProofs3 FlowProofs4.

Lemma filter_perm {T} (p : T -> bool) l l' : Permutation l l' -> Permutation (filter p l) (filter p l').
Proof.
  intros P. induction P; cbn; [constructor|destruct (p x); [now constructor|assumption]|
    destruct (p x), (p y); try (apply perm_swap || apply Permutation_refl)|etransitivity; eassumption].
Qed.

Section Rank.
Context (a0 a1 : Z) (nd : Z -> bool) (f : cell -> Z).
Context (AC : acyclic a0 a1 nd f) (V : valid_network a0 a1 nd f).

Definition valid (x : cell) : Prop := inside a0 a1 x /\ nd (f x) = false.
(** Does [x] drain into another cell of the array? *)
Definition flowsb (x : cell) : bool :=
  insideb a0 a1 x && negb (nd (f x)) && negb (cell_eqb (towards f x) x) && insideb a0 a1 (towards f x).
Lemma flowsb_spec x : flowsb x = true <-> drains a0 a1 nd f x (towards f x) /\ inside a0 a1 (towards f x).
Proof.
  unfold flowsb, drains. rewrite !andb_true_iff, !negb_true_iff, !insideb_spec. split.
  - intros [[[H1 H2] H3] H4]. repeat split; try tauto; try apply H1; try apply H4. intros E. rewrite E, cell_eqb_refl in H3. discriminate.
  - intros [[H1 [H2 [_ H3]]] H4]. repeat split; try tauto; try apply H1; try apply H4. now apply cell_eqb_neq.
Qed.
Lemma path_start x y : path a0 a1 nd f x y -> valid x.
Proof. intros H. destruct H as [x H1 H2|x y z [H1 [H2 _]] _]; split; assumption. Qed.
Lemma path_end x y : path a0 a1 nd f x y -> valid y.
Proof. induction 1; [split; assumption|assumption]. Qed.

Definition area : nat := Z.to_nat (a0 * a1).

Fixpoint trail (n : nat) (x : cell) : list cell :=
  match n with
  | O => []
  | S n' => if flowsb x then x :: trail n' (towards f x) else [x]
  end.
Fixpoint dlen (n : nat) (x : cell) : nat :=
  match n with
  | O => O
  | S n' => if flowsb x then S (dlen n' (towards f x)) else O
  end.

Lemma flows_valid x : valid x -> flowsb x = true -> valid (towards f x).
Proof. intros H E. apply flowsb_spec in E. destruct E as [D I]. split; [exact I|]. exact (V _ _ D I). Qed.

Lemma trail_in n x y : valid x -> In y (trail n x) -> path a0 a1 nd f x y.
Proof.
  revert x. induction n as [|n IH]; intros x Hx H; [destruct H|]. cbn in H. destruct (flowsb x) eqn:E.
  - destruct H as [<-|H]; [apply path_here; apply Hx|]. pose proof (flows_valid x Hx E). apply flowsb_spec in E. eapply path_step; [apply E|]. now apply IH.
  - destruct H as [<-|[]]. apply path_here; apply Hx.
Qed.
Lemma trail_NoDup n x : valid x -> NoDup (trail n x).
Proof.
  revert x. induction n as [|n IH]; intros x Hx; [constructor|]. cbn. destruct (flowsb x) eqn:E.
  - pose proof (flows_valid x Hx E) as Hy. constructor; [|now apply IH]. intros H. apply trail_in in H; [|exact Hy].
    apply flowsb_spec in E. exact (AC _ _ (proj1 E) H).
  - constructor; [intros []|constructor].
Qed.
Lemma trail_len n x : length (trail (S n) x) = S (dlen n x).
Proof.
  revert x. induction n as [|n IH]; intros x; [cbn; now destruct (flowsb x)|].
  change (trail (S (S n)) x) with (if flowsb x then x :: trail (S n) (towards f x) else [x]).
  cbn [dlen]. destruct (flowsb x); [|reflexivity]. cbn [length]. now rewrite IH.
Qed.
Lemma dlen_bound n x : valid x -> (dlen n x < area)%nat.
Proof.
  intros Hx. assert (L : (length (trail (S n) x) <= length (cells2 0 a0 0 a1))%nat).
  { apply NoDup_incl_length; [now apply trail_NoDup|]. intros y Hy. apply trail_in in Hy; [|exact Hx]. apply path_end in Hy.
    apply in_cells2'. destruct Hy as [[H0 H1] _]. lia. }
  rewrite trail_len in L. destruct Hx as [[H0 H1] _]. rewrite cells2_length in L by lia. unfold area. lia.
Qed.
Lemma dlen_stable n x : (dlen n x < n)%nat -> dlen (S n) x = dlen n x.
Proof.
  revert x. induction n as [|n IH]; intros x H; [lia|]. change (dlen (S (S n)) x) with (if flowsb x then S (dlen (S n) (towards f x)) else O).
  cbn [dlen] in H |- *. destruct (flowsb x); [|reflexivity]. f_equal. apply IH. lia.
Qed.

Definition rank (x : cell) : nat := area - dlen area x.
Lemma rank_lt x y : valid y -> drains a0 a1 nd f x y -> (rank x < rank y)%nat.
Proof.
  intros Hy D. assert (Hx : valid x) by (destruct D as [D1 [D2 _]]; split; assumption).
  assert (E : flowsb x = true).
  { apply flowsb_spec. destruct D as [D1 [D2 [D3 D4]]]. rewrite <- D3. repeat split; try tauto; try apply D1; try apply Hy. }
  pose proof (dlen_bound area x Hx) as Bx. pose proof (dlen_bound area y Hy) as By.
  assert (dlen area x = S (dlen area y)).
  { rewrite <- (dlen_stable area x Bx). cbn [dlen]. rewrite E. destruct D as [_ [_ [-> _]]]. reflexivity. }
  unfold rank. lia.
Qed.
Lemma rank_bound x : (rank x <= area)%nat.
Proof. unfold rank. lia. Qed.

(** Induction over the cells upstream of a cell *)
Lemma upstream_ind (P : cell -> Prop) : (forall x, valid x -> (forall y, drains a0 a1 nd f y x -> P y) -> P x) -> forall x, valid x -> P x.
Proof.
  intros H x. remember (rank x) as n eqn:E. assert (L : (rank x <= n)%nat) by lia. clear E. revert x L.
  induction n as [|n IH]; intros x L Hx; apply H; try assumption; intros y D; pose proof (rank_lt y x Hx D); [lia|].
  apply IH; [lia|]. destruct D as [D1 [D2 _]]. split; assumption.
Qed.
End Rank.

(** Values that depend on the values of the upstream cells. *)
Section Values.
Context (a0 a1 : Z) (nd : Z -> bool) (f : cell -> Z).
Context (AC : acyclic a0 a1 nd f) (V : valid_network a0 a1 nd f).
Context {A X M : Type} (enter : A -> X -> X) (add : X -> M -> X) (outflow : X -> M) (initial : X) (arg : cell -> A).

Fixpoint value_fuel (n : nat) (x : cell) : X :=
  match n with
  | O => initial
  | S n' => enter (arg x) (fold_left add (map (fun y => outflow (value_fuel n' y)) (upstream a0 a1 nd f x)) initial)
  end.
Definition value (x : cell) : X := value_fuel (S (area a0 a1)) x.

Lemma value_fuel_stable n x : valid a0 a1 nd f x -> (rank a0 a1 nd f x < n)%nat -> value_fuel n x = value_fuel (S n) x.
Proof.
  revert x. induction n as [|n IH]; intros x Hx H; [lia|]. 
  change (value_fuel (S (S n)) x) with (enter (arg x) (fold_left add (map (fun y => outflow (value_fuel (S n) y)) (upstream a0 a1 nd f x)) initial)).
  cbn [value_fuel]. do 2 f_equal. apply map_ext_in. intros y Hy. apply in_upstream in Hy. f_equal. apply IH.
  - destruct Hy as [D1 [D2 _]]. split; assumption.
  - pose proof (rank_lt a0 a1 nd f AC V y x Hx Hy). lia.
Qed.
Lemma value_eq x : valid a0 a1 nd f x ->
  value x = enter (arg x) (fold_left add (map (fun y => outflow (value y)) (upstream a0 a1 nd f x)) initial).
Proof.
  intros Hx. unfold value. rewrite value_fuel_stable; [reflexivity|exact Hx|]. pose proof (rank_bound a0 a1 nd f x). lia.
Qed.
End Values.
