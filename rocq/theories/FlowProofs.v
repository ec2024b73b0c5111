(** Flow directions and the connectivity of a single partition. *)
From Verif Require Import Common CommonProofs CoreSpec IndexModel DecompModel ArrayModel GridModel GridProofs FlowSpec FlowModel RouterModel.

Lemma cell_eqb_spec x y : cell_eqb x y = true <-> x = y.
Proof. destruct x, y. unfold cell_eqb. cbn. split; [intros; f_equal; lia|intros E; injection E; lia]. Qed.
Lemma cell_eqb_refl x : cell_eqb x x = true.
Proof. now apply cell_eqb_spec. Qed.
Lemma cell_eqb_neq x y : x <> y -> cell_eqb x y = false.
Proof. intros H. destruct (cell_eqb x y) eqn:E; [apply cell_eqb_spec in E; contradiction|reflexivity]. Qed.
Lemma cell_eqb_sym x y : cell_eqb x y = cell_eqb y x.
Proof. unfold cell_eqb. lia. Qed.
Lemma cell_dec (x y : cell) : {x = y} + {x <> y}.
Proof. destruct (cell_eqb x y) eqn:E; [left; now apply cell_eqb_spec|right; intros ->; rewrite cell_eqb_refl in E; discriminate]. Qed.
Lemma insideb_spec a0 a1 x : insideb a0 a1 x = true <-> inside a0 a1 x.
Proof. unfold insideb, inside. lia. Qed.
Lemma insideb_false a0 a1 x : insideb a0 a1 x = false <-> ~ inside a0 a1 x.
Proof. unfold insideb, inside. lia. Qed.

Lemma obind_Ok {A B} (a : A) (k : A -> outcome B) : obind (Ok a) k = k a.
Proof. reflexivity. Qed.

Lemma keypad_chain d : keypad d =
  if d =? north_west then (-1, -1) else if d =? north then (-1, 0) else if d =? north_east then (-1, 1)
  else if d =? west then (0, -1) else if d =? east then (0, 1) else if d =? south_west then (1, -1)
  else if d =? south then (1, 0) else if d =? south_east then (1, 1) else (0, 0).
Proof.
  unfold keypad, north_west, north, north_east, west, east, south_west, south, south_east.
  destruct ((1 <=? d) && (d <=? 9)) eqn:E.
  - assert (C : d = 1 \/ d = 2 \/ d = 3 \/ d = 4 \/ d = 5 \/ d = 6 \/ d = 7 \/ d = 8 \/ d = 9) by lia.
    destruct C as [-> | [-> | [-> | [-> | [-> | [-> | [-> | [-> | ->]]]]]]]]; reflexivity.
  - repeat match goal with |- context [d =? ?k] => destruct (Z.eqb_spec d k); [exfalso; lia|] end. reflexivity.
Qed.

(** The nine cases of a flow direction *)
Lemma dir_cases d : (d = 7 /\ keypad d = (-1, -1)) \/ (d = 8 /\ keypad d = (-1, 0)) \/ (d = 9 /\ keypad d = (-1, 1)) \/
  (d = 4 /\ keypad d = (0, -1)) \/ (d = 6 /\ keypad d = (0, 1)) \/ (d = 1 /\ keypad d = (1, -1)) \/
  (d = 2 /\ keypad d = (1, 0)) \/ (d = 3 /\ keypad d = (1, 1)) \/
  ((d <> 7 /\ d <> 8 /\ d <> 9 /\ d <> 4 /\ d <> 6 /\ d <> 1 /\ d <> 2 /\ d <> 3) /\ keypad d = (0, 0)).
Proof.
  rewrite keypad_chain. unfold north_west, north, north_east, west, east, south_west, south, south_east.
  destruct (Z.eqb_spec d 7); [auto 12|]. destruct (Z.eqb_spec d 8); [auto 12|]. destruct (Z.eqb_spec d 9); [auto 12|].
  destruct (Z.eqb_spec d 4); [auto 12|]. destruct (Z.eqb_spec d 6); [auto 12|]. destruct (Z.eqb_spec d 1); [auto 12|].
  destruct (Z.eqb_spec d 2); [auto 12|]. destruct (Z.eqb_spec d 3); [auto 12|]. do 8 right. auto 20.
Qed.

Ltac dirs := unfold north_west, north, north_east, west, east, south_west, south, south_east in *.
(** Case distinction on a flow direction; decides the tests on it. *)
Ltac by_dir d :=
  let E := fresh "Ed" in let K := fresh "Kd" in
  destruct (dir_cases d) as [[E K]|[[E K]|[[E K]|[[E K]|[[E K]|[[E K]|[[E K]|[[E K]|[E K]]]]]]]]];
  dirs; repeat match goal with |- context [d =? ?k] => first [replace (d =? k) with true by lia | replace (d =? k) with false by lia] end;
  cbv match.

Lemma keypad_range d : -1 <= fst (keypad d) <= 1 /\ -1 <= snd (keypad d) <= 1.
Proof. destruct (dir_cases d) as [[_ K]|[[_ K]|[[_ K]|[[_ K]|[[_ K]|[[_ K]|[[_ K]|[[_ K]|[_ K]]]]]]]]]; rewrite K; cbn; lia. Qed.

(** Where a cell drains to, in terms of the partition's cells *)
Definition dest (g : Z -> Z -> Z) (s : cell) : cell :=
  (fst s + fst (keypad (g (fst s) (snd s))), snd s + snd (keypad (g (fst s) (snd s)))).

Lemma downstream_within_ok n0 n1 g r c : 0 <= r < n0 -> 0 <= c < n1 ->
  downstream_within (gmake n0 n1 g) n0 n1 r c =
    Ok (keypad (g r c), insideb n0 n1 (dest g (r, c))).
Proof.
  intros Hr Hc. unfold downstream_within. rewrite gget_make by assumption. cbn [obind]. unfold insideb, dest. cbn [fst snd].
  by_dir (g r c); rewrite Kd; cbn [fst snd]; repeat f_equal; lia.
Qed.
Lemma downstream_cell_ok n0 n1 g r c : 0 <= r < n0 -> 0 <= c < n1 ->
  downstream_cell (gmake n0 n1 g) r c = Ok (dest g (r, c)).
Proof.
  intros Hr Hc. unfold downstream_cell. rewrite gget_make by assumption. cbn [obind]. unfold dest. cbn [fst snd].
  by_dir (g r c); rewrite Kd; cbn [fst snd]; repeat f_equal; lia.
Qed.

(** Lists *)
Lemma NoDup_app {A} (l l' : list A) : NoDup l -> NoDup l' -> (forall x, In x l -> ~ In x l') -> NoDup (l ++ l').
Proof.
  induction l as [|a l IH]; intros H H' D; [exact H'|]. inversion H; subst. cbn. constructor.
  - rewrite in_app_iff. intros [?|?]; [contradiction|]. now apply (D a); [left|].
  - apply IH; [assumption|assumption|]. intros x Hx. apply D. now right.
Qed.

Lemma for_each_app {B S} (l l' : list B) (body : B -> S -> outcome S) s :
  for_each (l ++ l') body s = obind (for_each l body s) (for_each l' body).
Proof.
  revert s. induction l as [|b l IH]; intros s; [reflexivity|]. cbn [app for_each]. destruct (body b s); cbn [obind]; auto.
Qed.
Lemma for_each_ok {B S} (l : list B) (body : B -> S -> outcome S) (pure : B -> S -> S) (P : S -> Prop) s :
  (forall b s, In b l -> P s -> body b s = Ok (pure b s) /\ P (pure b s)) -> P s ->
  for_each l body s = Ok (fold_left (fun s b => pure b s) l s) /\ P (fold_left (fun s b => pure b s) l s).
Proof.
  revert s. induction l as [|b l IH]; intros s H Hs; [split; auto|]. cbn [for_each fold_left].
  destruct (H b s) as [E Hs']; [now left|exact Hs|]. rewrite E. cbn [obind]. apply IH; [|exact Hs']. intros. apply H; [now right|assumption].
Qed.

(** The cells of a partition in the orders in which they are visited *)
Definition cells_inner (n0 n1 : Z) := cells2 1 (n0 - 2) 1 (n1 - 2).
Definition cells_north (n1 : Z) := cells2 0 1 1 (n1 - 2).
Definition cells_south (n0 n1 : Z) := cells2 (n0 - 1) 1 1 (n1 - 2).
Definition cells_west (n0 : Z) := cells2 1 (n0 - 2) 0 1.
Definition cells_east (n0 n1 : Z) := cells2 1 (n0 - 2) (n1 - 1) 1.

Definition corners (n0 n1 : Z) : list cell := [(0, 0); (0, n1 - 1); (n0 - 1, 0); (n0 - 1, n1 - 1)].
Definition count_order (n0 n1 : Z) : list cell :=
  cells_inner n0 n1 ++ corners n0 n1 ++ cells_north n1 ++ cells_south n0 n1 ++ cells_west n0 ++ cells_east n0 n1.
Definition connect_order (n0 n1 : Z) : list cell :=
  cells_north n1 ++ cells_south n0 n1 ++ cells_west n0 ++ cells_east n0 n1 ++
  [(0, 0); (0, n1 - 1); (n0 - 1, n1 - 1); (n0 - 1, 0)].

Lemma in_cells2' r0 n0 c0 n1 (x : cell) : In x (cells2 r0 n0 c0 n1) <-> r0 <= fst x < r0 + n0 /\ c0 <= snd x < c0 + n1.
Proof. destruct x. apply in_cells2. Qed.

Lemma NoDup4 (a b c d : cell) : a <> b -> a <> c -> a <> d -> b <> c -> b <> d -> c <> d -> NoDup [a; b; c; d].
Proof. intros. repeat constructor; cbn; intuition congruence. Qed.

Ltac disj x Hx Hx' :=
  destruct x; rewrite ?in_app_iff, !in_cells2' in *; cbn [fst snd In] in Hx, Hx';
  repeat destruct Hx' as [Hx'|Hx']; try contradiction; first [lia | injection Hx'; lia].

Lemma connect_order_spec n0 n1 : 2 <= n0 -> 2 <= n1 ->
  NoDup (connect_order n0 n1) /\
  forall x, In x (connect_order n0 n1) <-> inside n0 n1 x /\ (fst x = 0 \/ fst x = n0 - 1 \/ snd x = 0 \/ snd x = n1 - 1).
Proof.
  intros H0 H1. unfold connect_order, cells_north, cells_south, cells_west, cells_east. split.
  - repeat (apply NoDup_app; [apply cells2_NoDup| |]).
    + apply NoDup4; intros E; injection E; lia.
    + intros x Hx Hx'. disj x Hx Hx'.
    + intros x Hx Hx'. disj x Hx Hx'.
    + intros x Hx Hx'. disj x Hx Hx'.
    + intros x Hx Hx'. disj x Hx Hx'.
  - intros [r c]. rewrite !in_app_iff, !in_cells2'. unfold inside. cbn [fst snd In].
    split.
    + intros H. repeat destruct H as [H|H]; try contradiction; try (injection H; lia); lia.
    + intros [[Hr Hc] H].
      destruct (Z.eq_dec r 0) as [->|R0].
      { destruct (Z.eq_dec c 0) as [->|C0]; [do 4 right; auto|].
        destruct (Z.eq_dec c (n1 - 1)) as [->|C1]; [do 5 right; auto|left; lia]. }
      destruct (Z.eq_dec r (n0 - 1)) as [->|R1].
      { destruct (Z.eq_dec c 0) as [->|C0]; [do 7 right; auto|].
        destruct (Z.eq_dec c (n1 - 1)) as [->|C1]; [do 6 right; auto|right; left; lia]. }
      destruct (Z.eq_dec c 0) as [->|C0]; [do 2 right; left; lia|do 3 right; left; lia].
Qed.

Lemma count_order_spec n0 n1 : 2 <= n0 -> 2 <= n1 ->
  NoDup (count_order n0 n1) /\ forall x, In x (count_order n0 n1) <-> inside n0 n1 x.
Proof.
  intros H0 H1. destruct (connect_order_spec n0 n1 H0 H1) as [N I].
  assert (P : Permutation (count_order n0 n1) (cells_inner n0 n1 ++ connect_order n0 n1)).
  { unfold count_order, connect_order. apply Permutation_app_head. 
    etransitivity; [apply (Permutation_app_comm (corners n0 n1))|]. rewrite <- !app_assoc. do 4 apply Permutation_app_head. unfold corners.
    do 2 apply perm_skip. apply perm_swap. }
  assert (N' : NoDup (cells_inner n0 n1 ++ connect_order n0 n1)).
  { apply NoDup_app; [apply cells2_NoDup|exact N|]. intros x Hx Hx'. apply I in Hx'. unfold cells_inner in Hx. rewrite in_cells2' in Hx. lia. }
  split; [exact (Permutation_NoDup (Permutation_sym P) N')|].
  intros x. split; intros Hx.
  - apply (Permutation_in _ P) in Hx. apply in_app_iff in Hx. destruct Hx as [Hx|Hx]; [|now apply I in Hx].
    unfold cells_inner in Hx. rewrite in_cells2' in Hx. unfold inside. lia.
  - apply (Permutation_in _ (Permutation_sym P)). apply in_app_iff.
    destruct (Z.eq_dec (fst x) 0); [right; apply I; tauto|]. destruct (Z.eq_dec (fst x) (n0 - 1)); [right; apply I; tauto|].
    destruct (Z.eq_dec (snd x) 0); [right; apply I; tauto|]. destruct (Z.eq_dec (snd x) (n1 - 1)); [right; apply I; tauto|].
    left. unfold cells_inner. rewrite in_cells2'. unfold inside in Hx. lia.
Qed.
Lemma count_order_perm n0 n1 : 2 <= n0 -> 2 <= n1 -> Permutation (count_order n0 n1) (cells2 0 n0 0 n1).
Proof.
  intros H0 H1. destruct (count_order_spec n0 n1 H0 H1) as [N I]. apply NoDup_Permutation; [exact N|apply cells2_NoDup|].
  intros x. rewrite I, in_cells2'. unfold inside. lia.
Qed.
