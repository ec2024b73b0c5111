(** Element types of decreasing_order, and an executable scheduler for examples. *)
From Coq Require Import Reals Lra.
From Flocq Require Import Core BinarySingleNaN.
From Verif Require Import Common CommonProofs CoreSpec Float64 DecompSpec ArraySpec AggregateSpec IndexModel DecompModel ArrayModel ArrayRep RasterCheck ZonalModel OrderModel OrderSpec
  OrderProofs5.
Local Open Scope Z_scope.

(** operator< and operator== for double *)
Definition b64_ltb (x y : b64) : bool := @Bltb 53 1024 x y.
Definition b64_eqb (x y : b64) : bool := @Beqb 53 1024 x y.
Definition b64_is_nan (x : b64) : bool := @is_nan 53 1024 x.
(** std::numeric_limits<double>::min(), the smallest positive normal number: 2^-1022 *)
Definition b64_min : b64 := binary_normalize 53 1024 b64_prec_gt_0 b64_prec_lt_emax mode_NE 1 (-1022) false.

(** Insertion sort, from high to low *)
Fixpoint put_sorted {V} (ltb : V -> V -> bool) (e : V * Z) (l : list (V * Z)) : list (V * Z) :=
  match l with [] => [e] | x :: l' => if ltb (fst x) (fst e) then e :: l else x :: put_sorted ltb e l' end.
Definition sort_down {V} (ltb : V -> V -> bool) (l : list (V * Z)) : list (V * Z) := fold_right (put_sorted ltb) [] l.
Lemma put_perm {V} (ltb : V -> V -> bool) e l : Permutation (put_sorted ltb e l) (e :: l).
Proof. induction l as [|x l IH]; cbn; [constructor; constructor|]. destruct (ltb (fst x) (fst e)); [reflexivity|]. rewrite IH. constructor. Qed.
Lemma put_ok {V} (ltb eqb : V -> V -> bool) comparable e l : weak_order ltb eqb comparable -> comparable (fst e) -> Forall (fun x => comparable (fst x)) l ->
  StronglySorted (fun x y => ltb (fst x) (fst y) = false) l -> StronglySorted (fun x y => ltb (fst x) (fst y) = false) (put_sorted ltb e l).
Proof.
  intros [W1 [W2 _]] He Hl Hs. induction Hs as [|x l Hs IH Hf]; cbn; [repeat constructor|]. inversion Hl as [|? ? Hx Hl']; subst.
  destruct (ltb (fst x) (fst e)) eqn:E.
  - constructor; [constructor; assumption|]. apply W1 in E; try assumption. constructor; [assumption|].
    rewrite Forall_forall in *. intros y Hy. apply (W2 _ (fst x)); auto.
  - constructor; [now apply IH|]. apply Forall_forall. intros y Hy. apply (Permutation_in _ (put_perm ltb e l)) in Hy. destruct Hy as [<-|Hy]; [assumption|].
    rewrite Forall_forall in Hf. now apply Hf.
Qed.
Lemma sort_down_sorts {V} (ltb eqb : V -> V -> bool) comparable : weak_order ltb eqb comparable -> sorts ltb comparable (sort_down ltb).
Proof.
  intros W l. induction l as [|e l IH]; intros H; [split; constructor|]. inversion H as [|? ? He Hl]; subst. destruct (IH Hl) as [P S]. cbn. split.
  - rewrite put_perm. now constructor.
  - apply (put_ok ltb eqb comparable); try assumption. apply Forall_forall. intros x Hx. rewrite Forall_forall in Hl. apply Hl. now apply (Permutation_in _ P).
Qed.

Lemma weak_order_Z (P : Z -> Prop) : weak_order Z.ltb Z.eqb P.
Proof.
  repeat split.
  - intros x y _ _. rewrite Z.ltb_lt, Z.ltb_ge. lia.
  - intros x y z _ _ _. rewrite !Z.ltb_ge. lia.
  - intros x y _ _. destruct (Z.eqb_spec x y), (Z.ltb_spec x y), (Z.ltb_spec y x); cbn; try reflexivity; lia.
Qed.

(** The order of doubles *)
Definition b64_class (x : b64) : Z := match x with B754_infinity true => -1 | B754_infinity false => 1 | _ => 0 end.
Definition b64_real (x : b64) : R := @B2R 53 1024 x.
Lemma b64_compare x y : b64_is_nan x = false -> b64_is_nan y = false ->
  @Bcompare 53 1024 x y = Some (match b64_class x ?= b64_class y with Eq => if b64_class x =? 0 then Rcompare (b64_real x) (b64_real y) else Eq | c => c end).
Proof.
  intros Hx Hy. destruct x as [sx|sx| |sx mx ex Bx], y as [sy|sy| |sy my ey By]; try discriminate;
    try (rewrite Bcompare_correct by reflexivity; reflexivity); destruct sx; try destruct sy; reflexivity.
Qed.
Lemma b64_lt_spec x y : b64_is_nan x = false -> b64_is_nan y = false ->
  b64_ltb x y = true <-> b64_class x < b64_class y \/ (b64_class x = 0 /\ b64_class y = 0 /\ (b64_real x < b64_real y)%R).
Proof.
  intros Hx Hy. unfold b64_ltb, Bltb. pose proof (b64_compare x y Hx Hy) as C. unfold Bcompare in C. unfold SpecFloat.SFltb. rewrite C.
  destruct (Z.compare_spec (b64_class x) (b64_class y)) as [E|E|E].
  - destruct (Z.eqb_spec (b64_class x) 0) as [E0|E0].
    + destruct (Rcompare_spec (b64_real x) (b64_real y)); split; intros H'; try discriminate; try tauto; try (right; repeat split; try assumption; congruence).
      all: exfalso; destruct H' as [H'|[_ [_ H']]]; [lia|lra].
    + split; [discriminate|lia].
  - split; [now left|reflexivity].
  - split; [discriminate|lia].
Qed.
Lemma b64_eq_spec x y : b64_is_nan x = false -> b64_is_nan y = false -> b64_eqb x y = negb (b64_ltb x y) && negb (b64_ltb y x).
Proof.
  intros Hx Hy. unfold b64_eqb, b64_ltb, Bltb, Beqb. pose proof (b64_compare x y Hx Hy) as C. pose proof (b64_compare y x Hy Hx) as C'. unfold Bcompare in C, C'.
  unfold SpecFloat.SFltb, SpecFloat.SFeqb. rewrite C, C'. rewrite (Z.compare_antisym (b64_class x) (b64_class y)).
  destruct (Z.compare_spec (b64_class x) (b64_class y)) as [E|E|E]; cbn [CompOpp]; try reflexivity. rewrite <- E.
  destruct (b64_class x =? 0); [|reflexivity]. rewrite (Rcompare_sym (b64_real y)). destruct (Rcompare (b64_real x) (b64_real y)); reflexivity.
Qed.
Lemma weak_order_b64 (P : b64 -> Prop) : (forall x, P x -> b64_is_nan x = false) -> weak_order b64_ltb b64_eqb P.
Proof.
  intros HP. assert (F : forall x y, P x -> P y -> b64_ltb x y = false <-> ~ (b64_class x < b64_class y \/ (b64_class x = 0 /\ b64_class y = 0 /\ (b64_real x < b64_real y)%R))).
  { intros x y Hx Hy. rewrite <- b64_lt_spec by auto. destruct (b64_ltb x y); intuition congruence. }
  repeat split.
  - intros x y Hx Hy H. rewrite F by assumption. apply b64_lt_spec in H; auto. intros [H'|[? [? H']]]; destruct H as [H|[? [? H]]]; try lia. lra.
  - intros x y z Hx Hy Hz. rewrite !F by assumption. intros H1 H2 [H|[E1 [E2 H]]].
    + destruct (Z.lt_trichotomy (b64_class x) (b64_class y)) as [?|[?|?]]; [tauto| |]; apply H2; left; lia.
    + destruct (Z.lt_trichotomy (b64_class y) 0) as [?|[E|?]]; [apply H2; left; lia| |apply H1; left; lia].
      destruct (Rlt_le_dec (b64_real x) (b64_real y)); [apply H1; tauto|]. apply H2. right. repeat split; try assumption. lra.
  - intros x y Hx Hy. apply b64_eq_spec; auto.
Qed.

(** Runs the tasks in the order that [pick] prefers: how many, and the state in the end, if no task fails. *)
Fixpoint order_drive {V} (ltb eqb : V -> V -> bool) (min_value : V) (mx : Z) (pick : nat -> nat -> nat) (fuel : nat) (st : order_state V) : option (nat * order_state V) :=
  match os_tasks st, fuel with
  | [], _ => Some (0%nat, st)
  | _, 0%nat => None
  | ts, S fuel' =>
      match order_step ltb eqb min_value mx (pick fuel (length ts)) st with
      | Some (Ok st') => option_map (fun '(n, s) => (S n, s)) (order_drive ltb eqb min_value mx pick fuel' st')
      | _ => None
      end
  end.
