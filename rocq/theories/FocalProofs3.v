(** Proofs about focal operations: results per task and of the whole operation. *)
From Verif Require Import Common CommonProofs CoreSpec DecompSpec ArraySpec IndexModel DecompModel ArrayModel ArrayRep
  ArrayProofs GridModel GridProofs GridRaster FocalSpec FocalModel FocalRep FocalProofs FocalProofs2.

Lemma fext_min a p r : 0 < p <= a -> 0 <= r < a / p -> smallest_block a p <= ext1 a p r.
Proof.
  intros Hp Hr. pose proof (ext1_pos a p r Hp Hr). unfold smallest_block. destruct (Z.eqb_spec (a / p) 1); [|assumption].
  unfold ext1. replace (r =? a / p - 1) with true by lia. lia.
Qed.
Lemma fext_attained a p : 0 < p <= a -> exists r, 0 <= r < a / p /\ ext1 a p r = smallest_block a p.
Proof.
  intros Hp. pose proof (nparts_pos a p Hp). exists 0. split; [lia|]. unfold ext1, smallest_block.
  destruct (Z.eqb_spec (a / p) 1); destruct (Z.eqb_spec 0 (a / p - 1)); lia.
Qed.

Lemma obind_Ok {A B} (a : A) (k : A -> outcome B) : obind (Ok a) k = k a.
Proof. reflexivity. Qed.

Section Throw.
Context {E O : Type} (R : Z) (functor : grid E -> outcome O) (junk : Z -> E) (ojunk : Z -> O) (HR : 0 <= R).

Lemma read_border_cases q n0 n1 f sl : pl_data q = gmake n0 n1 f -> 
  (R <= n0 -> R <= n1 -> let '(rb, re, cb, ce) := sl n0 n1 in 0 <= rb <= re /\ re <= n0 /\ 0 <= cb <= ce /\ ce <= n1) ->
  read_border (E := E) R q sl = Throw \/ R <= n0 /\ R <= n1 /\ exists g, read_border R q sl = Ok g.
Proof.
  intros Ed Hs. unfold read_border. rewrite Ed. change (g0 (gmake n0 n1 f)) with n0. change (g1 (gmake n0 n1 f)) with n1.
  unfold verify_border_partition_large_enough. destruct ((n0 <? R) || (n1 <? R)) eqn:e; [now left|right]. cbn [obind].
  specialize (Hs ltac:(lia) ltac:(lia)). destruct (sl n0 n1) as [[[rb re] cb] ce]. rewrite gslice_make by lia. split; [lia|]. split; [lia|eauto].
Qed.

Context (n0 n1 : Z) (q : Z -> Z -> part2 E) (qn0 qn1 : Z -> Z -> Z) (qf : Z -> Z -> Z -> Z -> E).
Context (Hq : forall i j, 0 <= i < 3 -> 0 <= j < 3 -> pl_data (q i j) = gmake (qn0 i j) (qn1 i j) (qf i j)).
Context (Hn0 : qn0 1 1 = n0) (Hn1 : qn1 1 1 = n1) (Hneg : forall i j, 0 <= i < 3 -> 0 <= j < 3 -> 0 <= qn0 i j /\ 0 <= qn1 i j).

Lemma read_data_cases : read_data R (gmake 3 3 q) = Throw \/
  (R <= qn0 0 1 /\ R <= qn0 2 1 /\ R <= qn1 1 0 /\ R <= qn1 1 2) /\
  exists d00 d01 d02 d10 d12 d20 d21 d22,
    read_data R (gmake 3 3 q) = Ok (Grid 3 3 [d00; d01; d02; d10; gmake n0 n1 (qf 1 1); d12; d20; d21; d22]).
Proof.
  unfold read_data. cbv zeta. rewrite !gget33 by lia. cbn [obind]. rewrite (Hq 1 1) by lia. rewrite Hn0, Hn1.
  unfold three_by_three.
  Ltac bc i j := match goal with |- context [read_border R ?qq ?s] =>
    let H := fresh in let g := fresh "g" in
    destruct (read_border_cases qq _ _ _ s (Hq i j ltac:(lia) ltac:(lia))) as [H|[? [? [g H]]]];
      [pose proof (Hneg i j ltac:(lia) ltac:(lia)); cbv beta iota; lia| |];
      rewrite H; cbn [sequence obind]; [left; reflexivity|clear H] end.
  bc 0 0. bc 0 1. bc 0 2. bc 1 0. bc 1 2. bc 2 0. bc 2 1. bc 2 2.
  right. split; [tauto|]. repeat eexists.
Qed.

Lemma focal_partition_throw : n0 < 2 * R + 1 \/ n1 < 2 * R + 1 ->
  focal_operation_partition R functor junk ojunk (gmake 3 3 q) = Throw.
Proof.
  intros Hs. unfold focal_operation_partition. rewrite gget33 by lia. rewrite obind_Ok.
  destruct read_data_cases as [->|[_ [d00 [d01 [d02 [d10 [d12 [d20 [d21 [d22 ->]]]]]]]]]]; [reflexivity|]. rewrite obind_Ok.
  repeat match goal with |- context [gget (Grid 3 3 ?l) ?i ?j] =>
    let k := eval compute in (Z.to_nat (i * 3 + j)) in
    let v := eval cbn in (nth k l d00) in
    let H := fresh in assert (H : gget (Grid 3 3 l) i j = Ok v) by reflexivity; rewrite H; clear H; rewrite obind_Ok end.
  cbv zeta. assert (V : verify_partition_large_enough (g0 (gmake n0 n1 (qf 1 1))) (g1 (gmake n0 n1 (qf 1 1))) (2 * R + 1) = Throw).
  { change (g0 (gmake n0 n1 (qf 1 1))) with n0. change (g1 (gmake n0 n1 (qf 1 1))) with n1.
    unfold verify_partition_large_enough. replace ((n0 <? 2 * R + 1) || (n1 <? 2 * R + 1)) with true by lia. reflexivity. }
  rewrite V. reflexivity.
Qed.

Lemma focal_partition_throw' : ~ (R <= qn0 0 1 /\ R <= qn0 2 1 /\ R <= qn1 1 0 /\ R <= qn1 1 2) ->
  focal_operation_partition R functor junk ojunk (gmake 3 3 q) = Throw.
Proof.
  intros Hs. unfold focal_operation_partition. rewrite gget33 by lia. cbn [obind].
  destruct read_data_cases as [->|[C _]]; [reflexivity|contradiction].
Qed.
End Throw.

Section Whole.
Context {E O : Type} (R : Z) (functor : grid E -> outcome O) (F : (Z -> Z -> E) -> O) (junk : Z -> E) (ojunk : Z -> O) (hp : halo_policy E).
Context (HF : forall m, functor (gmake (2 * R + 1) (2 * R + 1) m) = Ok (F m)).
Context (HR : 0 <= R) (a0 a1 p0 p1 : Z) (Hp0 : 0 < p0 <= a0) (Hp1 : 0 < p1 <= a1) (loc : Z -> Z -> Z) (f : list Z -> E).
Let np0 := a0 / p0.
Let np1 := a1 / p1.

Let Hnp0 : 1 <= np0. Proof. now apply nparts_pos. Qed.
Let Hnp1 : 1 <= np1. Proof. now apply nparts_pos. Qed.

Definition fout (r c : Z) : O :=
  F (fun i j => ext_raster hp a0 a1 f (r - R + i) (c - R + j)).
Lemma F_ext m m' : (forall i j, 0 <= i < 2 * R + 1 -> 0 <= j < 2 * R + 1 -> m i j = m' i j) -> F m = F m'.
Proof. intros H. assert (E1 : Ok (F m) = Ok (F m')) by (rewrite <- !HF; f_equal; now apply gmake_ext). now injection E1. Qed.
Definition fpart (r c : Z) : part2 O :=
  Placed (loc r c) [r * p0; c * p1] [ext1 a0 p0 r; ext1 a1 p1 c]
    (gmake (ext1 a0 p0 r) (ext1 a1 p1 c) (fun x y => fout (r * p0 + x) (c * p1 + y))).

Lemma xext_in a p r : 0 <= r < a / p -> xext R a p r = ext1 a p r.
Proof. intros. unfold xext. replace ((r <? 0) || (a / p <=? r)) with false by lia. reflexivity. Qed.
Lemma xoff_in a p r : 0 <= r < a / p -> xoff R a p r = r * p.
Proof. intros. unfold xoff. replace (r <? 0) with false by lia. replace (r <? a / p) with true by lia. reflexivity. Qed.
Lemma xext_R a p r : 0 < p <= a -> R <= smallest_block a p -> R <= xext R a p r.
Proof.
  intros Hp Hs. unfold xext. destruct ((r <? 0) || (a / p <=? r)) eqn:e; [lia|].
  pose proof (fext_min a p r Hp ltac:(lia)). lia.
Qed.

Lemma task_ok r c : 0 <= r < np0 -> 0 <= c < np1 -> 2 * R + 1 <= ext1 a0 p0 r -> 2 * R + 1 <= ext1 a1 p1 c ->
  R <= xext R a0 p0 (r - 1) -> R <= xext R a0 p0 (r + 1) -> R <= xext R a1 p1 (c - 1) -> R <= xext R a1 p1 (c + 1) ->
  task R hp a0 a1 p0 p1 loc f functor junk ojunk r c = Ok (Some (fpart r c)).
Proof.
  intros Hr Hc Hs0 Hs1 R1 R2 R3 R4. unfold task, spawn. cbn [obind]. unfold nine.
  pose proof (xoff_next R HR a0 p0 r Hp0 ltac:(lia)) as A0. pose proof (xoff_next R HR a1 p1 c Hp1 ltac:(lia)) as A1.
  pose proof (xoff_next R HR a0 p0 (r + 1) Hp0 ltac:(fold np0; lia)) as B0. pose proof (xoff_next R HR a1 p1 (c + 1) Hp1 ltac:(fold np1; lia)) as B1.
  replace (r + 1 - 1) with r in B0 by lia. replace (c + 1 - 1) with c in B1 by lia.
  pose proof (xext_in a0 p0 r Hr) as X0. pose proof (xext_in a1 p1 c Hc) as X1.
  pose proof (xoff_in a0 p0 r Hr) as Y0. pose proof (xoff_in a1 p1 c Hc) as Y1.
  set (M := fun x y => ext_raster hp a0 a1 f (r * p0 + x) (c * p1 + y)).
  rewrite (focal_partition_ok R functor F junk ojunk HF HR (ext1 a0 p0 r) (ext1 a1 p1 c) M ltac:(lia) ltac:(lia)
    (fun i j => around R hp a0 a1 p0 p1 loc f (r - 1 + i) (c - 1 + j))
    (xext R a0 p0 (r - 1)) (xext R a0 p0 (r + 1)) (xext R a1 p1 (c - 1)) (xext R a1 p1 (c + 1))).
  2-5: assumption.
  - cbn [obind]. do 2 f_equal. unfold fpart. unfold around. fold np0 np1.
    replace (r - 1 + 1) with r by lia. replace (c - 1 + 1) with c by lia.
    replace ((0 <=? r) && (r <? np0) && (0 <=? c) && (c <? np1)) with true by lia. unfold rpart. cbn [pl_locality pl_offset].
    f_equal. apply gmake_ext. intros x y Hx Hy. unfold win, fout. apply F_ext. intros. unfold M. f_equal; lia.
  - rewrite around_data by (fold np0 np1; lia). apply gmake_eq; [f_equal; lia|f_equal; lia|]. intros x y _ _. unfold M. 
    replace (r - 1 + 0) with (r - 1) by lia. replace (c - 1 + 0) with (c - 1) by lia. f_equal; lia.
  - rewrite around_data by (fold np0 np1; lia). apply gmake_eq; [f_equal; lia|replace (c - 1 + 1) with c by lia; lia|]. intros x y _ _. unfold M. 
    replace (r - 1 + 0) with (r - 1) by lia. replace (c - 1 + 1) with (c) by lia. f_equal; lia.
  - rewrite around_data by (fold np0 np1; lia). apply gmake_eq; [f_equal; lia|f_equal; lia|]. intros x y _ _. unfold M. 
    replace (r - 1 + 0) with (r - 1) by lia. replace (c - 1 + 2) with (c + 1) by lia. f_equal; lia.
  - rewrite around_data by (fold np0 np1; lia). apply gmake_eq; [replace (r - 1 + 1) with r by lia; lia|f_equal; lia|]. intros x y _ _. unfold M. 
    replace (r - 1 + 1) with r by lia. replace (c - 1 + 0) with (c - 1) by lia. f_equal; lia.
  - rewrite around_data by (fold np0 np1; lia). apply gmake_eq; [replace (r - 1 + 1) with r by lia; lia|replace (c - 1 + 1) with c by lia; lia|]. intros x y _ _. unfold M. 
    replace (r - 1 + 1) with r by lia. replace (c - 1 + 1) with c by lia. f_equal; lia.
  - rewrite around_data by (fold np0 np1; lia). apply gmake_eq; [replace (r - 1 + 1) with r by lia; lia|f_equal; lia|]. intros x y _ _. unfold M. 
    replace (r - 1 + 1) with r by lia. replace (c - 1 + 2) with (c + 1) by lia. f_equal; lia.
  - rewrite around_data by (fold np0 np1; lia). apply gmake_eq; [f_equal; lia|f_equal; lia|]. intros x y _ _. unfold M. 
    replace (r - 1 + 2) with (r + 1) by lia. replace (c - 1 + 0) with (c - 1) by lia. f_equal; lia.
  - rewrite around_data by (fold np0 np1; lia). apply gmake_eq; [f_equal; lia|replace (c - 1 + 1) with c by lia; lia|]. intros x y _ _. unfold M. 
    replace (r - 1 + 2) with (r + 1) by lia. replace (c - 1 + 1) with c by lia. f_equal; lia.
  - rewrite around_data by (fold np0 np1; lia). apply gmake_eq; [f_equal; lia|f_equal; lia|]. intros x y _ _. unfold M. 
    replace (r - 1 + 2) with (r + 1) by lia. replace (c - 1 + 2) with (c + 1) by lia. f_equal; lia.
Qed.

Lemma task_throw r c : 0 <= r < np0 -> 0 <= c < np1 ->
  ext1 a0 p0 r < 2 * R + 1 \/ ext1 a1 p1 c < 2 * R + 1 \/
  ~ (R <= xext R a0 p0 (r - 1) /\ R <= xext R a0 p0 (r + 1) /\ R <= xext R a1 p1 (c - 1) /\ R <= xext R a1 p1 (c + 1)) ->
  task R hp a0 a1 p0 p1 loc f functor junk ojunk r c = Throw.
Proof.
  intros Hr Hc Hs. unfold task, spawn. cbn [obind]. unfold nine.
  set (qn0 := fun i (_ : Z) => xext R a0 p0 (r - 1 + i)). set (qn1 := fun (_ : Z) j => xext R a1 p1 (c - 1 + j)).
  set (qf := fun i j x y => ext_raster hp a0 a1 f (xoff R a0 p0 (r - 1 + i) + x) (xoff R a1 p1 (c - 1 + j) + y)).
  set (q := fun i j => around R hp a0 a1 p0 p1 loc f (r - 1 + i) (c - 1 + j)).
  assert (D : forall i j, 0 <= i < 3 -> 0 <= j < 3 -> pl_data (q i j) = gmake (qn0 i j) (qn1 i j) (qf i j)).
  { intros. apply around_data; try assumption; fold np0 np1; lia. }
  assert (E0 : qn0 1 1 = ext1 a0 p0 r) by (unfold qn0; replace (r - 1 + 1) with r by lia; now apply xext_in).
  assert (E1 : qn1 1 1 = ext1 a1 p1 c) by (unfold qn1; replace (c - 1 + 1) with c by lia; now apply xext_in).
  assert (N : forall i j, 0 <= i < 3 -> 0 <= j < 3 -> 0 <= qn0 i j /\ 0 <= qn1 i j) by (intros; split; apply xext_pos; assumption).
  destruct Hs as [Hs|[Hs|Hs]].
  - rewrite (focal_partition_throw R functor junk ojunk HR _ _ q qn0 qn1 qf D E0 E1 N); [reflexivity|now left].
  - rewrite (focal_partition_throw R functor junk ojunk HR _ _ q qn0 qn1 qf D E0 E1 N); [reflexivity|now right].
  - rewrite (focal_partition_throw' R functor junk ojunk HR _ _ q qn0 qn1 qf D E0 E1 N); [reflexivity|].
    unfold qn0, qn1. replace (r - 1 + 0) with (r - 1) by lia. replace (r - 1 + 2) with (r + 1) by lia.
    replace (c - 1 + 0) with (c - 1) by lia. replace (c - 1 + 2) with (c + 1) by lia. exact Hs.
Qed.

Lemma task_no_ub r c : 0 <= r < np0 -> 0 <= c < np1 -> task R hp a0 a1 p0 p1 loc f functor junk ojunk r c <> UB.
Proof.
  intros Hr Hc.
  destruct (Z_lt_ge_dec (ext1 a0 p0 r) (2 * R + 1)); [rewrite task_throw by auto; discriminate|].
  destruct (Z_lt_ge_dec (ext1 a1 p1 c) (2 * R + 1)); [rewrite task_throw by auto; discriminate|].
  destruct (Z_lt_ge_dec (xext R a0 p0 (r - 1)) R); [rewrite task_throw by (try assumption; right; right; lia); discriminate|].
  destruct (Z_lt_ge_dec (xext R a0 p0 (r + 1)) R); [rewrite task_throw by (try assumption; right; right; lia); discriminate|].
  destruct (Z_lt_ge_dec (xext R a1 p1 (c - 1)) R); [rewrite task_throw by (try assumption; right; right; lia); discriminate|].
  destruct (Z_lt_ge_dec (xext R a1 p1 (c + 1)) R); [rewrite task_throw by (try assumption; right; right; lia); discriminate|].
  rewrite task_ok by (try assumption; lia). discriminate.
Qed.

Lemma tasks_ok : 2 * R + 1 <= smallest_block a0 p0 -> 2 * R + 1 <= smallest_block a1 p1 ->
  focal_tasks R functor junk ojunk hp (gmake np0 np1 (rpart a0 a1 p0 p1 loc f)) = Ok (gmake np0 np1 (fun r c => Some (fpart r c))).
Proof.
  intros Hs0 Hs1. unfold np0, np1. rewrite focal_tasks_list by assumption. fold np0 np1.
  rewrite (for_cells_old _ np0 np1 _ _ (fun r c => Some (fpart r c))).
  - f_equal. apply gmake_ext. intros r c Hr Hc.
    replace (mem2 (task_cells a0 a1 p0 p1) r c) with true; [reflexivity|]. symmetry. apply mem2_spec, in_task_cells; try assumption. now split.
  - now apply task_cells_NoDup.
  - intros r c Hin. apply in_task_cells in Hin; assumption.
  - intros r c Hin. apply in_task_cells in Hin; try assumption. destruct Hin as [Hr Hc].
    pose proof (fext_min a0 p0 r Hp0 Hr). pose proof (fext_min a1 p1 c Hp1 Hc).
    apply task_ok; try assumption; try lia; apply xext_R; try assumption; lia.
Qed.

Lemma tasks_throw : smallest_block a0 p0 < 2 * R + 1 \/ smallest_block a1 p1 < 2 * R + 1 ->
  focal_tasks R functor junk ojunk hp (gmake np0 np1 (rpart a0 a1 p0 p1 loc f)) = Throw.
Proof.
  intros Hs. unfold np0, np1. rewrite focal_tasks_list by assumption. fold np0 np1. apply for_cells_throw.
  - intros r c Hin. apply in_task_cells in Hin; assumption.
  - intros r c v Hin. apply in_task_cells in Hin; try assumption. destruct Hin. now apply task_no_ub.
  - destruct Hs as [Hs|Hs].
    + destruct (fext_attained a0 p0 Hp0) as [r [Hr Er]]. exists r, 0.
      split; [apply in_task_cells; try assumption; fold np0 np1; lia|]. intros _. apply task_throw; [assumption|lia|left; lia].
    + destruct (fext_attained a1 p1 Hp1) as [c [Hc Ec]]. exists 0, c.
      split; [apply in_task_cells; try assumption; fold np0 np1; lia|]. intros _. apply task_throw; [lia|assumption|right; left; lia].
Qed.
End Whole.

Lemma all_valid_some {A} (l : list A) : all_valid (map Some l) = Ok l.
Proof. unfold all_valid. rewrite map_map. induction l as [|x l IH]; [reflexivity|]. cbn. rewrite IH. reflexivity. Qed.
Lemma gl_make_map {A B} n0 n1 (h : A -> B) (f : Z -> Z -> A) : gl (gmake n0 n1 (fun r c => h (f r c))) = map h (gl (gmake n0 n1 f)).
Proof. rewrite !gl_make, map_map. reflexivity. Qed.

Section Op.
Context {E O : Type} (R : Z) (functor : grid E -> outcome O) (F : (Z -> Z -> E) -> O) (junk : Z -> E) (ojunk : Z -> O) (hp : halo_policy E).
Context (HF : forall m, functor (gmake (2 * R + 1) (2 * R + 1) m) = Ok (F m)).

Lemma focal_op_ok a0 a1 p0 p1 arr f : 0 <= R -> raster_of [a0; a1] [p0; p1] arr f ->
  2 * R + 1 <= smallest_block a0 p0 -> 2 * R + 1 <= smallest_block a1 p1 ->
  exists out g, focal_operation R functor junk ojunk hp arr = Ok out /\ raster_of [a0; a1] [p0; p1] out g /\
    forall r c, g [r; c] = F (fun i j => padded a0 a1 (border_of hp) (fun r c => f [r; c]) (r - R + i) (c - R + j)).
Proof.
  intros HR H Hs0 Hs1. destruct (raster_grid a0 a1 p0 p1 arr f H) as [loc Eg].
  destruct H as [_ [Hf [Esh [Esip _]]]]. apply fits2 in Hf. destruct Hf as [Hp0 Hp1].
  unfold focal_operation. rewrite Esh, Esip.
  replace (nr_elements [a0; a1] =? 0) with false by (rewrite nr_elements_volume by discriminate; cbn [volume]; symmetry; apply Z.eqb_neq; nia).
  cbn [parts_shape nth]. rewrite Eg, (tasks_ok R functor F) by assumption. cbn [obind].
  rewrite (gl_make_map _ _ Some), all_valid_some. cbn [obind].
  eexists _, (fun x => fout R F hp a0 a1 f (nth 0 x 0) (nth 1 x 0)). split; [reflexivity|]. split.
  - apply (grid_raster a0 a1 p0 p1); [assumption|assumption|]. intros r c Hr Hc. unfold fpart. cbn. auto.
  - intros r c. reflexivity.
Qed.

Lemma focal_op_throw a0 a1 p0 p1 arr f : 0 <= R -> raster_of [a0; a1] [p0; p1] arr f ->
  smallest_block a0 p0 < 2 * R + 1 \/ smallest_block a1 p1 < 2 * R + 1 ->
  focal_operation R functor junk ojunk hp arr = Throw.
Proof.
  intros HR H Hs. destruct (raster_grid a0 a1 p0 p1 arr f H) as [loc Eg].
  destruct H as [_ [Hf [Esh [Esip _]]]]. apply fits2 in Hf. destruct Hf as [Hp0 Hp1].
  unfold focal_operation. rewrite Esh, Esip.
  replace (nr_elements [a0; a1] =? 0) with false by (rewrite nr_elements_volume by discriminate; cbn [volume]; symmetry; apply Z.eqb_neq; nia).
  cbn [parts_shape nth]. rewrite Eg, (tasks_throw R functor F) by assumption. reflexivity.
Qed.
End Op.
