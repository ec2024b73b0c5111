(** Proofs about focal operations: the partitions a task gets, and the whole array. *)
From Verif Require Import Common CommonProofs CoreSpec DecompSpec ArraySpec IndexModel DecompModel ArrayModel ArrayRep
  ArrayProofs GridModel GridProofs GridRaster FocalSpec FocalModel FocalRep FocalProofs.

Lemma for_cells_ext {A} l (body body' : Z -> Z -> A -> outcome A) g :
  (forall r c v, In (r, c) l -> body r c v = body' r c v) -> for_cells l body g = for_cells l body' g.
Proof.
  revert g. induction l as [|[r c] l IH]; intros g H; [reflexivity|]. rewrite !for_cells_cons.
  destruct (gget g r c) as [v| |]; cbn [obind]; try reflexivity. rewrite H by (now left).
  destruct (body' r c v) as [w| |]; cbn [obind]; try reflexivity.
  destruct (gset g r c w); cbn [obind]; try reflexivity. apply IH. intros; apply H; now right.
Qed.

Section Ext.
Context (R : Z) (HR : 0 <= R).
Definition xext (a p r : Z) : Z := if (r <? 0) || (a / p <=? r) then R else ext1 a p r.
Definition xoff (a p r : Z) : Z := if r <? 0 then - R else if r <? a / p then r * p else a.

Lemma xoff_next a p r : 0 < p <= a -> 0 <= r <= a / p -> xoff a p (r - 1) + xext a p (r - 1) = xoff a p r.
Proof.
  intros Hp Hr. unfold xoff, xext, ext1. pose proof (nparts_pos _ _ Hp).
  repeat match goal with |- context [if ?x then _ else _] => let e := fresh in destruct x eqn:e end; lia.
Qed.
Lemma xext_pos a p r : 0 < p <= a -> 0 <= xext a p r.
Proof.
  intros Hp. unfold xext. destruct ((r <? 0) || (a / p <=? r)) eqn:e; [lia|].
  pose proof (ext1_pos a p r Hp ltac:(lia)). lia.
Qed.

End Ext.

Section Focal.
Context {E : Type} (R : Z) (hp : halo_policy E).
Context (HR : 0 <= R) (a0 a1 p0 p1 : Z) (Hp0 : 0 < p0 <= a0) (Hp1 : 0 < p1 <= a1) (loc : Z -> Z -> Z) (f : list Z -> E).
Let np0 := a0 / p0.
Let np1 := a1 / p1.
Let input := gmake np0 np1 (rpart a0 a1 p0 p1 loc f).

Let Hnp0 : 1 <= np0. Proof. now apply nparts_pos. Qed.
Let Hnp1 : 1 <= np1. Proof. now apply nparts_pos. Qed.

Definition halo_at (r c : Z) : E :=
  if r <? 0 then
    (if c <? 0 then h_north_west hp else if c <? np1 then h_north hp else h_north_east hp)
  else if r <? np0 then
    (if c <? 0 then h_west hp else h_east hp)
  else
    (if c <? 0 then h_south_west hp else if c <? np1 then h_south hp else h_south_east hp).
Definition around (r c : Z) : part2 E :=
  if (0 <=? r) && (r <? np0) && (0 <=? c) && (c <? np1) then rpart a0 a1 p0 p1 loc f r c
  else halo_block (xext R a0 p0 r) (xext R a1 p1 c) (halo_at r c).

Definition ext_raster (r c : Z) : E := padded a0 a1 (border_of hp) (fun r c => f [r; c]) r c.

Lemma around_data r c : -1 <= r <= np0 -> -1 <= c <= np1 ->
  pl_data (around r c) = gmake (xext R a0 p0 r) (xext R a1 p1 c) (fun x y => ext_raster (xoff R a0 p0 r + x) (xoff R a1 p1 c + y)).
Proof.
  intros Hr Hc. unfold around.
  assert (I0 : forall x, 0 <= r < np0 -> 0 <= x < ext1 a0 p0 r -> 0 <= r * p0 + x < a0) by (intros; now apply ext1_in).
  assert (I1 : forall x, 0 <= c < np1 -> 0 <= x < ext1 a1 p1 c -> 0 <= c * p1 + x < a1) by (intros; now apply ext1_in).
  destruct ((0 <=? r) && (r <? np0) && (0 <=? c) && (c <? np1)) eqn:e.
  - unfold rpart. cbn [pl_data]. unfold xext, xoff. fold np0 np1.
    replace ((r <? 0) || (np0 <=? r)) with false by lia. replace ((c <? 0) || (np1 <=? c)) with false by lia.
    replace (r <? 0) with false by lia. replace (c <? 0) with false by lia. replace (r <? np0) with true by lia. replace (c <? np1) with true by lia.
    apply gmake_ext. intros x y Hx Hy. unfold ext_raster, padded. specialize (I0 x ltac:(lia) Hx). specialize (I1 y ltac:(lia) Hy).
    replace (r * p0 + x <? 0) with false by lia. replace (r * p0 + x <? a0) with true by lia.
    replace (c * p1 + y <? 0) with false by lia. replace (c * p1 + y <? a1) with true by lia. reflexivity.
  - unfold halo_block. cbn [pl_data]. apply gmake_ext. intros x y Hx Hy. 
    assert (X0 : 0 <= x < R \/ 0 <= r < np0 /\ 0 <= x < ext1 a0 p0 r).
    { unfold xext in Hx. fold np0 in Hx. destruct ((r <? 0) || (np0 <=? r)) eqn:e'; [left|right]; lia. }
    assert (X0' : r < 0 \/ np0 <= r -> 0 <= x < R).
    { intros D. unfold xext in Hx. fold np0 in Hx. replace ((r <? 0) || (np0 <=? r)) with true in Hx by lia. exact Hx. }
    assert (X1' : c < 0 \/ np1 <= c -> 0 <= y < R).
    { intros D. unfold xext in Hy. fold np1 in Hy. replace ((c <? 0) || (np1 <=? c)) with true in Hy by lia. exact Hy. }
    assert (X0'' : 0 <= r < np0 -> 0 <= r * p0 + x < a0).
    { intros D. apply I0; [exact D|]. unfold xext in Hx. fold np0 in Hx. replace ((r <? 0) || (np0 <=? r)) with false in Hx by lia. exact Hx. }
    assert (X1'' : 0 <= c < np1 -> 0 <= c * p1 + y < a1).
    { intros D. apply I1; [exact D|]. unfold xext in Hy. fold np1 in Hy. replace ((c <? 0) || (np1 <=? c)) with false in Hy by lia. exact Hy. }
    clear Hx Hy I0 I1 X0.
    unfold ext_raster, padded, halo_at, xoff. fold np0 np1. unfold border_of. cbn.
    destruct (Z.ltb_spec r 0).
    + replace (- R + x <? 0) with true by lia.
      destruct (Z.ltb_spec c 0).
      * replace (- R + y <? 0) with true by lia. reflexivity.
      * destruct (Z.ltb_spec c np1).
        -- 
           replace (c * p1 + y <? 0) with false by lia. replace (c * p1 + y <? a1) with true by lia. reflexivity.
        -- replace (a1 + y <? 0) with false by lia.
           replace (a1 + y <? a1) with false by lia. reflexivity.
    + destruct (Z.ltb_spec r np0).
      * 
        replace (r * p0 + x <? 0) with false by lia. replace (r * p0 + x <? a0) with true by lia.
        destruct (Z.ltb_spec c 0).
        -- replace (- R + y <? 0) with true by lia. reflexivity.
        -- replace (c <? np1) with false by lia. replace (a1 + y <? 0) with false by lia. replace (a1 + y <? a1) with false by lia. reflexivity.
      * replace (a0 + x <? 0) with false by lia. replace (a0 + x <? a0) with false by lia.
        destruct (Z.ltb_spec c 0).
        -- replace (- R + y <? 0) with true by lia. reflexivity.
        -- destruct (Z.ltb_spec c np1).
           ++ 
              replace (c * p1 + y <? 0) with false by lia. replace (c * p1 + y <? a1) with true by lia. reflexivity.
           ++ replace (a1 + y <? 0) with false by lia.
              replace (a1 + y <? a1) with false by lia. reflexivity.
Qed.

(** The halo partitions *)
Let corner := halo_corner_partitions hp R.
Definition longi : grid (part2 E) := gmake 2 np1 (fun i c => around (if i =? 0 then -1 else np0) c).
Definition lati : grid (part2 E) := gmake np0 2 (fun r j => around r (if j =? 0 then -1 else np1)).

Lemma corner_at i j : 0 <= i < 2 -> 0 <= j < 2 ->
  gget corner i j = Ok (around (if i =? 0 then -1 else np0) (if j =? 0 then -1 else np1)).
Proof.
  intros Hi Hj. assert (i = 0 \/ i = 1) as [-> | ->] by lia; assert (j = 0 \/ j = 1) as [-> | ->] by lia;
  change (0 =? 0) with true; change (1 =? 0) with false; cbv iota; unfold around, xext, halo_at; fold np0 np1;
  repeat match goal with |- context [if ?x then _ else _] => let e := fresh in destruct x eqn:e end; try lia; reflexivity.
Qed.

Lemma longi_ok : halo_longitudinal_side_partitions hp R input = Ok longi.
Proof.
  unfold halo_longitudinal_side_partitions. change (g1 input) with np1. change (g0 input) with np0.
  apply gbuild_ok. intros i c Hi Hc. unfold around, xext, halo_at; fold np0 np1.
  assert (i = 0 \/ i = 1) as [-> | ->] by lia; change (0 =? 0) with true; change (1 =? 0) with false; cbv iota; unfold input; rewrite gget_make by lia; cbn [obind rpart pl_data];
  change (g1 (gmake ?a ?b ?f)) with b;
  repeat match goal with |- context [if ?x then _ else _] => let e := fresh in destruct x eqn:e end; try lia; reflexivity.
Qed.
Lemma lati_ok : halo_latitudinal_side_partitions hp R input = Ok lati.
Proof.
  unfold halo_latitudinal_side_partitions. change (g1 input) with np1. change (g0 input) with np0.
  apply gbuild_ok. intros i c Hi Hc. unfold around, xext, halo_at; fold np0 np1.
  assert (c = 0 \/ c = 1) as [-> | ->] by lia; change (0 =? 0) with true; change (1 =? 0) with false; cbv iota; unfold input; rewrite gget_make by lia; cbn [obind rpart pl_data];
  change (g0 (gmake ?a ?b ?f)) with a;
  repeat match goal with |- context [if ?x then _ else _] => let e := fresh in destruct x eqn:e end; try lia; reflexivity.
Qed.
Lemma input_at r c : 0 <= r < np0 -> 0 <= c < np1 -> gget input r c = Ok (around r c).
Proof.
  intros. unfold input. rewrite gget_make by assumption. unfold around. f_equal.
  replace ((0 <=? r) && (r <? np0) && (0 <=? c) && (c <? np1)) with true by lia. reflexivity.
Qed.
Lemma longi_at i c : 0 <= i < 2 -> 0 <= c < np1 -> gget longi i c = Ok (around (if i =? 0 then -1 else np0) c).
Proof. intros. unfold longi. now rewrite gget_make. Qed.
Lemma lati_at r j : 0 <= r < np0 -> 0 <= j < 2 -> gget lati r j = Ok (around r (if j =? 0 then -1 else np1)).
Proof. intros. unfold lati. now rewrite gget_make. Qed.

(** The partitions given to the task for partition ([r], [c]) *)
Definition nine (r c : Z) : grid (part2 E) := gmake 3 3 (fun i j => around (r - 1 + i) (c - 1 + j)).

Ltac nine_tac := unfold nine; rewrite make33; unfold three_by_three;
  change (g0 input) with np0; change (g1 input) with np1;
  repeat match goal with |- context [np0 =? 1] => destruct (Z.eqb_spec np0 1) end;
  repeat match goal with |- context [np1 =? 1] => destruct (Z.eqb_spec np1 1) end;
  cbn [app]; rewrite ?corner_at, ?longi_at, ?lati_at, ?input_at by lia; cbn [sequence obind Z.eqb];
  do 2 f_equal; repeat (apply (f_equal2 (@cons (part2 E))); [apply f_equal2; lia|]); reflexivity.

Lemma nw9 : north_west_corner_input_partitions input corner longi lati = Ok (nine 0 0).
Proof. unfold north_west_corner_input_partitions. nine_tac. Qed.
Lemma ne9 : 1 < np1 -> north_east_corner_input_partitions input corner longi lati = Ok (nine 0 (np1 - 1)).
Proof. intros. unfold north_east_corner_input_partitions. nine_tac. Qed.
Lemma sw9 : 1 < np0 -> south_west_corner_input_partitions input corner longi lati = Ok (nine (np0 - 1) 0).
Proof. intros. unfold south_west_corner_input_partitions. nine_tac. Qed.
Lemma se9 : 1 < np0 -> 1 < np1 -> south_east_corner_input_partitions input corner longi lati = Ok (nine (np0 - 1) (np1 - 1)).
Proof. intros. unfold south_east_corner_input_partitions. nine_tac. Qed.
Lemma n9 c : 1 <= c < np1 - 1 -> north_side_input_partitions input longi c = Ok (nine 0 c).
Proof. intros. unfold north_side_input_partitions. nine_tac. Qed.
Lemma s9 c : 1 < np0 -> 1 <= c < np1 - 1 -> south_side_input_partitions input longi c = Ok (nine (np0 - 1) c).
Proof. intros. unfold south_side_input_partitions. nine_tac. Qed.
Lemma w9 r : 1 <= r < np0 - 1 -> west_side_input_partitions input lati r = Ok (nine r 0).
Proof. intros. unfold west_side_input_partitions. nine_tac. Qed.
Lemma e9 r : 1 < np1 -> 1 <= r < np0 - 1 -> east_side_input_partitions input lati r = Ok (nine r (np1 - 1)).
Proof. intros. unfold east_side_input_partitions. nine_tac. Qed.
Lemma in9 r c : 1 <= r < np0 - 1 -> 1 <= c < np1 - 1 -> inner_input_partitions input r c = Ok (nine r c).
Proof. intros. unfold inner_input_partitions. apply gbuild_ok. intros. apply input_at; lia. Qed.

(** The order in which tasks are created *)
Definition task_cells : list (Z * Z) :=
  [(0, 0)] ++ (if 1 <? np1 then [(0, np1 - 1)] else []) ++ (if 1 <? np0 then [(np0 - 1, 0)] else []) ++
  (if (1 <? np0) && (1 <? np1) then [(np0 - 1, np1 - 1)] else []) ++
  cells2 0 1 1 (np1 - 2) ++ (if 1 <? np0 then cells2 (np0 - 1) 1 1 (np1 - 2) else []) ++
  cells2 1 (np0 - 2) 0 1 ++ (if 1 <? np1 then cells2 1 (np0 - 2) (np1 - 1) 1 else []) ++
  cells2 1 (np0 - 2) 1 (np1 - 2).

Lemma in_task_cells r c : In (r, c) task_cells <-> 0 <= r < np0 /\ 0 <= c < np1.
Proof.
  unfold task_cells. rewrite !in_app_iff.
  destruct (Z.ltb_spec 1 np0); destruct (Z.ltb_spec 1 np1); cbn [andb In]; rewrite ?in_cells2;
  (split; [intros H'; decompose [or and] H'; try contradiction; repeat match goal with E : (_, _) = (_, _) |- _ => injection E; clear E; intros end; lia|]); intros H'.
  - destruct (Z.eq_dec r 0) as [?|?]; destruct (Z.eq_dec c 0) as [?|?]; destruct (Z.eq_dec r (np0 - 1)) as [?|?]; destruct (Z.eq_dec c (np1 - 1)) as [?|?];
    first [left; left; apply f_equal2; lia | do 1 right; left; left; apply f_equal2; lia | do 2 right; left; left; apply f_equal2; lia | do 3 right; left; left; apply f_equal2; lia
    | do 4 right; left; lia | do 5 right; left; lia | do 6 right; left; lia | do 7 right; left; lia | do 8 right; lia | lia].
  - assert (c = 0) as -> by lia. destruct (Z.eq_dec r 0) as [?|?]; destruct (Z.eq_dec r (np0 - 1)) as [?|?];
    first [left; left; apply f_equal2; lia | do 2 right; left; left; apply f_equal2; lia | do 6 right; left; lia | lia].
  - assert (r = 0) as -> by lia. destruct (Z.eq_dec c 0) as [?|?]; destruct (Z.eq_dec c (np1 - 1)) as [?|?];
    first [left; left; apply f_equal2; lia | do 1 right; left; left; apply f_equal2; lia | do 4 right; left; lia | lia].
  - left; left. f_equal; lia.
Qed.

Lemma NoDup_app2 {A} (l l' : list A) : NoDup l -> NoDup l' -> (forall x, In x l -> ~ In x l') -> NoDup (l ++ l').
Proof.
  induction l as [|x l IH]; intros Hl Hl' H; [assumption|]. inversion Hl; subst. cbn. constructor.
  - rewrite in_app_iff. intros [C|C]; [contradiction|]. eapply H; [now left|exact C].
  - apply IH; [assumption|assumption|]. intros y Hy. apply H. now right.
Qed.

Lemma NoDup_one {A} (x : A) : NoDup [x].
Proof. constructor; [intros []|constructor]. Qed.

Lemma task_cells_NoDup : NoDup task_cells.
Proof.
  unfold task_cells.
  repeat (apply NoDup_app2;
    [repeat match goal with |- context [if ?b then _ else _] => destruct b end;
     first [apply NoDup_one | apply NoDup_nil | apply cells2_NoDup] | |
     intros [r c] Hin C; rewrite ?in_app_iff in C;
     repeat match goal with H : context [if ?b then _ else _] |- _ => let e := fresh in destruct b eqn:e end; cbn [In] in Hin, C;
     rewrite ?in_cells2 in Hin; rewrite ?in_cells2 in C;
     decompose [or] Hin; try contradiction; decompose [or and] C; try contradiction;
     repeat match goal with E : (_, _) = (_, _) |- _ => injection E; clear E; intros end; lia]).
  apply cells2_NoDup.
Qed.
Context {O : Type} (functor : grid E -> outcome O) (junk : Z -> E) (ojunk : Z -> O).
Definition task (r c : Z) : outcome (option (part2 O)) := spawn R functor junk ojunk (Ok (nine r c)).

Lemma focal_tasks_list : focal_tasks R functor junk ojunk hp input =
  for_cells task_cells (fun r c _ => task r c) (gmake np0 np1 (fun _ _ => None)).
Proof.
  unfold focal_tasks. rewrite longi_ok. cbn [obind]. rewrite lati_ok. cbn [obind].
  change (g0 input) with np0. change (g1 input) with np1. fold corner. unfold task_cells.
  rewrite for_cells_app.
  rewrite (for_cells_ext [(0, 0)] _ (fun r c _ => task r c)) by (intros r c v [Hin|[]]; injection Hin as <- <-; rewrite nw9; reflexivity).
  destruct (for_cells [(0, 0)] _ _) as [o1| |]; cbn [obind]; try reflexivity.
  rewrite for_cells_app. replace (if 1 <? np1 then _ else Ok o1) with (for_cells (if 1 <? np1 then [(0, np1 - 1)] else []) (fun r c _ => task r c) o1).
  2: { destruct (Z.ltb_spec 1 np1); [|reflexivity]. apply for_cells_ext. intros r c v [Hin|[]]; injection Hin as <- <-. rewrite ne9 by lia. reflexivity. }
  destruct (for_cells _ _ o1) as [o2| |]; cbn [obind]; try reflexivity. clear o1.
  rewrite for_cells_app. replace (if 1 <? np0 then for_cells [(np0 - 1, 0)] _ _ else Ok o2) with (for_cells (if 1 <? np0 then [(np0 - 1, 0)] else []) (fun r c _ => task r c) o2).
  2: { destruct (Z.ltb_spec 1 np0); [|reflexivity]. apply for_cells_ext. intros r c v [Hin|[]]; injection Hin as <- <-. rewrite sw9 by lia. reflexivity. }
  destruct (for_cells _ _ o2) as [o3| |]; cbn [obind]; try reflexivity. clear o2.
  rewrite for_cells_app. replace (if (1 <? np0) && (1 <? np1) then for_cells [(np0 - 1, np1 - 1)] _ _ else Ok o3) with
    (for_cells (if (1 <? np0) && (1 <? np1) then [(np0 - 1, np1 - 1)] else []) (fun r c _ => task r c) o3).
  2: { destruct ((1 <? np0) && (1 <? np1)) eqn:e; [|reflexivity]. apply for_cells_ext. intros r c v [Hin|[]]; injection Hin as <- <-. rewrite se9 by lia. reflexivity. }
  destruct (for_cells _ _ o3) as [o4| |]; cbn [obind]; try reflexivity. clear o3.
  rewrite for_cells_app.
  rewrite (for_cells_ext (cells2 0 1 1 (np1 - 2)) _ (fun r c _ => task r c)).
  2: { intros r c v Hin. apply in_cells2 in Hin. rewrite n9 by lia. replace r with 0 by lia. reflexivity. }
  destruct (for_cells _ _ o4) as [o5| |]; cbn [obind]; try reflexivity. clear o4.
  rewrite for_cells_app. replace (if 1 <? np0 then _ else Ok o5) with (for_cells (if 1 <? np0 then cells2 (np0 - 1) 1 1 (np1 - 2) else []) (fun r c _ => task r c) o5).
  2: { destruct (Z.ltb_spec 1 np0); [|reflexivity]. apply for_cells_ext. intros r c v Hin. apply in_cells2 in Hin. rewrite s9 by lia. replace r with (np0 - 1) by lia. reflexivity. }
  destruct (for_cells _ _ o5) as [o6| |]; cbn [obind]; try reflexivity. clear o5.
  rewrite for_cells_app.
  rewrite (for_cells_ext (cells2 1 (np0 - 2) 0 1) _ (fun r c _ => task r c)).
  2: { intros r c v Hin. apply in_cells2 in Hin. rewrite w9 by lia. replace c with 0 by lia. reflexivity. }
  destruct (for_cells _ _ o6) as [o7| |]; cbn [obind]; try reflexivity. clear o6.
  rewrite for_cells_app. replace (if 1 <? np1 then _ else Ok o7) with (for_cells (if 1 <? np1 then cells2 1 (np0 - 2) (np1 - 1) 1 else []) (fun r c _ => task r c) o7).
  2: { destruct (Z.ltb_spec 1 np1); [|reflexivity]. apply for_cells_ext. intros r c v Hin. apply in_cells2 in Hin. rewrite e9 by lia. replace c with (np1 - 1) by lia. reflexivity. }
  destruct (for_cells _ _ o7) as [o8| |]; cbn [obind]; try reflexivity. clear o7.
  apply for_cells_ext. intros r c v Hin. apply in_cells2 in Hin. rewrite in9 by lia. reflexivity.
Qed.

End Focal.
