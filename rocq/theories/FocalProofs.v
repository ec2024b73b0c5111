From Verif Require Import Common CommonProofs CoreSpec DecompSpec ArraySpec IndexModel DecompModel ArrayModel ArrayProofs
  GridModel GridProofs FocalModel.
Open Scope Z_scope.

Lemma copy_window_ok {E} rk ck n0 n1 (f : Z -> Z -> E) k0 k1 (g : Z -> Z -> E) :
  0 <= rk -> 0 <= ck -> rk + n0 <= k0 -> ck + n1 <= k1 ->
  copy_window rk ck (gmake n0 n1 f) (gmake k0 k1 g) =
  Ok (gmake k0 k1 (fun r c => if in_rect rk n0 ck n1 r c then f (r - rk) (c - ck) else g r c)).
Proof.
  intros. unfold copy_window. change (g0 (gmake n0 n1 f)) with n0. change (g1 (gmake n0 n1 f)) with n1.
  apply for_rect; [lia|]. intros r c Hr Hc. apply gget_make; lia.
Qed.

Ltac mk := cbn [g0 g1 gmake fst snd obind].

Section Copy.
Context {E : Type} (junk : Z -> E).
Lemma copy4 k a b (f00 f01 f10 f11 : Z -> Z -> E) a' b' : a + a' = k -> b + b' = k -> 0 <= a -> 0 <= a' -> 0 <= b -> 0 <= b' ->
  copy_to_array junk k (Grid 2 2 [gmake a b f00; gmake a b' f01; gmake a' b f10; gmake a' b' f11]) =
  Ok (gmake k k (fun i j => if i <? a then (if j <? b then f00 i j else f01 i (j - b))
                            else (if j <? b then f10 (i - a) j else f11 (i - a) (j - b)))).
Proof.
  intros. unfold copy_to_array. rewrite fresh_make by lia. cbn [g0]. change (zseq 0 2) with [0; 1]. cbn [fold_left obind fst snd].
  unfold copy_windows_row. cbn [g1]. change (zseq 0 2) with [0; 1]. cbn [fold_left obind fst snd].
  change (gget (Grid 2 2 [gmake a b f00; gmake a b' f01; gmake a' b f10; gmake a' b' f11]) 0 0) with (Ok (gmake a b f00)).
  change (gget (Grid 2 2 [gmake a b f00; gmake a b' f01; gmake a' b f10; gmake a' b' f11]) 0 1) with (Ok (gmake a b' f01)).
  change (gget (Grid 2 2 [gmake a b f00; gmake a b' f01; gmake a' b f10; gmake a' b' f11]) 1 0) with (Ok (gmake a' b f10)).
  change (gget (Grid 2 2 [gmake a b f00; gmake a b' f01; gmake a' b f10; gmake a' b' f11]) 1 1) with (Ok (gmake a' b' f11)).
  cbn [obind fst snd].
  rewrite copy_window_ok by lia. cbn [obind fst snd]. change (g1 (gmake a b f00)) with b.
  rewrite copy_window_ok by lia. cbn [obind fst snd]. change (g0 (gmake a b f00)) with a.
  rewrite copy_window_ok by lia. cbn [obind fst snd]. change (g1 (gmake a' b f10)) with b.
  rewrite copy_window_ok by lia. cbn [obind fst snd]. f_equal. apply gmake_ext. intros r c Hr Hc. unfold in_rect.
  destruct (Z.ltb_spec r a), (Z.ltb_spec c b);
    repeat match goal with |- context [if ?x then _ else _] => let e := fresh in destruct x eqn:e; [|try lia] end; try lia; f_equal; lia.
Qed.
Lemma copy_ns k a (f0 f1 : Z -> Z -> E) a' : a + a' = k -> 0 <= a -> 0 <= a' ->
  copy_to_array junk k (Grid 2 1 [gmake a k f0; gmake a' k f1]) =
  Ok (gmake k k (fun i j => if i <? a then f0 i j else f1 (i - a) j)).
Proof.
  intros. unfold copy_to_array. rewrite fresh_make by lia. cbn [g0]. change (zseq 0 2) with [0; 1]. cbn [fold_left obind fst snd].
  unfold copy_windows_row. cbn [g1]. change (zseq 0 1) with [0]. cbn [fold_left obind fst snd].
  change (gget (Grid 2 1 [gmake a k f0; gmake a' k f1]) 0 0) with (Ok (gmake a k f0)).
  change (gget (Grid 2 1 [gmake a k f0; gmake a' k f1]) 1 0) with (Ok (gmake a' k f1)).
  cbn [obind fst snd].
  rewrite copy_window_ok by lia. cbn [obind fst snd]. change (g0 (gmake a k f0)) with a.
  rewrite copy_window_ok by lia. cbn [obind fst snd]. f_equal. apply gmake_ext. intros r c Hr Hc. unfold in_rect.
  destruct (Z.ltb_spec r a);
    repeat match goal with |- context [if ?x then _ else _] => let e := fresh in destruct x eqn:e; [|try lia] end; try lia; f_equal; lia.
Qed.
Lemma copy_we k b (f0 f1 : Z -> Z -> E) b' : b + b' = k -> 0 <= b -> 0 <= b' ->
  copy_to_array junk k (Grid 1 2 [gmake k b f0; gmake k b' f1]) =
  Ok (gmake k k (fun i j => if j <? b then f0 i j else f1 i (j - b))).
Proof.
  intros. unfold copy_to_array. rewrite fresh_make by lia. cbn [g0]. change (zseq 0 1) with [0]. cbn [fold_left obind fst snd].
  unfold copy_windows_row. cbn [g1]. change (zseq 0 2) with [0; 1]. cbn [fold_left obind fst snd].
  change (gget (Grid 1 2 [gmake k b f0; gmake k b' f1]) 0 0) with (Ok (gmake k b f0)).
  change (gget (Grid 1 2 [gmake k b f0; gmake k b' f1]) 0 1) with (Ok (gmake k b' f1)).
  cbn [obind fst snd].
  rewrite copy_window_ok by lia. cbn [obind fst snd]. change (g1 (gmake k b f0)) with b.
  rewrite copy_window_ok by lia. cbn [obind fst snd]. f_equal. apply gmake_ext. intros r c Hr Hc. unfold in_rect.
  destruct (Z.ltb_spec c b);
    repeat match goal with |- context [if ?x then _ else _] => let e := fresh in destruct x eqn:e; [|try lia] end; try lia; f_equal; lia.
Qed.
End Copy.

Section Part.
Context {E O : Type} (R : Z) (functor : grid E -> outcome O) (F : (Z -> Z -> E) -> O) (junk : Z -> E) (ojunk : Z -> O).
Context (HF : forall m, functor (gmake (2 * R + 1) (2 * R + 1) m) = Ok (F m)).
Context (HR : 0 <= R) (n0 n1 : Z) (M : Z -> Z -> E) (H0 : 2 * R + 1 <= n0) (H1 : 2 * R + 1 <= n1).
Definition win (r c : Z) : O := F (fun i j => M (r - R + i) (c - R + j)).
Let d00 := gmake R R (fun x y => M (x - R) (y - R)).
Let d01 := gmake R n1 (fun x y => M (x - R) y).
Let d02 := gmake R R (fun x y => M (x - R) (n1 + y)).
Let d10 := gmake n0 R (fun x y => M x (y - R)).
Let d11 := gmake n0 n1 M.
Let d12 := gmake n0 R (fun x y => M x (n1 + y)).
Let d20 := gmake R R (fun x y => M (n0 + x) (y - R)).
Let d21 := gmake R n1 (fun x y => M (n0 + x) y).
Let d22 := gmake R R (fun x y => M (n0 + x) (n1 + y)).

Ltac dims := unfold d00, d01, d02, d10, d11, d12, d20, d21, d22;
  repeat match goal with
  | |- context [g0 (gmake ?a ?b ?f)] => change (g0 (gmake a b f)) with a
  | |- context [g1 (gmake ?a ?b ?f)] => change (g1 (gmake a b f)) with b
  end.
Ltac fin := unfold win; rewrite <- HF; f_equal; apply gmake_ext; intros;
  repeat match goal with |- context [if ?x then _ else _] => let e := fresh in destruct x eqn:e end; f_equal; lia.
Ltac slices := rewrite !gslice_make by lia; cbn [obind].

Lemma inner_cells_ok f : inner_cells R functor d11 (gmake n0 n1 f) =
  Ok (gmake n0 n1 (fun r c => if in_rect R (n0 - R - R) R (n1 - R - R) r c then win r c else f r c)).
Proof.
  unfold inner_cells. dims. apply for_rect; [lia|]. intros r c Hr Hc. slices.
  replace (r - R + (2 * R + 1) - (r - R)) with (2 * R + 1) by lia. replace (c - R + (2 * R + 1) - (c - R)) with (2 * R + 1) by lia. fin.
Qed.
Lemma nw_ok f : nw_corner_cells R functor junk d00 d01 d02 d10 d11 d20 (gmake n0 n1 f) =
  Ok (gmake n0 n1 (fun r c => if in_rect 0 R 0 R r c then win r c else f r c)).
Proof.
  unfold nw_corner_cells. dims. apply for_rect; [lia|]. intros r c Hr Hc. unfold border4. slices.
  rewrite copy4 by lia. cbn [obind]. fin.
Qed.
Lemma ne_ok f : ne_corner_cells R functor junk d01 d02 d11 d12 (gmake n0 n1 f) =
  Ok (gmake n0 n1 (fun r c => if in_rect 0 R (n1 - R) R r c then win r c else f r c)).
Proof.
  unfold ne_corner_cells. dims. apply for_rect; [lia|]. intros r c Hr Hc. unfold border4. slices.
  rewrite copy4 by lia. cbn [obind]. fin.
Qed.
Lemma sw_ok f : sw_corner_cells R functor junk d10 d11 d20 d21 (gmake n0 n1 f) =
  Ok (gmake n0 n1 (fun r c => if in_rect (n0 - R) R 0 R r c then win r c else f r c)).
Proof.
  unfold sw_corner_cells. dims. apply for_rect; [lia|]. intros r c Hr Hc. unfold border4. slices.
  rewrite copy4 by lia. cbn [obind]. fin.
Qed.
Lemma se_ok f : se_corner_cells R functor junk d11 d12 d21 d22 (gmake n0 n1 f) =
  Ok (gmake n0 n1 (fun r c => if in_rect (n0 - R) R (n1 - R) R r c then win r c else f r c)).
Proof.
  unfold se_corner_cells. dims. apply for_rect; [lia|]. intros r c Hr Hc. unfold border4. slices.
  rewrite copy4 by lia. cbn [obind]. fin.
Qed.
Lemma n_ok f : n_side_cells R functor junk d01 d11 (gmake n0 n1 f) =
  Ok (gmake n0 n1 (fun r c => if in_rect 0 R R (n1 - R - R) r c then win r c else f r c)).
Proof.
  unfold n_side_cells. dims. apply for_rect; [lia|]. intros r c Hr Hc. unfold border_ns. slices.
  replace (c - R + (2 * R + 1) - (c - R)) with (2 * R + 1) by lia.
  rewrite copy_ns by lia. cbn [obind]. fin.
Qed.
Lemma s_ok f : s_side_cells R functor junk d11 d21 (gmake n0 n1 f) =
  Ok (gmake n0 n1 (fun r c => if in_rect (n0 - R) R R (n1 - R - R) r c then win r c else f r c)).
Proof.
  unfold s_side_cells. dims. apply for_rect; [lia|]. intros r c Hr Hc. unfold border_ns. slices.
  replace (c - R + (2 * R + 1) - (c - R)) with (2 * R + 1) by lia.
  rewrite copy_ns by lia. cbn [obind]. fin.
Qed.
Lemma w_ok f : w_side_cells R functor junk d10 d11 (gmake n0 n1 f) =
  Ok (gmake n0 n1 (fun r c => if in_rect R (n0 - R - R) 0 R r c then win r c else f r c)).
Proof.
  unfold w_side_cells. dims. apply for_rect; [lia|]. intros r c Hr Hc. unfold border_we. slices.
  replace (r - R + (2 * R + 1) - (r - R)) with (2 * R + 1) by lia.
  rewrite copy_we by lia. cbn [obind]. fin.
Qed.
Lemma e_ok f : e_side_cells R functor junk d11 d12 (gmake n0 n1 f) =
  Ok (gmake n0 n1 (fun r c => if in_rect R (n0 - R - R) (n1 - R) R r c then win r c else f r c)).
Proof.
  unfold e_side_cells. dims. apply for_rect; [lia|]. intros r c Hr Hc. unfold border_we. slices.
  replace (r - R + (2 * R + 1) - (r - R)) with (2 * R + 1) by lia.
  rewrite copy_we by lia. cbn [obind]. fin.
Qed.

(** The nine partitions a task gets: extents and what they hold, in coordinates of the center partition. *)
Context (q : Z -> Z -> part2 E) (x0 x2 y0 y2 : Z) (Hx0 : R <= x0) (Hx2 : R <= x2) (Hy0 : R <= y0) (Hy2 : R <= y2).
Context (Q00 : pl_data (q 0 0) = gmake x0 y0 (fun x y => M (x - x0) (y - y0))).
Context (Q01 : pl_data (q 0 1) = gmake x0 n1 (fun x y => M (x - x0) y)).
Context (Q02 : pl_data (q 0 2) = gmake x0 y2 (fun x y => M (x - x0) (n1 + y))).
Context (Q10 : pl_data (q 1 0) = gmake n0 y0 (fun x y => M x (y - y0))).
Context (Q11 : pl_data (q 1 1) = gmake n0 n1 M).
Context (Q12 : pl_data (q 1 2) = gmake n0 y2 (fun x y => M x (n1 + y))).
Context (Q20 : pl_data (q 2 0) = gmake x2 y0 (fun x y => M (n0 + x) (y - y0))).
Context (Q21 : pl_data (q 2 1) = gmake x2 n1 (fun x y => M (n0 + x) y)).
Context (Q22 : pl_data (q 2 2) = gmake x2 y2 (fun x y => M (n0 + x) (n1 + y))).

Lemma read_data_ok : read_data R (gmake 3 3 q) = Ok (Grid 3 3 [d00; d01; d02; d10; d11; d12; d20; d21; d22]).
Proof.
  unfold read_data. cbv zeta. rewrite !gget33 by lia. cbn [obind]. unfold read_border.
  rewrite Q00, Q01, Q02, Q10, Q11, Q12, Q20, Q21, Q22. dims. unfold verify_border_partition_large_enough.
  repeat match goal with |- context [if (?a <? R) || (?b <? R) then _ else _] =>
    replace ((a <? R) || (b <? R)) with false by lia end.
  cbn [obind]. slices. unfold three_by_three. cbn [sequence obind].
  do 2 f_equal. repeat (apply (f_equal2 (@cons (grid E))); [apply gmake_eq; [lia|lia|intros; f_equal; lia]|]). reflexivity.
Qed.

Lemma focal_partition_ok :
  focal_operation_partition R functor junk ojunk (gmake 3 3 q) =
  Ok (Placed (pl_locality (q 1 1)) (pl_offset (q 1 1)) [n0; n1] (gmake n0 n1 win)).
Proof.
  unfold focal_operation_partition. rewrite gget33 by lia. cbn [obind]. rewrite read_data_ok. cbn [obind].
  change (gget {| g0 := 3; g1 := 3; gl := [d00; d01; d02; d10; d11; d12; d20; d21; d22] |} 0 0) with (Ok d00).
  change (gget {| g0 := 3; g1 := 3; gl := [d00; d01; d02; d10; d11; d12; d20; d21; d22] |} 0 1) with (Ok d01).
  change (gget {| g0 := 3; g1 := 3; gl := [d00; d01; d02; d10; d11; d12; d20; d21; d22] |} 0 2) with (Ok d02).
  change (gget {| g0 := 3; g1 := 3; gl := [d00; d01; d02; d10; d11; d12; d20; d21; d22] |} 1 0) with (Ok d10).
  change (gget {| g0 := 3; g1 := 3; gl := [d00; d01; d02; d10; d11; d12; d20; d21; d22] |} 1 1) with (Ok d11).
  change (gget {| g0 := 3; g1 := 3; gl := [d00; d01; d02; d10; d11; d12; d20; d21; d22] |} 1 2) with (Ok d12).
  change (gget {| g0 := 3; g1 := 3; gl := [d00; d01; d02; d10; d11; d12; d20; d21; d22] |} 2 0) with (Ok d20).
  change (gget {| g0 := 3; g1 := 3; gl := [d00; d01; d02; d10; d11; d12; d20; d21; d22] |} 2 1) with (Ok d21).
  change (gget {| g0 := 3; g1 := 3; gl := [d00; d01; d02; d10; d11; d12; d20; d21; d22] |} 2 2) with (Ok d22).
  cbn [obind]. change (g0 d11) with n0. change (g1 d11) with n1.
  unfold verify_partition_large_enough. replace ((n0 <? 2 * R + 1) || (n1 <? 2 * R + 1)) with false by lia. cbn [obind].
  rewrite fresh_make by lia. rewrite inner_cells_ok. cbn [obind]. rewrite nw_ok. cbn [obind]. rewrite ne_ok. cbn [obind].
  rewrite sw_ok. cbn [obind]. rewrite se_ok. cbn [obind]. rewrite n_ok. cbn [obind]. rewrite w_ok. cbn [obind].
  rewrite e_ok. cbn [obind]. rewrite s_ok. cbn [obind]. do 2 f_equal. apply gmake_ext. intros r c Hr Hc. unfold in_rect.
  repeat match goal with |- context [if ?x then _ else _] => let e := fresh in destruct x eqn:e; [reflexivity|] end.
  exfalso. lia.
Qed.
End Part.
