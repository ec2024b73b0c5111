(** Proofs about downstream and upstream. *)
From Coq Require Import Permutation.
From Verif Require Import Common CommonProofs CoreSpec DecompSpec ArraySpec IndexModel IndexProofs DecompModel DecompProofs DecompProofs2 DecompProofs4
  ArrayModel ArrayRep ArrayProofs LocalModel LocalProofs AggregateModel AggregateSpec AggregateProofs RasterCheck
  GridModel GridProofs FocalSpec FocalModel FocalRep FocalFunctorsModel FocalProofs3 FlowSpec AccuSpec FlowModel FlowProofs FlowProofs4 StreamModel.

Lemma raster_listed {E} a p (arr : parray E) f : raster_of a p arr f ->
  map (fun q => (pl_offset q, pl_shape q, pl_data q)) (pa_parts arr) = listed_parts a p f.
Proof.
  intros [Ha [Hf [Es [Ep [L H]]]]]. set (parts := map _ _) in *.
  assert (V : nr_parts a p = volume (parts_shape a p)) by reflexivity.
  pose proof (parts_shape_pos a p Hf) as HP.
  assert (LA : Z.of_nat (length (listed_parts a p f)) = nr_parts a p).
  { unfold listed_parts. rewrite map_length. change (all_cells (parts_shape a p)) with (shape_cells (parts_shape a p)).
    pose proof (block_of_holds (parts_shape a p) (fun x => x) HP) as [L' _]. unfold block_of in L'. now rewrite map_length in L'. }
  apply nth_error_ext. intros k. destruct (Nat.lt_ge_cases k (length parts)) as [Hk|Hk].
  - destruct (rowmaj_surj (parts_shape a p) (Z.of_nat k) HP) as [c [Hc Ec]]; [clear - Hk L V; lia|].
    destruct (H c Hc) as [data [E1 E2]]. rewrite Ec, Nat2Z.id in E1. rewrite E1. unfold listed_parts. rewrite nth_error_map.
    change (all_cells (parts_shape a p)) with (shape_cells (parts_shape a p)). pose proof (shape_cells_nth _ _ Hc) as E3. rewrite Ec, Nat2Z.id in E3. rewrite E3. cbn [option_map].
    rewrite (block_list _ _ _ (part_extent_pos a p c Hf Hc) E2). reflexivity.
  - rewrite (proj2 (nth_error_None parts k) Hk). symmetry. apply nth_error_None. clear - Hk L LA. lia.
Qed.

Lemma zip_map {A B C} (f : C -> A) (g : C -> B) l : zip (map f l) (map g l) = Ok (map (fun x => (f x, g x)) l).
Proof. induction l as [|x l IH]; [reflexivity|]. cbn [map zip]. rewrite IH. reflexivity. Qed.

Lemma zip_parts_ok {A B C} (o s : C -> list Z) (d1 : C -> list A) (d2 : C -> list B) (d3 : C -> list (A * B)) :
  (forall c, zip (d1 c) (d2 c) = Ok (d3 c)) -> forall cs l1 l2,
  map (fun q => (pl_offset q, pl_shape q, pl_data q)) l1 = map (fun c => (o c, s c, d1 c)) cs ->
  map (fun q => (pl_offset q, pl_shape q, pl_data q)) l2 = map (fun c => (o c, s c, d2 c)) cs ->
  exists pairs parts, zip l1 l2 = Ok pairs /\
    sequence (map (fun '(q, q') => obind (zip (pl_data q) (pl_data q')) (fun data =>
           Ok (Placed (pl_locality q) (pl_offset q) (pl_shape q) data))) pairs) = Ok parts /\
    map (fun q => (pl_offset q, pl_shape q, pl_data q)) parts = map (fun c => (o c, s c, d3 c)) cs.
Proof.
  intros H. induction cs as [|c cs IH]; intros [|q1 l1] [|q2 l2] E1 E2; try discriminate.
  - exists [], []. repeat split.
  - cbn [map] in E1, E2. injection E1 as Eo Es Ed E1. injection E2 as Eo' Es' Ed' E2. destruct (IH l1 l2 E1 E2) as [pairs [parts [Z1 [Z2 Z3]]]].
    eexists. eexists. cbn [zip]. rewrite Z1. cbn [obind]. split; [reflexivity|]. cbn [map sequence]. rewrite Ed, Ed', H. cbn [obind]. rewrite Z2. cbn [obind]. split; [reflexivity|].
    cbn [map pl_offset pl_shape pl_data]. rewrite Z3, Eo, Es. reflexivity.
Qed.

Lemma zip_arrays_ok {A B} a p (x : parray A) (y : parray B) f g : raster_of a p x f -> raster_of a p y g ->
  exists z, zip_arrays x y = Ok z /\ raster_of a p z (fun c => (f c, g c)).
Proof.
  intros Hx Hy. pose proof (raster_listed a p x f Hx) as Lx. pose proof (raster_listed a p y g Hy) as Ly. unfold listed_parts in Lx, Ly.
  destruct (zip_parts_ok (part_offset p) (part_extent a p)
    (fun c => map (fun x => f (vadd (part_offset p c) x)) (all_cells (part_extent a p c)))
    (fun c => map (fun x => g (vadd (part_offset p c) x)) (all_cells (part_extent a p c)))
    (fun c => map (fun x => (f (vadd (part_offset p c) x), g (vadd (part_offset p c) x))) (all_cells (part_extent a p c)))
    (fun c => zip_map _ _ _) _ _ _ Lx Ly) as [pairs [parts [Z1 [Z2 Z3]]]].
  exists (PArray (pa_shape x) (pa_sip x) parts). unfold zip_arrays. rewrite Z1. cbn [obind]. rewrite Z2. cbn [obind]. split; [reflexivity|].
  destruct Hx as [Ha [Hf [Es [Ep _]]]]. apply raster_of_listed; try assumption.
Qed.

Section Functors.
Context {E : Type} (zero : E) (plus : E -> E -> E) (nd : Z -> bool) (mnd : E -> bool) (marker : E).

Definition F_down (w : Z -> Z -> Z * E) : E :=
  let (d, own) := w 1 1 in
  if nd d || mnd own then marker
  else let m := snd (w (1 + fst (keypad d)) (1 + snd (keypad d))) in if mnd m then marker else m.
Lemma keypad_other d : d <> 7 -> d <> 8 -> d <> 9 -> d <> 4 -> d <> 6 -> d <> 1 -> d <> 2 -> d <> 3 -> keypad d = (0, 0).
Proof.
  intros. unfold keypad. destruct ((1 <=? d) && (d <=? 9)) eqn:E0; [|reflexivity].
  assert (d = 5) as -> by lia. reflexivity.
Qed.
Lemma down_ok' w : downstream_functor zero nd mnd (fun _ => marker) (gmake (2 * 1 + 1) (2 * 1 + 1) w) = Ok (F_down w).
Proof.
  change (2 * 1 + 1) with 3. unfold downstream_functor, F_down. rewrite gget_make by lia. cbn [obind]. destruct (w 1 1) as [d own] eqn:E0.
  destruct (nd d || mnd own) eqn:E1; [reflexivity|]. apply orb_false_iff in E1. destruct E1 as [_ E1].
  unfold north_west, north, north_east, west, east, south_west, south, south_east.
  destruct (Z.eqb_spec d 7) as [->|]; [rewrite gget_make by lia; cbn; now destruct (w 0 0)|].
  destruct (Z.eqb_spec d 8) as [->|]; [rewrite gget_make by lia; cbn; now destruct (w 0 1)|].
  destruct (Z.eqb_spec d 9) as [->|]; [rewrite gget_make by lia; cbn; now destruct (w 0 2)|].
  destruct (Z.eqb_spec d 4) as [->|]; [rewrite gget_make by lia; cbn; now destruct (w 1 0)|].
  destruct (Z.eqb_spec d 6) as [->|]; [rewrite gget_make by lia; cbn; now destruct (w 1 2)|].
  destruct (Z.eqb_spec d 1) as [->|]; [rewrite gget_make by lia; cbn; now destruct (w 2 0)|].
  destruct (Z.eqb_spec d 2) as [->|]; [rewrite gget_make by lia; cbn; now destruct (w 2 1)|].
  destruct (Z.eqb_spec d 3) as [->|]; [rewrite gget_make by lia; cbn; now destruct (w 2 2)|].
  rewrite keypad_other by assumption. cbn [fst snd]. rewrite Z.add_0_r, E0. cbn [snd]. now rewrite E1.
Qed.

(** The window cells in the order in which they are visited, with the flow direction looked for *)
Definition visited : list (Z * Z * Z) :=
  [(0, 0, 3); (0, 1, 2); (0, 2, 1); (1, 0, 6); (1, 2, 4); (2, 0, 9); (2, 1, 8); (2, 2, 7)].
Fixpoint up_fold (w : Z -> Z -> Z * E) (l : list (Z * Z * Z)) (acc : E) : E :=
  match l with
  | [] => acc
  | (i, j, d) :: l' => if fst (w i j) =? d then (if mnd (snd (w i j)) then marker else up_fold w l' (plus acc (snd (w i j)))) else up_fold w l' acc
  end.
Definition F_up (w : Z -> Z -> Z * E) : E :=
  let (d, own) := w 1 1 in if nd d || mnd own then marker else up_fold w visited zero.
Lemma add_up_ok w i j d k l acc : 0 <= i < 3 -> 0 <= j < 3 -> (forall acc, k acc = Ok (up_fold w l acc)) ->
  add_upstream plus mnd (fun _ => marker) (gmake 3 3 w) i j d k acc = Ok (up_fold w ((i, j, d) :: l) acc).
Proof.
  intros Hi Hj Hk. unfold add_upstream. rewrite gget_make by lia. cbn [obind up_fold]. destruct (w i j) as [d' m]. cbn [fst snd].
  destruct (d' =? d); [destruct (mnd m); [reflexivity|]|]; apply Hk.
Qed.
Lemma up_ok w : upstream_functor zero plus nd mnd (fun _ => marker) (gmake (2 * 1 + 1) (2 * 1 + 1) w) = Ok (F_up w).
Proof.
  change (2 * 1 + 1) with 3. unfold upstream_functor, F_up. rewrite gget_make by lia. cbn [obind]. destruct (w 1 1) as [d own].
  destruct (nd d || mnd own); [reflexivity|]. unfold visited.
  repeat (apply add_up_ok; [lia|lia|intros ?]). reflexivity.
Qed.

(** Windows of rasters *)
Context (a0 a1 : Z) (f : list Z -> Z) (m : list Z -> E).
Let P := padded a0 a1 (border_of (stream_halo zero)) (fun r c => (f [r; c], m [r; c])).

Lemma P_inside r c : 0 <= r < a0 -> 0 <= c < a1 -> P r c = (f [r; c], m [r; c]).
Proof. clear. intros Hr Hc. unfold P, padded. destruct (Z.ltb_spec r 0); [lia|]. destruct (Z.ltb_spec r a0); [|lia]. destruct (Z.ltb_spec c 0); [lia|]. destruct (Z.ltb_spec c a1); [reflexivity|lia]. Qed.
Lemma P_outside r c : ~ inside a0 a1 (r, c) -> snd (P r c) = zero.
Proof. clear. intros H. unfold P, padded, inside in *. cbn [fst snd] in H. repeat match goal with |- context [?x <? ?y] => destruct (Z.ltb_spec x y) end; try reflexivity; exfalso; apply H; lia. Qed.

Lemma keypad_towards v d : In d [1; 2; 3; 4; 6; 7; 8; 9] -> keypad v = keypad d -> v = d.
Proof.
  clear. intros Hd H. assert (Hv : 1 <= v <= 9).
  { unfold keypad at 1 in H. destruct ((1 <=? v) && (v <=? 9)) eqn:E0; [lia|]. exfalso. cbn [In] in Hd. decompose [or] Hd; subst; try discriminate H; contradiction. }
  assert (v = 1 \/ v = 2 \/ v = 3 \/ v = 4 \/ v = 5 \/ v = 6 \/ v = 7 \/ v = 8 \/ v = 9) as Hv' by lia.
  cbn [In] in Hd. decompose [or] Hd; clear Hd; try contradiction; subst d; decompose [or] Hv'; subst v; try discriminate H; reflexivity.
Qed.

Context (Hnd : forall v, nd v = true -> keypad v = (0, 0)).
(** Whether the cell at [i], [j] of the window around an inside cell drains into it *)
Lemma drains_into r c i j d : inside a0 a1 (r, c) -> In (i, j, d) visited ->
  (fst (P (r - 1 + i) (c - 1 + j)) =? d) =
  insideb a0 a1 (r - 1 + i, c - 1 + j) && negb (nd (by_cell f (r - 1 + i, c - 1 + j))) && cell_eqb (towards (by_cell f) (r - 1 + i, c - 1 + j)) (r, c).
Proof.
  intros Hx Hv. destruct (insideb a0 a1 (r - 1 + i, c - 1 + j)) eqn:EI.
  - unfold insideb in EI. cbn [fst snd] in EI. rewrite P_inside by lia. cbn [fst andb]. unfold by_cell, towards, cell_eqb. cbn [fst snd].
    set (v := f [r - 1 + i; c - 1 + j]).
    assert (K : keypad d = (1 - i, 1 - j) /\ In d [1; 2; 3; 4; 6; 7; 8; 9]).
    { clear - Hv. cbn [In visited] in Hv. decompose [or] Hv; clear Hv; try contradiction; match goal with H : _ = (i, j, d) |- _ => injection H as <- <- <- end; split; try reflexivity; cbn; auto 10. }
    destruct K as [K1 K2]. destruct (Z.eqb_spec v d) as [->|Hne].
    + assert (Ed : nd d = false). { destruct (nd d) eqn:Q; [|reflexivity]. apply Hnd in Q. exfalso. rewrite Q in K1. injection K1 as Q1 Q2.
        clear - Hv Q1 Q2. cbn [In visited] in Hv. decompose [or] Hv; clear Hv; try contradiction; match goal with H : _ = (i, j, d) |- _ => injection H as <- <- <- end; discriminate. }
      rewrite Ed, K1. cbn [fst snd negb andb]. symmetry. apply andb_true_iff. split; apply Z.eqb_eq; lia.
    + destruct (nd v) eqn:Q; [reflexivity|]. cbn [negb andb]. symmetry. apply andb_false_iff.
      destruct (Z.eqb_spec (r - 1 + i + fst (keypad v)) r); [|now left]. destruct (Z.eqb_spec (c - 1 + j + snd (keypad v)) c); [|now right].
      exfalso. apply Hne. apply (keypad_towards v d K2). rewrite K1. destruct (keypad v) as [k1 k2]. cbn [fst snd] in *. f_equal; lia.
  - cbn [andb]. unfold insideb in EI. cbn [fst snd] in EI. destruct Hx as [Hr Hc]. cbn [fst snd] in Hr, Hc.
    assert (Hij : 0 <= i <= 2 /\ 0 <= j <= 2).
    { clear - Hv. cbn [In visited] in Hv. decompose [or] Hv; clear Hv; try contradiction; match goal with H : _ = (i, j, d) |- _ => injection H as <- <- <- end; lia. }
    apply Z.eqb_neq. intros E0. revert E0. unfold P, padded.
    cbn [In visited] in Hv. clear Hnd.
    decompose [or] Hv; clear Hv; try contradiction; match goal with H : _ = (i, j, d) |- _ => injection H as <- <- <- end;
      repeat match goal with |- context [?x <? ?y] => destruct (Z.ltb_spec x y) end; try lia; cbn; discriminate.
Qed.

Lemma up_fold_ok r c (cond : cell -> bool) (l : list (Z * Z * Z)) : forall acc,
  (forall i j d, In (i, j, d) l -> (fst (P (r - 1 + i) (c - 1 + j)) =? d) = cond (r - 1 + i, c - 1 + j)) ->
  (forall y, cond y = true -> inside a0 a1 y) ->
  let L := filter cond (map (fun '(i, j, d) => (r - 1 + i, c - 1 + j)) l) in
  up_fold (fun i j => P (r - 1 + i) (c - 1 + j)) l acc =
  if existsb (fun y => mnd (by_cell m y)) L then marker else fold_left plus (map (by_cell m) L) acc.
Proof.
  intros acc H HC. revert acc. induction l as [|[[i j] d] l IH]; intros acc; [reflexivity|]. cbn [map filter up_fold].
  rewrite (H i j d) by now left. specialize (IH (fun i j d I => H i j d (or_intror I))).
  destruct (cond (r - 1 + i, c - 1 + j)) eqn:E0; [|apply IH].
  apply HC in E0. destruct E0 as [Q1 Q2]. cbn [fst snd] in Q1, Q2. rewrite P_inside by assumption. cbn [snd]. cbn [existsb map fold_left].
  change (by_cell m (r - 1 + i, c - 1 + j)) with (m [r - 1 + i; c - 1 + j]). destruct (mnd (m [r - 1 + i; c - 1 + j])); [reflexivity|apply IH].
Qed.

Lemma up_value r c : inside a0 a1 (r, c) ->
  F_up (fun i j => P (r - 1 + i) (c - 1 + j)) =
  let L := upstream a0 a1 nd (by_cell f) (r, c) in
  if nd (by_cell f (r, c)) || mnd (by_cell m (r, c)) || existsb (fun y => mnd (by_cell m y)) L then marker else fold_left plus (map (by_cell m) L) zero.
Proof.
  intros Hx. assert (Hx' := Hx). destruct Hx' as [Hr Hc]. cbn [fst snd] in Hr, Hc. unfold F_up.
  replace (r - 1 + 1) with r by lia. replace (c - 1 + 1) with c by lia. rewrite P_inside by assumption.
  change (f [r; c]) with (by_cell f (r, c)). change (m [r; c]) with (by_cell m (r, c)).
  destruct (nd (by_cell f (r, c)) || mnd (by_cell m (r, c))); [reflexivity|]. cbn [orb].
  rewrite (up_fold_ok r c (fun y => insideb a0 a1 y && negb (nd (by_cell f y)) && cell_eqb (towards (by_cell f) y) (r, c))).
  - unfold upstream. cbn [map visited neighbours].
    replace (r - 1 + 0) with (r - 1) by lia. replace (r - 1 + 1) with r by lia. replace (r - 1 + 2) with (r + 1) by lia.
    replace (c - 1 + 0) with (c - 1) by lia. replace (c - 1 + 1) with c by lia. replace (c - 1 + 2) with (c + 1) by lia. reflexivity.
  - intros i j d Hv. now apply drains_into.
  - intros y Hy. apply andb_true_iff in Hy. destruct Hy as [Hy _]. apply andb_true_iff in Hy. destruct Hy as [Hy _]. unfold insideb in Hy. unfold inside. lia.
Qed.
End Functors.

Lemma down_ok {E} (zero : E) nd mnd marker w : downstream_functor zero nd mnd (fun _ => marker) (gmake (2 * 1 + 1) (2 * 1 + 1) w) = Ok (F_down nd mnd marker w).
Proof. now apply down_ok'. Qed.

Lemma c24_downstream {E} (zero : E) nd mnd marker junk ojunk a0 a1 p0 p1 flow f material m :
  raster_of [a0; a1] [p0; p1] flow f -> raster_of [a0; a1] [p0; p1] material m -> 3 <= smallest_block a0 p0 -> 3 <= smallest_block a1 p1 ->
  exists out g, downstream zero nd mnd (fun _ => marker) junk ojunk flow material = Ok out /\ raster_of [a0; a1] [p0; p1] out g /\
    forall x, inside a0 a1 x ->
      let own := by_cell m x in
      let next := towards (by_cell f) x in
      let value := if insideb a0 a1 next then by_cell m next else zero in
      (nd (by_cell f x) = true \/ mnd own = true \/ mnd value = true -> by_cell g x = marker) /\
      (nd (by_cell f x) = false -> mnd own = false -> mnd value = false -> by_cell g x = value).
Proof.
  intros Hf Hm H0 H1. destruct (zip_arrays_ok _ _ _ _ _ _ Hf Hm) as [z [Ez Hz]].
  destruct (focal_op_ok 1 (downstream_functor zero nd mnd (fun _ => marker)) (F_down nd mnd marker) junk ojunk (stream_halo zero)
    (down_ok zero nd mnd marker) a0 a1 p0 p1 z _ ltac:(lia) Hz H0 H1) as [out [g [E0 [Hg V]]]].
  exists out, g. split; [unfold downstream; rewrite Ez; exact E0|]. split; [exact Hg|]. intros [r c] Hx. cbv zeta. change (by_cell g (r, c)) with (g [r; c]). rewrite V.
  assert (Hx' := Hx). destruct Hx' as [Hr Hc]. cbn [fst snd] in Hr, Hc.
  unfold F_down. set (P := padded _ _ _ _). replace (r - 1 + 1) with r by lia. replace (c - 1 + 1) with c by lia.
  assert (EP : P r c = (f [r; c], m [r; c])) by (apply (P_inside zero a0 a1 f m); assumption). rewrite EP.
  change (by_cell f (r, c)) with (f [r; c]). change (by_cell m (r, c)) with (m [r; c]).
  assert (EV : snd (P (r - 1 + (1 + fst (keypad (f [r; c])))) (c - 1 + (1 + snd (keypad (f [r; c]))))) =
    if insideb a0 a1 (towards (by_cell f) (r, c)) then by_cell m (towards (by_cell f) (r, c)) else zero).
  { unfold towards. cbn [fst snd]. change (by_cell f (r, c)) with (f [r; c]).
    replace (r - 1 + (1 + fst (keypad (f [r; c])))) with (r + fst (keypad (f [r; c]))) by lia. replace (c - 1 + (1 + snd (keypad (f [r; c])))) with (c + snd (keypad (f [r; c]))) by lia.
    generalize (r + fst (keypad (f [r; c]))) (c + snd (keypad (f [r; c]))). clear. intros i j. destruct (insideb a0 a1 (i, j)) eqn:EI.
    - unfold insideb in EI. cbn [fst snd] in EI. assert (Q : P i j = (f [i; j], m [i; j])) by (apply (P_inside zero a0 a1 f m); lia). rewrite Q. reflexivity.
    - apply (P_outside zero a0 a1 f m). intros [Q1 Q2]. unfold insideb in EI. cbn [fst snd] in *. lia. }
  rewrite EV. set (value := if insideb _ _ _ then _ else _). destruct (nd (f [r; c])); [split; [reflexivity|discriminate]|]. destruct (mnd (m [r; c])); [split; [reflexivity|discriminate]|].
  cbn [orb]. destruct (mnd value) eqn:EM; split; try reflexivity; try discriminate. intros [Q|[Q|Q]]; discriminate Q.
Qed.

Lemma c24_upstream {E} (zero : E) plus nd mnd marker junk ojunk a0 a1 p0 p1 flow f material m :
  (forall v, nd v = true -> keypad v = (0, 0)) ->
  raster_of [a0; a1] [p0; p1] flow f -> raster_of [a0; a1] [p0; p1] material m -> 3 <= smallest_block a0 p0 -> 3 <= smallest_block a1 p1 ->
  exists out g, upstream_sum zero plus nd mnd (fun _ => marker) junk ojunk flow material = Ok out /\ raster_of [a0; a1] [p0; p1] out g /\
    forall x, inside a0 a1 x -> exists L, lists (fun y => drains a0 a1 nd (by_cell f) y x) L /\
      (nd (by_cell f x) = true \/ mnd (by_cell m x) = true \/ (exists y, In y L /\ mnd (by_cell m y) = true) -> by_cell g x = marker) /\
      (nd (by_cell f x) = false -> mnd (by_cell m x) = false -> (forall y, In y L -> mnd (by_cell m y) = false) ->
       by_cell g x = fold_left plus (map (by_cell m) L) zero).
Proof.
  intros Hnd Hf Hm H0 H1. destruct (zip_arrays_ok _ _ _ _ _ _ Hf Hm) as [z [Ez Hz]].
  destruct (focal_op_ok 1 (upstream_functor zero plus nd mnd (fun _ => marker)) (F_up zero plus nd mnd marker) junk ojunk (stream_halo zero)
    (up_ok zero plus nd mnd marker) a0 a1 p0 p1 z _ ltac:(lia) Hz H0 H1) as [out [g [E0 [Hg V]]]].
  exists out, g. split; [unfold upstream_sum; rewrite Ez; exact E0|]. split; [exact Hg|]. intros [r c] Hx.
  exists (upstream a0 a1 nd (by_cell f) (r, c)). split; [split; [apply upstream_NoDup|intros y; apply in_upstream]|].
  assert (EG : by_cell g (r, c) = F_up zero plus nd mnd marker (fun i j => padded a0 a1 (border_of (stream_halo zero)) (fun r c => (f [r; c], m [r; c])) (r - 1 + i) (c - 1 + j)))
    by (unfold by_cell; cbn [fst snd]; rewrite V; reflexivity).
  rewrite EG, (up_value zero plus nd mnd marker a0 a1 f m Hnd r c Hx). cbv zeta. clear EG. set (L := upstream _ _ _ _ _).
  destruct (nd (by_cell f (r, c))); [split; [reflexivity|discriminate]|]. destruct (mnd (by_cell m (r, c))); [split; [reflexivity|discriminate]|]. cbn [orb].
  destruct (existsb _ L) eqn:EX; (split; [intros Q|intros _ _ Q]).
  - reflexivity.
  - apply existsb_exists in EX. destruct EX as [y [Hy Ey]]. rewrite (Q y Hy) in Ey. discriminate.
  - destruct Q as [Q|[Q|[y [Hy Ey]]]]; try discriminate Q. assert (existsb (fun y => mnd (by_cell m y)) L = true) by (apply existsb_exists; eauto). congruence.
  - reflexivity.
Qed.

(** Partitions that are too small are reported. *)
Lemma c24_small {E} (zero : E) plus nd mnd marker junk ojunk a0 a1 p0 p1 flow f material m :
  raster_of [a0; a1] [p0; p1] flow f -> raster_of [a0; a1] [p0; p1] material m -> smallest_block a0 p0 < 3 \/ smallest_block a1 p1 < 3 ->
  downstream zero nd mnd (fun _ => marker) junk ojunk flow material = Throw /\
  upstream_sum zero plus nd mnd (fun _ => marker) junk ojunk flow material = Throw.
Proof.
  intros Hf Hm H. destruct (zip_arrays_ok _ _ _ _ _ _ Hf Hm) as [z [Ez Hz]]. unfold downstream, upstream_sum. rewrite Ez. cbn [obind]. split.
  - exact (focal_op_throw 1 _ _ junk ojunk (stream_halo zero) (down_ok zero nd mnd marker) a0 a1 p0 p1 z _ ltac:(lia) Hz H).
  - exact (focal_op_throw 1 _ _ junk ojunk (stream_halo zero) (up_ok zero plus nd mnd marker) a0 a1 p0 p1 z _ ltac:(lia) Hz H).
Qed.
