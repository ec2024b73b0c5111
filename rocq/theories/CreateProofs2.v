From Verif Require Import Common CommonProofs CoreSpec DecompSpec ArraySpec IndexModel DecompModel ArrayModel ArrayRep
  ArrayProofs GridModel GridProofs GridRaster LocalModel LocalSpec LocalProofs LocalProofs2 FlowModel FlowProofs CreateSpec CreateModel CreateProofs.
Open Scope Z_scope.

Lemma gmake_block {E} n0 n1 (h : Z -> Z -> E) k : 0 < n0 -> 0 < n1 -> (forall x y, 0 <= x < n0 -> 0 <= y < n1 -> h x y = k [x; y]) ->
  block_holds [n0; n1] (gl (gmake n0 n1 h)) k.
Proof.
  intros H0 H1 H. split.
  - rewrite make_length by lia. cbn. nia.
  - intros x Hx. destruct x as [|x [|y [|? ?]]]; try contradiction; cbn in Hx; try lia. destruct Hx as [Hx [Hy _]].
    rewrite gl_make, nth_error_map. cbn [rowmaj volume]. replace (x * (n1 * 1) + (y * 1 + 0)) with (x * n1 + y) by lia.
    rewrite nth_cells2 by lia. cbn [option_map fst snd]. rewrite !Z.add_0_l. f_equal. apply H; lia.
Qed.

Section Mesh.
Context {I O : Type} (plus : O -> O -> O) (times : Z -> O -> O) (junk : Z -> O) (first_value step : O).

Lemma mesh_grid1_ok a p (arr : parray I) f : raster_of [a] [p] arr f ->
  exists out, mesh_grid1 plus times junk first_value step arr = Ok out /\
    raster_of [a] [p] out (fun x => plus first_value (times (nth 0 x 0) step)).
Proof.
  intros H. unfold mesh_grid1.
  destruct (map_parts [a] [p] arr f (mesh_grid_partition1 plus times junk first_value step) (fun x => plus first_value (times (nth 0 x 0) step)) H) as [parts [E R]].
  - intros q c Hc Hin Eo Es B. unfold mesh_grid_partition1. rewrite Eo, Es.
    destruct c as [|c [|? ?]]; cbn in Hc; try contradiction; try tauto. destruct Hc as [Hc _].
    cbn [part_extent part_offset nth] in *. fold (ext1 a p c) in *.
    assert (Hp : 0 < p <= a). { destruct H as [_ [Hf _]]. inversion Hf; subst. assumption. }
    pose proof (ext1_pos a p c Hp Hc) as He.
    destruct (for_elements_ok (fun i _ => Ok (plus first_value (times (c * p + i) step))) (fun i => plus first_value (times (c * p + i) step)) junk (ext1 a p c)) as [out [E1 [L1 N1]]]; [lia|reflexivity|].
    rewrite E1. cbn [obind]. eexists. split; [reflexivity|]. cbn [pl_offset pl_shape pl_data]. split; [reflexivity|]. split; [reflexivity|]. split.
    + rewrite L1. cbn. lia.
    + intros x Hx. destruct x as [|x [|? ?]]; cbn in Hx; try contradiction; try tauto. destruct Hx as [Hx _]. cbn [rowmaj volume].
      replace (x * 1 + 0) with x by lia. rewrite N1 by lia. reflexivity.
  - rewrite E. cbn [obind]. destruct H as [_ [_ [-> [-> _]]]]. eauto.
Qed.

Lemma mesh_part a0 a1 p0 p1 (arr : parray I) f d : raster_of [a0; a1] [p0; p1] arr f -> d = 0 \/ d = 1 ->
  exists parts, sequence (map (mesh_grid_partition2 plus times junk first_value step d) (pa_parts arr)) = Ok parts /\
    raster_of [a0; a1] [p0; p1] (PArray [a0; a1] (parts_shape [a0; a1] [p0; p1]) parts) (fun x => plus first_value (times (nth (Z.to_nat d) x 0) step)).
Proof.
  intros H Hd.
  apply (map_parts [a0; a1] [p0; p1] arr f (mesh_grid_partition2 plus times junk first_value step d) (fun x => plus first_value (times (nth (Z.to_nat d) x 0) step)) H).
  intros q c Hc Hin Eo Es B. unfold mesh_grid_partition2. rewrite Eo, Es.
  destruct c as [|r [|c [|? ?]]]; cbn in Hc; try contradiction; try tauto. destruct Hc as [Hr [Hc _]].
  cbn [part_extent part_offset] in *. fold (ext1 a0 p0 r) in *. fold (ext1 a1 p1 c) in *.
  assert (Hf : 0 < p0 <= a0 /\ 0 < p1 <= a1) by (destruct H as [_ [Hf _]]; now apply fits2). destruct Hf as [Hp0 Hp1].
  pose proof (ext1_pos a0 p0 r Hp0 Hr) as He0. pose proof (ext1_pos a1 p1 c Hp1 Hc) as He1.
  change (nth 0 [ext1 a0 p0 r; ext1 a1 p1 c] 0) with (ext1 a0 p0 r). change (nth 1 [ext1 a0 p0 r; ext1 a1 p1 c] 0) with (ext1 a1 p1 c).
  rewrite fresh_make by lia.
  destruct Hd as [->| ->]; cbn [Z.eqb Z.to_nat Pos.to_nat Pos.iter_op nth Pos.eqb].
  - erewrite for_all_cells by (intros; reflexivity). cbn [obind]. eexists. split; [reflexivity|]. cbn [pl_offset pl_shape pl_data].
    split; [reflexivity|]. split; [reflexivity|]. apply gmake_block; [lia|lia|]. intros x y _ _. reflexivity.
  - erewrite for_all_cells by (intros; reflexivity). cbn [obind]. eexists. split; [reflexivity|]. cbn [pl_offset pl_shape pl_data].
    split; [reflexivity|]. split; [reflexivity|]. apply gmake_block; [lia|lia|]. intros x y _ _. reflexivity.
Qed.

Lemma mesh_grid2_ok a0 a1 p0 p1 (arr : parray I) f : raster_of [a0; a1] [p0; p1] arr f ->
  exists out0 out1, mesh_grid2 plus times junk first_value step arr = Ok (out0, out1) /\
    raster_of [a0; a1] [p0; p1] out0 (fun x => plus first_value (times (row x) step)) /\
    raster_of [a0; a1] [p0; p1] out1 (fun x => plus first_value (times (column x) step)).
Proof.
  intros H. unfold mesh_grid2. destruct (mesh_part a0 a1 p0 p1 arr f 0 H ltac:(auto)) as [l0 [E0 R0]].
  destruct (mesh_part a0 a1 p0 p1 arr f 1 H ltac:(auto)) as [l1 [E1 R1]]. rewrite E0, E1. cbn [obind].
  destruct H as [_ [_ [-> [-> _]]]]. eexists. eexists. split; [reflexivity|]. split; assumption.
Qed.
End Mesh.

Lemma array_like_ok {I O} (junk : Z -> O) a p (arr : parray I) f v : raster_of a p arr f ->
  exists out, array_like junk arr v = Ok out /\ raster_of a p out (fun _ => v).
Proof.
  intros H. unfold array_like.
  destruct (map_parts a p arr f (array_like_partition junk v) (fun _ => v) H) as [parts' [E' R']].
  - intros q c Hc Hin Eo Es B. unfold array_like_partition. rewrite Es.
    destruct (for_block (part_extent a p c) (fun _ _ => Ok v) (fun _ => v) junk) as [out [E1 B1]].
    + apply part_extent_ne; try assumption; apply H.
    + apply part_extent_pos; [apply H|assumption].
    + reflexivity.
    + rewrite E1. cbn [obind]. eexists. split; [reflexivity|]. cbn. auto.
  - rewrite E'. cbn [obind]. destruct H as [_ [_ [-> [-> _]]]]. eauto.
Qed.

Section CellIndex.
Context (t : itype) (no_data : Z -> bool) (mark : Z -> Z) (marker : Z) (junk : Z -> Z) (Hmark : forall v, mark v = marker).

Lemma cell_index_partition_ok a0 a1 p0 p1 loc f r c d k extent : 0 < p0 <= a0 -> 0 < p1 <= a1 ->
  0 <= r < a0 / p0 -> 0 <= c < a1 / p1 -> d = 0 \/ d = 1 ->
  cell_index_partition t no_data mark junk d k extent (rpart a0 a1 p0 p1 loc f r c) =
  Ok (Placed (loc r c) [r * p0; c * p1] [ext1 a0 p0 r; ext1 a1 p1 c]
        (gmake (ext1 a0 p0 r) (ext1 a1 p1 c) (fun x y =>
           let v := f [r * p0 + x; c * p1 + y] in
           if no_data v || (v =? 0) then marker else wrap t (k * extent + if d =? 0 then x else y))),
      if d =? 0 then ext1 a1 p1 c else ext1 a0 p0 r).
Proof.
  intros Hp0 Hp1 Hr Hc Hd. unfold cell_index_partition, rpart. cbn [pl_shape pl_offset pl_locality pl_data nth].
  pose proof (ext1_pos a0 p0 r Hp0 Hr) as He0. pose proof (ext1_pos a1 p1 c Hp1 Hc) as He1.
  rewrite fresh_make by lia. destruct Hd as [->| ->]; cbn [Z.eqb Pos.eqb].
  - rewrite (for_all_cells _ _ _ _ (fun x y => if no_data (f [r * p0 + x; c * p1 + y]) || (f [r * p0 + x; c * p1 + y] =? 0) then marker else wrap t (k * extent + x))).
    + reflexivity.
    + intros x y Hx Hy. unfold cell_index_cell. rewrite gget_make by assumption. cbn [obind]. destruct (_ || _); [now rewrite Hmark|reflexivity].
  - rewrite (for_all_cells _ _ _ _ (fun x y => if no_data (f [r * p0 + x; c * p1 + y]) || (f [r * p0 + x; c * p1 + y] =? 0) then marker else wrap t (k * extent + y))).
    + reflexivity.
    + intros x y Hx Hy. unfold cell_index_cell. rewrite gget_make by assumption. cbn [obind]. destruct (_ || _); [now rewrite Hmark|reflexivity].
Qed.

(** The index that is found, per dimension: the extents used are those of the other dimension. *)
Definition found_index (a p b q i : Z) : Z :=
  let k := Z.min (i / p) (a / p - 1) in
  k * (if k =? 0 then 0 else ext1 b q 0) + (i - k * p).
Definition found (a0 a1 p0 p1 d : Z) (x : list Z) : Z :=
  if d =? 0 then found_index a0 p0 a1 p1 (row x) else found_index a1 p1 a0 p0 (column x).

Lemma found_index_in a p b q k x : 0 < p <= a -> 0 <= k < a / p -> 0 <= x < ext1 a p k ->
  found_index a p b q (k * p + x) = k * (if k =? 0 then 0 else ext1 b q 0) + x.
Proof.
  intros Hp Hk Hx. unfold found_index. pose proof (part_row_in a p Hp k x Hk Hx) as E. unfold part_row in E. rewrite E. lia.
Qed.

Lemma cell_index_ok a0 a1 p0 p1 arr f d : raster_of [a0; a1] [p0; p1] arr f -> d = 0 \/ d = 1 ->
  exists out, cell_index t no_data mark junk arr d = Ok out /\
    raster_of [a0; a1] [p0; p1] out (fun x => if no_data (f x) || (f x =? 0) then marker else wrap t (found a0 a1 p0 p1 d x)).
Proof.
  intros H Hd. destruct (raster_grid a0 a1 p0 p1 arr f H) as [loc Eg].
  assert (Hf : 0 < p0 <= a0 /\ 0 < p1 <= a1) by (destruct H as [_ [Hf _]]; now apply fits2). destruct Hf as [Hp0 Hp1].
  destruct H as [_ [_ [Ea [Es _]]]]. unfold cell_index, parts2. rewrite Ea, Es.
  change (nth 0 (parts_shape [a0; a1] [p0; p1]) 0) with (a0 / p0). change (nth 1 (parts_shape [a0; a1] [p0; p1]) 0) with (a1 / p1).
  rewrite Eg. set (parts := gmake (a0 / p0) (a1 / p1) (rpart a0 a1 p0 p1 loc f)).
  change (g0 parts) with (a0 / p0). change (g1 parts) with (a1 / p1).
  pose proof (nparts_pos _ _ Hp0) as Hn0. pose proof (nparts_pos _ _ Hp1) as Hn1.
  unfold parts at 1. rewrite gget_make by lia. cbn [obind]. rewrite cell_index_partition_ok by (assumption || lia). cbn [obind snd].
  match goal with |- context [gbuild _ _ ?body] =>
  rewrite (gbuild_ok _ _ body (fun r c => Placed (loc r c) [r * p0; c * p1] [ext1 a0 p0 r; ext1 a1 p1 c]
        (gmake (ext1 a0 p0 r) (ext1 a1 p1 c) (fun x y =>
           let v := f [r * p0 + x; c * p1 + y] in
           if no_data v || (v =? 0) then marker else wrap t (found a0 a1 p0 p1 d [r * p0 + x; c * p1 + y])))))
  end.
  - cbn [obind]. eexists. split; [reflexivity|]. unfold array2. apply grid_raster; [assumption|assumption|].
    intros r c Hr Hc. cbn [pl_offset pl_shape pl_data]. auto.
  - intros r c Hr Hc. unfold parts. rewrite gget_make by lia. cbn [obind]. rewrite cell_index_partition_ok by (assumption || lia). cbn [obind fst].
    do 2 f_equal. apply gmake_ext. intros x y Hx Hy. cbn zeta. destruct (_ || _); [reflexivity|]. f_equal. unfold found, row, column. cbn [nth].
    destruct Hd as [->| ->]; cbn [Z.eqb Pos.eqb].
    + rewrite found_index_in by assumption. reflexivity.
    + rewrite found_index_in by assumption. reflexivity.
Qed.
End CellIndex.

(** From what the code computes to the documented results *)
Lemma range_regular t a0 a1 p0 p1 junk arr f start : int_type t -> raster_of [a0; a1] [p0; p1] arr f -> regular_rows a0 a1 p0 p1 ->
  countable t a0 a1 start ->
  exists out g, range t junk arr start = Ok out /\ raster_of [a0; a1] [p0; p1] out g /\
    forall x, in_shape [a0; a1] x -> g x = wrap t (start + rowmaj [a0; a1] x) /\ (start + a0 * a1 - 1 <= imax t -> g x = start + rowmaj [a0; a1] x).
Proof.
  intros Ht H Hreg Hc. assert (Hf : 0 < p0 <= a0 /\ 0 < p1 <= a1) by (destruct H as [_ [Hf _]]; now apply fits2). destruct Hf as [Hp0 Hp1].
  destruct (range_ok t Ht a0 a1 p0 p1 Hp0 Hp1 junk arr f start H Hc) as [out [E R]].
  exists out, (numbers t a0 a1 p0 p1 start). split; [exact E|]. split; [exact R|]. intros x Hx.
  destruct x as [|r [|c [|? ?]]]; cbn in Hx; try contradiction; try tauto. destruct Hx as [Hr [Hcc _]].
  assert (N : numbers t a0 a1 p0 p1 start [r; c] = wrap t (start + rowmaj [a0; a1] [r; c])).
  { unfold numbers, row, column. cbn [nth rowmaj volume]. f_equal.
    assert (part_row a0 p0 r * lag a1 p1 = 0); [|lia]. unfold part_row, lag. pose proof (nparts_pos _ _ Hp0).
    assert (0 <= r / p0) by (apply Z.div_pos; lia).
    destruct Hreg as [E1|[E1|E1]].
    - rewrite E1. destruct (_ =? _); lia.
    - rewrite E1. cbn. lia.
    - rewrite E1. replace (Z.min (r / p0) (1 - 1)) with 0 by lia. reflexivity. }
  rewrite N. split; [reflexivity|]. intros Hb. apply wrap_id; [exact Ht|]. destruct Hc as [[? ?] _]. cbn [rowmaj volume]. unfold representable. nia.
Qed.

Lemma range_irregular t a0 a1 p0 p1 junk arr f start : int_type t -> raster_of [a0; a1] [p0; p1] arr f -> ~ regular_rows a0 a1 p0 p1 ->
  countable t a0 a1 start ->
  exists out g, range t junk arr start = Ok out /\ raster_of [a0; a1] [p0; p1] out g /\
    in_shape [a0; a1] [p0 - 1; a1 - a1 mod p1] /\ in_shape [a0; a1] [p0; 0] /\ g [p0 - 1; a1 - a1 mod p1] = g [p0; 0].
Proof.
  intros Ht H Hreg Hc. assert (Hf : 0 < p0 <= a0 /\ 0 < p1 <= a1) by (destruct H as [_ [Hf _]]; now apply fits2). destruct Hf as [Hp0 Hp1].
  destruct (range_ok t Ht a0 a1 p0 p1 Hp0 Hp1 junk arr f start H Hc) as [out [E R]].
  exists out, (numbers t a0 a1 p0 p1 start). split; [exact E|]. split; [exact R|].
  pose proof (Z.mod_pos_bound a1 p1 ltac:(lia)) as Hm. pose proof (nparts_pos _ _ Hp0). pose proof (nparts_pos _ _ Hp1).
  assert (Hn : a1 mod p1 <> 0 /\ a1 / p1 <> 1 /\ a0 / p0 <> 1) by (unfold regular_rows in Hreg; tauto). destruct Hn as [N1 [N2 N3]].
  pose proof (Z.mul_div_le a0 p0 ltac:(lia)).
  split; [cbn; nia|]. split; [cbn; nia|]. unfold numbers, row, column, part_row, lag. cbn [nth].
  replace ((p0 - 1) / p0) with 0 by (symmetry; apply Z.div_small; lia). rewrite Z.div_same by lia.
  destruct (Z.eqb_spec (a1 / p1) 1); [lia|]. f_equal. rewrite (Z.min_l 0) by lia. rewrite (Z.min_l 1) by lia. lia.
Qed.

Lemma found_right a p b q i : 0 < p <= a -> 0 < q <= b -> 0 <= i < a -> a / p = 1 \/ (if b / q =? 1 then b else q) = p -> found_index a p b q i = i.
Proof.
  intros Hp Hq Hi Hr. unfold found_index. pose proof (nparts_pos _ _ Hp). assert (0 <= i / p) by (apply Z.div_pos; lia).
  destruct Hr as [E|E].
  - replace (Z.min (i / p) (a / p - 1)) with 0 by lia. cbn. lia.
  - destruct (Z.eqb_spec (Z.min (i / p) (a / p - 1)) 0) as [E0|E0]; [rewrite E0; lia|].
    assert (ext1 b q 0 = p) as ->; [|lia]. unfold ext1. replace (0 =? b / q - 1) with (b / q =? 1) by lia. rewrite <- E. destruct (_ =? 1); lia.
Qed.
Lemma found_wrong a p b q : 0 < p <= a -> 0 < q <= b -> ~ (a / p = 1 \/ (if b / q =? 1 then b else q) = p) -> found_index a p b q p <> p.
Proof.
  intros Hp Hq Hr. unfold found_index. pose proof (nparts_pos _ _ Hp). rewrite Z.div_same by lia. rewrite Z.min_l by lia. cbn [Z.eqb].
  assert (ext1 b q 0 = if b / q =? 1 then b else q); [|lia]. unfold ext1. replace (0 =? b / q - 1) with (b / q =? 1) by lia. destruct (_ =? 1); lia.
Qed.

Lemma cell_index_right t no_data mark marker junk a0 a1 p0 p1 arr f d : int_type t -> (forall v, mark v = marker) ->
  raster_of [a0; a1] [p0; p1] arr f -> d = 0 \/ d = 1 -> one_or_square a0 a1 p0 p1 d ->
  exists out g, cell_index t no_data mark junk arr d = Ok out /\ raster_of [a0; a1] [p0; p1] out g /\
    forall x, in_shape [a0; a1] x ->
      (no_data (f x) = true \/ f x = 0 -> g x = marker) /\
      (no_data (f x) = false -> f x <> 0 -> representable t (nth (Z.to_nat d) x 0) -> g x = nth (Z.to_nat d) x 0).
Proof.
  intros Ht Hm H Hd Hs. assert (Hf : 0 < p0 <= a0 /\ 0 < p1 <= a1) by (destruct H as [_ [Hf _]]; now apply fits2). destruct Hf as [Hp0 Hp1].
  destruct (cell_index_ok t no_data mark marker junk Hm a0 a1 p0 p1 arr f d H Hd) as [out [E R]].
  exists out. eexists. split; [exact E|]. split; [exact R|]. intros x Hx. cbn beta. split.
  - intros [->| ->]; [reflexivity|]. now rewrite orb_true_r.
  - intros -> H0 Hr. destruct (Z.eqb_spec (f x) 0); [contradiction|]. cbn [orb].
    destruct x as [|r [|c [|? ?]]]; cbn in Hx; try contradiction; try tauto. destruct Hx as [Hrr [Hcc _]].
    assert (Ef : found a0 a1 p0 p1 d [r; c] = nth (Z.to_nat d) [r; c] 0).
    { unfold found, row, column. unfold one_or_square, first_extent in Hs.
      destruct Hd as [->| ->]; [change (Z.to_nat 0) with 0%nat|change (Z.to_nat 1) with 1%nat]; cbn [Z.eqb Pos.eqb nth] in *; apply found_right; assumption. }
    rewrite Ef. now apply wrap_id.
Qed.
Lemma cell_index_wrong t no_data mark marker junk a0 a1 p0 p1 arr f d : int_type t -> (forall v, mark v = marker) ->
  raster_of [a0; a1] [p0; p1] arr f -> d = 0 \/ d = 1 -> ~ one_or_square a0 a1 p0 p1 d -> representable t a0 -> representable t a1 ->
  exists out g, cell_index t no_data mark junk arr d = Ok out /\ raster_of [a0; a1] [p0; p1] out g /\
    let x := if d =? 0 then [p0; 0] else [0; p1] in
    in_shape [a0; a1] x /\ (no_data (f x) = false -> f x <> 0 -> g x <> nth (Z.to_nat d) x 0).
Proof.
  intros Ht Hm H Hd Hs R0 R1. assert (Hf : 0 < p0 <= a0 /\ 0 < p1 <= a1) by (destruct H as [_ [Hf _]]; now apply fits2). destruct Hf as [Hp0 Hp1].
  destruct (cell_index_ok t no_data mark marker junk Hm a0 a1 p0 p1 arr f d H Hd) as [out [E R]].
  exists out. eexists. split; [exact E|]. split; [exact R|]. cbv zeta.
  pose proof (nparts_pos _ _ Hp0). pose proof (nparts_pos _ _ Hp1). unfold one_or_square, first_extent in Hs.
  pose proof (Z.mul_div_le a0 p0 ltac:(lia)). pose proof (Z.mul_div_le a1 p1 ltac:(lia)).
  assert (M0 : imin t <= 0) by (unfold imin; pose proof (pow_split t Ht); destruct (signed t); lia).
  assert (B : forall a p b q, 0 < p <= a -> 0 < q <= b -> a / p <> 1 -> representable t b -> 1 <= a / p -> representable t (found_index a p b q p)).
  { intros a p b q Hp Hq Hn Hb Hl. unfold found_index. rewrite Z.div_same by lia. rewrite Z.min_l by lia. cbn [Z.eqb].
    pose proof (ext1_pos b q 0 Hq ltac:(pose proof (nparts_pos _ _ Hq); lia)). unfold representable in *. unfold ext1 in *. destruct (0 =? _); lia. }
  destruct Hd as [->| ->]; [change (Z.to_nat 0) with 0%nat|change (Z.to_nat 1) with 1%nat]; cbn [Z.eqb Pos.eqb] in *.
  - assert (a0 / p0 <> 1) by tauto. split; [cbn; nia|]. intros -> H0'. destruct (Z.eqb_spec (f [p0; 0]) 0); [contradiction|]. cbn [orb].
    unfold found, row. cbn [Z.eqb nth]. rewrite wrap_id by auto. now apply found_wrong.
  - assert (a1 / p1 <> 1) by tauto. split; [cbn; nia|]. intros -> H0'. destruct (Z.eqb_spec (f [0; p1]) 0); [contradiction|]. cbn [orb].
    unfold found, column. cbn [Z.eqb nth Pos.eqb]. rewrite wrap_id by auto. now apply found_wrong.
Qed.
