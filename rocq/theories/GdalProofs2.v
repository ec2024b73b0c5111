From Verif Require Import Common CommonProofs GdalModel GdalSpec GdalProofs.

Section Elements.

Context {E : Type} (eqb : E -> E -> bool) (isnan : E -> bool).

Lemma geo_refl : forall geo : list E, (forall g, In g geo -> eqb g g = true) -> geo_eqb eqb geo geo = true.
Proof.
  intros geo H. apply geo_eqb_iff. induction geo as [|g geo IH]; constructor; [apply H; left; reflexivity|].
  apply IH. intros h I. apply H. right. exact I.
Qed.

Lemma type_refl : forall t, gdal_type_eqb t t = true.
Proof. intros []; reflexivity. Qed.

Definition the_band (zero : E) (t : gdal_type) (shape block : pair2) (cell outside : Z -> Z -> E) : band E :=
  {| b_shape := shape; b_block := block; b_type := t; b_no_data := zero; b_no_data_set := false;
     b_cell := cell; b_outside := outside |}.

Lemma one_band_compare : forall zero t geo shape block cell1 out1 cell2 out2,
  supported t = true -> (forall g : E, In g geo -> eqb g g = true) ->
  compare_rasters eqb isnan zero (Some (one_band zero t geo shape block cell1 out1))
    (Some (one_band zero t geo shape block cell2 out2)) =
  obind (compare_values zero eqb (the_band zero t shape block cell1 out1) (the_band zero t shape block cell2 out2))
        (fun d => Ok (if d then [DifferentCells] else [])).
Proof.
  intros zero t geo shape block cell1 out1 cell2 out2 S G.
  unfold compare_rasters, one_band. cbn [r_shape r_type r_geo r_bands].
  assert (X : pair2_eqb shape shape = true) by (apply pair2_eqb_eq; reflexivity).
  rewrite X, type_refl, (geo_refl geo G). cbn [length Nat.eqb report app andb compare_all_bands]. rewrite S.
  unfold compare_raster_bands. cbn [b_shape b_type b_no_data_set b_no_data]. rewrite X, type_refl.
  cbn [andb orb negb report app].
  assert (Q : same_element eqb isnan (floating t) false zero = eqb).
  { unfold same_element. destruct (floating t); reflexivity. }
  rewrite Q. unfold the_band.
  destruct (compare_values zero eqb _ _) as [[]| |]; reflexivity.
Qed.

Lemma all_blocks_1_2 : all_blocks (1, 2) = [(0, 0); (0, 1)].
Proof. reflexivity. Qed.

Lemma the_band_read : forall zero t shape block cell out y x buf,
  0 < fst block -> 0 < snd block -> 0 <= y -> 0 <= x -> y * fst block < fst shape -> x * snd block < snd shape ->
  length buf = Z.to_nat (nr_elements block) ->
  let b := the_band zero t shape block cell out in
  read_block b (y, x) buf = Ok (block_values b (y, x)) /\
  length (block_values b (y, x)) = Z.to_nat (nr_elements block).
Proof.
  intros zero t shape block cell out y x buf H1 H2 Y X HY HX L b.
  assert (N : length (block_values b (y, x)) = Z.to_nat (nr_elements block)).
  { rewrite block_values_len; cbn [b the_band b_block]; try lia. }
  split; [|exact N]. apply read_block_exact; [|congruence].
  unfold block_exists. cbn [b the_band b_block b_shape fst snd]. lia.
Qed.

(** A raster of one row of two blocks: only the first block is looked at. *)
Theorem two_blocks_wide : forall zero t geo br bc cell1 out1 cell2 out2,
  supported t = true -> (forall g : E, In g geo -> eqb g g = true) -> 0 < br -> 0 < bc ->
  (forall r c, 0 <= r < br -> 0 <= c < bc -> eqb (cell1 r c) (cell2 r c) = true) ->
  compare_rasters eqb isnan zero (Some (one_band zero t geo (br, 2 * bc) (br, bc) cell1 out1))
    (Some (one_band zero t geo (br, 2 * bc) (br, bc) cell2 out2)) = Ok [].
Proof.
  intros zero t geo br bc cell1 out1 cell2 out2 S G R C H. rewrite one_band_compare by assumption.
  set (b1 := the_band zero t (br, 2 * bc) (br, bc) cell1 out1). set (b2 := the_band zero t (br, 2 * bc) (br, bc) cell2 out2).
  unfold compare_values, make_blocks. cbn [b1 the_band b_shape b_block fst snd].
  replace ((br <=? br) && (bc <=? 2 * bc)) with true by lia. cbn [obind].
  replace (br >? 0) with true by lia. replace (bc >? 0) with true by lia.
  unfold nr_elements at 1. cbn [fst snd]. replace (br * bc <? 0) with false by nia. cbn [bl_in_blocks].
  rewrite (extent_square 2 bc) by lia. replace (extent_in_blocks br br) with 1 by (rewrite <- (extent_square 1 br) by lia; f_equal; lia).
  rewrite all_blocks_1_2. fold b1.
  set (v := repeat zero _). assert (LV : length v = Z.to_nat (nr_elements (br, bc))) by apply repeat_length.
  cbn [compare_blocks].
  destruct (the_band_read zero t (br, 2 * bc) (br, bc) cell1 out1 0 0 v) as [R1 N1]; cbn [fst snd]; try lia.
  destruct (the_band_read zero t (br, 2 * bc) (br, bc) cell2 out2 0 0 v) as [R2 N2]; cbn [fst snd]; try lia.
  fold b1 in R1, N1. fold b2 in R2, N2. rewrite R1. cbn [obind]. rewrite R2. cbn [obind].
  match goal with |- context [compare_elements eqb _ _ ?n] => replace n with (br * bc) end.
  2:{ unfold nr_elements, shape_in_valid_cells, nr_valid_cells. cbn [bl_raster bl_block fst snd].
      destruct ((0 + 1) * br >? br) eqn:?, ((0 + 1) * bc >? 2 * bc) eqn:?; nia. }
  unfold compare_elements. rewrite N1, N2. unfold nr_elements at 1 2. cbn [fst snd].
  replace ((br * bc <? 0) || (Z.of_nat (Z.to_nat (br * bc)) <? br * bc) || (Z.of_nat (Z.to_nat (br * bc)) <? br * bc))
    with false by nia.
  cbn [obind]. unfold nr_elements in N1, N2. cbn [fst snd] in N1, N2.
  rewrite (firstn_all2 (block_values b1 (0, 0))) by lia. rewrite (firstn_all2 (block_values b2 (0, 0))) by lia.
  assert (Q : equal_lists eqb (block_values b1 (0, 0)) (block_values b2 (0, 0)) = true).
  { apply equal_lists_iff; [congruence|]. apply block_values_same; [reflexivity|].
    cbn [b1 b2 the_band b_block]. intros i j [Hi Hj]. cbn [fst snd] in *. fold b1 b2.
    rewrite !cell_inside by (cbn [b1 b2 the_band b_shape]; unfold in_shape; cbn [fst snd]; lia).
    cbn [b1 b2 the_band b_cell]. apply H; lia. }
  rewrite Q. cbn [obind].
  destruct (the_band_read zero t (br, 2 * bc) (br, bc) cell1 out1 0 1 (block_values b1 (0, 0))) as [R3 N3];
    cbn [fst snd]; try lia; [unfold nr_elements; cbn [fst snd]; lia|].
  destruct (the_band_read zero t (br, 2 * bc) (br, bc) cell2 out2 0 1 (block_values b2 (0, 0))) as [R4 N4];
    cbn [fst snd]; try lia; [unfold nr_elements; cbn [fst snd]; lia|].
  fold b1 in R3, N3. fold b2 in R4, N4. rewrite R3. cbn [obind]. rewrite R4. cbn [obind].
  match goal with |- context [nr_elements ?s] => replace (nr_elements s) with 0 end.
  2:{ unfold nr_elements, shape_in_valid_cells, nr_valid_cells. cbn [bl_raster bl_block fst snd].
      destruct ((1 + 1) * br >? br) eqn:?; nia. }
  unfold compare_elements. rewrite N3, N4.
  replace ((0 <? 0) || (Z.of_nat (Z.to_nat (nr_elements (br, bc))) <? 0) || (Z.of_nat (Z.to_nat (nr_elements (br, bc))) <? 0))
    with false by lia.
  reflexivity.
Qed.

(** The first values of a buffer that was read *)
Lemma compare_blocks_ub : forall eq bs (b1 b2 : band E) pre y x post v1 v2 n0,
  nr_elements (shape_in_valid_cells bs (x, y)) < 0 ->
  Forall (fun o => exists d, nr_elements (shape_in_valid_cells bs (snd o, fst o)) = d /\ 0 <= d <= Z.of_nat n0) pre ->
  (forall o v, In o (pre ++ [(y, x)]) -> length v = n0 -> read_block b1 o v = Ok (block_values b1 o) /\ length (block_values b1 o) = n0) ->
  (forall o v, In o (pre ++ [(y, x)]) -> length v = n0 -> read_block b2 o v = Ok (block_values b2 o) /\ length (block_values b2 o) = n0) ->
  length v1 = n0 -> length v2 = n0 ->
  compare_blocks eq bs b1 b2 (pre ++ (y, x) :: post) v1 v2 = UB \/
  (exists o, In o pre /\ equal_lists eq (firstn (Z.to_nat (nr_elements (shape_in_valid_cells bs (snd o, fst o)))) (block_values b1 o))
                          (firstn (Z.to_nat (nr_elements (shape_in_valid_cells bs (snd o, fst o)))) (block_values b2 o)) = false).
Proof.
  intros eq bs b1 b2 pre y x post. induction pre as [|[y' x'] pre IH]; intros v1 v2 n0 N F R1 R2 L1 L2;
    cbn [app compare_blocks].
  - left. destruct (R1 (y, x) v1 (or_introl eq_refl) L1) as [A1 A2]. destruct (R2 (y, x) v2 (or_introl eq_refl) L2) as [A3 A4].
    rewrite A1. cbn [obind]. rewrite A3. cbn [obind]. unfold compare_elements.
    replace (nr_elements (shape_in_valid_cells bs (x, y)) <? 0) with true by lia. reflexivity.
  - inversion F as [|? ? [d [D1 D2]] F']; subst. cbn [fst snd] in D2.
    destruct (R1 (y', x') v1 (or_introl eq_refl) eq_refl) as [A1 A2]. destruct (R2 (y', x') v2 (or_introl eq_refl) L2) as [A3 A4].
    rewrite A1. cbn [obind]. rewrite A3. cbn [obind]. unfold compare_elements.
    replace ((nr_elements (shape_in_valid_cells bs (x', y')) <? 0) ||
      (Z.of_nat (length (block_values b1 (y', x'))) <? nr_elements (shape_in_valid_cells bs (x', y'))) ||
      (Z.of_nat (length (block_values b2 (y', x'))) <? nr_elements (shape_in_valid_cells bs (x', y')))) with false by lia.
    cbn [obind]. destruct (equal_lists eq _ _) eqn:Q.
    + destruct (IH (block_values b1 (y', x')) (block_values b2 (y', x')) (length v1)) as [U|[o [I U]]]; auto.
      * intros o v I. apply R1. right. exact I.
      * intros o v I. apply R2. right. exact I.
      * right. exists o. split; [right; exact I | exact U].
    + right. exists (y', x'). split; [left; reflexivity | exact Q].
Qed.

Lemma zseq_split3 : forall k, 3 <= k -> zseq 0 k = [0; 1] ++ 2 :: zseq 3 (k - 3).
Proof.
  intros k K. unfold zseq. replace (Z.to_nat k) with (S (S (S (Z.to_nat (k - 3))))) by lia.
  cbn [seq map app]. f_equal. f_equal. f_equal. rewrite <- !seq_shift, !map_map. apply map_ext. intros. lia.
Qed.

(** A raster of three or more strips: undefined behaviour, unless the first strips differ. *)
Theorem strips : forall zero t geo k br bc cell1 out1 cell2 out2,
  supported t = true -> (forall g : E, In g geo -> eqb g g = true) -> 3 <= k -> 0 < br -> 0 < bc ->
  (forall r c, 0 <= r < br -> 0 <= c < bc -> eqb (cell1 r c) (cell2 r c) = true) ->
  compare_rasters eqb isnan zero (Some (one_band zero t geo (k * br, bc) (br, bc) cell1 out1))
    (Some (one_band zero t geo (k * br, bc) (br, bc) cell2 out2)) = UB.
Proof.
  intros zero t geo k br bc cell1 out1 cell2 out2 S G K R C H. rewrite one_band_compare by assumption.
  set (b1 := the_band zero t (k * br, bc) (br, bc) cell1 out1). set (b2 := the_band zero t (k * br, bc) (br, bc) cell2 out2).
  unfold compare_values, make_blocks. cbn [b1 the_band b_shape b_block fst snd].
  replace ((br <=? k * br) && (bc <=? bc)) with true by nia. cbn [obind].
  replace (br >? 0) with true by lia. replace (bc >? 0) with true by lia.
  unfold nr_elements at 1. cbn [fst snd]. replace (br * bc <? 0) with false by nia. cbn [bl_in_blocks].
  rewrite (extent_square k br) by lia. replace (extent_in_blocks bc bc) with 1 by (rewrite <- (extent_square 1 bc) by lia; f_equal; lia).
  fold b1. set (bs := {| bl_raster := _ |}).
  assert (AB : all_blocks (k, 1) = [(0, 0); (1, 0)] ++ (2, 0) :: flat_map (fun y => [(y, 0)]) (zseq 3 (k - 3))).
  { unfold all_blocks. cbn [fst snd]. rewrite (zseq_split3 k) by lia. reflexivity. }
  rewrite AB.
  assert (RD : forall cell out o v, In o ([(0, 0); (1, 0)] ++ [(2, 0)]) -> length v = Z.to_nat (nr_elements (br, bc)) ->
     let b := the_band zero t (k * br, bc) (br, bc) cell out in
     read_block b o v = Ok (block_values b o) /\ length (block_values b o) = Z.to_nat (nr_elements (br, bc))).
  { intros cell out o v I L b. cbn [app In] in I.
    destruct I as [<-|[<-|[<-|[]]]]; apply the_band_read; cbn [fst snd]; try lia; try nia. }
  assert (V0 : shape_in_valid_cells bs (0, 0) = (br, bc)).
  { assert (br <= k * br) by nia. unfold shape_in_valid_cells, nr_valid_cells. cbn [bs bl_raster bl_block fst snd].
    destruct ((0 + 1) * br >? k * br) eqn:?, ((0 + 1) * bc >? bc) eqn:?; f_equal; nia. }
  assert (V1 : shape_in_valid_cells bs (0, 1) = (br, 0)).
  { assert (br <= k * br) by nia. unfold shape_in_valid_cells, nr_valid_cells. cbn [bs bl_raster bl_block fst snd].
    destruct ((0 + 1) * br >? k * br) eqn:?, ((1 + 1) * bc >? bc) eqn:?; f_equal; nia. }
  assert (V2 : shape_in_valid_cells bs (0, 2) = (br, - bc)).
  { assert (br <= k * br) by nia. unfold shape_in_valid_cells, nr_valid_cells. cbn [bs bl_raster bl_block fst snd].
    destruct ((0 + 1) * br >? k * br) eqn:?, ((2 + 1) * bc >? bc) eqn:?; f_equal; nia. }
  set (v := repeat zero _). assert (LV : length v = Z.to_nat (nr_elements (br, bc))) by apply repeat_length.
  match goal with |- obind (compare_blocks _ _ _ _ (_ ++ _ :: ?post) _ _) _ = _ =>
    destruct (compare_blocks_ub eqb bs b1 b2 [(0, 0); (1, 0)] 2 0 post v v (Z.to_nat (nr_elements (br, bc)))) as [U|[o [I U]]] end.
  - rewrite V2. unfold nr_elements. cbn [fst snd]. nia.
  - constructor; [|constructor; [|constructor]]; eexists; (split; [reflexivity|]); cbn [fst snd].
    + rewrite V0. unfold nr_elements. cbn [fst snd]. nia.
    + rewrite V1. unfold nr_elements. cbn [fst snd]. nia.
  - intros o w I L. apply RD; assumption.
  - intros o w I L. apply RD; assumption.
  - exact LV.
  - exact LV.
  - rewrite U. reflexivity.
  - exfalso. cbn [In] in I. destruct I as [<-|[<-|[]]]; cbn [fst snd] in U.
    + rewrite V0 in U.
      destruct (RD cell1 out1 (0, 0) v (or_introl eq_refl) LV) as [_ N1]. destruct (RD cell2 out2 (0, 0) v (or_introl eq_refl) LV) as [_ N2].
      fold b1 in N1. fold b2 in N2.
      rewrite !firstn_all2 in U by lia.
      assert (Q : equal_lists eqb (block_values b1 (0, 0)) (block_values b2 (0, 0)) = true).
      { apply equal_lists_iff; [congruence|]. apply block_values_same; [reflexivity|].
        cbn [b1 b2 the_band b_block]. intros i j [Hi Hj]. cbn [fst snd] in *. fold b1 b2.
        rewrite !cell_inside by (cbn [b1 b2 the_band b_shape]; unfold in_shape; cbn [fst snd]; nia).
        cbn [b1 b2 the_band b_cell]. apply H; lia. }
      congruence.
    + rewrite V1 in U. unfold nr_elements in U. cbn [fst snd] in U. replace (br * 0) with 0 in U by lia. discriminate.
Qed.


Lemma report_in : forall ok d e, In e (report ok d) <-> ok = false /\ e = d.
Proof.
  intros [|] d e; cbn [report]; split.
  - intros [].
  - intros [H _]. discriminate.
  - intros [H|[]]. auto.
  - intros [_ H]. left. auto.
Qed.

Theorem compare_metadata : forall zero : E,
  (forall d1 d2, d1 = None \/ d2 = None -> compare_rasters eqb isnan zero d1 d2 = Ok [NotExist]) /\
  (forall x y : raster E,
     (r_shape x <> r_shape y \/ r_type x <> r_type y \/ length (r_bands x) <> length (r_bands y) \/
      ~ Forall2 (fun g h => eqb g h = true) (r_geo x) (r_geo y)) ->
     exists ds, compare_rasters eqb isnan zero (Some x) (Some y) = Ok ds /\
       (In DifferentShapes ds <-> r_shape x <> r_shape y) /\
       (In DifferentTypes ds <-> r_type x <> r_type y) /\
       (In DifferentNrBands ds <-> length (r_bands x) <> length (r_bands y)) /\
       (In DifferentGeoTransforms ds <-> ~ Forall2 (fun g h => eqb g h = true) (r_geo x) (r_geo y)) /\
       ~ In NotExist ds /\ ~ In DifferentCells ds).
Proof.
  intros zero. split.
  - intros [x|] [y|] [H|H]; try discriminate; reflexivity.
  - intros x y H. unfold compare_rasters. cbv zeta.
    destruct (pair2_eqb (r_shape x) (r_shape y)) eqn:E1; destruct (gdal_type_eqb (r_type x) (r_type y)) eqn:E2;
    destruct (geo_eqb eqb (r_geo x) (r_geo y)) eqn:E4;
    destruct (Nat.eqb (length (r_bands x)) (length (r_bands y))) eqn:E3; cbn [andb];
    assert (S1 := pair2_eqb_eq (r_shape x) (r_shape y)); assert (S2 := gdal_type_eqb_eq (r_type x) (r_type y));
    assert (S3 := Nat.eqb_eq (length (r_bands x)) (length (r_bands y))); assert (S4 := geo_eqb_iff eqb (r_geo x) (r_geo y));
    rewrite E1 in S1; rewrite E2 in S2; rewrite E3 in S3; rewrite E4 in S4;
    try (exfalso; destruct S1, S2, S3, S4; intuition congruence; fail);
    (eexists; split; [reflexivity|]); rewrite !in_app_iff, !report_in;
    repeat split; intuition congruence.
Qed.

End Elements.
