(** C63: comparing two rasters. *)
From Verif Require Import Common GdalModel GdalSpec GdalProofs GdalProofs2.

(** The valid cells of the blocks of a band tile the raster: no cell is in two blocks, none is in no block. *)
Theorem C63_blocks_tile : forall shape block,
  0 < fst block <= fst shape -> 0 < snd block <= snd shape ->
  exists bs, make_blocks shape block = Ok bs /\ tile shape block bs.
Proof. exact blocks_tile. Qed.
Print Assumptions C63_blocks_tile.

Example C63_blocks_tile_case : exists bs, make_blocks (5, 7) (2, 3) = Ok bs /\ bl_in_blocks bs = (3, 3) /\
  shape_in_valid_cells bs (2, 2) = (1, 1) /\ shape_in_valid_cells bs (0, 2) = (2, 1).
Proof. eexists. repeat split; reflexivity. Qed.

(** compare_rasters reports no difference exactly if the rasters contain the same information.
    Missing: rasters that are not made up of as many rows as columns of whole blocks, of the same shape in both rasters. *)
Theorem C63_compare_partial : forall (E : Type) (eqb : E -> E -> bool) (isnan : E -> bool) (zero : E) k block (x y : raster E),
  well_formed x -> well_formed y -> square_grid_of_blocks k block x -> square_grid_of_blocks k block y ->
  exists ds, compare_rasters eqb isnan zero (Some x) (Some y) = Ok ds /\
             (ds = [] <-> same_information eqb isnan x y).
Proof. intros E eqb isnan. exact (compare_square eqb isnan). Qed.
Print Assumptions C63_compare_partial.

Definition int_raster (shape block : pair2) (cell outside : Z -> Z -> Z) : raster Z := one_band 0 Int32 [0; 1; 0; 0; 0; -1] shape block cell outside.

Example C63_compare_case : 
  let x := int_raster (2, 4) (1, 2) (fun r c => 10 * r + c) (fun _ _ => 0) in
  let y := int_raster (2, 4) (1, 2) (fun r c => if (r =? 1) && (c =? 3) then 99 else 10 * r + c) (fun _ _ => 0) in
  well_formed x /\ well_formed y /\ square_grid_of_blocks 2 (1, 2) x /\ square_grid_of_blocks 2 (1, 2) y /\
  compare_rasters Z.eqb (fun _ => false) 0 (Some x) (Some x) = Ok [] /\
  compare_rasters Z.eqb (fun _ => false) 0 (Some x) (Some y) = Ok [DifferentCells].
Proof. repeat split; try (repeat constructor; fail); reflexivity. Qed.

(** A dataset that cannot be opened is reported; so is each difference in shape, type, number of bands and geo-transformation,
    for all rasters, whatever their blocks are. *)
Theorem C63_metadata : forall (E : Type) (eqb : E -> E -> bool) (isnan : E -> bool) (zero : E),
  (forall d1 d2, d1 = None \/ d2 = None -> compare_rasters eqb isnan zero d1 d2 = Ok [NotExist]) /\
  (forall x y : raster E,
     (r_shape x <> r_shape y \/ r_type x <> r_type y \/ length (r_bands x) <> length (r_bands y) \/
      ~ Forall2 (fun g h => eqb g h = true) (r_geo x) (r_geo y)) ->
     exists ds, compare_rasters eqb isnan zero (Some x) (Some y) = Ok ds /\
       (In DifferentShapes ds <-> r_shape x <> r_shape y) /\
       (In DifferentTypes ds <-> r_type x <> r_type y) /\
       (In DifferentNrBands ds <-> length (r_bands x) <> length (r_bands y)) /\
       (In DifferentGeoTransforms ds <-> ~ Forall2 (fun g h => eqb g h = true) (r_geo x) (r_geo y)) /\
       ~ In NotExist ds /\ ~ In DifferentCells ds).
Proof. intros E eqb isnan. exact (compare_metadata eqb isnan). Qed.
Print Assumptions C63_metadata.

Example C63_metadata_case :
  compare_rasters Z.eqb (fun _ => false) 0 (Some (int_raster (2, 4) (2, 4) (fun _ _ => 0) (fun _ _ => 0)))
    (Some (one_band 0 Int16 [0; 1; 0; 0; 0; -1] (2, 5) (1, 5) (fun _ _ => 0) (fun _ _ => 0))) = Ok [DifferentShapes; DifferentTypes] /\
  compare_rasters Z.eqb (fun _ => false) 0 None (Some (int_raster (2, 4) (2, 4) (fun _ _ => 0) (fun _ _ => 0))) = Ok [NotExist].
Proof. split; reflexivity. Qed.

(** With two blocks side by side, what is in the second block is never compared: rasters that differ there are the same. *)
Theorem C63_second_block_refuted : forall (E : Type) (eqb : E -> E -> bool) (isnan : E -> bool) (zero : E) t geo br bc cell1 out1 cell2 out2,
  supported t = true -> (forall g, In g geo -> eqb g g = true) -> 0 < br -> 0 < bc ->
  (forall r c, 0 <= r < br -> 0 <= c < bc -> eqb (cell1 r c) (cell2 r c) = true) ->
  compare_rasters eqb isnan zero (Some (one_band zero t geo (br, 2 * bc) (br, bc) cell1 out1))
    (Some (one_band zero t geo (br, 2 * bc) (br, bc) cell2 out2)) = Ok [].
Proof. intros E eqb isnan. exact (two_blocks_wide eqb isnan). Qed.
Print Assumptions C63_second_block_refuted.

Example C63_second_block_case :
  compare_rasters Z.eqb (fun _ => false) 0
    (Some (int_raster (2, 4) (2, 2) (fun _ c => if c <? 2 then 5 else 6) (fun _ _ => 0)))
    (Some (int_raster (2, 4) (2, 2) (fun _ c => if c <? 2 then 5 else 7) (fun _ _ => 0))) = Ok [].
Proof. reflexivity. Qed.

(** A raster stored as three or more strips cannot be compared, not even with itself: iterators before the start of a vector. *)
Theorem C63_strips_refuted : forall (E : Type) (eqb : E -> E -> bool) (isnan : E -> bool) (zero : E) t geo k br bc cell1 out1 cell2 out2,
  supported t = true -> (forall g, In g geo -> eqb g g = true) -> 3 <= k -> 0 < br -> 0 < bc ->
  (forall r c, 0 <= r < br -> 0 <= c < bc -> eqb (cell1 r c) (cell2 r c) = true) ->
  compare_rasters eqb isnan zero (Some (one_band zero t geo (k * br, bc) (br, bc) cell1 out1))
    (Some (one_band zero t geo (k * br, bc) (br, bc) cell2 out2)) = UB.
Proof. intros E eqb isnan. exact (strips eqb isnan). Qed.
Print Assumptions C63_strips_refuted.

Example C63_strips_case :
  let x := int_raster (6, 5) (2, 5) (fun r c => 10 * r + c) (fun _ _ => 0) in
  compare_rasters Z.eqb (fun _ => false) 0 (Some x) (Some x) = UB.
Proof. reflexivity. Qed.

(** With partial blocks, elements outside of the raster are compared and cells inside of it are not. *)
Theorem C63_partial_blocks_refuted :
  (exists x y : raster Z, well_formed x /\ well_formed y /\ same_information Z.eqb (fun _ => false) x y /\
     compare_rasters Z.eqb (fun _ => false) 0 (Some x) (Some y) = Ok [DifferentCells]) /\
  (exists x y : raster Z, well_formed x /\ well_formed y /\ ~ same_information Z.eqb (fun _ => false) x y /\
     Forall (fun b => b_block b = (2, 2) /\ b_shape b = (3, 3)) (r_bands x ++ r_bands y) /\
     compare_rasters Z.eqb (fun _ => false) 0 (Some x) (Some y) = Ok []).
Proof.
  split.
  - exists (int_raster (3, 3) (2, 2) (fun r c => r + c) (fun _ _ => 0)), (int_raster (3, 3) (2, 2) (fun r c => r + c) (fun _ _ => 8)).
    repeat split; try reflexivity; try (repeat constructor; fail).
    constructor; [|constructor]. repeat split; try reflexivity; [left; auto|].
    intros r c _. left. cbn. lia.
  - exists (int_raster (3, 3) (2, 2) (fun r c => 0) (fun _ _ => 0)),
           (int_raster (3, 3) (2, 2) (fun r c => if (r =? 1) && (c =? 2) then 1 else 0) (fun _ _ => 0)).
    repeat split; try reflexivity; try (repeat constructor; fail).
    intros [_ [_ [_ H]]]. inversion H as [|? ? ? ? [_ [_ [_ S]]] _]. specialize (S 1 2 ltac:(split; cbn; lia)).
    destruct S as [S|[S _]]; cbn in S; discriminate.
Qed.
Print Assumptions C63_partial_blocks_refuted.

(** A raster with a NaN in it, without NaN as its no-data value, differs from itself. *)
Theorem C63_nan_refuted : forall (E : Type) (eqb : E -> E -> bool) (isnan : E -> bool) (zero : E) t geo shape (cell out : Z -> Z -> E),
  supported t = true -> 0 < fst shape -> 0 < snd shape ->
  (exists r c, in_shape shape r c /\ eqb (cell r c) (cell r c) = false) ->
  let x := one_band zero t geo shape shape cell out in
  exists ds, compare_rasters eqb isnan zero (Some x) (Some x) = Ok ds /\ ds <> [].
Proof.
  intros E eqb isnan zero t geo [nr nc] cell out S H1 H2 [r [c [I Q]]] x. cbn [fst snd] in *.
  assert (WF : well_formed x).
  { repeat split; try assumption. repeat constructor. }
  assert (SG : square_grid_of_blocks 1 (nr, nc) x).
  { split; [lia|]. cbn [fst snd]. repeat split; try assumption. constructor; [|constructor].
    split; [reflexivity|]. cbn [b_shape]. f_equal; lia. }
  destruct (compare_square eqb isnan zero 1 (nr, nc) x x WF WF SG SG) as [ds [D1 D2]].
  exists ds. split; [exact D1|]. intros ->. destruct D2 as [D2 _]. specialize (D2 eq_refl).
  destruct D2 as [_ [_ [_ F]]]. inversion F as [|? ? ? ? [_ [_ [_ C]]] _]; subst.
  specialize (C r c I). destruct C as [C|[_ [C _]]]; cbn in C; congruence.
Qed.
Print Assumptions C63_nan_refuted.

Example C63_nan_case :   (* None: NaN *)
  let eqb (a b : option Z) := match a, b with Some v, Some w => v =? w | _, _ => false end in
  let isnan (a : option Z) := match a with None => true | _ => false end in
  let x := one_band (Some 0) Float32 [] (2, 2) (2, 2) (fun r c => if r + c =? 2 then None else Some 1) (fun _ _ => None) in
  compare_rasters eqb isnan (Some 0) (Some x) (Some x) = Ok [DifferentCells].
Proof. reflexivity. Qed.
