(** What it means for two rasters to contain the same information, and for blocks to tile a raster. *)
From Verif Require Import Common GdalModel.

Definition in_shape (s : pair2) (r c : Z) : Prop := 0 <= r < fst s /\ 0 <= c < snd s.

Section Elements.

Context {E : Type} (eqb : E -> E -> bool) (isnan : E -> bool).

(** Every band of a raster has the raster's shape and element type. *)
Definition well_formed (x : raster E) : Prop :=
  0 < fst (r_shape x) /\ 0 < snd (r_shape x) /\ supported (r_type x) = true /\
  Forall (fun b => b_shape b = r_shape x /\ b_type b = r_type x) (r_bands x).

(** Neither band has a no-data value, or both have the same one (NaN is the same as NaN). *)
Definition same_no_data (x y : band E) : Prop :=
  (b_no_data_set x = false /\ b_no_data_set y = false) \/
  (b_no_data_set x = true /\ b_no_data_set y = true /\
   (eqb (b_no_data x) (b_no_data y) = true \/
    (floating (b_type x) = true /\ isnan (b_no_data x) = true /\ isnan (b_no_data y) = true))).

(** Equal values; NaN is the same as NaN where it marks no-data. *)
Definition same_cell (x y : band E) (r c : Z) : Prop :=
  eqb (b_cell x r c) (b_cell y r c) = true \/
  (floating (b_type x) = true /\ b_no_data_set x = true /\ isnan (b_no_data x) = true /\
   isnan (b_cell x r c) = true /\ isnan (b_cell y r c) = true).

Definition same_band (x y : band E) : Prop :=
  b_shape x = b_shape y /\ b_type x = b_type y /\ same_no_data x y /\
  forall r c, in_shape (b_shape x) r c -> same_cell x y r c.

Definition same_information (x y : raster E) : Prop :=
  r_shape x = r_shape y /\ r_type x = r_type y /\
  Forall2 (fun g h => eqb g h = true) (r_geo x) (r_geo y) /\
  Forall2 same_band (r_bands x) (r_bands y).

(** The rasters are made up of k by k whole blocks. *)
Definition square_grid_of_blocks (k : Z) (block : pair2) (x : raster E) : Prop :=
  0 < k /\ 0 < fst block /\ 0 < snd block /\
  Forall (fun b => b_block b = block /\ b_shape b = (k * fst block, k * snd block)) (r_bands x).

End Elements.

(** Each cell of the raster is a valid cell of exactly one block, at exactly one place in it; valid cells are in the raster. *)
Definition tile (shape block : pair2) (bs : blocks) : Prop :=
  let valid off := shape_in_valid_cells bs off in
  (forall r c, in_shape shape r c ->
     exists off i j, (in_shape (bl_in_blocks bs) (fst off) (snd off) /\ in_shape (valid off) i j /\
                      r = fst off * fst block + i /\ c = snd off * snd block + j) /\
       forall off' i' j', in_shape (bl_in_blocks bs) (fst off') (snd off') -> in_shape (valid off') i' j' ->
                          r = fst off' * fst block + i' -> c = snd off' * snd block + j' ->
                          off' = off /\ i' = i /\ j' = j) /\
  (forall off i j, in_shape (bl_in_blocks bs) (fst off) (snd off) -> in_shape (valid off) i j ->
     in_shape shape (fst off * fst block + i) (snd off * snd block + j) /\
     in_shape block i j).

(** A raster of one band without a no-data value. *)
Definition one_band {E} (zero : E) (t : gdal_type) (geo : list E) (shape block : pair2) (cell outside : Z -> Z -> E) : raster E :=
  {| r_shape := shape; r_type := t; r_geo := geo;
     r_bands := [ {| b_shape := shape; b_block := block; b_type := t; b_no_data := zero; b_no_data_set := false;
                     b_cell := cell; b_outside := outside |} ] |}.
