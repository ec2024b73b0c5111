(** What importing and exporting a raster are for: the same cells, the same no-data value. *)
From Coq Require Import QArith Qcanon.
From Verif Require Import Common GdalModel GdalSpec TranslateModel.
Open Scope Z_scope.

(** The layer and the band contain the same values. *)
Definition same_values {E} (a : layer E) (b : band E) : Prop :=
  l_shape a = b_shape b /\
  l_no_data a = (if b_no_data_set b then Some (b_no_data b) else None) /\
  forall r c, in_shape (b_shape b) r c -> l_cell a r c = b_cell b r c.

(** The band's natural block is the whole raster. *)
Definition one_block {E} (b : band E) : Prop :=
  0 < fst (b_shape b) /\ 0 < snd (b_shape b) /\ b_block b = b_shape b.

(** The band is stored as strips of [rows] full rows; the raster has more than one of them. *)
Definition strips_of {E} (b : band E) (rows : Z) : Prop :=
  0 < snd (b_shape b) /\ 0 < rows < fst (b_shape b) /\ b_block b = (rows, snd (b_shape b)).

(** North is up, and no rotation *)
Definition north_up (g : geo_transform) : Prop :=
  g_row_rotation g = Q2Qc 0 /\ g_col_rotation g = Q2Qc 0 /\ Qcle (Q2Qc 0) (g_cell_width g) /\ Qcle (g_cell_height g) (Q2Qc 0).
