(** What the window operations of PCRaster should give: statistics of the cells in a square around each cell, with a length in the unit of the map. *)
From Coq Require Import Reals Sorted.
From Flocq Require Import BinarySingleNaN.
From Verif Require Import Common Float64.
Open Scope Z_scope.

(** The distance between the centres of two cells that are [d] rows or columns apart is at most half of the window length *)
Definition within (cell_size window_length : R) (d : Z) : Prop := (Rabs (IZR d) * cell_size <= window_length / 2)%R.
(** The window is [k] by [k] cells, without rounding *)
Definition odd_multiple (cell_size window_length : b64) (k : Z) : Prop :=
  (0 < B2R cell_size)%R /\ is_finite window_length = true /\ B2R window_length = (IZR k * B2R cell_size)%R /\ k mod 2 = 1 /\ 0 < k <= 2 ^ 53.
(** Row by row *)
Definition row_major (x y : Z * Z) : Prop := fst x < fst y \/ fst x = fst y /\ snd x < snd y.

Section Spec.
Context {E : Type} (a0 a1 : Z) (valid : E -> bool) (f : list Z -> E) (cell_size window_length : R) (r c : Z).

(** [cells] are the cells in the window around ([r], [c]) that are in the raster and have a value, row by row *)
Definition window_cells (cells : list (Z * Z)) : Prop :=
  StronglySorted row_major cells /\
  forall x y, In (x, y) cells <-> (0 <= x < a0 /\ 0 <= y < a1 /\ valid (f [x; y]) = true /\ within cell_size window_length (x - r) /\ within cell_size window_length (y - c)).
(** ... except for the cell itself *)
Definition other_window_cells (cells : list (Z * Z)) : Prop :=
  StronglySorted row_major cells /\
  forall x y, In (x, y) cells <->
    ((x, y) <> (r, c) /\ 0 <= x < a0 /\ 0 <= y < a1 /\ valid (f [x; y]) = true /\ within cell_size window_length (x - r) /\ within cell_size window_length (y - c)).
(** The cell itself and the cells above, left, right and below it *)
Definition cross_cells (cells : list (Z * Z)) : Prop :=
  StronglySorted row_major cells /\
  forall x y, In (x, y) cells <-> (0 <= x < a0 /\ 0 <= y < a1 /\ valid (f [x; y]) = true /\ Z.abs (x - r) + Z.abs (y - c) <= 1).
Definition values_of (cells : list (Z * Z)) : list E := map (fun x => f [fst x; snd x]) cells.
End Spec.
