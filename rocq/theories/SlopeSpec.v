(** Specification vocabulary for slope and aspect; independent of the code.  Arithmetic is exact. *)
From Coq Require Import Reals.
From Verif Require Import Common FlowSpec TerrainSpec.
Open Scope R_scope.

(** A cell's value; [None] is no-data. *)
Definition number := option R.
Definition value_or_zero (v : number) : R := match v with Some x => x | None => 0 end.

(** Horn's estimates of the gradients to the east and to the south.  Cells outside of the array and cells without a value
    count as 0. *)
Definition horn_east (z : Z -> Z -> R) (cell_size : R) (r c : Z) : R :=
  (z (r - 1)%Z (c + 1)%Z + 2 * z r (c + 1)%Z + z (r + 1)%Z (c + 1)%Z - (z (r - 1)%Z (c - 1)%Z + 2 * z r (c - 1)%Z + z (r + 1)%Z (c - 1)%Z)) / (8 * cell_size).
Definition horn_south (z : Z -> Z -> R) (cell_size : R) (r c : Z) : R :=
  (z (r + 1)%Z (c - 1)%Z + 2 * z (r + 1)%Z c + z (r + 1)%Z (c + 1)%Z - (z (r - 1)%Z (c - 1)%Z + 2 * z (r - 1)%Z c + z (r - 1)%Z (c + 1)%Z)) / (8 * cell_size).

(** An inclined plane: [south] and [east] are the differences in elevation between neighbouring cells. *)
Definition plane (level south east : R) (x : list Z) : number :=
  Some (level + south * IZR (nth 0 x 0%Z) + east * IZR (nth 1 x 0%Z)).
(** A cell that is not at the border *)
Definition interior (a0 a1 r c : Z) : Prop := (1 <= r < a0 - 1)%Z /\ (1 <= c < a1 - 1)%Z.
(** The angle, in radians and clockwise from the north, of a direction *)
Definition has_azimuth (to_east to_north theta : R) : Prop :=
  exists length, 0 < length /\ to_east = length * sin theta /\ to_north = length * cos theta.
Close Scope R_scope.
