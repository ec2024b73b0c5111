(** Specification vocabulary for arrays that are filled by position; independent of the code. *)
From Verif Require Import Common CoreSpec DecompSpec ArraySpec LocalModel LocalSpec.

(** Row and column of a cell of a two-dimensional array *)
Definition row (x : list Z) : Z := nth 0 x 0.
Definition column (x : list Z) : Z := nth 1 x 0.

(** The partitions of a row of partitions are equally wide, or there is one row of partitions. *)
Definition regular_rows (a0 a1 p0 p1 : Z) : Prop := a1 mod p1 = 0 \/ a1 / p1 = 1 \/ a0 / p0 = 1.

(** No number gets too large for a signed element type: one row more than the array has must be countable. *)
Definition countable (t : itype) (a0 a1 start : Z) : Prop :=
  representable t start /\ (signed t = true -> start + (a0 + 1) * a1 <= imax t).

(** The extent of the first partition in a dimension: if it is the only one, it is as large as the array. *)
Definition first_extent (a p : Z) : Z := if a / p =? 1 then a else p.
(** There is one partition in dimension [d], or the first partition of the array is as large in the other dimension as
    partitions are in dimension [d]. *)
Definition one_or_square (a0 a1 p0 p1 d : Z) : Prop :=
  if d =? 0 then a0 / p0 = 1 \/ first_extent a1 p1 = p0 else a1 / p1 = 1 \/ first_extent a0 p0 = p1.
