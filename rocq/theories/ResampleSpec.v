(** Specification vocabulary for downscaling. *)
From Verif Require Import Common CoreSpec DecompSpec ArraySpec.

(** Target cell (i, j) holds the value of source cell (i / count, j / count), or the marker if that one does not contain data. *)
Definition downscaled {E} (nd : E -> bool) (marker : E) (count : Z) (f : list Z -> E) (x : list Z) : E :=
  let v := f (map (fun i => i / count) x) in if nd v then marker else v.

(** Along a dimension with [a] cells in partitions of [p] cells: there is a single partition, or the cells that are left after the last whole
    partition, repeated [count] times, are less than a partition, or more than one and less than two. *)
Definition remainder_fits (count a p : Z) : Prop :=
  a < 2 * p \/ count * (a mod p) < p \/ p < count * (a mod p) < 2 * p.
