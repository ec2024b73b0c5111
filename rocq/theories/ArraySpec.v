(** Specification vocabulary for partitioned arrays: what raster an array holds.
    Independent of the algorithms' code. *)
From Verif Require Import Common CoreSpec DecompSpec.

(** Row-major position of a cell in a block. *)
Fixpoint rowmaj (shape x : list Z) : Z :=
  match shape, x with
  | _ :: shape', i :: x' => i * volume shape' + rowmaj shape' x'
  | _, _ => 0
  end.

Fixpoint vadd (a b : list Z) : list Z :=
  match a, b with
  | x :: a', y :: b' => x + y :: vadd a' b'
  | _, _ => []
  end.

(** Offset and extents of partition [c] of an array with shape [a] that is split in
    partitions of shape [p]; the last one in a dimension takes what is left. *)
Fixpoint part_offset (p c : list Z) : list Z :=
  match p, c with
  | p :: p', c :: c' => c * p :: part_offset p' c'
  | _, _ => []
  end.
Fixpoint part_extent (a p c : list Z) : list Z :=
  match a, p, c with
  | a :: a', p :: p', c :: c' =>
      (if c =? a / p - 1 then a - c * p else p) :: part_extent a' p' c'
  | _, _, _ => []
  end.

(** A block of values in row-major order holds function [f] of the block's cells. *)
Definition block_holds {E} (shape : list Z) (data : list E) (f : list Z -> E) : Prop :=
  Z.of_nat (length data) = volume shape /\
  forall x, in_shape shape x -> nth_error data (Z.to_nat (rowmaj shape x)) = Some (f x).

(** A list of partitions (offset, extents, values), in row-major order, holds raster [f]
    of shape [a], split in partitions of shape [p]. *)
Definition parts_hold {E} (a p : list Z) (parts : list (list Z * list Z * list E)) (f : list Z -> E) : Prop :=
  Z.of_nat (length parts) = nr_parts a p /\
  forall c, in_shape (parts_shape a p) c ->
    exists data,
      nth_error parts (Z.to_nat (rowmaj (parts_shape a p) c)) =
        Some (part_offset p c, part_extent a p c, data) /\
      block_holds (part_extent a p c) data (fun x => f (vadd (part_offset p c) x)).
