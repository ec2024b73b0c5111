(** Two-dimensional arrays and loops over them.  Shared by the models of the 2D algorithms. *)
From Verif Require Import Common IndexModel DecompModel ArrayModel.

(** Array<Element, 2>, ArrayPartitionData<Element, 2> and spans on them: extents and the elements in
    row-major order (core/include/lue/framework/core/array.hpp:22-330,
    partitioned_array/array_partition_data.hpp:27-171). *)
Record grid (A : Type) := Grid { g0 : Z; g1 : Z; gl : list A }.
Arguments Grid {A}. Arguments g0 {A}. Arguments g1 {A}. Arguments gl {A}.

Definition in_grid {A} (g : grid A) (r c : Z) : bool :=
  (0 <=? r) && (r <? g0 g) && (0 <=? c) && (c <? g1 g).

(** operator()(r, c), array.hpp:253-289; array_partition_data.hpp:369-399.  Outside of the array: UB. *)
Definition gget {A} (g : grid A) (r c : Z) : outcome A :=
  if in_grid g r c then at_z (gl g) (r * g1 g + c) else UB.
(** operator()(r, c) = v *)
Definition gset {A} (g : grid A) (r c : Z) (v : A) : outcome (grid A) :=
  if in_grid g r c then
    match upd_z (r * g1 g + c) v (gl g) with Some l => Ok (Grid (g0 g) (g1 g) l) | None => UB end
  else UB.

(** The cells visited by two nested loops of [n0] and [n1] iterations that start at [r0] and [c0]. *)
Definition cells2 (r0 n0 c0 n1 : Z) : list (Z * Z) :=
  flat_map (fun r => map (fun c => (r, c)) (zseq c0 n1)) (zseq r0 n0).

(** An array filled by calling [f] for each cell; Array(shape, value) is [gmake] of a constant. *)
Definition gmake {A} (n0 n1 : Z) (f : Z -> Z -> A) : grid A :=
  Grid n0 n1 (map (fun rc => f (fst rc) (snd rc)) (cells2 0 n0 0 n1)).

(** for each visited cell: out(r, c) = body(r, c, out(r, c)) *)
Definition for_cells {A} (cells : list (Z * Z)) (body : Z -> Z -> A -> outcome A) (g : grid A) : outcome (grid A) :=
  fold_left
    (fun acc rc => obind acc (fun g => obind (gget g (fst rc) (snd rc)) (fun old =>
       obind (body (fst rc) (snd rc) old) (fun new => gset g (fst rc) (snd rc) new))))
    cells (Ok g).

(** slice(Slices): array_partition_data.hpp:457-526, and submdspan(span, Slice, Slice).  The view
    submdspan returns is modelled as a copy: nobody writes through it. *)
Definition gslice {A} (g : grid A) (rb re cb ce : Z) : outcome (grid A) :=
  if (0 <=? rb) && (rb <=? re) && (re <=? g0 g) && (0 <=? cb) && (cb <=? ce) && (ce <=? g1 g) then
    obind (sequence (map (fun rc => gget g (fst rc) (snd rc)) (cells2 rb (re - rb) cb (ce - cb)))) (fun l =>
    Ok (Grid (re - rb) (ce - cb) l))
  else UB.

(** A new array whose elements are all assigned once. *)
Definition gbuild {A} (n0 n1 : Z) (body : Z -> Z -> outcome A) : outcome (grid A) :=
  obind (sequence (map (fun rc => body (fst rc) (snd rc)) (cells2 0 n0 0 n1))) (fun l => Ok (Grid n0 n1 l)).

(** A 2D partition: its offset in the array and its elements. *)
Definition part2 (E : Type) := placed (grid E).
Definition to_part2 {E} (q : placed (list E)) : part2 E :=
  Placed (pl_locality q) (pl_offset q) (pl_shape q) (Grid (nth 0 (pl_shape q) 0) (nth 1 (pl_shape q) 0) (pl_data q)).
Definition of_part2 {E} (q : part2 E) : placed (list E) :=
  Placed (pl_locality q) (pl_offset q) (pl_shape q) (gl (pl_data q)).
