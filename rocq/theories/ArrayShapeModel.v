(** Model of the remaining functions in experiment/shape.py (path relative to source/quality_assurance/scalability/command/scalability): array_shape (the
    command lue_array_shape.py), partition_shape_multipliers, ranges_of_partition_shape_multipliers, shape_ranges and partition_shapes.  A failed assertion
    raises an exception: [Throw]. *)
From Verif Require Import Common PoolModel.
Open Scope Z_scope.

(** array_shape, 5-30: floor((nr_nodes * memory / size_of_element / nr_arrays) ** (1 / rank)).  Simplified: exact arithmetic; the code uses floating point
    numbers. *)
Definition array_shape (memory rank nr_arrays size_of_element nr_nodes : Z) : outcome (list Z) :=
  obind (py_assert (0 <? memory)) (fun _ => obind (py_assert (0 <? rank)) (fun _ => obind (py_assert (0 <? nr_arrays)) (fun _ =>
  obind (py_assert (0 <? size_of_element)) (fun _ => obind (py_assert (0 <? nr_nodes)) (fun _ =>
  Ok (repeat (largest (Z.to_nat (nr_nodes * memory)) (fun k => nr_arrays * (size_of_element * k ^ rank) <=? nr_nodes * memory)) (Z.to_nat rank))))))).

(** partition_shape_multipliers, 33-55 *)
Definition partition_shape_multipliers (shape partition_shape : list Z) : outcome (list Z) :=
  obind (py_assert (Nat.eqb (length partition_shape) (length shape))) (fun _ =>
  obind (py_assert (forallb (fun e => 0 <? e) shape)) (fun _ =>
  obind (py_assert (forallb (fun e => 0 <? e) partition_shape)) (fun _ =>
  obind (py_assert (forallb (fun '(s, p) => s mod p =? 0) (combine shape partition_shape))) (fun _ =>
  Ok (map (fun '(s, p) => s / p) (combine shape partition_shape)))))).

(** Python's range(start, stop, step) with a positive step: the numbers start + k * step that are smaller than stop *)
Definition py_range (start stop step : Z) : list Z := map (fun k => start + k * step) (zseq 0 ((stop - start + step - 1) / step)).
(** range(start, stop, -1) *)
Definition py_range_down (start stop : Z) : list Z := map (fun k => start - k) (zseq 0 (start - stop)).
(** ranges_of_partition_shape_multipliers, 58-90 *)
Definition ranges_of_multipliers (shape min_shape max_shape : list Z) : outcome (list (list Z)) :=
  obind (partition_shape_multipliers shape min_shape) (fun lo => obind (partition_shape_multipliers shape max_shape) (fun hi =>
  obind (py_assert (forallb (fun '(l, h) => h <=? l) (combine lo hi))) (fun _ => Ok (map (fun '(l, h) => py_range_down l h) (combine lo hi))))).

(** shape_ranges, 93-100 *)
Definition shape_ranges (min_shape max_shape : list Z) (step : Z) : outcome (list (list Z)) :=
  obind (py_assert (Nat.eqb (length min_shape) (length max_shape))) (fun _ => obind (py_assert (0 <? step)) (fun _ =>
  obind (py_assert (Nat.ltb 0 (length min_shape))) (fun _ => obind (py_assert (forallb (fun '(l, h) => l <=? h) (combine min_shape max_shape))) (fun _ =>
  Ok (map (fun '(l, h) => py_range l (h + 1) step) (combine min_shape max_shape)))))).
(** zip( *ranges ): as many tuples as the shortest list has elements *)
Definition shortest (ranges : list (list Z)) : nat := match ranges with [] => O | r :: rs => fold_left (fun n r => Nat.min n (length r)) rs (length r) end.
Definition zip (ranges : list (list Z)) : list (list Z) := map (fun k => map (fun r => nth k r 0) ranges) (seq 0 (shortest ranges)).
(** partition_shapes, 103-108 *)
Definition partition_shapes (min_shape max_shape : list Z) (step : Z) : outcome (list (list Z)) :=
  obind (shape_ranges min_shape max_shape step) (fun ranges => Ok (zip ranges)).
