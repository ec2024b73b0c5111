(** Model of the array shapes of weak scalability experiments: experiment/weak_scalability/generate_script.py (path relative to
    source/quality_assurance/scalability/command/scalability). *)
From Verif Require Import Common PoolModel.
Open Scope Z_scope.

(** int(round(multiplier * e)), 23, with multiplier = nr_workers ** (1 / rank), 13-14: the largest k for which k - 1/2 is not larger than multiplier * e.
    Simplified: exact arithmetic (the code uses floating point numbers).  Python rounds k + 1/2 to the even neighbour; this does not happen: the multiplier is
    an integer or irrational. *)
Definition scaled (rank nr_workers e : Z) : Z := largest (Z.to_nat (nr_workers * e)) (fun k => (2 * k - 1) ^ rank <=? nr_workers * (2 * e) ^ rank).
(** scale_array_shape, 17-31.  Extents are not negative.  reduce of an empty shape (19) and a division by zero (28) raise an exception.  1 <= multiplier <=
    nr_workers (21) if, and only if, 1 <= nr_workers. *)
Definition scale_array_shape (shape : list Z) (nr_workers : Z) : outcome (list Z) :=
  match shape with
  | [] => Throw
  | _ =>
      let rank := Z.of_nat (length shape) in
      let work_size_per_worker := nr_cells shape in
      obind (py_assert (1 <=? nr_workers)) (fun _ =>
      let array_shape := map (scaled rank nr_workers) shape in
      let work_size := nr_cells array_shape in
      let work_size_we_want := nr_workers * work_size_per_worker in
      if work_size_we_want =? 0 then Throw
      else obind (py_assert (1000 * Z.abs (work_size - work_size_we_want) <? work_size_we_want)) (fun _ => Ok array_shape))
  end.
