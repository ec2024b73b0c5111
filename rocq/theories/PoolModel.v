(** Model of the numbers of workers and the array shapes of scalability experiments: experiment/pool.py, experiment/worker.py and experiment/shape.py (paths
    are relative to source/quality_assurance/scalability/command/scalability).  Python's integers are unbounded.  A failed assertion and a key that is
    missing raise an exception: [Throw].  A loop that does not end is [UB]; the loops get enough fuel otherwise (proved).
    Simplified: numbers in the JSON data are integers. *)
From Verif Require Import Common.
Open Scope Z_scope.

(** ** Pools of workers: pool.py *)

(** The data of a pool; [None] is a key that is not present *)
Record pool_data := PoolData { pd_min_size : option Z; pd_max_size : option Z; pd_multiplier : option Z; pd_incrementor : option Z; pd_size : option Z }.
(** MultipliedWorkerRange, IncrementedWorkerRange and EmptyWorkerRange: the third number is the multiplier or the incrementor *)
Inductive pool := Multiplied (min_size max_size multiplier : Z) | Incremented (min_size max_size incrementor : Z) | Fixed (size : Z).
Definition key (o : option Z) : outcome Z := match o with Some v => Ok v | None => Throw end.
Definition py_assert (b : bool) : outcome unit := if b then Ok tt else Throw.

(** nr_permutations, 44-52: the loop, from [size] and [nr] *)
Fixpoint multiplied_loop (fuel : nat) (multiplier max_size size nr : Z) : outcome Z :=
  match fuel with
  | O => UB
  | S fuel => if multiplier * size <=? max_size then multiplied_loop fuel multiplier max_size (size * multiplier) (nr + 1) else Ok nr
  end.
(** nr_permutations, 92-102: the loop *)
Fixpoint incremented_loop (fuel : nat) (incrementor max_size size nr : Z) : outcome Z :=
  match fuel with
  | O => UB
  | S fuel => if size <=? max_size then incremented_loop fuel incrementor max_size (size + incrementor) (nr + 1) else Ok nr
  end.
(** nr_permutations, 44-52, 92-102, 144-145 *)
Definition nr_permutations (p : pool) : outcome Z :=
  match p with
  | Multiplied lo hi m => multiplied_loop (S (Z.to_nat hi)) m hi lo 1
  | Incremented lo hi i => incremented_loop (S (Z.to_nat hi)) i hi (lo + i) 1
  | Fixed _ => Ok 1
  end.
(** while idx >= 0: ...; idx -= 1, after idx -= 1: the body is repeated idx times *)
Fixpoint repeated (n : nat) (f : Z -> Z) (size : Z) : Z := match n with O => size | S n => repeated n f (f size) end.
(** permutation_size, 54-64, 104-114, 147-149 *)
Definition permutation_size (p : pool) (idx : Z) : outcome Z :=
  match p with
  | Multiplied lo hi m => obind (nr_permutations p) (fun nr => obind (py_assert ((0 <=? idx) && (idx <? nr))) (fun _ => Ok (repeated (Z.to_nat idx) (fun size => size * m) lo)))
  | Incremented lo hi i => obind (nr_permutations p) (fun nr => obind (py_assert ((0 <=? idx) && (idx <? nr))) (fun _ => Ok (repeated (Z.to_nat idx) (fun size => size + i) lo)))
  | Fixed size => obind (py_assert (idx =? 0)) (fun _ => Ok size)
  end.
(** WorkerRange.__init__ and _from_json, 1-12: the largest size becomes the last one that is used. *)
Definition with_max_size (p : pool) (size : Z) : pool :=
  match p with Multiplied lo _ m => Multiplied lo size m | Incremented lo _ i => Incremented lo size i | Fixed s => Fixed s end.
Definition worker_range (lo hi : Z) (p : pool) : outcome pool :=
  obind (py_assert (0 <? lo)) (fun _ => obind (py_assert (lo <=? hi)) (fun _ =>
  obind (nr_permutations p) (fun nr => obind (permutation_size p (nr - 1)) (fun size => Ok (with_max_size p size))))).
(** Pool.__init__, 153-159, and the classes' __init__ and from_json: 22-24, 33-35, 68-70, 81-83, 123-129, 134-136 *)
Definition pool_of_data (d : pool_data) : outcome pool :=
  match pd_multiplier d, pd_incrementor d with
  | Some m, _ =>
      obind (py_assert (1 <? m)) (fun _ => obind (key (pd_min_size d)) (fun lo => obind (key (pd_max_size d)) (fun hi => worker_range lo hi (Multiplied lo hi m))))
  | None, Some i =>
      obind (py_assert (1 <=? i)) (fun _ => obind (key (pd_min_size d)) (fun lo => obind (key (pd_max_size d)) (fun hi => worker_range lo hi (Incremented lo hi i))))
  | None, None =>
      obind (key (pd_size d)) (fun size => obind (py_assert (1 <=? size)) (fun _ => worker_range size size (Fixed size)))
  end.
(** to_json: 14-18, 37-41, 85-89, 138-141 *)
Definition data_of_pool (p : pool) : pool_data :=
  match p with
  | Multiplied lo hi m => PoolData (Some lo) (Some hi) (Some m) None None
  | Incremented lo hi i => PoolData (Some lo) (Some hi) None (Some i) None
  | Fixed size => PoolData None None None None (Some size)
  end.
(** Pool.min_size, Pool.max_size: 164-170 *)
Definition pool_min_size (p : pool) : Z := match p with Multiplied lo _ _ => lo | Incremented lo _ _ => lo | Fixed s => s end.
Definition pool_max_size (p : pool) : Z := match p with Multiplied _ hi _ => hi | Incremented _ hi _ => hi | Fixed s => s end.
(** Worker.nr_benchmarks and Worker.nr_workers: worker.py:96-107 *)
Definition nr_benchmarks (p : pool) : outcome Z := nr_permutations p.
Definition nr_workers (p : pool) (benchmark_idx : Z) : outcome Z := permutation_size p benchmark_idx.

(** ** Shapes: range_of_shapes, shape.py:107-162 *)
Inductive growth := Linear | Exponential.
(** reduce of the product, 117-118 *)
Definition nr_cells (shape : list Z) : Z := prodZ shape.
(** The loops, 144-146 and 152-153: the sizes that are added *)
Fixpoint linear_sizes (fuel : nat) (first multiplier max_nr i : Z) : outcome (list Z) :=
  match fuel with
  | O => UB
  | S fuel =>
      let size := first + i * (multiplier - 1) * first in
      if size <=? max_nr then obind (linear_sizes fuel first multiplier max_nr (i + 1)) (fun l => Ok (size :: l)) else Ok []
  end.
Fixpoint exponential_sizes (fuel : nat) (multiplier max_nr last : Z) : outcome (list Z) :=
  match fuel with
  | O => UB
  | S fuel => if multiplier * last <=? max_nr then obind (exponential_sizes fuel multiplier max_nr (multiplier * last)) (fun l => Ok (multiplier * last :: l)) else Ok []
  end.
(** The largest number from 0 to [n] with property [P] *)
Fixpoint largest (n : nat) (P : Z -> bool) : Z := if P (Z.of_nat n) then Z.of_nat n else match n with O => 0 | S n => largest n P end.
(** floor(size ** (1 / rank) * extent / max_extent), 125-130 and 155.  Simplified: exact arithmetic; the code uses floating point numbers. *)
Definition scaled_extent (rank size extent max_extent : Z) : Z := largest (Z.to_nat size) (fun k => k ^ rank * max_extent ^ rank <=? size * extent ^ rank).
Definition scaled_shape (min_shape : list Z) (size : Z) : list Z :=
  map (fun extent => scaled_extent (Z.of_nat (length min_shape)) size extent (fold_left Z.max min_shape 0)) min_shape.
(** Extents are not negative.  reduce of an empty shape (118) and a division by zero (155) raise an exception. *)
Definition range_of_shapes (min_shape : list Z) (max_nr multiplier : Z) (method : growth) : outcome (list (list Z)) :=
  if match min_shape with [] => true | _ => false end then Throw
  else
    let first := nr_cells min_shape in
    obind (py_assert (1 <? multiplier)) (fun _ =>
    obind (match method with
           | Linear => linear_sizes (S (Z.to_nat max_nr)) first multiplier max_nr 1
           | Exponential => exponential_sizes (S (Z.to_nat max_nr)) multiplier max_nr first
           end) (fun sizes =>
    if fold_left Z.max min_shape 0 =? 0 then Throw
    else
      let shapes := map (scaled_shape min_shape) (first :: sizes) in
      obind (py_assert (nr_cells (last shapes []) <=? max_nr)) (fun _ => Ok shapes))).
