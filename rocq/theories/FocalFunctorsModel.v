(** Model of the functors passed to focal_operation: algorithm/definition/focal_{sum,mean,minimum,
    maximum,diversity,majority,high_pass}.hpp and convolve.hpp, and of the kernels they use
    (algorithm/kernel.hpp).  Element types are abstract: a no-data test, and the operations used.
    [nd] is the value mark_no_data assigns. *)
From Verif Require Import Common IndexModel DecompModel ArrayModel GridModel LocalModel AggregateModel FocalModel.

(** A kernel: its weights, an array with extents 2 * radius + 1. *)
Definition kernel (W : Type) := grid W.
(** Kernel::radius(), kernel.hpp:61, 105-109 *)
Definition kernel_radius {W} (k : kernel W) : Z := (g0 k - 1) / 2.
(** Kernel::size(), kernel.hpp:112-116 *)
Definition kernel_size {W} (k : kernel W) : Z := 2 * kernel_radius k + 1.

(** box_kernel, kernel.hpp:119-130, for rank 2 *)
Definition box_kernel {W} (radius : Z) (value : W) : kernel W := gmake (2 * radius + 1) (2 * radius + 1) (fun _ _ => value).
(** circle_kernel, kernel.hpp:133-178, for rank 2 *)
Definition circle_kernel {W} (zero : W) (radius : Z) (value : W) : outcome (kernel W) :=
  let n := 2 * radius + 1 in
  let distance_measure := radius * radius in
  for_cells (cells2 0 n 0 n)
    (fun idx0 idx1 old =>
       let dist0 := (idx0 - radius) * (idx0 - radius) in
       let dist1 := (idx1 - radius) * (idx1 - radius) in
       Ok (if dist0 + dist1 <=? distance_measure then value else old))
    (gmake n n (fun _ _ => zero)).

(** The two nested loops over the window that all functors have, after the two assertions.
    [step] is the body. *)
Definition scan {E W S} (k : kernel W) (window : grid E) (step : S -> Z -> Z -> W -> E -> S) (init : S) : outcome S :=
  if (g0 window =? kernel_size k) && (g1 window =? kernel_size k) then
    fold_left
      (fun acc rc => obind acc (fun s => obind (gget k (fst rc) (snd rc)) (fun weight =>
         obind (gget window (fst rc) (snd rc)) (fun value => Ok (step s (fst rc) (snd rc) weight value)))))
      (cells2 0 (g0 window) 0 (g1 window)) (Ok init)
  else UB.

Section Functors.
Context {E : Type} (is_no_data : E -> bool) (nd : E) (k : kernel Z).

(** FocalSum, focal_sum.hpp:23-66.  Convolve with integral weights, convolve.hpp:23-75, is the same. *)
Definition focal_sum_functor (zero : E) (plus : E -> E -> E) (window : grid E) : outcome E :=
  obind
    (scan k window (fun '(sum, initialized) _ _ weight value =>
       if negb (is_no_data value) then
         if truth weight then (plus sum value, true) else (sum, initialized)
       else (sum, initialized)) (zero, false))
    (fun '(sum, initialized) => Ok (if negb initialized then nd else sum)).

(** FocalMean, focal_mean.hpp:23-71 *)
Definition focal_mean_functor (zero : E) (plus : E -> E -> E) (divide : E -> Z -> E) (window : grid E) : outcome E :=
  obind
    (scan k window (fun '(sum, sum_of_weights) _ _ weight value =>
       if negb (is_no_data value) then
         if truth weight then (plus sum value, sum_of_weights + 1) else (sum, sum_of_weights)
       else (sum, sum_of_weights)) (zero, 0))
    (fun '(sum, sum_of_weights) => Ok (if sum_of_weights =? 0 then nd else divide sum sum_of_weights)).

(** FocalMinimum, focal_minimum.hpp:23-72; FocalMaximum, focal_maximum.hpp:23-72. *)
Definition focal_extreme_functor (better : E -> E -> E) (zero : E) (window : grid E) : outcome E :=
  obind
    (scan k window (fun '(m, initialized) _ _ weight value =>
       if negb (is_no_data value) then
         if truth weight then
           if negb initialized then (value, true) else (better m value, initialized)
         else (m, initialized)
       else (m, initialized)) (zero, false))
    (fun '(m, initialized) => Ok (if negb initialized then nd else m)).
Definition focal_minimum_functor (ltb : E -> E -> bool) := focal_extreme_functor (std_min ltb).
Definition focal_maximum_functor (ltb : E -> E -> bool) := focal_extreme_functor (std_max ltb).

(** FocalHighPass, focal_high_pass.hpp:23-83.  [combine f n s] is 2 * f * n - s. *)
Definition focal_high_pass_functor (zero : E) (plus : E -> E -> E) (combine : E -> Z -> E -> E) (window : grid E) : outcome E :=
  let radius := kernel_radius k in
  obind
    (scan k window (fun '(focal_value, sum_of_neighbours, nr_neighbours) idx0 idx1 weight value =>
       if (idx0 =? radius) && (idx1 =? radius) then (value, sum_of_neighbours, nr_neighbours)
       else if negb (is_no_data value) then
         if truth weight then (focal_value, plus sum_of_neighbours value, nr_neighbours + 1)
         else (focal_value, sum_of_neighbours, nr_neighbours)
       else (focal_value, sum_of_neighbours, nr_neighbours)) (zero, zero, 0))
    (fun '(focal_value, sum_of_neighbours, nr_neighbours) =>
       Ok (if nr_neighbours =? 0 then nd else combine focal_value nr_neighbours sum_of_neighbours)).
End Functors.

(** Convolve with floating point weights, convolve.hpp:23-75.  [times w v] is w * v. *)
Definition convolve_functor {E W} (is_no_data : E -> bool) (nd : E) (k : kernel W) (zero : E) (plus : E -> E -> E)
    (times : W -> E -> E) (window : grid E) : outcome E :=
  obind
    (scan k window (fun '(sum, initialized) _ _ weight value =>
       if negb (is_no_data value) then (plus sum (times weight value), true) else (sum, initialized)) (zero, false))
    (fun '(sum, initialized) => Ok (if negb initialized then nd else sum)).

(** std::map<InputElement, Count>: sorted by key.  ++frequencies[value] *)
Fixpoint map_increment (m : list (Z * Z)) (v : Z) : list (Z * Z) :=
  match m with
  | [] => [(v, 1)]
  | (v', n) :: m' =>
      if v <? v' then (v, 1) :: (v', n) :: m' else if v =? v' then (v', n + 1) :: m' else (v', n) :: map_increment m' v
  end.
(** FocalMajority, focal_majority.hpp:23-87 *)
Definition focal_majority_functor (is_no_data : Z -> bool) (nd : Z) (k : kernel Z) (window : grid Z) : outcome Z :=
  obind
    (scan k window (fun frequencies _ _ weight value =>
       if negb (is_no_data value) then
         if truth weight then map_increment frequencies value else frequencies
       else frequencies) [])
    (fun frequencies =>
       match frequencies with
       | [] => Ok nd
       | _ =>
           Ok (fst (fold_left (fun '(majority_value, majority_value_frequency) '(value, frequency) =>
                 if majority_value_frequency <? frequency then (value, frequency)
                 else (majority_value, majority_value_frequency)) frequencies (0, 0)))
       end).

(** std::sort on integers; any sorting algorithm gives the same result *)
Fixpoint insert_sorted (v : Z) (l : list Z) : list Z :=
  match l with
  | [] => [v]
  | x :: l' => if v <=? x then v :: x :: l' else x :: insert_sorted v l'
  end.
Definition sort_values (l : list Z) : list Z := fold_right insert_sorted [] l.
(** std::unique: only the first of consecutive equal elements is kept *)
Fixpoint unique_values (l : list Z) : list Z :=
  match l with
  | [] => []
  | x :: l' =>
      match unique_values l' with
      | [] => [x]
      | y :: u => if x =? y then y :: u else x :: y :: u
      end
  end.
(** FocalDiversity, focal_diversity.hpp:23-82.  static_cast<Count> to [t], the output type. *)
Definition focal_diversity_functor (t : itype) (is_no_data : Z -> bool) (nd : Z) (k : kernel Z) (window : grid Z) : outcome Z :=
  obind
    (scan k window (fun values _ _ weight value =>
       if negb (is_no_data value) then
         if truth weight then values ++ [value] else values
       else values) [])
    (fun values =>
       match values with
       | [] => Ok nd
       | _ => Ok (wrap t (Z.of_nat (length (unique_values (sort_values values)))))
       end).

(** focal_operation(policies, array, kernel, functor): focal_operation.hpp:1998-2043 and 862-897 (radius and size are the kernel's) *)
Definition focal {E O W} (functor : kernel W -> grid E -> outcome O) (k : kernel W) (junk : Z -> E) (ojunk : Z -> O)
    (hp : halo_policy E) (arr : parray E) : outcome (parray O) :=
  focal_operation (kernel_radius k) (functor k) junk ojunk hp arr.
