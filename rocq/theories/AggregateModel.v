(** Model of global aggregate operations:
    algorithm/unary_aggregate_operation.hpp and its functors. *)
From Verif Require Import Common IndexModel DecompModel ArrayModel LocalModel.

(** The policies an aggregate uses: lines 33-35. *)
Record agg_policies (I O : Type) := AggPolicies {
  ag_no_data : I -> bool; ag_domain : I -> bool; ag_mark : O -> O; ag_out_no_data : O -> bool
}.
Arguments AggPolicies {I O}. Arguments ag_no_data {I O}. Arguments ag_domain {I O}.
Arguments ag_mark {I O}. Arguments ag_out_no_data {I O}.

(** The functor: operator()(), operator()(element), operator()(aggregate, element),
    partition(element), partition(aggregate, element). *)
Record agg_functor (I O : Type) := AggFunctor {
  fn_empty : O; fn_first : I -> O; fn_next : O -> I -> O; fn_part1 : O -> O; fn_part2 : O -> O -> O
}.
Arguments AggFunctor {I O}. Arguments fn_empty {I O}. Arguments fn_first {I O}. Arguments fn_next {I O}.
Arguments fn_part1 {I O}. Arguments fn_part2 {I O}.

(** Inner loop, lines 64-73: the elements that are left after the first valid one. *)
Fixpoint agg_inner {I O} (pol : agg_policies I O) (fn : agg_functor I O) (result : O) (l : list I) : O :=
  match l with
  | [] => result
  | x :: l' =>
      agg_inner pol fn (if negb (ag_no_data pol x) then
                          if ag_domain pol x then fn_next fn result x else result
                        else result) l'
  end.

(** Outer loop, lines 54-86.  The index variable is replaced by the position in the list:
    [None] means that the loop ends with idx == nr_elements (no valid value found). *)
Fixpoint agg_outer {I O} (pol : agg_policies I O) (fn : agg_functor I O) (l : list I) : option O :=
  match l with
  | [] => None
  | x :: l' =>
      if negb (ag_no_data pol x) then
        if ag_domain pol x then Some (agg_inner pol fn (fn_first fn x) l') else agg_outer pol fn l'
      else agg_outer pol fn l'
  end.

(** unary_aggregate_operation_partition, lines 12-90: [result] is marked when it is not set. *)
Definition aggregate_partition {I O} (pol : agg_policies I O) (fn : agg_functor I O) (q : placed (list I)) : O :=
  match agg_outer pol fn (pl_data q) with
  | Some r => r
  | None => ag_mark pol (fn_empty fn)
  end.

(** The continuation in unary_aggregate_operation, lines 164-217. *)
Fixpoint agg_parts_inner {I O} (pol : agg_policies I O) (fn : agg_functor I O) (result : O) (l : list O) : O :=
  match l with
  | [] => result
  | x :: l' =>
      let pr := fn_part1 fn x in
      agg_parts_inner pol fn (if negb (ag_out_no_data pol pr) then fn_part2 fn result pr else result) l'
  end.
Fixpoint agg_parts_outer {I O} (pol : agg_policies I O) (fn : agg_functor I O) (l : list O) : option O :=
  match l with
  | [] => None
  | x :: l' =>
      let pr := fn_part1 fn x in
      if negb (ag_out_no_data pol pr) then Some (agg_parts_inner pol fn pr l') else agg_parts_outer pol fn l'
  end.

(** unary_aggregate_operation(array), lines 127-222. *)
Definition unary_aggregate_operation {I O} (pol : agg_policies I O) (fn : agg_functor I O) (arr : parray I) : O :=
  match agg_parts_outer pol fn (map (aggregate_partition pol fn) (pa_parts arr)) with
  | Some r => r
  | None => ag_mark pol (fn_empty fn)
  end.

(** ** Functors *)

(** DefaultValuePolicies for an integer type: value_policies/sum.hpp:8-12 (and minimum, maximum, all, none) *)
Definition int_agg_policies (t : itype) : agg_policies Z Z :=
  AggPolicies (fun v => v =? no_data_value t) (fun _ => true) (fun _ => no_data_value t) (fun v => v =? no_data_value t).

(** Sum: definition/sum.hpp:11-44, for integers (stored modulo 2^bits). *)
Definition sum_functor (t : itype) : agg_functor Z Z :=
  AggFunctor 0 (fun x => x) (fun a x => wrap t (a + x)) (fun x => x) (fun a x => wrap t (a + x)).

(** Minimum: definition/minimum.hpp:11-44 and Maximum: definition/maximum.hpp:11-44, for any
    element type with a comparison; std::min(a, b) is b if b < a, else a. *)
Definition std_min {E} (ltb : E -> E -> bool) (a b : E) : E := if ltb b a then b else a.
Definition std_max {E} (ltb : E -> E -> bool) (a b : E) : E := if ltb a b then b else a.
Definition minimum_functor {E} (ltb : E -> E -> bool) (largest : E) : agg_functor E E :=
  AggFunctor largest (fun x => x) (std_min ltb) (fun x => x) (std_min ltb).
Definition maximum_functor {E} (ltb : E -> E -> bool) (smallest : E) : agg_functor E E :=
  AggFunctor smallest (fun x => x) (std_max ltb) (fun x => x) (std_max ltb).

(** Conversions between bool and an integer element type. *)
Definition truth (v : Z) : bool := negb (v =? 0).
Definition of_bool (b : bool) : Z := if b then 1 else 0.

(** All: all.hpp:10-55 *)
Definition all_functor : agg_functor Z Z :=
  AggFunctor (of_bool false) (fun x => x) (fun a x => of_bool (truth a && truth x)) (fun x => x)
    (fun a x => of_bool (truth a && truth x)).
(** Any: any.hpp:12-55 *)
Definition any_functor : agg_functor Z Z :=
  AggFunctor (of_bool false) (fun x => x) (fun a x => of_bool (truth a || truth x)) (fun x => x)
    (fun a x => of_bool (truth a || truth x)).
(** None: none.hpp:10-53 *)
Definition none_functor : agg_functor Z Z :=
  AggFunctor (of_bool false) (fun x => of_bool (negb (truth x))) (fun a x => of_bool (truth a && negb (truth x)))
    (fun x => x) (fun a x => of_bool (truth a && truth x)).
