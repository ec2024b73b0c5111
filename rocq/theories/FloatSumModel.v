(** Model of the sum over an array of floating point elements: definition/sum.hpp:11-44 and value_policies/sum.hpp:8-12 (paths are relative to
    source/framework/algorithm/include/lue/framework/algorithm), on unary_aggregate_operation.hpp ([AggregateModel]).
    [prec] and [emax] are the format's: 24 and 128 for float, 53 and 1024 for double. *)
From Flocq Require Import Core.
From Flocq Require Import IEEE754.BinarySingleNaN.
From Verif Require Import Common ArrayModel AggregateModel.

Section FloatSum.
Context (prec emax : Z) (Hprec : Prec_gt_0 prec) (Hemax : Prec_lt_emax prec emax).
Notation element := (binary_float prec emax).
(** DefaultValuePolicies for a floating point type: NaN is no-data *)
Definition float_agg_policies : agg_policies element element := AggPolicies is_nan (fun _ => true) (fun _ => B754_nan) is_nan.
(** Sum, definition/sum.hpp:11-44 *)
Definition float_sum_functor : agg_functor element element :=
  AggFunctor (B754_zero false) (fun x => x) (Bplus mode_NE) (fun x => x) (Bplus mode_NE).
Definition float_sum (arr : parray element) : element := unary_aggregate_operation float_agg_policies float_sum_functor arr.
End FloatSum.
