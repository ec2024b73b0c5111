(** Model of accu for floating point elements as they are: with rounding, infinities and NaN.  Paths are relative to
    source/framework/algorithm/include/lue/framework/algorithm.

    [prec] and [emax] are the format's: 24 and 128 for float, 53 and 1024 for double (IEEE 754, round to nearest even; NaN's payload is
    not modelled).  NaN is what the default policies use as no-data value. *)
From Flocq Require Import Core.
From Flocq Require Import IEEE754.BinarySingleNaN.
From Verif Require Import Common RouterModel.

Section AccuFloat.
Context (prec emax : Z) (Hprec : Prec_gt_0 prec) (Hemax : Prec_lt_emax prec emax).
Notation element := (binary_float prec emax).

(** policy/default_policies.hpp: InputNoDataPolicy and OutputNoDataPolicy of floating point elements (std::isnan, quiet NaN) *)
Definition f_no_data (v : element) : bool := is_nan v.
Definition f_mark : element := B754_nan.
(** v >= 0: false for NaN, true for -0 *)
Definition f_ge0 (v : element) : bool := match Bcompare v (B754_zero false) with Some Gt | Some Eq => true | _ => false end.
(** The domain policy, value_policies/accu.hpp:9-19 *)
Definition f_within_domain (inflow : element) : bool := f_ge0 inflow.

(** definition/accu.hpp:73-92 *)
Definition f_enter_inter (outflow inflow : element) : outcome element :=
  if f_no_data inflow then Ok inflow
  else if f_no_data outflow then Ok f_mark
  else Ok (Bplus mode_NE inflow outflow).
(** definition/accu.hpp:101-124 *)
Definition f_enter_cell (external outflow : element) : outcome element :=
  if f_no_data outflow then Ok outflow
  else if f_no_data external || negb (f_within_domain external) then Ok f_mark
  else Ok (Bplus mode_NE outflow external).
(** definition/accu.hpp:127-155; the assertion holds or the behaviour is undefined *)
Definition f_leave_cell (outflow inflow : element) : outcome element :=
  if f_no_data inflow then Ok inflow
  else if f_no_data outflow then Ok f_mark
  else if f_ge0 outflow then Ok (Bplus mode_NE inflow outflow) else UB.
(** The initial value is zero: definition/accumulating_router.hpp:1486-1491 and core/array.hpp:66-76 (make_unique<Element[]> value-initializes) *)
Definition accu_f : accumulator element element element :=
  Accumulator (B754_zero false) f_mark f_enter_cell f_leave_cell f_enter_inter (fun x => x).
End AccuFloat.
