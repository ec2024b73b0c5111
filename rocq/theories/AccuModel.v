(** Model of the cell accumulators of accu, accu_threshold, accu_capacity, accu_fraction and accu_trigger.
    Paths are relative to source/framework/algorithm/include/lue/framework/algorithm.

    Floating point elements are modelled as exact rational numbers or NaN; NaN is what the default policies use
    as no-data value.  Rounding, infinities and overflow are not modelled. *)
From Coq Require Import QArith Qcanon.
From Verif Require Import Common RouterModel.

Definition material := option Qc.
Definition zero : material := Some (Q2Qc 0).

(** a <= b and a < b on numbers *)
Definition qc_le (a b : Qc) : bool := match Qccompare a b with Gt => false | _ => true end.
Definition qc_lt (a b : Qc) : bool := match Qccompare a b with Lt => true | _ => false end.

(** The domain policies: value_policies/accu.hpp, value_policies/accu_threshold.hpp etc. *)
Definition inflow_ok (q : Qc) : bool := qc_le (Q2Qc 0) q.

(** definition/accu.hpp:59-204 *)
Definition accu_enter_inter (outflow inflow : material) : outcome material :=
  match inflow with
  | None => Ok None
  | Some i => match outflow with None => Ok None | Some o => Ok (Some (i + o)%Qc) end
  end.
Definition accu_enter_cell (external outflow : material) : outcome material :=
  match outflow with
  | None => Ok None
  | Some o => match external with
              | None => Ok None
              | Some e => if negb (inflow_ok e) then Ok None else Ok (Some (o + e)%Qc)
              end
  end.
Definition accu_leave_cell (outflow inflow : material) : outcome material :=
  match inflow with
  | None => Ok None
  | Some i => match outflow with
              | None => Ok None
              | Some o => if qc_le (Q2Qc 0) o then Ok (Some (i + o)%Qc) else UB
              end
  end.
Definition accu : accumulator material material material :=
  Accumulator zero None accu_enter_cell accu_leave_cell accu_enter_inter (fun x => x).

(** The algorithms that split the material in a cell in outflow and remainder: a pair of results.  These are the
    parts that definition/accu_threshold.hpp:79-246, accu_capacity.hpp, accu_fraction.hpp and accu_trigger.hpp have
    in common. *)
Definition flux := (material * material)%type.

Definition split_enter_inter (outflow : material) (x : flux) : outcome flux :=
  match fst x with
  | None => Ok x
  | Some i => match snd x with
              | None => UB
              | Some _ => match outflow with None => Ok (None, None) | Some o => Ok (Some (i + o)%Qc, snd x) end
              end
  end.
Definition split_leave_cell (up x : flux) : outcome flux :=
  match fst x with
  | None => Ok x
  | Some i => match snd x with
              | None => UB
              | Some _ => match fst up with
                          | None => match snd up with None => Ok (None, None) | Some _ => UB end
                          | Some o => if qc_le (Q2Qc 0) o then Ok (Some (i + o)%Qc, snd x) else UB
                          end
              end
  end.
(** [domain]: the condition on the parameter (threshold, capacity, ...); [split total parameter]: outflow and
    remainder *)
Definition split_enter_cell (domain : Qc -> bool) (split : Qc -> Qc -> Qc * Qc) (arg : material * material) (x : flux) : outcome flux :=
  match fst x, snd x with
  | None, None => Ok x
  | Some o, Some _ =>
      match fst arg, snd arg with
      | Some e, Some p =>
          if negb (inflow_ok e && domain p) then Ok (None, None)
          else let (o', m') := split (o + e)%Qc p in Ok (Some o', Some m')
      | _, _ => Ok (None, None)
      end
  | _, _ => UB
  end.
Definition split_accumulator (domain : Qc -> bool) (split : Qc -> Qc -> Qc * Qc) : accumulator (material * material) flux material :=
  Accumulator (zero, zero) (None, None) (split_enter_cell domain split) split_leave_cell split_enter_inter fst.

(** definition/accu_threshold.hpp:147-168 *)
Definition threshold_split (outflow threshold : Qc) : Qc * Qc :=
  if qc_lt threshold outflow then ((outflow - threshold)%Qc, threshold) else (Q2Qc 0, outflow).
(** definition/accu_capacity.hpp:146-162 *)
Definition capacity_split (outflow capacity : Qc) : Qc * Qc :=
  if qc_lt capacity outflow then (capacity, (outflow - capacity)%Qc) else (outflow, Q2Qc 0).
(** definition/accu_fraction.hpp:146-160 *)
Definition fraction_split (outflow fraction : Qc) : Qc * Qc :=
  let delta := (fraction * outflow)%Qc in (delta, (outflow - delta)%Qc).
(** definition/accu_trigger.hpp:146-162 *)
Definition trigger_split (outflow trigger : Qc) : Qc * Qc :=
  if qc_lt outflow trigger then (Q2Qc 0, outflow) else (outflow, Q2Qc 0).

Definition non_negative (p : Qc) : bool := qc_le (Q2Qc 0) p.
Definition accu_threshold := split_accumulator non_negative threshold_split.
Definition accu_capacity := split_accumulator non_negative capacity_split.
Definition accu_fraction := split_accumulator (fun p => qc_le (Q2Qc 0) p && qc_le p (Q2Qc 1)) fraction_split.
Definition accu_trigger := split_accumulator non_negative trigger_split.
