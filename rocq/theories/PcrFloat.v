(** float and double as IEEE 754's binary32 and binary64, for PcrModel.v.
    Simplification: one NaN. *)
From Coq Require Import ZArith Bool.
From Flocq Require Import Core BinarySingleNaN.
From Verif Require Import PcrModel Float64.

Definition b32 := binary_float 24 128.
Definition b32_prec_gt_0 : Prec_gt_0 24 := eq_refl.
Definition b32_prec_lt_emax : Prec_lt_emax 24 128 := eq_refl.

(** A conversion from double to float *)
Definition b32_of_b64 (d : b64) : b32 :=
  match d with
  | B754_zero s => B754_zero s
  | B754_infinity s => B754_infinity s
  | B754_nan => B754_nan
  | B754_finite s m e _ => binary_normalize 24 128 b32_prec_gt_0 b32_prec_lt_emax mode_NE (cond_Zopp s (Z.pos m)) e s
  end.
(** Python's int to float: PyFloat_AsDouble, then a cast (pybind11/cast.h).  Not modelled: OverflowError for integers that are no double. *)
Definition b32_of_Z (z : Z) : b32 := b32_of_b64 (b64_of_Z z).

Definition compare_is {prec emax} (test : comparison -> bool) (a b : binary_float prec emax) : bool :=
  match Bcompare a b with Some c => test c | None => false end.
(** C++'s operators; != is true for NaN *)
Definition ge_test (c : comparison) : bool := match c with Lt => false | _ => true end.
Definition le_test (c : comparison) : bool := match c with Gt => false | _ => true end.
Definition eq_test (c : comparison) : bool := match c with Eq => true | _ => false end.

(** std::isnan, std::numeric_limits<float>::quiet_NaN(): ALG/policy/detail/no_data_policies; int(): an error for NaN and infinities *)
Definition ieee : float_ops b32 b64 := {|
  f_nan := is_nan;
  f_mark := B754_nan;
  f_ge := compare_is ge_test;
  f_le := compare_is le_test;
  f_ne := fun a b => negb (compare_is eq_test a b);
  f_of_Z := b32_of_Z;
  f_of_py := b32_of_b64;
  f_trunc := fun f => if is_finite f then Some (Btrunc f) else None;
  p_nonzero := fun d => negb (compare_is eq_test d (B754_zero false))
|}.
