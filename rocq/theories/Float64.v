(** The IEEE-754 binary64 operations used by the index computations in LUE
    (C++ double): conversion from a 64-bit integer, division, multiplication,
    std::floor and std::ceil, the conversion back to an integer.  Executable
    definitions, provided by Flocq; rounding to nearest, ties to even. *)
From Coq Require Import ZArith Reals.
From Flocq Require Import Core BinarySingleNaN.

Definition b64_prec_gt_0 : Prec_gt_0 53 := eq_refl.
Definition b64_prec_lt_emax : Prec_lt_emax 53 1024 := eq_refl.

Definition b64 := binary_float 53 1024.

(** double(n) for an integer n *)
Definition b64_of_Z (n : Z) : b64 :=
  binary_normalize 53 1024 b64_prec_gt_0 b64_prec_lt_emax mode_NE n 0 false.

Definition b64_div (x y : b64) : b64 :=
  @Bdiv 53 1024 b64_prec_gt_0 b64_prec_lt_emax mode_NE x y.
Definition b64_mul (x y : b64) : b64 :=
  @Bmult 53 1024 b64_prec_gt_0 b64_prec_lt_emax mode_NE x y.

(** static_cast<Index>(std::floor(x)) and static_cast<Index>(std::ceil(x)) *)
Definition b64_floor (x : b64) : Z :=
  Btrunc (@Bnearbyint 53 1024 b64_prec_lt_emax mode_DN x).
Definition b64_ceil (x : b64) : Z :=
  Btrunc (@Bnearbyint 53 1024 b64_prec_lt_emax mode_UP x).
