(** Specification vocabulary for sums of floating point numbers *)
From Coq Require Import Reals.
From Flocq Require Import Core.
From Flocq Require Import IEEE754.BinarySingleNaN.
From Verif Require Import Common.
Local Open Scope R_scope.
Definition sumR (l : list R) : R := fold_right Rplus 0 l.
(** The numbers of [l], and the sum of their magnitudes *)
Definition total {prec emax} (l : list (binary_float prec emax)) : R := sumR (map B2R l).
Definition magnitude {prec emax} (l : list (binary_float prec emax)) : R := sumR (map (fun v => Rabs (B2R v)) l).
