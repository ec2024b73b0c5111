(** Specification vocabulary for chunks. *)
From Coq Require Import Reals.
From Flocq Require Import Core BinarySingleNaN.
From Verif Require Import Common CoreSpec Float64 ChunkModel.
Open Scope Z_scope.

(** The dimensions in the order of increasing extents *)
Definition in_order_of_extents (order : list (Z * Z)) (shape : list Z) : Prop :=
  Permutation order (combine shape (zseq 0 (Z.of_nat (length shape)))) /\ StronglySorted (fun a b => fst a <= fst b) order.

(** A chunk for a number of values of this shape: a number of values, or a part of one *)
Definition fits (chunk shape : list Z) : Prop :=
  exists n part, chunk = n :: part /\ 1 <= n /\ Forall2 (fun c e => 1 <= c <= e) part shape.
Definition bytes (chunk : list Z) (size_of_element : Z) : Z := volume chunk * size_of_element.

(** std::pow is accurate: the relative error is less than 2^-50 (a few units in the last place) *)
Definition accurate_power (pow : b64 -> b64 -> b64) (x y : b64) : Prop :=
  is_finite (pow x y) = true /\ (Rabs (B2R (pow x y) - Rpower (B2R x) (B2R y)) <= Rpower (B2R x) (B2R y) * bpow radix2 (-50))%R.
(** for the numbers that occur here *)
Definition accurate (pow : b64 -> b64 -> b64) : Prop :=
  forall x y, is_finite x = true -> (1 <= B2R x <= 2097152)%R -> (0 < B2R y <= 1)%R -> accurate_power pow x y.
(** std::pow is correctly rounded, for the numbers that occur here *)
Definition correctly_rounded (pow : b64 -> b64 -> b64) : Prop :=
  forall x y, is_finite x = true -> (1 <= B2R x <= 2097152)%R -> (0 < B2R y <= 1)%R ->
  is_finite (pow x y) = true /\ B2R (pow x y) = round radix2 (FLT_exp (-1074) 53) ZnearestE (Rpower (B2R x) (B2R y)).
(** The largest chunk HDF5 supports: less than 4 GiB *)
Definition hdf5_limit : Z := 4294967296.
Definition mebibyte : Z := 1048576.
(** The minimal sensible size of a chunk: 10 KiB *)
Definition smallest_sensible : Z := 10240.
