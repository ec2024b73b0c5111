(** Specification vocabulary for crops that are allocated along routes. *)
From Coq Require Import Reals.
From Flocq Require Import Core BinarySingleNaN.
From Verif Require Import Common CoreSpec ArraySpec DecompModel ArrayModel ZonalModel OrderModel OrderSpec Float64 AllocateModel.
Open Scope Z_scope.

(** The numbers are the same up to one of the crops, of which the demand is more than the production. *)
Definition demand_exceeds (demand production : list b64) : Prop :=
  exists same same' d p rest rest', demand = same ++ d :: rest /\ production = same' ++ p :: rest' /\
    Forall2 (fun x y => fequal x y = true) same same' /\ fless p d = true.
(** The production of all crops equals the demand, or is more for the first crop for which these differ. *)
Definition demand_is_met (demand production : list b64) : Prop :=
  Forall2 (fun x y => fequal x y = true) demand production \/
  exists same same' d p rest rest', demand = same ++ d :: rest /\ production = same' ++ p :: rest' /\
    Forall2 (fun x y => fequal x y = true) same same' /\ fless d p = true.

(** A cell of one of the routes *)
Definition on_route (r : serial_route) (x : list Z) : Prop := exists id cells, visits r id cells /\ In x cells.

(** All values are valid. *)
Definition all_valid (a : list Z) (f : list Z -> b64) : Prop := forall x, in_shape a x -> is_nan (f x) = false.
Definition is_zero (v : b64) : Prop := v = B754_zero false \/ v = B754_zero true.
