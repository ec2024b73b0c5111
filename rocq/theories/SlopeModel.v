(** Gradients, slope and aspect.  Elements are exact numbers, [None] is no-data (NaN); rounding and overflow are not modelled.
    ALG = source/framework/algorithm/include/lue/framework/algorithm *)
From Coq Require Import Reals.
From Verif Require Import Common IndexModel DecompModel ArrayModel GridModel LocalModel FocalModel FocalFunctorsModel.
Open Scope R_scope.

(** DetectNoDataByNaN *)
Definition is_none (v : option R) : bool := match v with Some _ => false | None => true end.
Definition lift1 (f : R -> R) (v : option R) : option R := match v with Some x => Some (f x) | None => None end.
Definition lift2 (f : R -> R -> R) (v w : option R) : option R :=
  match v, w with Some x, Some y => Some (f x y) | _, _ => None end.
Definition is_zero (v : option R) : bool := match v with Some x => if Req_EM_T x 0 then true else false | None => false end.
Definition non_negative (v : option R) : bool := match v with Some x => if Rle_dec 0 x then true else false | None => false end.

(** ALG/definition/gradients.hpp:27-40 and 42-55: the kernels *)
Definition dz_dx_kernel : kernel R := Grid 3 3 [-1; 0; 1; -2; 0; 2; -1; 0; 1].
Definition dz_dy_kernel : kernel R := Grid 3 3 [-1; -2; -1; 0; 0; 0; 1; 2; 1].

(** value_policies::convolve, ALG/value_policies/convolve.hpp:22-34: the halo is filled with no-data *)
Definition convolve (k : kernel R) (junk : Z -> option R) (elevation : parray (option R)) : outcome (parray (option R)) :=
  focal (fun k => convolve_functor is_none None k (Some 0) (lift2 Rplus) (fun w => lift1 (Rmult w))) k junk junk (constant_halo None) elevation.

(** DividePolicies, gradients.hpp:62-67: policy::divide::DomainPolicy (ALG/divide.hpp:35-47) and default no-data policies *)
Definition divide_policies : binary_policies (option R) (option R) (option R) :=
  BinaryPolicies is_none is_none (fun _ y => negb (is_zero y)) (fun _ => None) (fun _ _ _ => true).
Definition divide_scalar (junk : Z -> option R) (x : parray (option R)) (y : R) : outcome (parray (option R)) :=
  binary_local_operation_scalar2 divide_policies (lift2 Rdiv) junk x (Some y).

(** gradients, gradients.hpp:12-78 *)
Definition gradients (junk : Z -> option R) (elevation : parray (option R)) (cell_size : R) : outcome (parray (option R) * parray (option R)) :=
  obind (convolve dz_dx_kernel junk elevation) (fun x =>
  obind (divide_scalar junk x (8 * cell_size)) (fun dz_dx =>
  obind (convolve dz_dy_kernel junk elevation) (fun y =>
  obind (divide_scalar junk y (8 * cell_size)) (fun dz_dy => Ok (dz_dx, dz_dy))))).

(** Policies of ALG/definition/slope.hpp:19-38, and the operations of lines 47-49.  std::pow(x, 2) is x * x. *)
Definition pow2_policies : binary_policies (option R) (option R) (option R) :=
  BinaryPolicies is_none (fun _ => false) (fun _ _ => true) (fun _ => None) (fun _ _ _ => true).
Definition pow2 (junk : Z -> option R) (x : parray (option R)) : outcome (parray (option R)) :=
  binary_local_operation_scalar2 pow2_policies (lift2 (fun x _ => x * x)) junk x (Some 2).
Definition add_policies : binary_policies (option R) (option R) (option R) :=
  BinaryPolicies is_none is_none (fun _ _ => true) (fun _ => None) (fun _ _ _ => true).
Definition sqrt_policies : unary_policies (option R) (option R) :=
  UnaryPolicies is_none non_negative (fun _ => None) (fun _ _ => true).
(** slope(policies, gradients), slope.hpp:13-50 *)
Definition slope_of_gradients (junk : Z -> option R) (g : parray (option R) * parray (option R)) : outcome (parray (option R)) :=
  obind (pow2 junk (fst g)) (fun x =>
  obind (pow2 junk (snd g)) (fun y =>
  obind (binary_local_operation add_policies (lift2 Rplus) junk x y) (fun s =>
  unary_local_operation sqrt_policies (lift1 sqrt) junk s))).
(** slope, slope.hpp:103-108 *)
Definition slope (junk : Z -> option R) (elevation : parray (option R)) (cell_size : R) : outcome (parray (option R)) :=
  obind (gradients junk elevation cell_size) (slope_of_gradients junk).

(** ALG/definition/aspect.hpp: Aspect::operator(), 24-69.  The assertion on line 65 is dropped. *)
Definition aspect_functor (gradient_x gradient_y : R) : R :=
  if Req_EM_T gradient_x 0 then
    (if Rlt_dec gradient_y 0 then 0 else if Rlt_dec 0 gradient_y then PI else 0)
  else if Req_EM_T gradient_y 0 then
    (if Rlt_dec gradient_x 0 then PI + PI / 2 else if Rlt_dec 0 gradient_x then PI / 2 else 0)
  else atan (gradient_x / gradient_y) + (if Rlt_dec gradient_x 0 then PI + PI / 2 else PI / 2).
Definition aspect_policies : binary_policies (option R) (option R) (option R) :=
  BinaryPolicies is_none is_none (fun _ _ => true) (fun _ => None) (fun _ _ _ => true).
(** aspect, 76-93 and 96-110 *)
Definition aspect (junk : Z -> option R) (elevation : parray (option R)) : outcome (parray (option R)) :=
  obind (gradients junk elevation 1) (fun g =>
  binary_local_operation aspect_policies (lift2 aspect_functor) junk (fst g) (snd g)).
Close Scope R_scope.
