(** Specification vocabulary for the rounding of accumulated amounts; independent of the code. *)
From Coq Require Import Reals.
From Flocq Require Import Core.
From Flocq Require Import IEEE754.BinarySingleNaN.
From Verif Require Import Common CoreSpec ArraySpec DecompModel ArrayModel ArrayRep FlowSpec AccuSpec RouterModel.
Local Open Scope R_scope.

Definition real_sum (h : cell -> R) (L : list cell) : R := fold_right (fun x s => h x + s) 0 L.

Section Spec.
Context {prec emax : Z}.
Notation element := (binary_float prec emax).
(** A floating point amount: a number that is not negative *)
Definition f_usable (v : element) : Prop := is_finite v = true /\ 0 <= B2R v.
(** [unit]: half the distance between 1 and the next number *)
Definition unit_roundoff : R := bpow radix2 (- prec).

(** [g]: the accumulated amounts, with the rounding errors of adding as many numbers as there are cells upstream, unless
    a total is about as large as the largest number of the format *)
Definition accu_rounded (a0 a1 : Z) (nd : Z -> bool) (f : cell -> Z) (m g : cell -> element) : Prop :=
  (forall x, inside a0 a1 x -> nd (f x) = true -> is_nan (g x) = true) /\
  (forall x, in_network a0 a1 nd f x -> forall L, lists (fun y => path a0 a1 nd f y x) L ->
     ((exists y, In y L /\ ~ f_usable (m y)) -> is_nan (g x) = true) /\
     ((forall y, In y L -> f_usable (m y)) -> is_nan (g x) = false /\
        let total := real_sum (fun y => B2R (m y)) L in
        let growth := (1 + unit_roundoff) ^ (length L - 1) in
        (total * growth < bpow radix2 emax -> is_finite (g x) = true /\ Rabs (B2R (g x) - total) <= (growth - 1) * total))).

(** [g]: the accumulated amounts, without rounding errors, as long as they are at most 2^prec units of size 2^e *)
Definition accu_whole (e : Z) (a0 a1 : Z) (nd : Z -> bool) (f : cell -> Z) (m g : cell -> element) : Prop :=
  forall x, in_network a0 a1 nd f x -> forall L, lists (fun y => path a0 a1 nd f y x) L ->
     (forall y, In y L -> f_usable (m y) /\ exists n : Z, B2R (m y) = IZR n * bpow radix2 e) ->
     let total := real_sum (fun y => B2R (m y)) L in
     total <= bpow radix2 (prec + e) -> total < bpow radix2 emax -> is_finite (g x) = true /\ B2R (g x) = total.
End Spec.

(** As [routes_to], for results that need not be the same for all orders of tasks: each result has the property [P]. *)
Definition routes_all {A X M} (ac : accumulator A X M) (nd : Z -> bool) (a0 a1 p0 p1 : Z) (flow : parray Z) (args : parray A) (P : (list Z -> X) -> Prop) : Prop :=
  exists st0, router_start ac nd flow args = Ok st0 /\
  forall steps st, run ac nd (a0 / p0) (a1 / p1) st0 steps st ->
    (length steps <= 2 * Z.to_nat (a0 * a1))%nat /\
    (forall l o, step ac nd (a0 / p0) (a1 / p1) l st = Some o -> exists st', o = Ok st') /\
    (finished (a0 / p0) (a1 / p1) st = false -> exists l st', step ac nd (a0 / p0) (a1 / p1) l st = Some (Ok st')) /\
    (finished (a0 / p0) (a1 / p1) st = true -> exists out g, router_results flow st = Ok out /\ raster_of [a0; a1] [p0; p1] out g /\ P g).
