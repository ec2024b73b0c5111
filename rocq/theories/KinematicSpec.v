(** Specification vocabulary for routing water with the kinematic wave; independent of the code. *)
From Coq Require Import Reals.
From Verif Require Import Common FlowSpec AccuSpec.
Local Open Scope R_scope.

(** q to the power b, for b > 0 *)
Definition power (q b : R) : R := if Req_EM_T q 0 then 0 else Rpower q b.

(** The discretised kinematic wave, for a channel of length [dx] and a period of duration [dt]: per metre of channel, the change of the amount
    of water, alpha q^beta, is what enters, from upstream and from the side ([lateral], per metre), minus what leaves.
    [old] is the discharge at the start of the period, [new] the one at its end. *)
Definition wave_equation (upstream old lateral alpha beta dt dx new : R) : Prop :=
  alpha * power new beta - alpha * power old beta = dt * lateral + dt / dx * upstream - dt / dx * new.

(** [found] equals [exact], up to a relative error *)
Definition within (eps found exact : R) : Prop := Rabs (found - exact) <= eps * exact.

(** The arguments of a cell that can be used *)
Definition usable_args (current inflow alpha beta dt dx : option R) : Prop :=
  exists old lateral a b t l, current = Some old /\ inflow = Some lateral /\ alpha = Some a /\ beta = Some b /\ dt = Some t /\ dx = Some l /\
    0 <= old /\ 0 <= lateral /\ 0 < l.
Definition rvalue (v : option R) : R := match v with Some q => q | None => 0 end.
Definition rsum (h : cell -> R) (L : list cell) : R := fold_right (fun x s => h x + s) 0 L.

Section Spec.
Context (a0 a1 : Z) (nd : Z -> bool) (f : cell -> Z) (current inflow alpha beta dt dx : cell -> option R).
Definition cell_usable (x : cell) : Prop := usable_args (current x) (inflow x) (alpha x) (beta x) (dt x) (dx x).
(** The parameters are positive where given *)
Definition positive_parameters (x : cell) : Prop :=
  (forall v, alpha x = Some v -> 0 < v) /\ (forall v, beta x = Some v -> 0 < v) /\ (forall v, dt x = Some v -> 0 < v).

(** The new discharges [g]: in each cell the solution of the equation, with the new discharges of the cells that drain into it, up to an error;
    no-data if an argument of the cell, or the discharge of a cell that drains into it, is not usable. *)
Definition kinematic_spec (eps : R) (g : cell -> option R) : Prop :=
  (forall x, inside a0 a1 x -> nd (f x) = true -> g x = None) /\
  (forall x, in_network a0 a1 nd f x ->
     let ok := cell_usable x /\ forall y, drains a0 a1 nd f y x -> g y <> None in
     (ok -> exists q exact, g x = Some q /\ 0 <= q /\ 0 <= exact /\ within eps q exact /\
        wave_equation (rsum (fun y => rvalue (g y)) (upstream a0 a1 nd f x)) (rvalue (current x)) (rvalue (inflow x))
          (rvalue (alpha x)) (rvalue (beta x)) (rvalue (dt x)) (rvalue (dx x)) exact) /\
     (~ ok -> g x = None)).

(** The amount of water in the channel of a cell with a discharge [q], and what enters it from the side *)
Definition volume (x : cell) (q : R) : R := rvalue (dx x) * (rvalue (alpha x) * power q (rvalue (beta x))).
Definition added (x : cell) : R := rvalue (dt x) * (rvalue (dx x) * rvalue (inflow x)).
End Spec.
