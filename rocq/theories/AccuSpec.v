(** Specification vocabulary for routing material through a network; independent of the code. *)
From Coq Require Import QArith Qcanon.
From Verif Require Import Common FlowSpec.

(** The values of a two-dimensional raster, by cell *)
Definition by_cell {E} (f : list Z -> E) (x : cell) : E := f [fst x; snd x].

(** A cell of the network: a cell with a flow direction *)
Definition in_network (a0 a1 : Z) (nd : Z -> bool) (f : cell -> Z) (x : cell) : Prop := inside a0 a1 x /\ nd (f x) = false.

(** A cell of the network whose water does not flow to another cell of the array. *)
Definition outlet (a0 a1 : Z) (nd : Z -> bool) (f : cell -> Z) (x : cell) : Prop :=
  in_network a0 a1 nd f x /\ forall y, drains a0 a1 nd f x y -> ~ inside a0 a1 y.

(** [L] lists the cells for which [P] holds, each of them once. *)
Definition lists (P : cell -> Prop) (L : list cell) : Prop := NoDup L /\ forall x, In x L <-> P x.

(** Amounts: exact rational numbers; [None] is no-data. *)
Definition amount (m : option Qc) : Qc := match m with Some q => q | None => Q2Qc 0 end.
Definition usable (m : option Qc) : Prop := exists q, m = Some q /\ (Q2Qc 0 <= q)%Qc.
Definition sum_of (h : cell -> Qc) (L : list cell) : Qc := fold_right (fun x s => (h x + s)%Qc) (Q2Qc 0) L.

(** Ways to divide an amount of water [t] in a cell in outflow [o] and storage [s] *)
Definition over_threshold (t threshold o s : Qc) : Prop :=   (* what exceeds the threshold flows out *)
  (o + s = t)%Qc /\ ((t <= threshold)%Qc -> o = Q2Qc 0) /\ ((threshold < t)%Qc -> s = threshold).
Definition up_to_capacity (t capacity o s : Qc) : Prop :=    (* as much as possible flows out *)
  (o + s = t)%Qc /\ ((t <= capacity)%Qc -> s = Q2Qc 0) /\ ((capacity < t)%Qc -> o = capacity).
Definition by_fraction (t fraction o s : Qc) : Prop := (o + s = t)%Qc /\ o = (fraction * t)%Qc.
Definition all_or_nothing (t trigger o s : Qc) : Prop :=     (* everything flows out once there is enough *)
  (o + s = t)%Qc /\ ((t < trigger)%Qc -> o = Q2Qc 0) /\ ((trigger <= t)%Qc -> s = Q2Qc 0).

(** The result [g] of accumulating the material [m]: the total of the material of all cells whose water passes the
    cell; no-data if there is no flow direction or if the material of one of these cells is not usable (no-data or
    negative). *)
Definition accu_spec (a0 a1 : Z) (nd : Z -> bool) (f : cell -> Z) (m g : cell -> option Qc) : Prop :=
  (forall x, inside a0 a1 x -> nd (f x) = true -> g x = None) /\
  (forall x, in_network a0 a1 nd f x -> exists L, lists (fun y => path a0 a1 nd f y x) L /\
     ((forall y, In y L -> usable (m y)) -> g x = Some (sum_of (fun y => amount (m y)) L)) /\
     ((exists y, In y L /\ ~ usable (m y)) -> g x = None)).

(** The result of accumulating the material [m] if cells divide the water that enters them according to [rule], which
    depends on a parameter [p] for which [domain] holds. *)
Definition split_spec (a0 a1 : Z) (nd : Z -> bool) (f : cell -> Z) (domain : Qc -> Prop) (rule : Qc -> Qc -> Qc -> Qc -> Prop)
    (m p : cell -> option Qc) (flux storage : cell -> option Qc) : Prop :=
  (forall x, inside a0 a1 x -> nd (f x) = true -> flux x = None /\ storage x = None) /\
  (forall x, in_network a0 a1 nd f x ->
     let ok := (exists q, m x = Some q /\ (Q2Qc 0 <= q)%Qc) /\ (exists q, p x = Some q /\ domain q) /\ forall y, drains a0 a1 nd f y x -> flux y <> None in
     (ok -> exists o s, flux x = Some o /\ storage x = Some s /\
        rule (amount (m x) + sum_of (fun y => amount (flux y)) (upstream a0 a1 nd f x))%Qc (amount (p x)) o s) /\
     (~ ok -> flux x = None /\ storage x = None)).

