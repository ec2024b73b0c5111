(** What it means that routing succeeds. *)
From Coq Require Import QArith Qcanon.
From Verif Require Import Common CoreSpec DecompSpec ArraySpec IndexModel DecompModel ArrayModel ArrayRep GridModel FlowSpec AccuSpec FlowModel RouterModel.
Local Open Scope Z_scope.

(** The routing of material through the network, by arrays of shape [a0; a1] in partitions of shape [p0; p1], starts
    and, whatever the order in which the tasks of the partitions do their steps and messages are received:
    - there are never more than two steps for each cell;
    - no step fails (an assertion, an invalid index, a channel that is used after it is closed);
    - unless all partitions are finished, there is a next step: no deadlock;
    - if all partitions are finished, the result is the raster [g]. *)
Definition routes_to {A X M} (ac : accumulator A X M) (nd : Z -> bool) (a0 a1 p0 p1 : Z) (flow : parray Z) (args : parray A) (g : list Z -> X) : Prop :=
  exists st0, router_start ac nd flow args = Ok st0 /\
  forall steps st, run ac nd (a0 / p0) (a1 / p1) st0 steps st ->
    (length steps <= 2 * Z.to_nat (a0 * a1))%nat /\
    (forall l o, step ac nd (a0 / p0) (a1 / p1) l st = Some o -> exists st', o = Ok st') /\
    (finished (a0 / p0) (a1 / p1) st = false -> exists l st', step ac nd (a0 / p0) (a1 / p1) l st = Some (Ok st')) /\
    (finished (a0 / p0) (a1 / p1) st = true -> exists out, router_results flow st = Ok out /\ raster_of [a0; a1] [p0; p1] out g).

(** The result of routing with an accumulator that divides the water in each cell according to [rule], for all
    partitionings: outflow and storage of each cell, which obey the rule, and the balance of the network: what leaves the
    network and what is stored in it is what was put in, provided that all input is usable. *)
Definition splits_into (ac : accumulator (option Qc * option Qc) (option Qc * option Qc) (option Qc)) (domain : Qc -> Prop)
    (rule : Qc -> Qc -> Qc -> Qc -> Prop) (a0 a1 : Z) (nd : Z -> bool) (f : list Z -> Z) (m : list Z -> option Qc * option Qc) : Prop :=
  exists g : list Z -> option Qc * option Qc,
    (forall p0 p1 flow args, 2 <= p0 -> 2 <= p1 -> raster_of [a0; a1] [p0; p1] flow f -> raster_of [a0; a1] [p0; p1] args m ->
      routes_to ac nd a0 a1 p0 p1 flow args g) /\
    split_spec a0 a1 nd (by_cell f) domain rule (fun x => fst (by_cell m x)) (fun x => snd (by_cell m x)) (fun x => fst (by_cell g x)) (fun x => snd (by_cell g x)) /\
    ((forall x, in_network a0 a1 nd (by_cell f) x -> usable (fst (by_cell m x)) /\ exists q, snd (by_cell m x) = Some q /\ domain q) ->
     forall C O, lists (in_network a0 a1 nd (by_cell f)) C -> lists (outlet a0 a1 nd (by_cell f)) O ->
      (sum_of (fun x => amount (fst (by_cell g x))) O + sum_of (fun x => amount (snd (by_cell g x))) C = sum_of (fun x => amount (fst (by_cell m x))) C)%Qc).
