(** Specification vocabulary for the classification of the cells of a network that is split in partitions. *)
From Verif Require Import Common CoreSpec DecompSpec ArraySpec IndexModel DecompModel ArrayModel ArrayRep GridModel FlowSpec AccuSpec FlowModel RouterModel AccuInfoModel.

(** Two cells of an array of shape [a0; a1] are in the same partition: partitions have extents [p0; p1], the last ones
    take what is left. *)
Definition block (a p i : Z) : Z := Z.min (i / p) (a / p - 1).
Definition together (a0 a1 p0 p1 : Z) (x y : cell) : Prop :=
  block a0 p0 (fst x) = block a0 p0 (fst y) /\ block a1 p1 (snd x) = block a1 p1 (snd y).

Section Classes.
Context (a0 a1 p0 p1 : Z) (nd : Z -> bool) (f : cell -> Z).

(** A cell of the network into which no cell drains *)
Definition source (x : cell) : Prop := forall y, ~ drains a0 a1 nd f y x.
(** The water of [x] does not go anywhere. *)
Definition ends (x : cell) : Prop := towards f x = x.
(** The water of [x] leaves the partition. *)
Definition leaves (x : cell) : Prop := towards f x <> x /\ ~ (inside a0 a1 (towards f x) /\ together a0 a1 p0 p1 x (towards f x)).
(** Water of another partition flows directly into [x]. *)
Definition receives (x : cell) : Prop := exists y, drains a0 a1 nd f y x /\ ~ together a0 a1 p0 p1 y x.
(** Some of the water that passes [x] comes from another partition. *)
Definition foreign (x : cell) : Prop := exists y, path a0 a1 nd f y x /\ ~ together a0 a1 p0 p1 y x.

(** The class of a cell in which the stream that reaches the cell as the last one comes from the partition itself *)
Definition reached_within (x : cell) (k : Z) : Prop :=
  (ends x -> k = sink_cell) /\
  (leaves x -> k = partition_output_cell) /\
  (~ ends x -> ~ leaves x -> ~ foreign x -> k = intra_partition_stream_cell) /\
  (~ ends x -> ~ leaves x -> foreign x -> k = inter_partition_stream_cell).
(** ... from another partition *)
Definition reached_from_outside (x : cell) (k : Z) : Prop :=
  (leaves x -> k = partition_input_output_cell) /\ (~ leaves x -> k = partition_input_cell).

(** The cell can be reached as the last one by a stream of the partition itself: a neighbour in the partition drains into
    it, and the water of that neighbour does not arrive before that of other partitions. *)
Definition may_be_last (x : cell) : Prop := exists y, drains a0 a1 nd f y x /\ together a0 a1 p0 p1 y x /\ foreign y.

(** [k] is the class of cell [x]. *)
Definition class_of (x : cell) (k : Z) : Prop :=
  (nd (f x) = true -> k = no_class) /\
  (nd (f x) = false -> source x -> k = ridge_cell) /\
  (nd (f x) = false -> ~ source x -> ~ receives x -> reached_within x k) /\
  (nd (f x) = false -> receives x -> ~ may_be_last x -> reached_from_outside x k) /\
  (nd (f x) = false -> receives x -> may_be_last x -> reached_within x k \/ reached_from_outside x k).
End Classes.

(** The classification of the cells starts and, whatever the order in which the tasks of the partitions do their steps
    and messages are received: there are never more than two steps for each cell; no step fails; unless all partitions
    are finished, there is a next step; if all partitions are finished, the result is a raster of which each cell has
    a class that is allowed by [C]. *)
Definition classifies (nd : Z -> bool) (a0 a1 p0 p1 : Z) (flow : parray Z) (units : parray unit) (C : cell -> Z -> Prop) : Prop :=
  exists st0, info_start nd flow units = Ok st0 /\
  forall steps st, info_run nd (a0 / p0) (a1 / p1) st0 steps st ->
    (length steps <= 2 * Z.to_nat (a0 * a1))%nat /\
    (forall l o, info_step nd (a0 / p0) (a1 / p1) l st = Some o -> exists st', o = Ok st') /\
    (info_finished (a0 / p0) (a1 / p1) st = false -> exists l st', info_step nd (a0 / p0) (a1 / p1) l st = Some (Ok st')) /\
    (info_finished (a0 / p0) (a1 / p1) st = true ->
       exists out g, info_results flow st = Ok out /\ raster_of [a0; a1] [p0; p1] out g /\ forall x, inside a0 a1 x -> C x (by_cell g x)).
