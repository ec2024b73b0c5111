(** C80: the classes of cells of accu_info.  Vocabulary: FlowSpec (drains, path, valid_network, acyclic), AccuInfoSpec. *)
From Verif Require Import Common CommonProofs CoreSpec DecompSpec ArraySpec IndexModel DecompModel ArrayModel ArrayRep ArrayProofs RasterCheck GridModel FlowSpec AccuSpec FlowModel RouterModel
  FlowCheck AccuCheck AccuInfoModel AccuInfoSpec AccuInfoProofs3 AccuInfoProofs4 AccuInfoProofs5.

(** C80, for all networks, arrays, partitionings (partitions have at least two rows and columns) and orders in which the
    tasks of the partitions do their work and messages are received: the classification ends, without failure, and each
    cell has a class that belongs to its position in the network and in its partition. *)
Theorem C80_classes_partial : forall a0 a1 p0 p1 nd f flow units u,
  2 <= p0 <= a0 -> 2 <= p1 <= a1 ->
  valid_network a0 a1 nd (by_cell f) -> acyclic a0 a1 nd (by_cell f) ->
  raster_of [a0; a1] [p0; p1] flow f -> raster_of [a0; a1] [p0; p1] units u ->
  classifies nd a0 a1 p0 p1 flow units (class_of a0 a1 p0 p1 nd (by_cell f)).
Proof. intros. eapply info_ok; try eassumption. reflexivity. Qed.
Print Assumptions C80_classes_partial.

(** C80: two runs that have ended give a cell the same class, unless the cell receives water of another partition
    directly, and water that has come in from another partition by way of a neighbour in its own partition. *)
Theorem C80_same_class_partial : forall a0 a1 p0 p1 nd f flow units u st0 steps1 st1 steps2 st2,
  2 <= p0 <= a0 -> 2 <= p1 <= a1 ->
  valid_network a0 a1 nd (by_cell f) -> acyclic a0 a1 nd (by_cell f) ->
  raster_of [a0; a1] [p0; p1] flow f -> raster_of [a0; a1] [p0; p1] units u ->
  info_start nd flow units = Ok st0 ->
  info_run nd (a0 / p0) (a1 / p1) st0 steps1 st1 -> info_finished (a0 / p0) (a1 / p1) st1 = true ->
  info_run nd (a0 / p0) (a1 / p1) st0 steps2 st2 -> info_finished (a0 / p0) (a1 / p1) st2 = true ->
  exists out1 g1 out2 g2,
    info_results flow st1 = Ok out1 /\ raster_of [a0; a1] [p0; p1] out1 g1 /\
    info_results flow st2 = Ok out2 /\ raster_of [a0; a1] [p0; p1] out2 g2 /\
    forall x, inside a0 a1 x ->
      ~ (receives a0 a1 p0 p1 nd (by_cell f) x /\ may_be_last a0 a1 p0 p1 nd (by_cell f) x) -> by_cell g1 x = by_cell g2 x.
Proof.
  intros a0 a1 p0 p1 nd f flow units u st0 s1 st1 s2 st2 H0 H1 V A RF RU E R1 F1 R2 F2.
  destruct (C80_classes_partial a0 a1 p0 p1 nd f flow units u H0 H1 V A RF RU) as [st [E' H]].
  assert (st = st0) by congruence. subst st.
  destruct (H _ _ R1) as [_ [_ [_ D1]]]. destruct (D1 F1) as [out1 [g1 [A1 [B1 C1]]]].
  destruct (H _ _ R2) as [_ [_ [_ D2]]]. destruct (D2 F2) as [out2 [g2 [A2 [B2 C2]]]].
  exists out1, g1, out2, g2. repeat (split; [assumption|]). intros x Hx N.
  apply (class_unique a0 a1 p0 p1 nd (by_cell f) x); auto.
Qed.
Print Assumptions C80_same_class_partial.

(** C80, false: the classes are the same for all orders in which tasks do their work.  4 x 4 cells, 2 x 2 partitions. *)
Theorem C80_order_refuted :
  exists (f : list Z -> Z) flow units st0 steps1 st1 out1 g1 steps2 st2 out2 g2,
  valid_network 4 4 ex_no_data (by_cell f) /\ acyclic 4 4 ex_no_data (by_cell f) /\
  raster_of [4; 4] [2; 2] flow f /\ raster_of [4; 4] [2; 2] units no_units /\
  info_start ex_no_data flow units = Ok st0 /\
  (info_run ex_no_data 2 2 st0 steps1 st1 /\ info_finished 2 2 st1 = true /\ info_results flow st1 = Ok out1 /\ raster_of [4; 4] [2; 2] out1 g1) /\
  (info_run ex_no_data 2 2 st0 steps2 st2 /\ info_finished 2 2 st2 = true /\ info_results flow st2 = Ok out2 /\ raster_of [4; 4] [2; 2] out2 g2) /\
  by_cell g1 (3, 2) = partition_input_cell /\ by_cell g2 (3, 2) = inter_partition_stream_cell.
Proof. exact depends_on_order. Qed.
Print Assumptions C80_order_refuted.

(** C80, false: a cell with multiple upstream neighbours can be classified as a confluence (accu_info.hpp:60-63).
    No cell of a result has that class, whatever the network. *)
Theorem C80_confluence_refuted : forall a0 a1 p0 p1 nd f flow units u st0 steps st out g x,
  2 <= p0 <= a0 -> 2 <= p1 <= a1 ->
  valid_network a0 a1 nd (by_cell f) -> acyclic a0 a1 nd (by_cell f) ->
  raster_of [a0; a1] [p0; p1] flow f -> raster_of [a0; a1] [p0; p1] units u ->
  info_start nd flow units = Ok st0 -> info_run nd (a0 / p0) (a1 / p1) st0 steps st -> info_finished (a0 / p0) (a1 / p1) st = true ->
  info_results flow st = Ok out -> raster_of [a0; a1] [p0; p1] out g -> inside a0 a1 x ->
  In (by_cell g x) [no_class; ridge_cell; intra_partition_stream_cell; partition_output_cell; partition_input_cell;
    partition_input_output_cell; inter_partition_stream_cell; sink_cell] /\ by_cell g x <> confluence_cell.
Proof.
  intros a0 a1 p0 p1 nd f flow units u st0 s st out g x H0 H1 V A RF RU E R F EO RO Hx.
  destruct (C80_classes_partial a0 a1 p0 p1 nd f flow units u H0 H1 V A RF RU) as [st' [E' H]].
  assert (st' = st0) by congruence. subst st'. destruct (H _ _ R) as [_ [_ [_ D]]]. destruct (D F) as [out1 [g1 [A1 [B1 C1]]]].
  assert (out1 = out) by congruence. subst out1.
  assert (EQ : by_cell g x = by_cell g1 x).
  { unfold by_cell. apply (raster_unique [a0; a1] [p0; p1] out); try assumption. destruct Hx as [Hx0 Hx1]. cbn [in_shape]. auto. }
  rewrite EQ. pose proof (class_values _ _ _ _ _ _ x _ (C1 x Hx)) as I. split; [exact I|].
  intros C. rewrite C in I. cbn in I. repeat destruct I as [I|I]; try discriminate I; contradiction.
Qed.
Print Assumptions C80_confluence_refuted.

(** The 4 x 6 network of [ex_flow], in 2 x 2 partitions: the classes by partition. *)
Example C80_ex :
  valid_network 4 6 ex_no_data (by_cell ex_flow) /\ acyclic 4 6 ex_no_data (by_cell ex_flow) /\
  raster_of [4; 6] [2; 2] (raster_array [4; 6] [2; 2] ex_flow) ex_flow /\ raster_of [4; 6] [2; 2] (raster_array [4; 6] [2; 2] no_units) no_units /\
  info_observe ex_no_data 2 3 (raster_array [4; 6] [2; 2] ex_flow) (raster_array [4; 6] [2; 2] no_units) (fun l => l) =
    Some (true, Some [[11; 13; 14; 11]; [14; 255; 11; 13]; [11; 13; 11; 11]; [11; 11; 11; 13]; [14; 13; 14; 13]; [14; 14; 17; 16]]).
Proof.
  split; [exact (proj1 ex_network)|]. split; [exact (proj2 ex_network)|].
  split; [apply raster_array_ok; [discriminate|repeat constructor; cbn; lia]|]. split; [apply raster_array_ok; [discriminate|repeat constructor; cbn; lia]|].
  vm_compute. reflexivity.
Qed.
(** In that network, three cells drain into cell (2, 4), which gets class 14. *)
Example C80_confluence_ex :
  drains 4 6 ex_no_data (by_cell ex_flow) (2, 3) (2, 4) /\ drains 4 6 ex_no_data (by_cell ex_flow) (3, 3) (2, 4) /\ drains 4 6 ex_no_data (by_cell ex_flow) (2, 5) (2, 4).
Proof. repeat split; cbn; try lia; try discriminate. Qed.
