(** Property theorems: counting upstream neighbours. *)
From Verif Require Import Common CoreSpec DecompSpec ArraySpec DecompModel ArrayModel ArrayRep RasterCheck FlowSpec AccuSpec FlowModel FlowCheck FlowProofs5.

(** C20, for partitions with at least two rows and two columns.  [nd] decides whether a flow direction is no-data; [mark]
    and [cnd] mark no-data counts and recognize them. *)
Theorem C20_inflow_count_partial :
  forall a0 a1 p0 p1 (nd : Z -> bool) (mark : Z -> Z) (cnd : Z -> bool) flow_direction f,
  2 <= p0 -> 2 <= p1 -> raster_of [a0; a1] [p0; p1] flow_direction f ->
  valid_network a0 a1 nd (by_cell f) -> (forall k, 0 <= k < 8 -> cnd k = false) ->
  exists out g, inflow_count nd mark cnd flow_direction = Ok out /\ raster_of [a0; a1] [p0; p1] out g /\
    forall x, inside a0 a1 x ->
      (nd (by_cell f x) = true -> by_cell g x = mark 0) /\
      (nd (by_cell f x) = false -> exists L, lists (fun y => drains a0 a1 nd (by_cell f) y x) L /\ by_cell g x = Z.of_nat (length L)).
Proof. exact c20. Qed.
Print Assumptions C20_inflow_count_partial.
Example C20_ex :
  raster_of [4; 6] [2; 2] (raster_array [4; 6] [2; 2] ex_flow) ex_flow /\ valid_network 4 6 ex_no_data (by_cell ex_flow) /\
  option_map (fun a => map pl_data (pa_parts a))
    (match inflow_count ex_no_data (fun _ => -1) (fun k => k =? -1) (raster_array [4; 6] [2; 2] ex_flow) with Ok a => Some a | _ => None end) =
  Some [[0; 2; 2; 0]; [1; -1; 0; 2]; [0; 1; 0; 0]; [0; 0; 0; 1]; [1; 2; 1; 1]; [3; 1; 1; 1]].
Proof.
  split; [apply raster_array_ok; [discriminate|repeat constructor; cbn; lia]|]. split; [exact (proj1 ex_network)|]. vm_compute. reflexivity.
Qed.

(** C20, false for partitions of one row: the second of three cells that flow east, the only inflow of which is from the
    first cell, is counted to have two inflows. *)
Theorem C20_single_row_refuted :
  exists out g,
  raster_of [1; 3] [1; 3] (raster_array [1; 3] [1; 3] row_flow) row_flow /\
  valid_network 1 3 ex_no_data (by_cell row_flow) /\
  inflow_count ex_no_data (fun _ => -1) (fun k => k =? -1) (raster_array [1; 3] [1; 3] row_flow) = Ok out /\
  raster_of [1; 3] [1; 3] out g /\
  lists (fun y => drains 1 3 ex_no_data (by_cell row_flow) y (0, 1)) [(0, 0)] /\ by_cell g (0, 1) = 2.
Proof. exact c20_refuted. Qed.
Print Assumptions C20_single_row_refuted.
