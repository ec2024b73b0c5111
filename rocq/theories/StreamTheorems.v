(** Property theorems: downstream and upstream. *)
From Verif Require Import Common CoreSpec DecompSpec ArraySpec DecompModel ArrayModel ArrayRep RasterCheck FocalSpec FlowSpec AccuSpec StreamModel FlowCheck StreamProofs.

(** C24: downstream.  Outside of the array the material is zero.  [mnd] recognizes no-data material, [marker] is the no-data value
    of the result; [junk] and [ojunk] are the content of freshly allocated buffers. *)
Theorem C24_downstream :
  forall (E : Type) (zero : E) (nd : Z -> bool) (mnd : E -> bool) (marker : E) junk ojunk a0 a1 p0 p1 flow_direction f material m,
  raster_of [a0; a1] [p0; p1] flow_direction f -> raster_of [a0; a1] [p0; p1] material m ->
  3 <= smallest_block a0 p0 -> 3 <= smallest_block a1 p1 ->
  exists out g, downstream zero nd mnd (fun _ => marker) junk ojunk flow_direction material = Ok out /\ raster_of [a0; a1] [p0; p1] out g /\
    forall x, inside a0 a1 x ->
      let own := by_cell m x in
      let next := towards (by_cell f) x in
      let value := if insideb a0 a1 next then by_cell m next else zero in
      (nd (by_cell f x) = true \/ mnd own = true \/ mnd value = true -> by_cell g x = marker) /\
      (nd (by_cell f x) = false -> mnd own = false -> mnd value = false -> by_cell g x = value).
Proof. exact @c24_downstream. Qed.
Print Assumptions C24_downstream.

(** C24: upstream.  No-data flow directions do not look like a direction. *)
Theorem C24_upstream :
  forall (E : Type) (zero : E) plus (nd : Z -> bool) (mnd : E -> bool) (marker : E) junk ojunk a0 a1 p0 p1 flow_direction f material m,
  (forall v, nd v = true -> keypad v = (0, 0)) ->
  raster_of [a0; a1] [p0; p1] flow_direction f -> raster_of [a0; a1] [p0; p1] material m ->
  3 <= smallest_block a0 p0 -> 3 <= smallest_block a1 p1 ->
  exists out g, upstream_sum zero plus nd mnd (fun _ => marker) junk ojunk flow_direction material = Ok out /\ raster_of [a0; a1] [p0; p1] out g /\
    forall x, inside a0 a1 x -> exists L, lists (fun y => drains a0 a1 nd (by_cell f) y x) L /\
      (nd (by_cell f x) = true \/ mnd (by_cell m x) = true \/ (exists y, In y L /\ mnd (by_cell m y) = true) -> by_cell g x = marker) /\
      (nd (by_cell f x) = false -> mnd (by_cell m x) = false -> (forall y, In y L -> mnd (by_cell m y) = false) ->
       by_cell g x = fold_left plus (map (by_cell m) L) zero).
Proof. exact @c24_upstream. Qed.
Print Assumptions C24_upstream.

(** C24: partitions with less than three rows or columns are reported. *)
Theorem C24_small_partitions_are_reported :
  forall (E : Type) (zero : E) plus (nd : Z -> bool) (mnd : E -> bool) (marker : E) junk ojunk a0 a1 p0 p1 flow_direction f material m,
  raster_of [a0; a1] [p0; p1] flow_direction f -> raster_of [a0; a1] [p0; p1] material m ->
  smallest_block a0 p0 < 3 \/ smallest_block a1 p1 < 3 ->
  downstream zero nd mnd (fun _ => marker) junk ojunk flow_direction material = Throw /\
  upstream_sum zero plus nd mnd (fun _ => marker) junk ojunk flow_direction material = Throw.
Proof. exact @c24_small. Qed.
Print Assumptions C24_small_partitions_are_reported.

Definition ex_amount (x : list Z) : Z := 10 * nth 0 x 0 + nth 1 x 0.
Definition ex_datas {E} (o : outcome (parray E)) : list (list E) := match o with Ok a => map pl_data (pa_parts a) | _ => [] end.
Example C24_ex :
  raster_of [4; 6] [4; 3] (raster_array [4; 6] [4; 3] ex_flow) ex_flow /\ raster_of [4; 6] [4; 3] (raster_array [4; 6] [4; 3] ex_amount) ex_amount /\
  smallest_block 4 4 = 4 /\ smallest_block 6 3 = 3 /\ (forall v, ex_no_data v = true -> keypad v = (0, 0)) /\
  ex_datas (downstream 0 ex_no_data (fun v => v =? 23) (fun _ => -1) (fun _ => (9, 9)) (fun _ => 9)
    (raster_array [4; 6] [4; 3] ex_flow) (raster_array [4; 6] [4; 3] ex_amount)) =
    [[1; 2; 13; 1; 11; -1; 10; 10; -1; 31; 32; 33]; [-1; 5; 0; 22; 13; 25; -1; 35; 24; 24; 34; 34]] /\
  ex_datas (upstream_sum 0 Z.add ex_no_data (fun v => v =? 23) (fun _ => -1) (fun _ => (9, 9)) (fun _ => 9)
    (raster_array [4; 6] [4; 3] ex_flow) (raster_array [4; 6] [4; 3] ex_amount)) =
    [[0; 10; 1; 41; 0; 0; 0; 0; 13; 0; 30; 31]; [-1; 0; 4; 16; 0; 0; -1; -1; 15; 32; 35; 24]].
Proof.
  split; [apply raster_array_ok; [discriminate|repeat constructor; cbn; lia]|]. split; [apply raster_array_ok; [discriminate|repeat constructor; cbn; lia]|].
  split; [reflexivity|]. split; [reflexivity|]. split; [intros v Hv; apply Z.eqb_eq in Hv; now subst|]. split; vm_compute; reflexivity.
Qed.
