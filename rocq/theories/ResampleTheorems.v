(** C27: downscaling. *)
From Verif Require Import Common CommonProofs CoreSpec DecompSpec ArraySpec Float64 IndexModel DecompModel ArrayModel ArrayRep RasterCheck GridModel ResampleModel ResampleSpec ResampleProofs2.

Definition downscale_always : Prop :=
  forall (E : Type) (nd : E -> bool) (mark : E -> E) (marker : E) (junk : Z -> E), (forall e, mark e = marker) ->
  forall nr_localities arr f count a0 a1 p0 p1 q0 q1,
  raster_of [a0; a1] [p0; p1] arr f -> 1 <= count -> part_extent [a0; a1] [p0; p1] [0; 0] = [q0; q1] ->
  supported nr_localities [count * a0; count * a1] [q0; q1] -> nr_localities <= nr_parts [a0; a1] [p0; p1] ->
  exists res, downscale nd mark junk nr_localities arr count = Ok res /\
    raster_of [count * a0; count * a1] [q0; q1] res (downscaled nd marker count f).

(** C27.  Missing: arrays for which the cells left after the last whole partition do not fit ([remainder_fits]); for those it is false, see
    [C27_downscale_refuted]. *)
Theorem C27_downscale_partial :
  forall (E : Type) (nd : E -> bool) (mark : E -> E) (marker : E) (junk : Z -> E), (forall e, mark e = marker) ->
  forall nr_localities arr f count a0 a1 p0 p1 q0 q1,
  raster_of [a0; a1] [p0; p1] arr f -> 1 <= count -> part_extent [a0; a1] [p0; p1] [0; 0] = [q0; q1] ->
  remainder_fits count a0 p0 -> remainder_fits count a1 p1 ->
  supported nr_localities [count * a0; count * a1] [q0; q1] -> nr_localities <= nr_parts [a0; a1] [p0; p1] ->
  exists res, downscale nd mark junk nr_localities arr count = Ok res /\
    raster_of [count * a0; count * a1] [q0; q1] res (downscaled nd marker count f).
Proof. exact @downscale_ok. Qed.
Print Assumptions C27_downscale_partial.

Theorem C27_zero_count_is_reported : forall (E : Type) (nd : E -> bool) mark junk nr_localities (arr : parray E), downscale nd mark junk nr_localities arr 0 = Throw.
Proof. reflexivity. Qed.
Print Assumptions C27_zero_count_is_reported.

Definition ds_f (x : list Z) : Z := 100 * nth 0 x 0 + nth 1 x 0.
Definition ds_datas {E} (o : outcome (parray E)) : list (list E) := match o with Ok a => map pl_data (pa_parts a) | _ => [] end.

(** One row of eleven cells in partitions of four and seven cells: cells 24 to 32 of the result get the values of source cells 4 to 6 instead of 8 to 10. *)
Example downscaled_11 :
  ds_datas (downscale (fun v => v =? 3) (fun _ => -1) (fun _ => 77) 1 (raster_array [1; 11] [1; 4] ds_f) 3) =
    let row := [[0; 0; 0; 1]; [1; 1; 2; 2]; [2; -1; -1; -1]; [4; 4; 4; 5]; [5; 5; 6; 6]; [6; 7; 7; 7]; [4; 4; 4; 5]; [5; 5; 6; 6; 6]] in row ++ row ++ row.
Proof. vm_compute. reflexivity. Qed.

(** The code as it is does not downscale every array correctly. *)
Theorem C27_downscale_refuted : ~ downscale_always.
Proof.
  intros W. destruct (W Z (fun v => v =? 3) (fun _ => -1) (-1) (fun _ => 77) ltac:(reflexivity) 1 (raster_array [1; 11] [1; 4] ds_f) ds_f 3 1 11 1 4 1 4) as [res [E1 R]].
  - apply raster_array_ok; [discriminate|repeat constructor; cbn; lia].
  - lia.
  - reflexivity.
  - repeat split; cbn; try lia; discriminate.
  - cbn. lia.
  - destruct R as [_ [_ [_ [_ [_ R]]]]]. destruct (R [0; 6]) as [d [E2 B]]; [cbn; lia|].
    pose proof downscaled_11 as X. rewrite E1 in X. cbn [ds_datas] in X. cbn in X.
    rewrite nth_error_map in E2. destruct (nth_error (pa_parts res) _) as [q|] eqn:E3; cbn in E2; [|discriminate]. injection E2 as _ _ E2.
    assert (E4 : nth_error (map pl_data (pa_parts res)) 6 = Some d) by (rewrite nth_error_map; change (nth_error (pa_parts res) 6 = Some q) in E3; rewrite E3; cbn; now rewrite E2).
    rewrite X in E4. cbn in E4. injection E4 as E4. destruct B as [_ B]. specialize (B [0; 0]). cbn in B. rewrite <- E4 in B. cbn in B.
    specialize (B ltac:(lia)). discriminate.
Qed.
Print Assumptions C27_downscale_refuted.

(** The hypotheses of [C27_downscale_partial] hold for five columns in partitions of two and three cells, each split in three. *)
Example C27_ex :
  raster_of [2; 5] [1; 2] (raster_array [2; 5] [1; 2] ds_f) ds_f /\ part_extent [2; 5] [1; 2] [0; 0] = [1; 2] /\
  remainder_fits 3 2 1 /\ remainder_fits 3 5 2 /\ supported 2 [3 * 2; 3 * 5] [1; 2] /\ 2 <= nr_parts [2; 5] [1; 2] /\
  firstn 7 (ds_datas (downscale (fun v => v =? 3) (fun _ => -1) (fun _ => 77) 2 (raster_array [2; 5] [1; 2] ds_f) 3)) =
    [[0; 0]; [0; 1]; [1; 1]; [2; 2]; [2; -1]; [-1; -1]; [4; 4; 4]].
Proof.
  split; [apply raster_array_ok; [discriminate|repeat constructor; cbn; lia]|]. split; [reflexivity|].
  split; [right; left; cbn; lia|]. split; [right; right; cbn; lia|]. split; [repeat split; cbn; try lia; discriminate|]. split; [cbn; lia|]. vm_compute. reflexivity.
Qed.
