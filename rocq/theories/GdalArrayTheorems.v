(** C65: reading rasters into arrays and writing arrays to rasters with GDAL. *)
From Flocq Require Import BinarySingleNaN.
From Verif Require Import Common CoreSpec DecompSpec ArraySpec IndexModel DecompModel ArrayModel ArrayRep ArrayProofs RasterCheck IOModel IOSpec IOProofs Float64 GdalArrayModel GdalArraySpec GdalArrayProofs.

(** C65: reading a raster gives the values of the band, with LUE's no-data value in the cells that have the no-data value of the band, whatever the
    partition shape and the number of localities. *)
Theorem C65_read : forall (E C S : Type) (kind : element_kind E) junk nr_localities (r : gdal_raster E C S) n F no_data p,
  supported nr_localities n p -> partition_fits n p -> nr_localities <= nr_parts n p -> raster_file r n F no_data ->
  exists arr g, from_gdal kind junk nr_localities (Some r) p = Ok arr /\ raster_of n p arr g /\ read_as kind no_data n F g.
Proof. exact @from_gdal_ok. Qed.
Print Assumptions C65_read.

(** C65: reading the part of a raster around a center gives the values of the cells of that part. *)
Theorem C65_read_part : forall (E C S : Type) (kind : element_kind E) junk nr_localities (r : gdal_raster E C S) n F no_data center shape offsets p,
  length center = length shape -> length offsets = length shape ->
  (forall d, (d < length shape)%nat -> nth d offsets 0 + nth d shape 0 / 2 = nth d center 0) -> box_within offsets shape n ->
  supported nr_localities shape p -> partition_fits shape p -> nr_localities <= nr_parts shape p -> raster_file r n F no_data ->
  exists arr g, from_gdal_hyperslab kind junk nr_localities (Some r) center shape p = Ok arr /\ raster_of shape p arr g /\
    read_as kind no_data shape (fun x => F (vadd offsets x)) g.
Proof. exact @from_gdal_hyperslab_ok. Qed.
Print Assumptions C65_read_part.

(** C65: a part that is not within the raster is reported. *)
Theorem C65_outside_is_reported : forall (E C S : Type) (kind : element_kind E) junk nr_localities (r : gdal_raster E C S) n F no_data center shape offsets p,
  length center = length shape -> length offsets = length shape -> length n = length shape -> is_shape shape ->
  (forall d, (d < length shape)%nat -> nth d offsets 0 + nth d shape 0 / 2 = nth d center 0) -> ~ box_within offsets shape n -> raster_file r n F no_data ->
  from_gdal_hyperslab kind junk nr_localities (Some r) center shape p = Throw.
Proof. exact @from_gdal_hyperslab_throws. Qed.
Print Assumptions C65_outside_is_reported.

(** C65: writing an array gives a raster with the values of the array, LUE's no-data value as no-data value, and the georeference of the clone (if
    any), whatever the order in which partitions become ready. *)
Theorem C65_write : forall (E C S : Type) (kind : element_kind E) (of_int : Z -> C) created picks a p arr f (clone : option (gdal_raster E C S)) before,
  raster_of a p arr f -> valid_picks (length (pa_parts arr)) picks -> (forall c, clone = Some c -> ds_shape (gr_band c) = a) ->
  exists r, to_gdal kind of_int created picks arr (option_map Some clone) before = (Some r, Ok tt) /\
    raster_file r a f (Some (ek_mark kind)) /\ georeferenced of_int a clone r.
Proof. exact @to_gdal_ok. Qed.
Print Assumptions C65_write.

(** C65: an array that is written and read again has the values that were written; partitions may differ. *)
Theorem C65_round_trip : forall (E C S : Type) (kind : element_kind E) (of_int : Z -> C) created picks a p arr f (clone : option (gdal_raster E C S)) before,
  one_mark kind -> raster_of a p arr f -> valid_picks (length (pa_parts arr)) picks -> (forall c, clone = Some c -> ds_shape (gr_band c) = a) ->
  exists r, to_gdal kind of_int created picks arr (option_map Some clone) before = (Some r, Ok tt) /\
    forall junk nr_localities p', supported nr_localities a p' -> partition_fits a p' -> nr_localities <= nr_parts a p' ->
      exists arr', from_gdal kind junk nr_localities (Some r) p' = Ok arr' /\ raster_of a p' arr' f.
Proof.
  intros E C S kind of_int created picks a p arr f clone before Hm H Hv Hc. destruct (to_gdal_ok kind of_int created picks a p arr f clone before H Hv Hc) as [r [E1 [Hr _]]].
  exists r. split; [exact E1|]. intros junk L p' Hs Hf HL. destruct (from_gdal_ok kind junk L r a f _ p' Hs Hf HL Hr) as [arr' [g [E2 [R G]]]].
  exists arr'. split; [exact E2|]. eapply raster_ext; [|exact R]. intros x Hx. eapply read_back; eassumption.
Qed.
Print Assumptions C65_round_trip.

(** The element types of LUE have one no-data value. *)
Theorem C65_one_mark : (forall bits, one_mark (unsigned_kind bits)) /\ (forall bits, one_mark (signed_kind bits)) /\ one_mark float_kind.
Proof. split; [|split]; intros; first [apply integer_one_mark|apply float_one_mark]. Qed.
Print Assumptions C65_one_mark.

(** C65, no-data in the array where the band has no-data and nowhere else: only if no valid value of the band is LUE's no-data value. *)
Theorem C65_no_data_partial : forall (E C S : Type) (kind : element_kind E) junk nr_localities (r : gdal_raster E C S) n F no_data p,
  one_mark kind -> missing_in_array kind (ek_mark kind) ->
  supported nr_localities n p -> partition_fits n p -> nr_localities <= nr_parts n p -> raster_file r n F no_data ->
  (forall x, in_shape n x -> missing_in_array kind (F x) -> missing_in_band kind no_data (F x)) ->
  exists arr g, from_gdal kind junk nr_localities (Some r) p = Ok arr /\ raster_of n p arr g /\
    forall x, in_shape n x -> (missing_in_array kind (g x) <-> missing_in_band kind no_data (F x)).
Proof.
  intros E C S kind junk L r n F nd p H1 H2 Hs Hf HL Hr Hv. destruct (from_gdal_ok kind junk L r n F nd p Hs Hf HL Hr) as [arr [g [E1 [R G]]]].
  exists arr, g. split; [exact E1|]. split; [exact R|]. intros x Hx. destruct (G x Hx) as [A B]. split.
  - intros Hm. destruct (band_is_no_data kind nd (F x)) eqn:Eb; [now apply is_no_data_iff in Eb|]. apply Hv; [assumption|].
    rewrite B in Hm; [assumption|]. rewrite <- is_no_data_iff. congruence.
  - intros Hm. rewrite (A Hm). assumption.
Qed.
Print Assumptions C65_no_data_partial.

(** A raster of bytes: 2 by 3 cells, [no_data] as no-data value. *)
Definition byte_raster (no_data : option Z) (cells : list Z) : gdal_raster Z Z unit := GdalRaster (Dataset [2; 3] cells) no_data None None.

(** C65, no-data nowhere else: does not hold.  In a raster without a no-data value, the byte 255 is a value like any other; in the array, it is no-data.
    The same holds when another value is the no-data value. *)
Theorem C65_valid_cells_refuted : forall no_data, no_data = None \/ no_data = Some 0 ->
  exists cells F arr g x, raster_file (byte_raster no_data cells) [2; 3] F no_data /\
    from_gdal (unsigned_kind 8) (fun _ => 0) 1 (Some (byte_raster no_data cells)) [2; 3] = Ok arr /\ raster_of [2; 3] [2; 3] arr g /\
    in_shape [2; 3] x /\ ~ missing_in_band (unsigned_kind 8) no_data (F x) /\ missing_in_array (unsigned_kind 8) (g x).
Proof.
  intros nd Hnd. exists [1; 2; 3; 4; 255; 6]. exists (fun x => match x with [i; j] => nth (Z.to_nat (i * 3 + j)) [1; 2; 3; 4; 255; 6] 0 | _ => 0 end).
  pose (F := fun x => match x with [i; j] => nth (Z.to_nat (i * 3 + j)) [1; 2; 3; 4; 255; 6] 0 | _ => 0 end). fold F.
  assert (Hr : raster_file (byte_raster nd [1; 2; 3; 4; 255; 6]) [2; 3] F nd).
  { split; [|reflexivity]. split; [reflexivity|]. split; [reflexivity|]. intros [|i [|j [|]]] Hx; cbn in Hx; try tauto.
    assert (Hi : i = 0 \/ i = 1) by lia. assert (Hj : j = 0 \/ j = 1 \/ j = 2) by lia. destruct Hi as [->| ->], Hj as [->|[->| ->]]; reflexivity. }
  destruct (C65_read Z Z unit (unsigned_kind 8) (fun _ => 0) 1 (byte_raster nd [1; 2; 3; 4; 255; 6]) [2; 3] F nd [2; 3]) as [arr [g [E1 [R G]]]].
  - split; [discriminate|]. split; [cbn; lia|]. split; [lia|]. cbn. lia.
  - repeat constructor; lia.
  - cbn. lia.
  - exact Hr.
  - exists arr, g, [1; 1]. split; [exact Hr|]. split; [exact E1|]. split; [exact R|]. split; [cbn; lia|].
    assert (Hn : ~ missing_in_band (unsigned_kind 8) nd (F [1; 1])).
    { rewrite <- is_no_data_iff. destruct Hnd as [->| ->]; discriminate. }
    split; [exact Hn|]. destruct (G [1; 1]) as [_ G2]; [cbn; lia|]. rewrite (G2 Hn). reflexivity.
Qed.
Print Assumptions C65_valid_cells_refuted.

(** C65: an array is not written with the georeference of a raster of another shape, but reported... *)
Theorem C65_clone_is_checked : forall (E C S : Type) (kind : element_kind E) (of_int : Z -> C) created picks a p arr f (clone : gdal_raster E C S) before,
  raster_of a p arr f -> ds_shape (gr_band clone) <> a -> snd (to_gdal kind of_int created picks arr (Some (Some clone)) before) = Throw.
Proof.
  intros E C S kind of_int created picks a p arr f clone before [_ [_ [Es _]]] Hn. unfold to_gdal. rewrite Es.
  destruct (list_eq_dec Z.eq_dec (ds_shape (gr_band clone)) a) as [He|_]; [contradiction|reflexivity].
Qed.
Print Assumptions C65_clone_is_checked.

(** ... when the raster that had the name is already gone: a call that fails does not leave the file as it was. *)
Theorem C65_failed_write_refuted : exists (before clone : gdal_raster Z Z unit) arr after,
  raster_of [2; 3] [2; 3] arr (fun _ => 7) /\
  to_gdal (unsigned_kind 8) (fun z => z) (fun _ => 0) [O] arr (Some (Some clone)) (Some before) = (Some after, Throw) /\
  ds_cells (gr_band before) = [1; 2; 3; 4; 5; 6] /\ ds_cells (gr_band after) = [0; 0; 0; 0; 0; 0].
Proof.
  exists (byte_raster None [1; 2; 3; 4; 5; 6]), (GdalRaster (Dataset [2; 2] [0; 0; 0; 0]) None None None), (raster_array [2; 3] [2; 3] (fun _ => 7)).
  eexists. split; [apply raster_of_listed; try reflexivity; [discriminate|repeat constructor; lia]|]. split; [reflexivity|]. split; reflexivity.
Qed.
Print Assumptions C65_failed_write_refuted.

(** An array of 3 by 4 bytes in partitions of 1 by 2, which become ready in some order; its lower right corner read back in one partition. *)
Definition gdal_cells (x : list Z) : Z := match x with [i; j] => if (i =? 1) && (j =? 2) then 255 else 10 * i + j | _ => 0 end.
Definition gdal_array : parray Z := raster_array [3; 4] [1; 2] gdal_cells.
Definition gdal_clone : gdal_raster Z Z unit := GdalRaster (Dataset [3; 4] (repeat 0 12)) None (Some [100; 5; 0; 200; 0; -5]) (Some tt).
Definition gdal_file : gdal_raster Z Z unit :=
  GdalRaster (Dataset [3; 4] [0; 1; 2; 3; 10; 11; 255; 13; 20; 21; 22; 23]) (Some 255) (Some [100; 5; 0; 200; 0; -5]) (Some tt).
Example C65_ex :
  raster_of [3; 4] [1; 2] gdal_array gdal_cells /\ valid_picks (length (pa_parts gdal_array)) [3; 3; 0; 1; 1; 0]%nat /\
  to_gdal (unsigned_kind 8) (fun z => z) (fun _ => 99) [3; 3; 0; 1; 1; 0]%nat gdal_array (Some (Some gdal_clone)) None = (Some gdal_file, Ok tt) /\
  from_gdal_hyperslab (unsigned_kind 8) (fun _ => 99) 1 (Some gdal_file) [2; 2] [2; 3] [2; 3] =
    Ok (PArray [2; 3] [1; 1] [Placed 0 [0; 0] [2; 3] [11; 255; 13; 21; 22; 23]]) /\
  from_gdal_hyperslab (unsigned_kind 8) (fun _ => 99) 1 (Some gdal_file) [2; 3] [2; 3] [2; 3] = Throw /\
  box_within [1; 1] [2; 3] [3; 4] /\ ~ box_within [1; 2] [2; 3] [3; 4] /\ missing_in_array (unsigned_kind 8) 255.
Proof.
  split; [apply raster_of_listed; try reflexivity; [discriminate|repeat constructor; lia]|]. split; [change (length (pa_parts gdal_array)) with 6%nat; cbn; repeat split; lia|]. split; [vm_compute; reflexivity|].
  split; [vm_compute; reflexivity|]. split; [vm_compute; reflexivity|]. cbn. repeat split; lia.
Qed.
(** Another no-data value than LUE's: -9999 becomes NaN in doubles, -2147483648 in integers. *)
Example C65_no_data_ex :
  from_gdal (signed_kind 32) (fun _ => 99) 1 (Some (byte_raster (Some (-9999)) [1; -9999; 3; 4; 5; -9999])) [2; 3] =
    Ok (PArray [2; 3] [1; 1] [Placed 0 [0; 0] [2; 3] [1; -2147483648; 3; 4; 5; -2147483648]]) /\
  band_is_no_data float_kind (Some (b64_of_Z (-9999))) (b64_of_Z (-9999)) = true /\
  band_mark float_kind (Some (b64_of_Z (-9999))) (b64_of_Z (-9999)) = B754_nan.
Proof. split; [vm_compute; reflexivity|]. split; [vm_compute; reflexivity|reflexivity]. Qed.
