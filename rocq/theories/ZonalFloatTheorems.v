(** Property theorems: zonal sums and means of floating point numbers (C16). *)
From Coq Require Import Reals Lra Permutation Floats.SpecFloat.
From Flocq Require Import Core.
From Flocq Require Import IEEE754.BinarySingleNaN.
From Verif Require Import Common CoreSpec DecompSpec ArraySpec DecompModel ArrayModel ArrayRep AggregateModel AggregateSpec RasterCheck Float64 Float64Proofs
  FloatSumSpec FloatSumProofs ZonalModel ZonalSpec ZonalFloatModel ZonalFloatProofs.
Local Open Scope R_scope.

(** In all theorems [iter] is the unspecified order in which a hash map's entries are visited and [junk] the content of freshly allocated
    buffers.  A value is valid if it is not NaN; valid values are finite. *)

(** C16: the rounding error of a zone's sum, whatever the partitioning and the order of merging. *)
Theorem C16_zonal_sum_float :
  forall prec emax (Hprec : Prec_gt_0 prec) (Hemax : Prec_lt_emax prec emax) iter zone_no_data junk a p (values : parray (binary_float prec emax)) zones fv fz,
  (forall m, Permutation (iter m) m) -> raster_of a p values fv -> raster_of a p zones fz ->
  (forall c, in_shape a c -> is_nan (fv c) = false -> is_finite (fv c) = true) ->
  exists out g, float_zonal_sum prec emax Hprec Hemax iter zone_no_data junk values zones = Ok out /\ raster_of a p out g /\
    forall c, in_shape a c ->
      let l := zone_values (fun v => negb (is_nan v)) a fz fv (fz c) in
      let growth := (1 + bpow radix2 (- prec)) ^ (length l - 1) in
      (zone_no_data (fz c) = false -> l <> [] -> magnitude l * growth < bpow radix2 emax ->
        is_finite (g c) = true /\ Rabs (B2R (g c) - total l) <= (growth - 1) * magnitude l) /\
      (zone_no_data (fz c) = true \/ l = [] -> g c = B754_nan).
Proof.
  intros. destruct (zsum_ok (Hprec := Hprec) (Hemax := Hemax) added added_one added_app added_perm iter zone_no_data junk a p values zones fv fz) as [out [g [E [R HC]]]]; try assumption.
  exists out, g. split; [exact E|]. split; [exact R|]. intros c Hc. destruct (HC c Hc) as [G1 G2]. split; [|exact G2]. intros V N M. exact (G1 V N M).
Qed.
Print Assumptions C16_zonal_sum_float.

(** C16: whole numbers of units of size 2^e are added without rounding errors if the sum of the zone's magnitudes is at most 2^prec units. *)
Theorem C16_zonal_sum_of_whole_numbers :
  forall prec emax (Hprec : Prec_gt_0 prec) (Hemax : Prec_lt_emax prec emax) e iter zone_no_data junk a p (values : parray (binary_float prec emax)) zones fv fz,
  (3 - emax - prec <= e)%Z ->
  (forall m, Permutation (iter m) m) -> raster_of a p values fv -> raster_of a p zones fz ->
  (forall c, in_shape a c -> is_nan (fv c) = false -> is_finite (fv c) = true) ->
  exists out g, float_zonal_sum prec emax Hprec Hemax iter zone_no_data junk values zones = Ok out /\ raster_of a p out g /\
    forall c, in_shape a c ->
      let l := zone_values (fun v => negb (is_nan v)) a fz fv (fz c) in
      zone_no_data (fz c) = false -> l <> [] -> (forall v, In v l -> exists n : Z, B2R v = IZR n * bpow radix2 e) ->
      magnitude l <= bpow radix2 (prec + e) -> magnitude l < bpow radix2 emax ->
      is_finite (g c) = true /\ B2R (g c) = total l.
Proof.
  intros prec emax Hprec Hemax e iter zone_no_data junk a p values zones fv fz He Hi Hv Hz HF.
  destruct (zsum_ok (Hprec := Hprec) (Hemax := Hemax) (added_whole e) (added_whole_one e) (fun l m v w _ _ => added_whole_app e He l m v w) (added_whole_perm e) iter zone_no_data junk a p values zones fv fz) as [out [g [E [R HC]]]]; try assumption.
  exists out, g. split; [exact E|]. split; [exact R|]. intros c Hc. destruct (HC c Hc) as [G1 _]. intros l V N W M1 M2. exact (G1 V N W M1 M2).
Qed.
Print Assumptions C16_zonal_sum_of_whole_numbers.

(** C16: the rounding error of a zone's mean.  2^(2-emax-prec) is half of the smallest positive number of the format. *)
Theorem C16_zonal_mean_float :
  forall prec emax (Hprec : Prec_gt_0 prec) (Hemax : Prec_lt_emax prec emax) iter zone_no_data junk a p (values : parray (binary_float prec emax)) zones fv fz,
  (forall m, Permutation (iter m) m) -> raster_of a p values fv -> raster_of a p zones fz ->
  (forall c, in_shape a c -> is_nan (fv c) = false -> is_finite (fv c) = true) ->
  exists out g, float_zonal_mean prec emax Hprec Hemax iter zone_no_data junk values zones = Ok out /\ raster_of a p out g /\
    forall c, in_shape a c ->
      let l := zone_values (fun v => negb (is_nan v)) a fz fv (fz c) in
      let n := length l in let growth k := (1 + bpow radix2 (- prec)) ^ k in
      (zone_no_data (fz c) = false -> l <> [] -> (Z.of_nat n <= 2 ^ prec)%Z -> magnitude l * growth (n - 1)%nat < bpow radix2 emax ->
        is_finite (g c) = true /\
        Rabs (B2R (g c) - total l / INR n) <= (growth n - 1) * magnitude l / INR n + bpow radix2 (2 - emax - prec)) /\
      (zone_no_data (fz c) = true \/ l = [] -> g c = B754_nan).
Proof.
  intros. destruct (zmean_ok (Hprec := Hprec) (Hemax := Hemax) added added_one added_app added_perm iter zone_no_data junk a p values zones fv fz) as [out [g [E [R HC]]]]; try assumption.
  exists out, g. split; [exact E|]. split; [exact R|]. intros c Hc. destruct (HC c Hc) as [G1 G2]. split; [|exact G2]. intros V N L M. destruct (G1 V N) as [s [A ->]]. now apply mean_error.
Qed.
Print Assumptions C16_zonal_mean_float.

(** C16: the mean of whole numbers of units is the exact mean, rounded once: it does not depend on the partitioning. *)
Theorem C16_zonal_mean_of_whole_numbers :
  forall prec emax (Hprec : Prec_gt_0 prec) (Hemax : Prec_lt_emax prec emax) e iter zone_no_data junk a p (values : parray (binary_float prec emax)) zones fv fz,
  (3 - emax - prec <= e)%Z ->
  (forall m, Permutation (iter m) m) -> raster_of a p values fv -> raster_of a p zones fz ->
  (forall c, in_shape a c -> is_nan (fv c) = false -> is_finite (fv c) = true) ->
  exists out g, float_zonal_mean prec emax Hprec Hemax iter zone_no_data junk values zones = Ok out /\ raster_of a p out g /\
    forall c, in_shape a c ->
      let l := zone_values (fun v => negb (is_nan v)) a fz fv (fz c) in
      zone_no_data (fz c) = false -> l <> [] -> (Z.of_nat (length l) <= 2 ^ prec)%Z -> (forall v, In v l -> exists n : Z, B2R v = IZR n * bpow radix2 e) ->
      magnitude l <= bpow radix2 (prec + e) -> magnitude l < bpow radix2 emax ->
      is_finite (g c) = true /\ B2R (g c) = round radix2 (FLT_exp (3 - emax - prec) prec) ZnearestE (total l / INR (length l)).
Proof.
  intros prec emax Hprec Hemax e iter zone_no_data junk a p values zones fv fz He Hi Hv Hz HF.
  destruct (zmean_ok (Hprec := Hprec) (Hemax := Hemax) (added_whole e) (added_whole_one e) (fun l m v w _ _ => added_whole_app e He l m v w) (added_whole_perm e) iter zone_no_data junk a p values zones fv fz) as [out [g [E [R HC]]]]; try assumption.
  exists out, g. split; [exact E|]. split; [exact R|]. intros c Hc. destruct (HC c Hc) as [G1 _]. intros l V N L W M1 M2. destruct (G1 V N) as [s [A ->]]. destruct (A W M1 M2) as [F ET].
  fold l. assert (1 <= length l)%nat by (destruct l; [congruence|cbn; lia]). destruct (divide_count (Hprec := Hprec) (Hemax := Hemax) s (Z.of_nat (length l)) F ltac:(lia)) as [D1 D2]. split; [exact D1|].
  rewrite D2, <- INR_IZR_INZ. fold l in ET. now rewrite ET.
Qed.
Print Assumptions C16_zonal_mean_of_whole_numbers.

(** Double precision: zone 1 has the numbers 3, no-data and -4, in two partitions; zone 2 has the number 5; a cell has no zone. *)
Definition ex_zone_values (c : list Z) : b64 := nth (Z.to_nat (nth 0 c 0%Z)) [b64_of_Z 3; B754_nan; b64_of_Z 5; b64_of_Z (-4); b64_of_Z 8] B754_nan.
Definition ex_zones (c : list Z) : Z := nth (Z.to_nat (nth 0 c 0%Z)) [1; 1; 2; 1; -1]%Z (-1)%Z.
Notation zone_l z := (zone_values (fun v => negb (is_nan v)) [5%Z] ex_zones ex_zone_values z).
Lemma ex_zone_l : zone_l 1%Z = [b64_of_Z 3; b64_of_Z (-4)]. Proof. reflexivity. Qed.
Definition ex_output (op : outcome (parray b64)) : option (list (list spec_float)) :=
  match op with Ok r => Some (map (fun q => map B2SF (pl_data q)) (pa_parts r)) | _ => None end.
Example C16_float_ex :
  raster_of [5%Z] [2%Z] (raster_array [5%Z] [2%Z] ex_zone_values) ex_zone_values /\ raster_of [5%Z] [2%Z] (raster_array [5%Z] [2%Z] ex_zones) ex_zones /\
  (forall c, in_shape [5%Z] c -> is_nan (ex_zone_values c) = false -> is_finite (ex_zone_values c) = true) /\
  (let l := zone_l 1%Z in l <> [] /\ (Z.of_nat (length l) <= 2 ^ 53)%Z /\ magnitude l * (1 + bpow radix2 (- 53)) ^ (length l - 1) < bpow radix2 1024 /\
    (forall v, In v l -> exists n : Z, B2R v = IZR n * bpow radix2 0) /\ magnitude l <= bpow radix2 (53 + 0)) /\
  ex_output (float_zonal_sum 53 1024 b64_prec_gt_0 b64_prec_lt_emax (@rev _) (fun z => z =? -1)%Z (fun _ => B754_zero false) (raster_array [5%Z] [2%Z] ex_zone_values) (raster_array [5%Z] [2%Z] ex_zones)) =
    Some [[B2SF (b64_of_Z (-1)); B2SF (b64_of_Z (-1))]; [B2SF (b64_of_Z 5); B2SF (b64_of_Z (-1)); S754_nan]] /\
  ex_output (float_zonal_mean 53 1024 b64_prec_gt_0 b64_prec_lt_emax (@rev _) (fun z => z =? -1)%Z (fun _ => B754_zero false) (raster_array [5%Z] [2%Z] ex_zone_values) (raster_array [5%Z] [2%Z] ex_zones)) =
    let half := B2SF (b64_div (b64_of_Z (-1)) (b64_of_Z 2)) in Some [[half; half]; [B2SF (b64_of_Z 5); half; S754_nan]].
Proof.
  destruct (b64_of_Z_correct 3 ltac:(lia)) as [A1 A2]. destruct (b64_of_Z_correct (-4) ltac:(lia)) as [B1 B2]. destruct (b64_of_Z_correct 5 ltac:(lia)) as [C1 C2]. destruct (b64_of_Z_correct 8 ltac:(lia)) as [D1 D2].
  assert (B : 8 <= bpow radix2 53). { change 8 with (bpow radix2 3). apply bpow_le. lia. }
  split; [apply raster_array_ok; [discriminate|repeat constructor; cbn; lia]|]. split; [apply raster_array_ok; [discriminate|repeat constructor; cbn; lia]|]. split; [|split; [|split]].
  - intros c _. unfold ex_zone_values. destruct (Z.to_nat (nth 0 c 0%Z)) as [|[|[|[|[|[|k]]]]]]; cbn [nth]; intros N; assumption || discriminate N.
  - cbv zeta. rewrite ex_zone_l. assert (EM : magnitude [b64_of_Z 3; b64_of_Z (-4)] = 7).
    { change (Rabs (B2R (b64_of_Z 3)) + (Rabs (B2R (b64_of_Z (-4))) + 0) = 7). rewrite A1, B1. rewrite Rabs_pos_eq, Rabs_left by lra. lra. }
    rewrite EM. split; [discriminate|]. split; [cbn; lia|]. split; [|split].
    + cbn [length Nat.sub pow]. rewrite Rmult_1_r. assert (bpow radix2 (-53) <= 1) by (change 1 with (bpow radix2 0); apply bpow_le; lia). assert (14 < bpow radix2 1024); [|nra].
      eapply Rlt_le_trans with (bpow radix2 4); [cbn; lra|]. apply bpow_le. lia.
    + intros v [<-|[<-|[]]]; [exists 3%Z; rewrite A1|exists (-4)%Z; rewrite B1]; cbn; lra.
    + change (53 + 0)%Z with 53%Z. lra.
  - vm_compute. reflexivity.
  - vm_compute. reflexivity.
Qed.
