(** Property theorems: sums of floating point numbers. *)
From Coq Require Import Reals Lra Floats.SpecFloat.
From Flocq Require Import Core.
From Flocq Require Import IEEE754.BinarySingleNaN.
From Verif Require Import Common CoreSpec DecompSpec ArraySpec DecompModel ArrayModel ArrayRep AggregateModel AggregateSpec RasterCheck Float64 Float64Proofs FloatSumModel FloatSumSpec FloatSumProofs.
Local Open Scope R_scope.

(** C62: the rounding error of a sum, for all formats, arrays and partitionings. *)
Theorem C62_sum_rounding :
  forall prec emax (Hprec : Prec_gt_0 prec) (Hemax : Prec_lt_emax prec emax) a p (x : parray (binary_float prec emax)) f,
  raster_of a p x f -> (forall c, in_shape a c -> is_nan (f c) = false -> is_finite (f c) = true) ->
  let values := valid_values (fun v => negb (is_nan v)) a f in
  let growth := (1 + bpow radix2 (- prec)) ^ (length values - 1) in
  magnitude values * growth < bpow radix2 emax ->
  let sum := float_sum prec emax Hprec Hemax x in
  (values <> [] -> is_finite sum = true /\ Rabs (B2R sum - total values) <= (growth - 1) * magnitude values) /\
  (values = [] -> sum = B754_nan).
Proof. intros. now apply (float_sum_rounding a p). Qed.
Print Assumptions C62_sum_rounding.

(** C62: whole numbers of units of size 2^e are added without rounding errors if the sum of their magnitudes is at most 2^prec units. *)
Theorem C62_sum_of_whole_numbers :
  forall prec emax (Hprec : Prec_gt_0 prec) (Hemax : Prec_lt_emax prec emax) e a p (x : parray (binary_float prec emax)) f,
  (3 - emax - prec <= e)%Z -> raster_of a p x f -> (forall c, in_shape a c -> is_nan (f c) = false -> is_finite (f c) = true) ->
  let values := valid_values (fun v => negb (is_nan v)) a f in
  (forall v, In v values -> exists n : Z, B2R v = IZR n * bpow radix2 e) ->
  magnitude values <= bpow radix2 (prec + e) -> magnitude values < bpow radix2 emax -> values <> [] ->
  let sum := float_sum prec emax Hprec Hemax x in is_finite sum = true /\ B2R sum = total values.
Proof. intros. now apply (float_sum_whole e) with (p := p). Qed.
Print Assumptions C62_sum_of_whole_numbers.

(** Double precision: the numbers 3, no-data and -4 meet the hypotheses, with units of size 1. *)
Definition ex_values (c : list Z) : b64 := nth (Z.to_nat (nth 0 c 0%Z)) [b64_of_Z 3; B754_nan; b64_of_Z (-4)] B754_nan.
Notation sum_64 := (float_sum 53 1024 b64_prec_gt_0 b64_prec_lt_emax).
Lemma ex_filtered : valid_values (fun v => negb (is_nan v)) [3%Z] ex_values = [b64_of_Z 3; b64_of_Z (-4)].
Proof. reflexivity. Qed.
Lemma ex_numbers : (is_finite (b64_of_Z 3) = true /\ B2R (b64_of_Z 3) = 3) /\ is_finite (b64_of_Z (-4)) = true /\ B2R (b64_of_Z (-4)) = -4.
Proof.
  destruct (b64_of_Z_correct 3 ltac:(lia)) as [A1 A2]. destruct (b64_of_Z_correct (-4) ltac:(lia)) as [B1 B2]. rewrite A1, B1. auto.
Qed.
Lemma ex_magnitude : magnitude [b64_of_Z 3; b64_of_Z (-4)] = 7.
Proof.
  destruct ex_numbers as [[_ A] [_ B]]. change (Rabs (B2R (b64_of_Z 3)) + (Rabs (B2R (b64_of_Z (-4))) + 0) = 7). rewrite A, B. rewrite Rabs_pos_eq, Rabs_left by lra. lra.
Qed.
Example C62_ex :
  let values := valid_values (fun v => negb (is_nan v)) [3%Z] ex_values in
  raster_of [3%Z] [1%Z] (raster_array [3%Z] [1%Z] ex_values) ex_values /\ (forall c, in_shape [3%Z] c -> is_nan (ex_values c) = false -> is_finite (ex_values c) = true) /\
  magnitude values * (1 + bpow radix2 (- 53)) ^ (length values - 1) < bpow radix2 1024 /\
  (forall v, In v values -> exists n : Z, B2R v = IZR n * bpow radix2 0) /\ magnitude values <= bpow radix2 (53 + 0) /\ values <> [] /\
  B2SF (sum_64 (raster_array [3%Z] [1%Z] ex_values)) = B2SF (b64_of_Z (-1)).
Proof.
  cbv zeta. rewrite ex_filtered, ex_magnitude. destruct ex_numbers as [[F3 E3] [F4 E4]].
  assert (B : 8 <= bpow radix2 53). { change 8 with (bpow radix2 3). apply bpow_le. lia. }
  split; [apply raster_array_ok; [discriminate|repeat constructor; cbn; lia]|]. split; [|split; [|split; [|split; [|split]]]].
  - intros c _. unfold ex_values. destruct (Z.to_nat (nth 0 c 0%Z)) as [|[|[|[|k]]]]; cbn [nth]; intros N; try (exact F3); try (exact F4); discriminate N.
  - cbn [length Nat.sub pow]. rewrite Rmult_1_r. assert (bpow radix2 (-53) <= 1) by (change 1 with (bpow radix2 0); apply bpow_le; lia). assert (14 < bpow radix2 1024); [|nra].
    eapply Rlt_le_trans with (bpow radix2 4); [cbn; lra|]. apply bpow_le. lia.
  - intros v [<-|[<-|[]]]; [exists 3%Z; rewrite E3|exists (-4)%Z; rewrite E4]; cbn; lra.
  - change (53 + 0)%Z with 53%Z. lra.
  - discriminate.
  - vm_compute. reflexivity.
Qed.

(** C62, false: the sum does not depend on the partitioning.  The numbers 1, 0, 2^-53 and 2^-53, in double precision. *)
Definition tiny : b64 := binary_normalize 53 1024 b64_prec_gt_0 b64_prec_lt_emax mode_NE 1 (-53) false.
Theorem C62_partitioning_refuted :
  exists (f : list Z -> b64) (x1 x2 : parray b64),
  raster_of [4%Z] [4%Z] x1 f /\ raster_of [4%Z] [2%Z] x2 f /\ (forall c, is_finite (f c) = true) /\
  B2R (sum_64 x1) = 1 /\ B2R (sum_64 x2) = 1 + bpow radix2 (-52).
Proof.
  pose (f := fun c : list Z => nth (Z.to_nat (nth 0 c 0%Z)) [b64_of_Z 1; B754_zero false; tiny; tiny] (B754_zero false)).
  exists f, (raster_array [4%Z] [4%Z] f), (raster_array [4%Z] [2%Z] f).
  split; [apply raster_array_ok; [discriminate|repeat constructor; cbn; lia]|]. split; [apply raster_array_ok; [discriminate|repeat constructor; cbn; lia]|]. split.
  { intros c. unfold f. destruct (Z.to_nat (nth 0 c 0%Z)) as [|[|[|[|[|k]]]]]; cbn [nth]; vm_compute; reflexivity. }
  assert (E1 : B2SF (sum_64 (raster_array [4%Z] [4%Z] f)) = S754_finite false (2 ^ 52) (-52)) by (vm_compute; reflexivity).
  assert (E2 : B2SF (sum_64 (raster_array [4%Z] [2%Z] f)) = S754_finite false (2 ^ 52 + 1) (-52)) by (vm_compute; reflexivity).
  split; rewrite <- SF2R_B2SF; [rewrite E1|rewrite E2]; unfold SF2R, F2R; cbn [Fnum Fexp cond_Zopp].
  - change (Z.pos (2 ^ 52)) with (2 ^ 52)%Z. rewrite (IZR_Zpower radix2) by lia. rewrite <- bpow_plus. reflexivity.
  - change (Z.pos (2 ^ 52 + 1)) with (2 ^ 52 + 1)%Z. rewrite plus_IZR, (IZR_Zpower radix2) by lia. rewrite Rmult_plus_distr_r, <- bpow_plus, Rmult_1_l. reflexivity.
Qed.
Print Assumptions C62_partitioning_refuted.

(** C62, false: a sum that cannot be computed is no-data.  The numbers inf, -inf, 5 and 0: the sum of the first partition is NaN, which is taken for a partition without values. *)
Theorem C62_infinities_refuted :
  exists (f : list Z -> b64) (x1 x2 : parray b64),
  raster_of [4%Z] [4%Z] x1 f /\ raster_of [4%Z] [2%Z] x2 f /\ (forall c, in_shape [4%Z] c -> is_nan (f c) = false) /\
  is_nan (sum_64 x1) = true /\ B2R (sum_64 x2) = 5.
Proof.
  pose (f := fun c : list Z => nth (Z.to_nat (nth 0 c 0%Z)) [B754_infinity false; B754_infinity true; b64_of_Z 5; B754_zero false] (B754_zero false)).
  exists f, (raster_array [4%Z] [4%Z] f), (raster_array [4%Z] [2%Z] f).
  split; [apply raster_array_ok; [discriminate|repeat constructor; cbn; lia]|]. split; [apply raster_array_ok; [discriminate|repeat constructor; cbn; lia]|]. split.
  { intros c _. unfold f. destruct (Z.to_nat (nth 0 c 0%Z)) as [|[|[|[|[|k]]]]]; cbn [nth]; vm_compute; reflexivity. }
  split; [vm_compute; reflexivity|].
  assert (E2 : B2SF (sum_64 (raster_array [4%Z] [2%Z] f)) = S754_finite false (5 * 2 ^ 50) (-50)) by (vm_compute; reflexivity).
  rewrite <- SF2R_B2SF, E2. unfold SF2R, F2R. cbn [Fnum Fexp cond_Zopp]. change (Z.pos (5 * 2 ^ 50)) with (5 * 2 ^ 50)%Z. rewrite mult_IZR, (IZR_Zpower radix2) by lia. rewrite Rmult_assoc, <- bpow_plus. change (bpow radix2 (50 + -50)) with 1. lra.
Qed.
Print Assumptions C62_infinities_refuted.
