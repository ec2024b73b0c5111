(** C60: the shapes of the chunks in which values are stored. *)
From Coq Require Import Reals.
From Flocq Require Import Core BinarySingleNaN.
From Verif Require Import Common CommonProofs CoreSpec Float64 ChunkModel ChunkSpec ChunkProofs ChunkProofs2 ChunkProofs3 ChunkProofs4 ChunkProofs5.
Open Scope Z_scope.

(** Values of at most 1 MiB: a chunk contains as many values as fit in 1 MiB. *)
Theorem C60_small_values : forall pow order shape size,
  0 < size -> Forall (fun e => 0 < e) shape -> bytes shape size <= mebibyte ->
  exists n, chunk_shape pow order shape size = Ok (n :: shape) /\ fits (n :: shape) shape /\
  bytes (n :: shape) size <= mebibyte /\ mebibyte < bytes (n + 1 :: shape) size.
Proof.
  intros pow order shape size Hs HF HB. unfold bytes, mebibyte in *. pose proof (volume_pos shape HF) as HV. assert (P : 0 < size * volume shape) by nia.
  exists (upper_limit / (size * volume shape)). split; [apply small_values; [lia|exact HF|unfold upper_limit; lia]|].
  pose proof (Z.mul_div_le upper_limit _ P) as D1. pose proof (Z.mul_succ_div_gt upper_limit _ P) as D2.
  assert (N1 : 1 <= upper_limit / (size * volume shape)) by (apply Z.div_le_lower_bound; unfold upper_limit in *; lia).
  split; [|cbn [volume]; unfold upper_limit in *; split; nia].
  exists (upper_limit / (size * volume shape)), shape. split; [reflexivity|]. split; [exact N1|].
  clear - HF. induction HF as [|e l He _ IH]; constructor; [lia|exact IH].
Qed.
Print Assumptions C60_small_values.

(** Larger values with at most four dimensions: a chunk is a part of one value.  Missing: more dimensions (see C60_undefined_refuted), elements of more than 16 bytes, values of 2^53 bytes or more, inaccurate powers. *)
Theorem C60_large_values_partial : forall pow order shape size,
  accurate pow -> in_order_of_extents order shape -> (1 <= length shape <= 4)%nat -> 0 < size <= 16 -> Forall (fun e => 0 < e) shape -> mebibyte < bytes shape size < 2 ^ 53 ->
  exists part, chunk_shape pow order shape size = Ok (1 :: part) /\ fits (1 :: part) shape.
Proof.
  intros pow order shape size A HO HL Hs HF HB. unfold bytes in HB. destruct (large_fits pow order shape size A HO HL Hs HF) as [part [E P]]; [unfold mebibyte, upper_limit in *; lia|].
  exists part. split; [exact E|]. exists 1, part. split; [reflexivity|]. split; [lia|exact P].
Qed.
Print Assumptions C60_large_values_partial.

(** Larger values with one or two dimensions: a chunk contains at most 1 MiB.  Missing: more dimensions (see C60_too_large_refuted), elements of more than 512 bytes, values of 2^53 bytes or more, inaccurate powers. *)
Theorem C60_large_values_limit_partial : forall pow order shape size,
  accurate pow -> in_order_of_extents order shape -> (1 <= length shape <= 2)%nat -> 0 < size <= 512 -> Forall (fun e => 0 < e) shape -> mebibyte < bytes shape size < 2 ^ 53 ->
  exists part, chunk_shape pow order shape size = Ok (1 :: part) /\ fits (1 :: part) shape /\ bytes (1 :: part) size <= mebibyte.
Proof.
  intros pow order shape size A HO HL Hs HF HB. unfold bytes, mebibyte in HB. destruct shape as [|e0 [|e1 [|]]]; cbn [length] in HL; try lia; cbn [volume] in HB.
  - destruct HO as [HP _]. change (combine [e0] (zseq 0 (Z.of_nat (length [e0])))) with [(e0, 0)] in HP. apply Permutation_sym, Permutation_length_1_inv in HP. subst order.
    destruct (large_1 pow e0 size A Hs) as [m [E [L B]]]; [unfold upper_limit; lia|]. exists [m]. split; [exact E|]. split.
    + exists 1, [m]. split; [reflexivity|]. split; [lia|]. constructor; [exact L|constructor].
    + unfold bytes, mebibyte. cbn [volume]. unfold upper_limit in B. lia.
  - inversion HF as [|? ? H0 HF1]; subst. inversion HF1 as [|? ? H1 _]; subst.
    destruct (large_2 pow order e0 e1 size A HO Hs H0 H1) as [m0 [m1 [E [L0 [L1 B]]]]]; [unfold upper_limit; lia|]. exists [m0; m1]. split; [exact E|]. split.
    + exists 1, [m0; m1]. split; [reflexivity|]. split; [lia|]. constructor; [exact L0|constructor; [exact L1|constructor]].
    + unfold bytes, mebibyte. cbn [volume]. unfold upper_limit in B. lia.
Qed.
Print Assumptions C60_large_values_limit_partial.

(** The hypotheses can be met: there is a correctly rounded power, and such a power is accurate *)
Example C60_power : exists pow, correctly_rounded pow /\ accurate pow.
Proof. exists power. split; [exact power_ok|apply rounded_accurate, power_ok]. Qed.
Example C60_small_instance : bytes [60; 40] 8 <= mebibyte /\ forall pow, chunk_shape pow [(40, 1); (60, 0)] [60; 40] 8 = Ok [54; 60; 40].
Proof. split; [vm_compute; discriminate|]. intros pow. apply small_values; [lia|repeat constructor; lia|vm_compute; discriminate]. Qed.
Example C60_large_instance : in_order_of_extents [(300, 1); (2000, 0)] [2000; 300] /\ mebibyte < bytes [2000; 300] 8 < 2 ^ 53.
Proof.
  split; [|vm_compute; split; reflexivity]. split; [apply perm_swap|]. constructor; [constructor; constructor|]. constructor; [cbn; lia|constructor].
Qed.

(** Values with four dimensions, two of which have an extent of one: a chunk of 16 GiB.  HDF5 cannot store such a chunk. *)
Theorem C60_too_large_refuted : forall pow, correctly_rounded pow -> exists order shape size chunk,
  in_order_of_extents order shape /\ Forall (fun e => 0 < e) shape /\ length shape = 4%nat /\
  chunk_shape pow order shape size = Ok chunk /\ hdf5_limit <= bytes chunk size.
Proof.
  intros pow A. exists (enum [1; 1; 131072; 131072]), [1; 1; 131072; 131072], 1, [1; 1; 1; 131072; 131072].
  split; [apply sorted_enum; repeat constructor; lia|]. split; [repeat constructor|]. split; [reflexivity|]. split; [apply too_large, A|vm_compute; discriminate].
Qed.
Print Assumptions C60_too_large_refuted.

(** A value of 128 MiB with four dimensions: chunks of 2 KiB, which is less than the smallest sensible size *)
Theorem C60_too_small_refuted : forall pow, correctly_rounded pow -> exists order shape size chunk,
  in_order_of_extents order shape /\ Forall (fun e => 0 < e) shape /\ length shape = 4%nat /\ smallest_sensible <= bytes shape size /\
  chunk_shape pow order shape size = Ok chunk /\ bytes chunk size < smallest_sensible.
Proof.
  intros pow A. exists (enum [64; 64; 64; 64]), [64; 64; 64; 64], 8, [1; 4; 4; 4; 4].
  split; [apply sorted_enum; repeat constructor; lia|]. split; [repeat constructor|]. split; [reflexivity|]. split; [vm_compute; discriminate|]. split; [apply too_small, A|vm_compute; reflexivity].
Qed.
Print Assumptions C60_too_small_refuted.

(** Values with five dimensions, four of which have an extent of one: a number that does not fit in an integer is converted to an integer.
    Values with eight dimensions: a division by zero, after which the same happens. *)
Theorem C60_undefined_refuted : forall pow, correctly_rounded pow ->
  (exists order shape, in_order_of_extents order shape /\ Forall (fun e => 0 < e) shape /\ length shape = 5%nat /\ chunk_shape pow order shape 1 = UB) /\
  (exists order shape, in_order_of_extents order shape /\ Forall (fun e => 0 < e) shape /\ length shape = 8%nat /\ chunk_shape pow order shape 8 = UB).
Proof.
  intros pow A. split.
  - exists (enum [1; 1; 1; 1; 2097152]), [1; 1; 1; 1; 2097152]. split; [apply sorted_enum; repeat constructor; lia|]. split; [repeat constructor|]. split; [reflexivity|apply undefined_5, A].
  - exists (enum (repeat 8 8)), (repeat 8 8). split; [apply sorted_enum; repeat constructor; lia|]. split; [repeat constructor|]. split; [reflexivity|apply undefined_8, A].
Qed.
Print Assumptions C60_undefined_refuted.

(** Values without elements: infinity is converted to an integer. *)
Theorem C60_empty_values_refuted : forall pow order shape size, In 0 shape -> chunk_shape pow order shape size = UB.
Proof. exact empty. Qed.
Print Assumptions C60_empty_values_refuted.
