(** Proofs about chunks. *)
From Coq Require Import Reals Lra.
From Flocq Require Import Core BinarySingleNaN.
From Verif Require Import Common CommonProofs CoreSpec Float64 Float64Proofs ResampleProofs NumpyModel ChunkModel ChunkSpec.
Local Open Scope Z_scope.

Lemma size_of_shape_ok shape : forall size, 0 < size -> Forall (fun e => 0 < e) shape -> size * volume shape < 18446744073709551616 -> size_of_shape shape size = size * volume shape.
Proof.
  unfold size_of_shape. induction shape as [|e shape IH]; intros size Hs HF HL; cbn [fold_left volume] in *; [lia|].
  inversion HF; subst. assert (HV : 0 < volume shape). { clear - H2. induction shape as [|x l IH]; cbn; [lia|]. inversion H2; subst. specialize (IH H3). nia. }
  unfold to_size, SIZES. rewrite Z.mod_small by nia. rewrite IH; [nia|nia|assumption|nia].
Qed.
Lemma volume_pos shape : Forall (fun e => 0 < e) shape -> 0 < volume shape.
Proof. induction 1 as [|e l H _ IH]; cbn; [lia|nia]. Qed.

Local Open Scope R_scope.
Definition u : R := bpow radix2 (-53).
Lemma u_value : u = / 9007199254740992.
Proof. unfold u. cbn. reflexivity. Qed.
Lemma u_pos : 0 < u. Proof. rewrite u_value. lra. Qed.

(** V is approximated with a relative error of [k] units *)
Definition near (k V x : R) : Prop := V * (1 - k * u) <= x <= V * (1 + k * u).
Lemma near_rd k V x : 0 <= k <= 1000 -> bpow radix2 (-900) <= V -> near k V x -> near (k + 2) V (rd x).
Proof.
  intros Hk HV [H1 H2]. assert (V0 : 0 < V) by (eapply Rlt_le_trans; [apply bpow_gt_0|exact HV]).
  assert (Hx : bpow radix2 (-1000) <= x).
  { eapply Rle_trans; [|exact H1]. assert (E : 1 / 2 <= 1 - k * u) by (rewrite u_value; lra).
    apply Rle_trans with (V * (1 / 2)); [|apply Rmult_le_compat_l; lra]. apply Rle_trans with (bpow radix2 (-900) * bpow radix2 (-1)).
    - rewrite <- bpow_plus. apply bpow_le. lia.
    - change (bpow radix2 (-1)) with (/ 2). replace (1 / 2) with (/ 2) by lra. apply Rmult_le_compat_r; lra. }
  destruct (rd_error x Hx) as [R1 R2]. fold u in R1, R2. assert (U : 0 < u) by apply u_pos. assert (KU : k * u <= 1 / 2) by (rewrite u_value; lra). split.
  - eapply Rle_trans; [|exact R1]. apply Rle_trans with (V * (1 - k * u) * (1 - u)).
    + rewrite Rmult_assoc. apply Rmult_le_compat_l; [lra|]. assert (0 <= k * u * u) by (repeat apply Rmult_le_pos; lra). replace ((1 - k * u) * (1 - u)) with (1 - k * u - u + k * u * u) by ring. lra.
    + apply Rmult_le_compat_r; [rewrite u_value; lra|exact H1].
  - eapply Rle_trans; [exact R2|]. apply Rle_trans with (V * (1 + k * u) * (1 + u)).
    + apply Rmult_le_compat_r; [lra|exact H2].
    + rewrite Rmult_assoc. apply Rmult_le_compat_l; [lra|]. replace ((1 + k * u) * (1 + u)) with (1 + k * u + u + k * u * u) by ring.
      assert (k * u * u <= 1 / 2 * u) by (apply Rmult_le_compat_r; lra). lra.
Qed.
Lemma near_exact V : near 0 V V.
Proof. unfold near. rewrite Rmult_0_l, Rminus_0_r, Rplus_0_r. lra. Qed.
Lemma near_weaken k k' V x : k <= k' -> 0 <= V -> near k V x -> near k' V x.
Proof.
  intros H HV [H1 H2]. pose proof u_pos. assert (k * u <= k' * u) by (apply Rmult_le_compat_r; lra). split; [eapply Rle_trans; [|exact H1]|eapply Rle_trans; [exact H2|]]; apply Rmult_le_compat_l; lra.
Qed.
Lemma near_scale k V x c : 0 < c -> near k V x -> near k (V * c) (x * c).
Proof.
  intros Hc [H1 H2]. split.
  - replace (V * c * (1 - k * u)) with (V * (1 - k * u) * c) by ring. apply Rmult_le_compat_r; lra.
  - replace (V * c * (1 + k * u)) with (V * (1 + k * u) * c) by ring. apply Rmult_le_compat_r; lra.
Qed.
Lemma near_mult k k' V V' x x' : 0 <= k <= 100 -> 0 <= k' <= 100 -> 0 < V -> 0 < V' -> near k V x -> near k' V' x' -> near (k + k' + 1) (V * V') (x * x').
Proof.
  intros Hk Hk' HV HV' [H1 H2] [H3 H4]. pose proof u_pos as U. assert (KU : k * u <= 1 / 1000) by (rewrite u_value; lra). assert (KU' : k' * u <= 1 / 1000) by (rewrite u_value; lra).
  assert (K0 : 0 <= k * u) by (apply Rmult_le_pos; lra). assert (K0' : 0 <= k' * u) by (apply Rmult_le_pos; lra).
  assert (X0 : 0 <= x) by (eapply Rle_trans; [|exact H1]; apply Rmult_le_pos; lra). assert (X0' : 0 <= x') by (eapply Rle_trans; [|exact H3]; apply Rmult_le_pos; lra).
  assert (P : (k * u) * (k' * u) <= u).
  { replace ((k * u) * (k' * u)) with ((k * u * k') * u) by ring. rewrite <- (Rmult_1_l u) at 3. apply Rmult_le_compat_r; [lra|]. apply Rle_trans with (1 / 1000 * k'); [apply Rmult_le_compat_r; lra|lra]. }
  assert (VV : 0 < V * V') by (now apply Rmult_lt_0_compat). split.
  - apply Rle_trans with ((V * (1 - k * u)) * (V' * (1 - k' * u))).
    + replace ((V * (1 - k * u)) * (V' * (1 - k' * u))) with (V * V' * ((1 - k * u) * (1 - k' * u))) by ring. apply Rmult_le_compat_l; [lra|].
      assert (0 <= (k * u) * (k' * u)) by (now apply Rmult_le_pos). replace ((1 - k * u) * (1 - k' * u)) with (1 - k * u - k' * u + (k * u) * (k' * u)) by ring. lra.
    + apply Rmult_le_compat; try assumption; apply Rmult_le_pos; lra.
  - apply Rle_trans with ((V * (1 + k * u)) * (V' * (1 + k' * u))); [now apply Rmult_le_compat|].
    replace ((V * (1 + k * u)) * (V' * (1 + k' * u))) with (V * V' * ((1 + k * u) * (1 + k' * u))) by ring. apply Rmult_le_compat_l; [lra|].
    replace ((1 + k * u) * (1 + k' * u)) with (1 + k * u + k' * u + (k * u) * (k' * u)) by ring. lra.
Qed.

(** ** Values that are small *)
Lemma values_ok n : (0 < n < 2 ^ 53)%Z -> exists q, b64_div (b64_of_Z upper_limit) (b64_of_Z n) = q /\ is_finite q = true /\ B2R q = rd (IZR upper_limit / IZR n) /\ b64_floor q = (upper_limit / n)%Z.
Proof.
  intros Hn. exists (b64_div (b64_of_Z upper_limit) (b64_of_Z n)). split; [reflexivity|].
  destruct (b64_of_Z_correct upper_limit) as [E1 F1]; [unfold upper_limit; lia|]. destruct (b64_of_Z_correct n) as [E2 F2]; [lia|].
  assert (Hn0 : 1 <= IZR n) by (apply (IZR_le 1); lia).
  destruct (b64_div_correct (b64_of_Z upper_limit) (b64_of_Z n) upper_limit) as [Ed Fd].
  - rewrite E2. lra.
  - unfold upper_limit. lia.
  - rewrite E1, E2. assert (H : IZR upper_limit / IZR n <= IZR upper_limit).
    { apply Rmult_le_reg_r with (IZR n); [lra|]. unfold Rdiv. rewrite Rmult_assoc, Rinv_l, Rmult_1_r by lra. rewrite <- (Rmult_1_r (IZR upper_limit)) at 1. apply Rmult_le_compat_l; [unfold upper_limit; lra|lra]. }
    rewrite Rabs_pos_eq; [exact H|]. apply Rmult_le_pos; [unfold upper_limit; lra|apply Rlt_le, Rinv_0_lt_compat; lra].
  - rewrite Fd, F1, Ed, E1, E2. split; [reflexivity|]. split; [reflexivity|]. apply b64_floor_div; [unfold upper_limit; lia|lia].
Qed.
Lemma compare_one q : is_finite q = true -> Bcompare q (b64_of_Z 1) = Some (Rcompare (B2R q) 1).
Proof.
  intros F. destruct (b64_of_Z_correct 1) as [E1 F1]; [cbn; lia|]. rewrite Bcompare_correct by assumption. now rewrite E1.
Qed.
Lemma to_count_ok x n : is_finite x = true -> b64_floor x = n -> (0 <= n < 18446744073709551616)%Z -> to_count x = Ok n.
Proof.
  intros F E H. unfold to_count. rewrite F, E. destruct (Z.leb_spec 0 n); [|lia]. destruct (Z.ltb_spec n 18446744073709551616); [reflexivity|lia].
Qed.

Lemma small_values pow order shape size : (0 < size)%Z -> Forall (fun e => 0 < e)%Z shape -> (size * volume shape <= upper_limit)%Z ->
  chunk_shape pow order shape size = Ok ((upper_limit / (size * volume shape))%Z :: shape).
Proof.
  intros Hs HF HL. unfold chunk_shape. pose proof (volume_pos shape HF) as HV. assert (HP : (0 < size * volume shape)%Z) by (now apply Z.mul_pos_pos).
  rewrite size_of_shape_ok; [|assumption|assumption|unfold upper_limit in HL; lia]. cbv zeta. set (n := (size * volume shape)%Z) in *.
  destruct (values_ok n) as [q [-> [F [E1 E2]]]]; [unfold upper_limit in HL; lia|]. rewrite compare_one by exact F.
  assert (HQ : 1 <= B2R q).
  { rewrite E1. rewrite <- (rd_Z 1) by (cbn; lia). apply rd_le. apply Rmult_le_reg_r with (IZR n); [apply IZR_lt; lia|]. unfold Rdiv. rewrite Rmult_assoc, Rinv_l, Rmult_1_r, Rmult_1_l by (apply not_0_IZR; lia). now apply IZR_le. }
  assert (HD : (0 <= upper_limit / n <= upper_limit)%Z) by (split; [apply Z.div_pos; unfold upper_limit; lia|apply Z.div_le_upper_bound; [lia|unfold upper_limit; nia]]).
  rewrite (to_count_ok q (upper_limit / n)%Z F E2) by (unfold upper_limit in *; lia).
  destruct (Rcompare_spec (B2R q) 1) as [H|H|H]; [lra|reflexivity|reflexivity].
Qed.

(** ** Values that are large *)
Lemma large_values n : (upper_limit < n < 2 ^ 53)%Z ->
  let q := b64_div (b64_of_Z upper_limit) (b64_of_Z n) in
  Bcompare q (b64_of_Z 1) = Some Lt /\ is_finite (b64_mul (b64_of_Z n) q) = true /\ near 4 (IZR upper_limit) (B2R (b64_mul (b64_of_Z n) q)).
Proof.
  intros Hn q. assert (HU : IZR upper_limit = 1048576) by reflexivity. destruct (values_ok n) as [q' [Eq [F [E1 _]]]]; [unfold upper_limit in Hn; lia|]. fold q in Eq. subst q'.
  assert (Hn0 : IZR upper_limit + 1 <= IZR n) by (rewrite <- (plus_IZR _ 1); apply IZR_le; lia). rewrite HU in *.
  assert (Hn1 : IZR n <= 9007199254740992) by (apply IZR_le; lia).
  assert (I0 : 0 < / IZR n) by (apply Rinv_0_lt_compat; lra).
  assert (B900 : bpow radix2 (-900) <= 1048576 / IZR n).
  { apply Rle_trans with (/ 9007199254740992).
    - change (/ 9007199254740992) with (bpow radix2 (-53)). apply bpow_le. lia.
    - apply Rle_trans with (/ IZR n); [apply Rinv_le; lra|]. unfold Rdiv. rewrite <- (Rmult_1_l (/ IZR n)) at 1. apply Rmult_le_compat_r; lra. }
  pose proof (near_rd 0 _ _ ltac:(lra) B900 (near_exact _)) as N1. rewrite <- E1 in N1. replace (0 + 2) with 2 in N1 by ring.
  assert (Q1 : B2R q < 1).
  { destruct N1 as [_ N1]. eapply Rle_lt_trans; [exact N1|]. apply Rmult_lt_reg_r with (IZR n); [lra|]. replace (1048576 / IZR n * (1 + 2 * u) * IZR n) with (1048576 * (1 + 2 * u)) by (field; lra). rewrite u_value. lra. }
  split; [rewrite compare_one by exact F; destruct (Rcompare_spec (B2R q) 1) as [H|H|H]; [reflexivity|lra|lra]|].
  destruct (b64_of_Z_correct n) as [E2 F2]; [unfold upper_limit in Hn; lia|].
  pose proof (near_scale 2 _ _ (IZR n) ltac:(lra) N1) as N2. replace (1048576 / IZR n * IZR n) with 1048576 in N2 by (field; lra).
  assert (BB : bpow radix2 (-900) <= 1048576) by (apply Rle_trans with (bpow radix2 0); [apply bpow_le; lia|cbn; lra]).
  destruct (b64_mul_correct (b64_of_Z n) q 2097152) as [Em Fm]; [lia| |].
  - rewrite E2, Rmult_comm. destruct N2 as [N2 N3]. rewrite u_value in N2, N3. rewrite Rabs_pos_eq by lra. lra.
  - rewrite Fm, F2, F. split; [reflexivity|]. rewrite Em, E2, (Rmult_comm (IZR n)). replace 4 with (2 + 2) by ring. apply near_rd; [lra|exact BB|exact N2].
Qed.

(** Dividing by an integer, and multiplying *)
Lemma near_div k V x m n : 0 <= k <= 100 -> is_finite x = true -> (0 < m <= 2 ^ 53)%Z -> (0 <= n <= 2 ^ 53)%Z -> near k V (B2R x) -> bpow radix2 (-900) <= V / IZR m -> V / IZR m * 2 <= IZR n ->
  is_finite (b64_div x (b64_of_Z m)) = true /\ near (k + 2) (V / IZR m) (B2R (b64_div x (b64_of_Z m))).
Proof.
  intros Hk F Hm Hn N B L. destruct (b64_of_Z_correct m) as [E1 F1]; [lia|]. assert (M0 : 0 < IZR m) by (apply IZR_lt; lia). assert (I0 : 0 < / IZR m) by (now apply Rinv_0_lt_compat).
  pose proof (near_scale k V (B2R x) (/ IZR m) I0 N) as N2. fold (V / IZR m) in N2. fold (B2R x / IZR m) in N2.
  assert (V0 : 0 < V / IZR m) by (eapply Rlt_le_trans; [apply bpow_gt_0|exact B]).
  destruct (b64_div_correct x (b64_of_Z m) n) as [Ed Fd]; [rewrite E1; lra|exact Hn| |].
  - rewrite E1. destruct N2 as [N3 N4]. assert (HKU : k * u <= 1 / 2) by (rewrite u_value; lra).
    assert (0 <= B2R x / IZR m) by (eapply Rle_trans; [|exact N3]; apply Rmult_le_pos; lra). rewrite Rabs_pos_eq by assumption. eapply Rle_trans; [exact N4|]. eapply Rle_trans; [|exact L]. apply Rmult_le_compat_l; lra.
  - rewrite Ed, Fd, E1. split; [exact F|]. apply near_rd; [lra|exact B|exact N2].
Qed.
Lemma near_product k k' V V' x y n : 0 <= k <= 100 -> 0 <= k' <= 100 -> 0 < V -> 0 < V' -> is_finite x = true -> is_finite y = true -> (0 <= n <= 2 ^ 53)%Z ->
  near k V (B2R x) -> near k' V' (B2R y) -> bpow radix2 (-900) <= V * V' -> V * V' * 2 <= IZR n ->
  is_finite (b64_mul x y) = true /\ near (k + k' + 3) (V * V') (B2R (b64_mul x y)).
Proof.
  intros Hk Hk' HV HV' Fx Fy Hn N N' B L. pose proof (near_mult _ _ _ _ _ _ Hk Hk' HV HV' N N') as N2.
  destruct (b64_mul_correct x y n) as [Em Fm]; [exact Hn| |].
  - destruct N2 as [N3 N4]. assert (HKU : (k + k' + 1) * u <= 1 / 2) by (rewrite u_value; lra). assert (0 < V * V') by (now apply Rmult_lt_0_compat).
    assert (0 <= B2R x * B2R y) by (eapply Rle_trans; [|exact N3]; apply Rmult_le_pos; lra). rewrite Rabs_pos_eq by assumption. eapply Rle_trans; [exact N4|]. eapply Rle_trans; [|exact L]. apply Rmult_le_compat_l; lra.
  - rewrite Em, Fm, Fx, Fy. split; [reflexivity|]. replace (k + k' + 3) with (k + k' + 1 + 2) by ring. apply near_rd; [lra|exact B|exact N2].
Qed.
Lemma near_power pow x y k V : 0 <= k <= 100 -> accurate_power pow x y -> 0 < V -> near k V (Rpower (B2R x) (B2R y)) -> is_finite (pow x y) = true /\ near (k + 9) V (B2R (pow x y)).
Proof.
  intros Hk [F A] HV [N1 N2]. split; [exact F|]. assert (E : bpow radix2 (-50) = 8 * u) by (rewrite u_value; cbn; lra). rewrite E in A. apply Rabs_le_inv in A. set (P := Rpower (B2R x) (B2R y)) in *.
  pose proof u_pos as U. assert (KU : k * u <= 1 / 1000) by (rewrite u_value; lra). assert (K0 : 0 <= k * u) by (apply Rmult_le_pos; lra).
  assert (KP : k * u * (8 * u) <= u). { rewrite <- (Rmult_1_l u) at 3. replace (k * u * (8 * u)) with (8 * (k * u) * u) by ring. apply Rmult_le_compat_r; lra. } split.
  - apply Rle_trans with (P * (1 - 8 * u)); [|lra]. apply Rle_trans with (V * (1 - k * u) * (1 - 8 * u)); [|apply Rmult_le_compat_r; [rewrite u_value; lra|exact N1]].
    rewrite Rmult_assoc. apply Rmult_le_compat_l; [lra|]. assert (0 <= k * u * (8 * u)) by (apply Rmult_le_pos; lra). replace ((1 - k * u) * (1 - 8 * u)) with (1 - k * u - 8 * u + k * u * (8 * u)) by ring. lra.
  - apply Rle_trans with (P * (1 + 8 * u)); [lra|]. apply Rle_trans with (V * (1 + k * u) * (1 + 8 * u)); [apply Rmult_le_compat_r; [lra|exact N2]|].
    rewrite Rmult_assoc. apply Rmult_le_compat_l; [lra|]. replace ((1 + k * u) * (1 + 8 * u)) with (1 + k * u + 8 * u + k * u * (8 * u)) by ring. lra.
Qed.
