(** Chunks of large values with one or two dimensions. *)
From Coq Require Import Reals Lra.
From Flocq Require Import Core BinarySingleNaN.
From Verif Require Import Common CommonProofs CoreSpec Float64 Float64Proofs ResampleProofs NumpyModel ChunkModel ChunkSpec ChunkProofs.
Local Open Scope R_scope.

Lemma one_over n : (n = 1 \/ n = 2)%Z -> B2R (b64_div (b64_of_Z 1) (b64_of_Z n)) = / IZR n.
Proof.
  intros Hn. destruct (b64_of_Z_correct 1) as [E1 F1]; [cbn; lia|]. destruct (b64_of_Z_correct n) as [E2 F2]; [lia|].
  assert (HN : 1 <= IZR n) by (apply (IZR_le 1); lia).
  destruct (b64_div_correct (b64_of_Z 1) (b64_of_Z n) 1) as [Ed _]; [rewrite E2; lra|cbn; lia| |].
  - rewrite E1, E2. unfold Rdiv. rewrite Rmult_1_l. assert (0 < / IZR n) by (apply Rinv_0_lt_compat; lra). rewrite Rabs_pos_eq by lra. rewrite <- Rinv_1. apply Rinv_le; lra.
  - rewrite Ed, E1, E2. unfold Rdiv. rewrite Rmult_1_l. apply round_generic; [typeclasses eauto|].
    destruct Hn as [-> | ->].
    + replace (/ 1) with (bpow radix2 0) by (cbn; lra). apply generic_format_bpow. unfold FLT_exp. cbn. lia.
    + change (/ 2) with (bpow radix2 (-1)). apply generic_format_bpow. unfold FLT_exp. cbn. lia.
Qed.

Lemma floor_pos x : 1 <= B2R x -> (1 <= b64_floor x)%Z /\ IZR (b64_floor x) <= B2R x.
Proof. intros H. rewrite b64_floor_correct. split; [apply Zfloor_lub; exact H|apply Zfloor_lb]. Qed.

Lemma count_ok x : is_finite x = true -> 1 <= B2R x <= 9007199254740992 -> to_count x = Ok (b64_floor x) /\ (1 <= b64_floor x)%Z /\ IZR (b64_floor x) <= B2R x.
Proof.
  intros F [H1 H2]. destruct (floor_pos x H1) as [H3 H4]. split; [|split; assumption]. apply to_count_ok; [exact F|reflexivity|]. split; [lia|]. apply lt_IZR. apply Rle_lt_trans with (B2R x); [exact H4|]. lra.
Qed.

(** The start: the size per dimension *)
Lemma start_1 pow n size : accurate pow -> (upper_limit < n < 2 ^ 53)%Z -> (0 < size <= 512)%Z ->
  let c := b64_div (pow (b64_mul (b64_of_Z n) (b64_div (b64_of_Z upper_limit) (b64_of_Z n))) (b64_div (b64_of_Z 1) (b64_of_Z 1))) (b64_of_Z size) in
  is_finite c = true /\ near 15 (1048576 / IZR size) (B2R c).
Proof.
  intros A Hn Hs c. destruct (large_values n Hn) as [_ [F N]]. set (x := b64_mul _ _) in *. set (y := b64_div (b64_of_Z 1) (b64_of_Z 1)) in c.
  assert (Ey : B2R y = 1) by (unfold y; rewrite one_over by lia; lra). change (IZR upper_limit) with 1048576 in N.
  assert (X : 1 <= B2R x <= 2097152) by (destruct N as [N1 N2]; rewrite u_value in N1, N2; lra).
  assert (S0 : 1 <= IZR size <= 512) by (split; apply IZR_le; lia).
  destruct (near_power pow x y 4 1048576) as [Fp Np]; [lra|apply A; [exact F|exact X|lra]|lra| |].
  - rewrite Ey, Rpower_1 by lra. exact N.
  - replace 15 with (4 + 9 + 2) by ring. apply (near_div (4 + 9) 1048576 _ size 2097152); [lra|exact Fp|lia|lia|exact Np| |].
    + apply Rle_trans with (bpow radix2 0); [apply bpow_le; lia|]. cbn. apply Rmult_le_reg_r with (IZR size); [lra|]. replace (1048576 / IZR size * IZR size) with 1048576 by (field; lra). lra.
    + apply Rmult_le_reg_r with (IZR size); [lra|]. replace (1048576 / IZR size * 2 * IZR size) with 2097152 by (field; lra). lra.
Qed.
Lemma start_2 pow n size : accurate pow -> (upper_limit < n < 2 ^ 53)%Z -> (0 < size <= 512)%Z ->
  let c := b64_div (pow (b64_mul (b64_of_Z n) (b64_div (b64_of_Z upper_limit) (b64_of_Z n))) (b64_div (b64_of_Z 1) (b64_of_Z 2))) (b64_of_Z size) in
  is_finite c = true /\ near 15 (1024 / IZR size) (B2R c).
Proof.
  intros A Hn Hs c. destruct (large_values n Hn) as [_ [F N]]. set (x := b64_mul _ _) in *. set (y := b64_div (b64_of_Z 1) (b64_of_Z 2)) in c.
  assert (Ey : B2R y = / 2) by (unfold y; rewrite one_over by lia; lra). change (IZR upper_limit) with 1048576 in N.
  assert (X : 1 <= B2R x <= 2097152) by (destruct N as [N1 N2]; rewrite u_value in N1, N2; lra).
  assert (S0 : 1 <= IZR size <= 512) by (split; apply IZR_le; lia).
  destruct (near_power pow x y 4 1024) as [Fp Np]; [lra|apply A; [exact F|exact X|lra]|lra| |].
  - rewrite Ey, Rpower_sqrt by lra. destruct N as [N1 N2]. pose proof u_pos as U. assert (U4 : 4 * u <= 1 / 2) by (rewrite u_value; lra). split.
    + rewrite <- (sqrt_square (1024 * (1 - 4 * u))) by lra. apply sqrt_le_1_alt. eapply Rle_trans; [|exact N1].
      replace (1024 * (1 - 4 * u) * (1024 * (1 - 4 * u))) with (1048576 * (1 - 4 * u) * (1 - 4 * u)) by ring. rewrite <- (Rmult_1_r (1048576 * (1 - 4 * u))) at 2. apply Rmult_le_compat_l; lra.
    + rewrite <- (sqrt_square (1024 * (1 + 4 * u))) by lra. apply sqrt_le_1_alt. eapply Rle_trans; [exact N2|].
      replace (1024 * (1 + 4 * u) * (1024 * (1 + 4 * u))) with (1048576 * (1 + 4 * u) * (1 + 4 * u)) by ring. rewrite <- (Rmult_1_r (1048576 * (1 + 4 * u))) at 1. apply Rmult_le_compat_l; lra.
  - replace 15 with (4 + 9 + 2) by ring. apply (near_div (4 + 9) 1024 _ size 2097152); [lra|exact Fp|lia|lia|exact Np| |].
    + apply Rle_trans with (bpow radix2 0); [apply bpow_le; lia|]. cbn. apply Rmult_le_reg_r with (IZR size); [lra|]. replace (1024 / IZR size * IZR size) with 1024 by (field; lra). lra.
    + apply Rmult_le_reg_r with (IZR size); [lra|]. replace (1024 / IZR size * 2 * IZR size) with 2048 by (field; lra). lra.
Qed.

Lemma integer_bound a k : 0 <= k <= 100 -> IZR a <= 1048576 * (1 + k * u) -> (a <= 1048576)%Z.
Proof. intros Hk H. apply Z.lt_succ_r, lt_IZR. eapply Rle_lt_trans; [exact H|]. change (Z.succ 1048576) with 1048577%Z. rewrite u_value. lra. Qed.

Lemma large_1 pow e size : accurate pow -> (0 < size <= 512)%Z -> (upper_limit < size * e < 2 ^ 53)%Z ->
  exists m, chunk_shape pow [(e, 0%Z)] [e] size = Ok [1%Z; m] /\ (1 <= m <= e)%Z /\ (m * size <= upper_limit)%Z.
Proof.
  intros A Hs He. assert (E0 : (0 < e)%Z) by (unfold upper_limit in He; nia). unfold chunk_shape.
  rewrite size_of_shape_ok; [|lia|repeat constructor; lia|cbn [volume]; rewrite Z.mul_1_r; lia]. cbn [volume length]. rewrite Z.mul_1_r. cbv zeta. change (Z.of_nat 1) with 1%Z.
  destruct (large_values (size * e)%Z He) as [-> _]. destruct (start_1 pow (size * e)%Z size A He Hs) as [F N]. set (c := b64_div (pow _ _) _) in *. cbn [map chunk_loop].
  assert (S0 : 1 <= IZR size <= 512) by (split; apply IZR_le; lia).
  assert (C : 1 <= B2R c <= 9007199254740992).
  { destruct N as [N1 N2]. assert (L : 2048 <= 1048576 / IZR size <= 1048576).
    { split; apply Rmult_le_reg_r with (IZR size); try lra; replace (1048576 / IZR size * IZR size) with 1048576 by (field; lra); lra. }
    rewrite u_value in N1, N2. split; [eapply Rle_trans; [|exact N1]|eapply Rle_trans; [exact N2|]].
    - apply Rle_trans with (2048 * (1 - 15 * / 9007199254740992)); [lra|]. apply Rmult_le_compat_r; lra.
    - apply Rle_trans with (1048576 * (1 + 15 * / 9007199254740992)); [|lra]. apply Rmult_le_compat_r; lra. }
  destruct (count_ok c F C) as [-> [M1 M2]]. cbn [obind upd_z Z.ltb Z.compare upd_nth Z.to_nat]. exists (Z.min (b64_floor c) e). split; [reflexivity|]. split; [lia|].
  apply (integer_bound _ 15); [lra|]. rewrite mult_IZR. apply Rle_trans with (B2R c * IZR size).
  - apply Rmult_le_compat_r; [lra|]. eapply Rle_trans; [|exact M2]. apply IZR_le. lia.
  - destruct N as [_ N2]. apply Rle_trans with (1048576 / IZR size * (1 + 15 * u) * IZR size); [apply Rmult_le_compat_r; lra|]. right. field. lra.
Qed.

Lemma loop_2 c size a b r0 (i j : nat) result : (i < 2)%nat -> (j < 2)%nat -> i <> j -> length result = 2%nat -> r0 = result -> (0 < size <= 512)%Z -> (0 < a)%Z -> (0 < b)%Z ->
  is_finite c = true -> near 15 (1024 / IZR size) (B2R c) ->
  exists m n, chunk_loop c [(a, Z.of_nat i); (b, Z.of_nat j)] result = Ok (if Nat.eqb i 0 then [m; n] else [n; m]) /\ (1 <= m <= a)%Z /\ (1 <= n <= b)%Z /\ (m * n * size <= upper_limit)%Z.
Proof.
  intros Hi Hj Hij HL _ Hs Ha Hb F N. assert (S0 : 1 <= IZR size <= 512) by (split; apply IZR_le; lia).
  assert (L : 2 <= 1024 / IZR size <= 1024).
  { split; apply Rmult_le_reg_r with (IZR size); try lra; replace (1024 / IZR size * IZR size) with 1024 by (field; lra); lra. }
  assert (C : 1 <= B2R c <= 1025).
  { destruct N as [N1 N2]. rewrite u_value in N1, N2. split; [eapply Rle_trans; [|exact N1]|eapply Rle_trans; [exact N2|]].
    - apply Rle_trans with (2 * (1 - 15 * / 9007199254740992)); [lra|]. apply Rmult_le_compat_r; lra.
    - apply Rle_trans with (1024 * (1 + 15 * / 9007199254740992)); [|lra]. apply Rmult_le_compat_r; lra. }
  cbn [chunk_loop]. destruct (count_ok c F ltac:(lra)) as [-> [M1 M2]]. cbn [obind]. set (m := Z.min (b64_floor c) a). assert (Hm : (1 <= m <= a)%Z) by lia.
  assert (HmR : 1 <= IZR m <= B2R c) by (split; [apply (IZR_le 1); lia|eapply Rle_trans; [|exact M2]; apply IZR_le; lia]).
  set (V := 1024 / IZR size) in *.
  assert (Hm53 : (0 < m <= 2 ^ 53)%Z). { split; [lia|]. apply le_IZR. change (IZR (2 ^ 53)) with 9007199254740992. lra. }
  assert (I0 : 0 < / IZR m) by (apply Rinv_0_lt_compat; lra). assert (I1 : / IZR m <= 1) by (rewrite <- Rinv_1; apply Rinv_le; lra).
  assert (Vm : 1 / 2 <= V / IZR m <= 1024).
  { split; apply Rmult_le_reg_r with (IZR m); try lra; replace (V / IZR m * IZR m) with V by (field; lra).
    - destruct N as [_ N2]. assert (B2R c <= V * 2); [|lra]. eapply Rle_trans; [exact N2|]. apply Rmult_le_compat_l; [lra|]. rewrite u_value. lra.
    - apply Rle_trans with (1024 * 1); [lra|]. apply Rmult_le_compat_l; lra. }
  assert (B9 : forall r, 1 / 2 <= r -> bpow radix2 (-900) <= r).
  { intros r Hr. apply Rle_trans with (bpow radix2 (-1)); [apply bpow_le; lia|]. change (bpow radix2 (-1)) with (/ 2). lra. }
  destruct (near_div 15 V c m 2097152) as [Fd Nd]; [lra|exact F|exact Hm53|lia|exact N|apply B9; lra|lra|].
  destruct (near_product 15 (15 + 2) V (V / IZR m) c (b64_div c (b64_of_Z m)) 4194304) as [Fm Nm]; try lra; try assumption; [lia| | |].
  { apply B9. apply Rle_trans with (2 * (1 / 2)); [lra|]. apply Rmult_le_compat; lra. }
  { apply Rle_trans with (1024 * 1024 * 2); [|lra]. apply Rmult_le_compat_r; [lra|]. apply Rmult_le_compat; lra. }
  set (c2 := b64_mul c (b64_div c (b64_of_Z m))) in *. replace (15 + (15 + 2) + 3) with 35 in Nm by ring.
  (* V * V / m >= B2R c roughly, hence at least 1 *)
  assert (C2 : 1 <= B2R c2 <= 9007199254740992).
  { destruct Nm as [N1 N2]. assert (LV : 3 / 2 <= V * (V / IZR m) <= 1048576).
    { split; [|apply Rle_trans with (1024 * 1024); [apply Rmult_le_compat; lra|lra]]. apply Rmult_le_reg_r with (IZR m); [lra|]. replace (V * (V / IZR m) * IZR m) with (V * V) by (field; lra).
      destruct N as [_ N3]. apply Rle_trans with (3 / 2 * B2R c); [apply Rmult_le_compat_l; lra|]. apply Rle_trans with (3 / 2 * (V * (1 + 15 * u))); [apply Rmult_le_compat_l; lra|].
      replace (3 / 2 * (V * (1 + 15 * u))) with (V * (3 / 2 * (1 + 15 * u))) by ring. apply Rmult_le_compat_l; [lra|]. rewrite u_value. lra. }
    rewrite u_value in N1, N2. split; [eapply Rle_trans; [|exact N1]|eapply Rle_trans; [exact N2|]].
    - apply Rle_trans with (3 / 2 * (1 - 35 * / 9007199254740992)); [lra|]. apply Rmult_le_compat_r; lra.
    - apply Rle_trans with (1048576 * (1 + 35 * / 9007199254740992)); [apply Rmult_le_compat_r; lra|lra]. }
  destruct (count_ok c2 Fm C2) as [EC [M3 M4]]. set (n := Z.min (b64_floor c2) b). exists m, n.
  assert (HB : (m * n * size <= upper_limit)%Z).
  { apply (integer_bound _ 35); [lra|]. rewrite !mult_IZR. destruct Nm as [_ N2].
    assert (Hn : IZR n <= B2R c2) by (eapply Rle_trans; [|exact M4]; apply IZR_le; lia). assert (Hn0 : 1 <= IZR n) by (apply (IZR_le 1); lia).
    apply Rle_trans with (IZR m * (V * (V / IZR m) * (1 + 35 * u)) * IZR size).
    - apply Rmult_le_compat_r; [lra|]. apply Rmult_le_compat_l; [lra|]. lra.
    - replace (IZR m * (V * (V / IZR m) * (1 + 35 * u)) * IZR size) with (1048576 / IZR size * (1 + 35 * u)) by (unfold V; field; lra).
      apply Rmult_le_compat_r; [rewrite u_value; lra|]. apply Rmult_le_reg_r with (IZR size); [lra|]. replace (1048576 / IZR size * IZR size) with 1048576 by (field; lra). lra. }
  split; [|split; [exact Hm|split; [lia|exact HB]]].
  destruct result as [|x [|y [|]]]; try discriminate HL.
  assert (HIJ : (i = 0 /\ j = 1)%nat \/ (i = 1 /\ j = 0)%nat) by lia. destruct HIJ as [[-> ->]|[-> ->]]; cbn [Z.of_nat upd_z Z.ltb Z.compare Z.to_nat upd_nth option_map Nat.eqb Pos.of_succ_nat Pos.to_nat Pos.iter_op Init.Nat.add];
    rewrite EC; reflexivity.
Qed.

Lemma large_2 pow order e0 e1 size : accurate pow -> in_order_of_extents order [e0; e1] -> (0 < size <= 512)%Z -> (0 < e0)%Z -> (0 < e1)%Z -> (upper_limit < size * (e0 * e1) < 2 ^ 53)%Z ->
  exists m0 m1, chunk_shape pow order [e0; e1] size = Ok [1%Z; m0; m1] /\ (1 <= m0 <= e0)%Z /\ (1 <= m1 <= e1)%Z /\ (m0 * m1 * size <= upper_limit)%Z.
Proof.
  intros A [HP _] Hs H0 H1 HE. unfold chunk_shape.
  rewrite size_of_shape_ok; [|lia|repeat constructor; lia|cbn [volume]; rewrite Z.mul_1_r; lia]. cbn [volume length map]. rewrite Z.mul_1_r. cbv zeta. change (Z.of_nat 2) with 2%Z.
  destruct (large_values (size * (e0 * e1))%Z HE) as [-> _]. destruct (start_2 pow (size * (e0 * e1))%Z size A HE Hs) as [F N]. set (c := b64_div (pow _ _) _) in *.
  change (combine [e0; e1] (zseq 0 (Z.of_nat (length [e0; e1])))) with [(e0, 0%Z); (e1, 1%Z)] in HP. apply Permutation_sym, Permutation_length_2_inv in HP. destruct HP as [-> | ->].
  - destruct (loop_2 c size e0 e1 [0; 0]%Z 0 1 [0; 0]%Z) as [m [n [E1 [L1 [L2 L3]]]]]; try assumption; try reflexivity; try lia. cbn [Z.of_nat Nat.eqb Pos.of_succ_nat] in E1. rewrite E1. cbn [obind]. exists m, n. auto.
  - destruct (loop_2 c size e1 e0 [0; 0]%Z 1 0 [0; 0]%Z) as [m [n [E1 [L1 [L2 L3]]]]]; try assumption; try reflexivity; try lia. cbn [Z.of_nat Nat.eqb Pos.of_succ_nat] in E1. rewrite E1. cbn [obind]. exists n, m.
    split; [reflexivity|]. split; [exact L2|]. split; [exact L1|]. lia.
Qed.
