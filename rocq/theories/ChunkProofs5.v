(** Chunks that are too large, too small or undefined. *)
From Coq Require Import Reals Lra Floats.SpecFloat.
From Flocq Require Import Core BinarySingleNaN.
From Verif Require Import Common CommonProofs CoreSpec IndexProofs Float64 Float64Proofs ResampleProofs NumpyModel ChunkModel ChunkSpec ChunkProofs ChunkProofs2 ChunkProofs3 ChunkProofs4.
Local Open Scope R_scope.

Definition total (n : Z) : b64 := b64_mul (b64_of_Z n) (b64_div (b64_of_Z upper_limit) (b64_of_Z n)).
Lemma total_ok n : B2SF (total n) = B2SF (b64_of_Z upper_limit) -> is_finite (total n) = true /\ B2R (total n) = 1048576.
Proof.
  intros E. apply B2SF_inj in E. rewrite E. destruct (b64_of_Z_correct upper_limit) as [E1 F1]; [unfold upper_limit; lia|]. split; assumption.
Qed.
Lemma power_is pow x y r k : correctly_rounded pow -> is_finite x = true -> B2R x = 1048576 -> B2R y = r -> 0 < r <= 1 -> (0 < k <= 2 ^ 53)%Z -> Rpower 1048576 r = IZR k -> pow x y = b64_of_Z k.
Proof.
  intros A F X Y R K E. destruct (A x y F ltac:(lra) ltac:(lra)) as [Fp Ep]. rewrite X, Y, E in Ep. change (round _ _ _ _) with (rd (IZR k)) in Ep. rewrite rd_Z in Ep by lia.
  destruct (b64_of_Z_correct k) as [Ek Fk]; [lia|]. assert (K0 : IZR k <> 0) by (apply (IZR_neq k 0); lia).
  apply B2R_inj; [| |congruence].
  - destruct (pow x y); try discriminate Fp; [cbn in Ep; congruence|reflexivity].
  - destruct (b64_of_Z k); try discriminate Fk; [cbn in Ek; congruence|reflexivity].
Qed.
Lemma root_4_exact : Rpower 1048576 (/ 4) = IZR 32.
Proof. destruct (root_4 1048576 32 32) as [A B]; [lra|lra|lra|]. apply Rle_antisym; lra. Qed.

Lemma sorted_enum (shape : list Z) : StronglySorted Z.le shape -> in_order_of_extents (combine shape (zseq 0 (Z.of_nat (length shape)))) shape.
Proof.
  intros HS. split; [apply Permutation_refl|]. generalize 0%Z at 1. induction HS as [|e l HS IH HF]; intros s; [constructor|].
  cbn [length]. rewrite zseq_cons by lia. cbn [combine]. replace (Z.of_nat (S (length l)) - 1)%Z with (Z.of_nat (length l)) by lia. constructor; [apply IH|].
  apply Forall_forall. intros [a b] HI. apply in_combine_l in HI. rewrite Forall_forall in HF. apply (HF _ HI).
Qed.

Lemma chunk_4 pow order shape size : correctly_rounded pow -> length shape = 4%nat -> B2SF (total (size_of_shape shape size)) = B2SF (b64_of_Z upper_limit) ->
  Bcompare (b64_div (b64_of_Z upper_limit) (b64_of_Z (size_of_shape shape size))) (b64_of_Z 1) = Some Lt ->
  chunk_shape pow order shape size = obind (chunk_loop (b64_div (b64_of_Z 32) (b64_of_Z size)) order (map (fun _ => 0%Z) shape)) (fun result => Ok (1%Z :: result)).
Proof.
  intros A L T C. destruct (total_ok _ T) as [F X]. unfold chunk_shape. rewrite C, L. cbv zeta. fold (total (size_of_shape shape size)).
  change (Z.of_nat 4) with 4%Z. rewrite (power_is pow _ (b64_div (b64_of_Z 1) (b64_of_Z 4)) (/ 4) 32 A F X exponent_4 ltac:(lra) ltac:(lia) root_4_exact). reflexivity.
Qed.
Definition enum (shape : list Z) : list (Z * Z) := combine shape (zseq 0 (Z.of_nat (length shape))).
Lemma too_large pow : correctly_rounded pow -> chunk_shape pow (enum [1; 1; 131072; 131072]%Z) [1; 1; 131072; 131072]%Z 1 = Ok [1; 1; 1; 131072; 131072]%Z.
Proof. intros A. rewrite chunk_4; [vm_compute; reflexivity|exact A|reflexivity|vm_compute; reflexivity|vm_compute; reflexivity]. Qed.
Lemma too_small pow : correctly_rounded pow -> chunk_shape pow (enum [64; 64; 64; 64]%Z) [64; 64; 64; 64]%Z 8 = Ok [1; 4; 4; 4; 4]%Z.
Proof. intros A. rewrite chunk_4; [vm_compute; reflexivity|exact A|reflexivity|vm_compute; reflexivity|vm_compute; reflexivity]. Qed.

(** ** Eight dimensions: the number of elements is zero *)
Lemma exponent_8 : B2R (b64_div (b64_of_Z 1) (b64_of_Z 8)) = / 8.
Proof.
  destruct (b64_of_Z_correct 1) as [E1 F1]; [cbn; lia|]. destruct (b64_of_Z_correct 8) as [E2 F2]; [cbn; lia|].
  destruct (b64_div_correct (b64_of_Z 1) (b64_of_Z 8) 1) as [Ed _]; [rewrite E2; lra|cbn; lia|rewrite E1, E2, Rabs_pos_eq; lra|].
  rewrite Ed, E1, E2. replace (1 / 8) with (/ 8) by lra. apply round_generic; [typeclasses eauto|]. change (/ 8) with (bpow radix2 (-3)). apply generic_format_bpow. unfold FLT_exp. cbn. lia.
Qed.
Lemma root_8 : 1 <= Rpower 1048576 (/ 8) <= 7.
Proof.
  split; [apply Rpower_range; lra|]. assert (R8 : Rpower (7 ^ 8) (/ 8) = 7).
  { rewrite <- Rpower_pow by lra. rewrite Rpower_mult. replace (INR 8 * / 8) with 1 by (cbn; lra). apply Rpower_1. lra. }
  rewrite <- R8. apply Rle_Rpower_l; lra.
Qed.
Lemma not_count x : is_finite x = false -> to_count x = UB. Proof. intros E. unfold to_count. now rewrite E. Qed.
Lemma after_zero c : is_finite (b64_mul c (b64_div c (b64_of_Z 0))) = false.
Proof. assert (E : b64_of_Z 0 = B754_zero false) by (apply B2SF_inj; reflexivity). rewrite E. destruct c as [[]|[]| |[] m e H]; reflexivity. Qed.

Lemma undefined_8 pow : correctly_rounded pow -> chunk_shape pow (enum (repeat 8%Z 8)) (repeat 8%Z 8) 8 = UB.
Proof.
  intros A. set (shape := repeat 8%Z 8). assert (T : B2SF (total (size_of_shape shape 8)) = B2SF (b64_of_Z upper_limit)) by (vm_compute; reflexivity).
  assert (C : Bcompare (b64_div (b64_of_Z upper_limit) (b64_of_Z (size_of_shape shape 8))) (b64_of_Z 1) = Some Lt) by (vm_compute; reflexivity).
  destruct (total_ok _ T) as [F X]. unfold chunk_shape. rewrite C. cbv zeta. fold (total (size_of_shape shape 8)). set (x := total _) in *. change (Z.of_nat (length shape)) with 8%Z.
  set (y := b64_div (b64_of_Z 1) (b64_of_Z 8)). destruct (A x y F ltac:(lra) ltac:(unfold y; rewrite exponent_8; lra)) as [Fp Ep]. unfold y in Ep at 2. rewrite exponent_8, X in Ep. change (round _ _ _ _) with (rd (Rpower 1048576 (/ 8))) in Ep.
  pose proof root_8 as R8. assert (P : 1 <= B2R (pow x y) <= 7).
  { rewrite Ep. split; [rewrite <- (rd_Z 1) by (cbn; lia)|rewrite <- (rd_Z 7) by (cbn; lia)]; apply rd_le; lra. }
  set (p := pow x y) in *. destruct (b64_of_Z_correct 8) as [E8 F8]; [cbn; lia|].
  destruct (b64_div_correct p (b64_of_Z 8) 1) as [Ed Fd]; [rewrite E8; lra|cbn; lia|rewrite E8, Rabs_pos_eq; lra|]. rewrite E8 in Ed. set (c := b64_div p (b64_of_Z 8)) in *.
  assert (E : b64_floor c = 0%Z).
  { rewrite b64_floor_correct, Ed. apply Zfloor_imp. cbn [IZR Z.add].
    assert (B : rd (7 / 8) = 7 / 8). { apply round_generic; [typeclasses eauto|]. replace (7 / 8) with (F2R (Float radix2 7 (-3))) by (unfold F2R; cbn; lra). apply generic_format_F2R. intros _. unfold cexp, FLT_exp.
      replace (F2R (Float radix2 7 (-3))) with (7 / 8) by (unfold F2R; cbn; lra). assert (M : (mag radix2 (7 / 8) <= 0)%Z) by (apply mag_le_bpow; [lra|rewrite Rabs_pos_eq by lra; cbn; lra]). lia. }
    split; [rewrite <- rd_0|apply Rle_lt_trans with (rd (7 / 8)); [|rewrite B; lra]]; apply rd_le; lra. }
  assert (TC : to_count c = Ok 0%Z) by (apply to_count_ok; [rewrite Fd; exact Fp|exact E|lia]).
  unfold enum, shape. change (combine (repeat 8%Z 8) (zseq 0 (Z.of_nat (length (repeat 8%Z 8))))) with ((8, 0) :: (8, 1) :: combine (repeat 8 6) (zseq 2 6))%Z.
  cbn [chunk_loop]. rewrite TC. cbn [obind]. change (Z.min 0 8) with 0%Z. cbn [map repeat upd_z Z.ltb Z.compare upd_nth Z.to_nat]. rewrite (not_count _ (after_zero c)). reflexivity.
Qed.

(** ** Five dimensions *)
Lemma grow c k N : is_finite c = true -> IZR k <= B2R c <= IZR N -> (1 <= k)%Z -> (N * N <= 2 ^ 53)%Z ->
  let c' := b64_mul c (b64_div c (b64_of_Z 1)) in is_finite c' = true /\ IZR (k * k) <= B2R c' <= IZR (N * N).
Proof.
  intros F [C1 C2] Hk HN c'. assert (K1 : 1 <= IZR k) by (apply (IZR_le 1); lia). assert (KN : (k <= N)%Z) by (apply le_IZR; lra). assert (N53 : (N <= 2 ^ 53)%Z) by nia.
  destruct (step_ok c 1 N F ltac:(lra) ltac:(nia) ltac:(lia) ltac:(lra)) as [F' [_ B]]. split; [exact F'|]. split; [|exact B]. clear F' B.
  destruct (b64_of_Z_correct 1) as [Em Fm]; [cbn; lia|].
  destruct (b64_div_correct c (b64_of_Z 1) N) as [Ed Fd]; [rewrite Em; lra|lia|rewrite Em, Rabs_pos_eq by lra; lra|]. rewrite Em in Ed. replace (B2R c / 1) with (B2R c) in Ed by lra.
  set (d := B2R (b64_div c (b64_of_Z 1))) in *. assert (D : IZR k <= d <= IZR N).
  { rewrite Ed. split; [rewrite <- (rd_Z k) by lia|rewrite <- (rd_Z N) by lia]; apply rd_le; lra. }
  assert (P : IZR (k * k) <= B2R c * d <= IZR (N * N)) by (rewrite !mult_IZR; split; apply Rmult_le_compat; lra).
  assert (KK : 1 <= IZR (k * k)) by (apply (IZR_le 1); nia).
  destruct (b64_mul_correct c (b64_div c (b64_of_Z 1)) (N * N)%Z) as [Ep _]; [nia|fold d; rewrite Rabs_pos_eq by lra; lra|]. fold d in Ep.
  unfold c'. rewrite Ep, <- (rd_Z (k * k)) by nia. apply rd_le. lra.
Qed.
Lemma count_one c k N : is_finite c = true -> IZR k <= B2R c <= IZR N -> (1 <= k)%Z -> (N <= 2 ^ 53)%Z -> exists n, to_count c = Ok n /\ Z.min n 1 = 1%Z.
Proof.
  intros F [C1 C2] Hk HN. assert (K1 : 1 <= IZR k) by (apply (IZR_le 1); lia). apply IZR_le in HN. change (IZR (2 ^ 53)) with 9007199254740992 in HN. destruct (count_ok c F ltac:(lra)) as [E [M _]]. eexists. split; [exact E|lia].
Qed.
Lemma huge c : is_finite c = true -> 4294967296 <= B2R c <= 1099511627776 -> to_count (b64_mul c (b64_div c (b64_of_Z 1))) = UB.
Proof.
  intros F C. destruct (b64_of_Z_correct 1) as [Em Fm]; [cbn; lia|].
  destruct (b64_div_correct c (b64_of_Z 1) 1099511627776) as [Ed Fd]; [rewrite Em; lra|lia|rewrite Em, Rabs_pos_eq by lra; lra|]. rewrite Em in Ed. replace (B2R c / 1) with (B2R c) in Ed by lra.
  set (q := b64_div c (b64_of_Z 1)) in *. assert (D : 4294967296 <= B2R q) by (rewrite Ed, <- (rd_Z 4294967296) by lia; apply rd_le; lra).
  pose proof (@Bmult_correct 53 1024 b64_prec_gt_0 b64_prec_lt_emax mode_NE c q) as M. change (Bmult mode_NE c q) with (b64_mul c q) in M.
  change (round _ _ (round_mode mode_NE) (B2R c * B2R q)) with (rd (B2R c * B2R q)) in M.
  destruct (Rlt_bool _ _) in M.
  - destruct M as [M _]. assert (L : 18446744073709551616 <= B2R (b64_mul c q)).
    { rewrite M. assert (B : rd 18446744073709551616 = 18446744073709551616).
      { apply round_generic; [typeclasses eauto|]. replace 18446744073709551616 with (bpow radix2 64) by (cbn; lra). apply generic_format_bpow. unfold FLT_exp. cbn. lia. }
      rewrite <- B. apply rd_le. apply Rle_trans with (4294967296 * 4294967296); [lra|apply Rmult_le_compat; lra]. }
    unfold to_count. assert (FL : (18446744073709551616 <= b64_floor (b64_mul c q))%Z) by (rewrite b64_floor_correct; apply Zfloor_lub; exact L).
    destruct (Z.ltb_spec (b64_floor (b64_mul c q)) 18446744073709551616); [lia|]. now rewrite andb_false_r.
  - apply not_count. rewrite <- is_finite_SF_B2SF, M. unfold binary_overflow. cbn [overflow_to_inf]. reflexivity.
Qed.
Lemma exponent_5 : / 5 <= B2R (b64_div (b64_of_Z 1) (b64_of_Z 5)) <= / 4.
Proof.
  rewrite <- SF2R_B2SF. replace (B2SF (b64_div (b64_of_Z 1) (b64_of_Z 5))) with (SpecFloat.S754_finite false 7205759403792794 (-55)) by (vm_compute; reflexivity). unfold SF2R, F2R. cbn. lra.
Qed.
Lemma root_5 y : / 5 <= y <= / 4 -> 16 <= Rpower 1048576 y <= 32.
Proof.
  intros Hy. split.
  - assert (R5 : Rpower (16 ^ 5) (/ 5) = 16). { rewrite <- Rpower_pow by lra. rewrite Rpower_mult. replace (INR 5 * / 5) with 1 by (cbn; lra). apply Rpower_1. lra. }
    rewrite <- R5. replace (16 ^ 5) with 1048576 by (cbn; lra). apply Rle_Rpower; lra.
  - rewrite <- (root_4_exact). apply Rle_Rpower; lra.
Qed.
Lemma undefined_5 pow : correctly_rounded pow -> chunk_shape pow (enum [1; 1; 1; 1; 2097152]%Z) [1; 1; 1; 1; 2097152]%Z 1 = UB.
Proof.
  intros A. set (shape := [1; 1; 1; 1; 2097152]%Z). assert (T : B2SF (total (size_of_shape shape 1)) = B2SF (b64_of_Z upper_limit)) by (vm_compute; reflexivity).
  assert (C : Bcompare (b64_div (b64_of_Z upper_limit) (b64_of_Z (size_of_shape shape 1))) (b64_of_Z 1) = Some Lt) by (vm_compute; reflexivity).
  destruct (total_ok _ T) as [F X]. unfold chunk_shape. rewrite C. cbv zeta. fold (total (size_of_shape shape 1)). set (x := total _) in *. change (Z.of_nat (length shape)) with 5%Z.
  set (y := b64_div (b64_of_Z 1) (b64_of_Z 5)). pose proof exponent_5 as Y. fold y in Y. destruct (A x y F ltac:(lra) ltac:(lra)) as [Fp Ep]. rewrite X in Ep. change (round _ _ _ _) with (rd (Rpower 1048576 (B2R y))) in Ep.
  pose proof (root_5 _ Y) as R5. assert (P : 16 <= B2R (pow x y) <= 32).
  { rewrite Ep. split; [rewrite <- (rd_Z 16) by (cbn; lia)|rewrite <- (rd_Z 32) by (cbn; lia)]; apply rd_le; lra. }
  set (p := pow x y) in *. destruct (b64_of_Z_correct 1) as [E8 F8]; [cbn; lia|].
  destruct (b64_div_correct p (b64_of_Z 1) 32) as [Ed Fd]; [rewrite E8; lra|cbn; lia|rewrite E8, Rabs_pos_eq; lra|]. rewrite E8 in Ed. replace (B2R p / 1) with (B2R p) in Ed by lra. set (c := b64_div p (b64_of_Z 1)) in *.
  assert (B0 : IZR 16 <= B2R c <= IZR 32) by (rewrite Ed; split; [rewrite <- (rd_Z 16) by (cbn; lia)|rewrite <- (rd_Z 32) by (cbn; lia)]; apply rd_le; lra).
  rewrite Fp in Fd.
  destruct (grow c 16 32 Fd B0 ltac:(lia) ltac:(lia)) as [F1 B1]. destruct (count_one c 16 32 Fd B0 ltac:(lia) ltac:(lia)) as [n0 [N0 M0]]. set (c1 := b64_mul c (b64_div c (b64_of_Z 1))) in *.
  destruct (grow c1 _ _ F1 B1 ltac:(lia) ltac:(lia)) as [F2 B2]. destruct (count_one c1 _ _ F1 B1 ltac:(lia) ltac:(lia)) as [n1 [N1 M1]]. set (c2 := b64_mul c1 (b64_div c1 (b64_of_Z 1))) in *.
  destruct (grow c2 _ _ F2 B2 ltac:(lia) ltac:(lia)) as [F3 B3]. destruct (count_one c2 _ _ F2 B2 ltac:(lia) ltac:(lia)) as [n2 [N2 M2]]. set (c3 := b64_mul c2 (b64_div c2 (b64_of_Z 1))) in *.
  destruct (count_one c3 _ _ F3 B3 ltac:(lia) ltac:(lia)) as [n3 [N3 M3]].
  assert (H4 : to_count (b64_mul c3 (b64_div c3 (b64_of_Z 1))) = UB) by (apply huge; [exact F3|]; cbn in B3; lra).
  unfold enum, shape. change (combine [1; 1; 1; 1; 2097152] (zseq 0 (Z.of_nat (length [1; 1; 1; 1; 2097152]))))%Z with [(1, 0); (1, 1); (1, 2); (1, 3); (2097152, 4)]%Z.
  cbn [chunk_loop]. rewrite N0. cbn [obind]. rewrite M0. cbn [map upd_z Z.ltb Z.compare upd_nth Z.to_nat]. fold c1.
  rewrite N1. cbn [obind]. rewrite M1. change (upd_z 1 1 [1; 0; 0; 0; 0])%Z with (Some [1; 1; 0; 0; 0])%Z. cbv iota. fold c2.
  rewrite N2. cbn [obind]. rewrite M2. change (upd_z 2 1 [1; 1; 0; 0; 0])%Z with (Some [1; 1; 1; 0; 0])%Z. cbv iota. fold c3.
  rewrite N3. cbn [obind]. rewrite M3. change (upd_z 3 1 [1; 1; 1; 0; 0])%Z with (Some [1; 1; 1; 1; 0])%Z. cbv iota. rewrite H4. reflexivity.
Qed.

(** ** Empty values *)
Lemma empty pow order shape size : In 0%Z shape -> chunk_shape pow order shape size = UB.
Proof.
  intros HI. unfold chunk_shape. assert (E : size_of_shape shape size = 0%Z).
  { assert (Z0 : forall l, fold_left (fun a e => to_size (a * e)) l 0%Z = 0%Z) by (induction l as [|e l IH]; cbn; [reflexivity|exact IH]).
    unfold size_of_shape. revert size. induction shape as [|e shape IH]; [contradiction|]. intros size. cbn [fold_left]. destruct HI as [-> | HI]; [rewrite Z.mul_0_r; apply Z0|apply IH, HI]. }
  rewrite E. assert (C : Bcompare (b64_div (b64_of_Z upper_limit) (b64_of_Z 0)) (b64_of_Z 1) = Some Gt) by (vm_compute; reflexivity). cbv zeta. rewrite C. reflexivity.
Qed.
