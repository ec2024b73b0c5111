(** Values with more dimensions; a correctly rounded power exists. *)
From Coq Require Import Reals Lra.
From Flocq Require Import Core BinarySingleNaN.
From Verif Require Import Common CommonProofs CoreSpec Float64 Float64Proofs ResampleProofs NumpyModel ChunkModel ChunkSpec ChunkProofs ChunkProofs2.
Local Open Scope R_scope.

(** ** The double nearest to a real number *)
Definition nearest (r : R) : b64 :=
  binary_normalize 53 1024 b64_prec_gt_0 b64_prec_lt_emax mode_NE (Ztrunc (scaled_mantissa radix2 (FLT_exp (-1074) 53) (rd r))) (cexp radix2 (FLT_exp (-1074) 53) (rd r)) false.
Lemma nearest_ok r n : (0 <= n <= 2 ^ 53)%Z -> Rabs r <= IZR n -> is_finite (nearest r) = true /\ B2R (nearest r) = rd r.
Proof.
  intros Hn Hr. unfold nearest.
  pose proof (binary_normalize_correct 53 1024 b64_prec_gt_0 b64_prec_lt_emax mode_NE (Ztrunc (scaled_mantissa radix2 (FLT_exp (-1074) 53) (rd r))) (cexp radix2 (FLT_exp (-1074) 53) (rd r)) false) as C.
  cbv zeta in C.
  assert (G : generic_format radix2 (FLT_exp (-1074) 53) (rd r)) by (apply generic_format_round; [apply FLT_exp_valid; reflexivity|apply valid_rnd_N]).
  assert (E : F2R (Float radix2 (Ztrunc (scaled_mantissa radix2 (FLT_exp (-1074) 53) (rd r))) (cexp radix2 (FLT_exp (-1074) 53) (rd r))) = rd r) by (symmetry; exact G).
  rewrite E in C. change (round _ _ (round_mode mode_NE) (rd r)) with (rd (rd r)) in C.
  assert (E2 : rd (rd r) = rd r) by (apply round_generic; [typeclasses eauto|exact G]). rewrite E2 in C.
  assert (L : Rabs (rd r) < bpow radix2 1024). { eapply Rle_lt_trans; [apply (rd_abs_le r n Hn Hr)|]. apply bpow_emax_big. lia. }
  rewrite Rlt_bool_true in C by exact L. destruct C as [C1 [C2 _]]. split; [exact C2|exact C1].
Qed.

Definition power (x y : b64) : b64 := nearest (Rpower (B2R x) (B2R y)).

Lemma Rpower_range x y : 1 <= x -> 0 < y <= 1 -> 1 <= Rpower x y <= x.
Proof.
  intros Hx Hy. split.
  - rewrite <- (Rpower_O x) by lra. apply Rle_Rpower; lra.
  - rewrite <- (Rpower_1 x) at 2 by lra. apply Rle_Rpower; lra.
Qed.
Lemma power_ok : correctly_rounded power.
Proof.
  intros x y F X Y. pose proof (Rpower_range _ _ (proj1 X) Y) as P. unfold power. apply (nearest_ok _ 2097152%Z); [lia|]. rewrite Rabs_pos_eq by lra. lra.
Qed.
Lemma rounded_accurate pow : correctly_rounded pow -> accurate pow.
Proof.
  intros H x y F X Y. destruct (H x y F X Y) as [F1 E]. split; [exact F1|]. rewrite E. pose proof (Rpower_range _ _ (proj1 X) Y) as P.
  destruct (rd_error (Rpower (B2R x) (B2R y))) as [D1 D2]; [apply Rle_trans with (bpow radix2 0); [apply bpow_le; lia|cbn; lra]|].
  apply Rabs_le. change (round _ _ _ _) with (rd (Rpower (B2R x) (B2R y))).
  set (r := Rpower _ _) in *. assert (B : bpow radix2 (-53) <= bpow radix2 (-50)) by (apply bpow_le; lia). assert (r * bpow radix2 (-53) <= r * bpow radix2 (-50)) by (apply Rmult_le_compat_l; lra). lra.
Qed.

(** ** The loop, for any number of dimensions *)
Lemma step_ok c m N : is_finite c = true -> 1 <= B2R c <= IZR N -> (1 <= N * N <= 2 ^ 53)%Z -> (1 <= m)%Z -> IZR m <= B2R c ->
  is_finite (b64_mul c (b64_div c (b64_of_Z m))) = true /\ 1 <= B2R (b64_mul c (b64_div c (b64_of_Z m))) <= IZR (N * N).
Proof.
  intros F [C1 C2] HN Hm Hm2. assert (N1 : (1 <= N)%Z) by (apply le_IZR; lra). assert (MN : (m <= N)%Z) by (apply le_IZR; lra). assert (N53 : (N <= 2 ^ 53)%Z) by nia.
  destruct (b64_of_Z_correct m) as [Em Fm]; [lia|]. assert (M1 : 1 <= IZR m) by (apply (IZR_le 1); lia).
  assert (Q : 1 <= B2R c / IZR m <= IZR N).
  { split; apply Rmult_le_reg_r with (IZR m); try lra; replace (B2R c / IZR m * IZR m) with (B2R c) by (field; lra); [lra|].
    apply Rle_trans with (IZR N * 1); [lra|]. apply Rmult_le_compat_l; lra. }
  destruct (b64_div_correct c (b64_of_Z m) N) as [Ed Fd]; [rewrite Em; lra|lia|rewrite Em, Rabs_pos_eq by lra; lra|]. rewrite Em in Ed.
  assert (D : 1 <= B2R (b64_div c (b64_of_Z m)) <= IZR N).
  { rewrite Ed. change (round _ _ _ _) with (rd (B2R c / IZR m)). split; [rewrite <- (rd_Z 1) by (cbn; lia)|rewrite <- (rd_Z N) by lia]; apply rd_le; lra. }
  set (d := B2R (b64_div c (b64_of_Z m))) in *.
  assert (P : 1 <= B2R c * d <= IZR (N * N)).
  { rewrite mult_IZR. split; [apply Rle_trans with (1 * 1); [lra|]|]; apply Rmult_le_compat; lra. }
  destruct (b64_mul_correct c (b64_div c (b64_of_Z m)) (N * N)%Z) as [Ep Fp]; [lia|fold d; rewrite Rabs_pos_eq by lra; lra|]. fold d in Ep.
  split; [rewrite Fp, Fd, F; reflexivity|]. rewrite Ep. change (round _ _ _ _) with (rd (B2R c * d)). split; [rewrite <- (rd_Z 1) by (cbn; lia)|rewrite <- (rd_Z (N * N)) by lia]; apply rd_le; lra.
Qed.

Lemma loop_fits l : forall t c N result, is_finite c = true -> 1 <= B2R c <= IZR N -> (1 <= N)%Z -> (N ^ (2 ^ Z.of_nat (length l)) <= 2 ^ 53)%Z ->
  NoDup (map snd (t :: l)) -> Forall (fun t => 1 <= fst t /\ 0 <= snd t < Z.of_nat (length result))%Z (t :: l) ->
  exists r, chunk_loop c (t :: l) result = Ok r /\ length r = length result /\
  (forall e i, In (e, i) (t :: l) -> exists m, nth_error r (Z.to_nat i) = Some m /\ (1 <= m <= e)%Z) /\
  (forall k, ~ In (Z.of_nat k) (map snd (t :: l)) -> nth_error r k = nth_error result k).
Proof.
  induction l as [|t2 l IH]; intros [e i] c N result F C N1 HN ND FA; inversion FA as [|? ? [A1 A2] FA']; subst; cbn [fst snd] in *.
  - cbn [length Z.of_nat] in HN. change (2 ^ 0)%Z with 1%Z in HN. rewrite Z.pow_1_r in HN.
    assert (C' : 1 <= B2R c <= 9007199254740992) by (split; [lra|]; eapply Rle_trans; [apply C|]; apply (IZR_le N (2 ^ 53)); exact HN).
    cbn [chunk_loop]. destruct (count_ok c F C') as [-> [M1 M2]]. cbn [obind]. unfold upd_z. destruct (Z.ltb_spec i 0); [lia|].
    destruct (upd_nth_Some (Z.to_nat i) (Z.min (b64_floor c) e) result) as [r E]; [lia|]. rewrite E. exists r. split; [reflexivity|]. split; [eapply upd_nth_length; exact E|]. split.
    + intros e' i' [HI|[]]. injection HI as <- <-. exists (Z.min (b64_floor c) e). split; [eapply upd_nth_same; exact E|lia].
    + intros k Hk. eapply upd_nth_other; [exact E|]. intros <-. apply Hk. left. cbn [fst snd]. lia.
  - cbn [length] in HN. rewrite Nat2Z.inj_succ, Z.pow_succ_r in HN by lia. rewrite Z.pow_mul_r in HN by lia. rewrite Z.pow_2_r in HN.
    assert (N2 : (N * N <= 2 ^ 53)%Z). { eapply Z.le_trans; [|exact HN]. rewrite <- (Z.pow_1_r (N * N)) at 1. apply Z.pow_le_mono_r; [nia|]. pose proof (Z.pow_pos_nonneg 2 (Z.of_nat (length l)) ltac:(lia) ltac:(lia)). lia. }
    assert (C' : 1 <= B2R c <= 9007199254740992) by (split; [lra|]; eapply Rle_trans; [apply C|]; apply (IZR_le N (2 ^ 53)); nia).
    destruct (count_ok c F C') as [E0 [M1 M2]]. set (m := Z.min (b64_floor c) e) in *. assert (Hm : (1 <= m <= e)%Z) by lia.
    assert (HmR : IZR m <= B2R c) by (eapply Rle_trans; [|exact M2]; apply IZR_le; lia).
    destruct (step_ok c m N F C ltac:(nia) ltac:(lia) HmR) as [F2 C2].
    destruct (upd_nth_Some (Z.to_nat i) m result) as [r1 E1]; [lia|]. pose proof (upd_nth_length _ _ _ _ E1) as L1.
    cbn [map snd] in ND. inversion ND as [|? ? ND1 ND2]; subst.
    destruct (IH t2 (b64_mul c (b64_div c (b64_of_Z m))) (N * N)%Z r1 F2 C2 ltac:(nia) HN ND2 ltac:(rewrite L1; exact FA')) as [r [E [L [P Q]]]].
    exists r. split; [|split; [congruence|split]].
    + change (chunk_loop c ((e, i) :: t2 :: l) result) with (obind (to_count c) (fun n => let count := Z.min n e in match upd_z i count result with None => UB | Some result' => chunk_loop (b64_mul c (b64_div c (b64_of_Z count))) (t2 :: l) result' end)).
      rewrite E0. cbn [obind]. cbv zeta. fold m. unfold upd_z. destruct (Z.ltb_spec i 0); [lia|]. rewrite E1. exact E.
    + intros e' i' [HI|HI]; [|now apply P]. injection HI as <- <-. exists m. split; [|exact Hm]. rewrite Q; [eapply upd_nth_same; exact E1|]. rewrite (Z2Nat.id i) by lia. exact ND1.
    + intros k Hk. rewrite Q; [|intros X; apply Hk; now right]. eapply upd_nth_other; [exact E1|]. intros <-. apply Hk. left. cbn [fst snd]. lia.
Qed.

(** ** Roots *)
Lemma root_4 x b c : 0 < b -> 0 < c -> b ^ 4 <= x <= c ^ 4 -> b <= Rpower x (/ 4) <= c.
Proof.
  intros Hb Hc [H1 H2]. assert (R4 : forall a, 0 < a -> Rpower (a ^ 4) (/ 4) = a).
  { intros a Ha. rewrite <- Rpower_pow by exact Ha. rewrite Rpower_mult. replace (INR 4 * / 4) with 1 by (cbn; lra). apply Rpower_1, Ha. }
  assert (0 < b ^ 4) by (apply pow_lt; exact Hb).
  rewrite <- (R4 b Hb), <- (R4 c Hc) at 1. split; apply Rle_Rpower_l; lra.
Qed.
