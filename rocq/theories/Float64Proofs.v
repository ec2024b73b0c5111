(** Facts about the binary64 operations in Float64.v. *)
From Coq Require Import ZArith Reals Lia Lra Psatz.
From Flocq Require Import Core BinarySingleNaN Relative.
From Verif Require Import Float64.

Open Scope R_scope.

Definition rd (x : R) : R := round radix2 (FLT_exp (-1074) 53) ZnearestE x.

Lemma rd_le x y : x <= y -> rd x <= rd y.
Proof. apply round_le; try typeclasses eauto. apply FLT_exp_valid. reflexivity. Qed.

Lemma rd_Z n : (Z.abs n <= 2 ^ 53)%Z -> rd (IZR n) = IZR n.
Proof.
  intros H. apply round_generic; [typeclasses eauto|].
  destruct (Z.eq_dec (Z.abs n) (2^53)) as [E|E].
  - assert (Hg : forall s, generic_format radix2 (FLT_exp (-1074) 53) (IZR (cond_Zopp s (2^53)))).
    { intros s. apply generic_format_FLT. exists (Float radix2 (cond_Zopp s 1) 53).
      - unfold F2R. cbn [Fnum Fexp]. destruct s; cbn [cond_Zopp]; rewrite ?opp_IZR; cbn; lra.
      - cbn. destruct s; cbn; lia.
      - cbn. lia. }
    destruct (Z.abs_spec n) as [[_ H1]|[_ H1]].
    + replace n with (cond_Zopp false (2^53)) by (cbn [cond_Zopp]; lia). apply Hg.
    + replace n with (cond_Zopp true (2^53)) by (cbn [cond_Zopp]; lia). apply Hg.
  - apply generic_format_FLT. exists (Float radix2 n 0); cbn.
    + unfold F2R. cbn. lra.
    + change (Z.pow_pos 2 53) with (2^53)%Z. lia.
    + lia.
Qed.

Lemma rd_0 : rd 0 = 0.
Proof. apply (rd_Z 0). cbn. lia. Qed.

Lemma rd_abs_le x n : (0 <= n <= 2^53)%Z -> Rabs x <= IZR n -> Rabs (rd x) <= IZR n.
Proof.
  intros Hn H. apply Rabs_le. apply Rabs_le_inv in H. split.
  - rewrite <- opp_IZR, <- rd_Z by lia. apply rd_le. rewrite opp_IZR. lra.
  - rewrite <- (rd_Z n) by lia. apply rd_le. lra.
Qed.

Lemma bpow_emax_big n : (n <= 2^53)%Z -> IZR n < bpow radix2 1024.
Proof.
  intros H. apply Rle_lt_trans with (IZR (2^53)); [apply IZR_le; lia|].
  change (IZR (2^53)) with (bpow radix2 53). apply bpow_lt. lia.
Qed.

Lemma Rabs_rd_lt x n : (0 <= n <= 2^53)%Z -> Rabs x <= IZR n ->
  Rlt_bool (Rabs (rd x)) (bpow radix2 1024) = true.
Proof.
  intros Hn H. apply Rlt_bool_true. eapply Rle_lt_trans; [apply (rd_abs_le x n); assumption|].
  apply bpow_emax_big. lia.
Qed.

Lemma b64_of_Z_correct n : (Z.abs n <= 2^53)%Z ->
  B2R (b64_of_Z n) = IZR n /\ is_finite (b64_of_Z n) = true.
Proof.
  intros H. unfold b64_of_Z.
  pose proof (binary_normalize_correct 53 1024 b64_prec_gt_0 b64_prec_lt_emax mode_NE n 0 false) as C.
  cbv zeta in C.
  assert (E : F2R (Float radix2 n 0) = IZR n) by (unfold F2R; cbn; lra).
  rewrite E in C. change (round _ _ (round_mode mode_NE) (IZR n)) with (rd (IZR n)) in C.
  rewrite (Rabs_rd_lt _ (Z.abs n)) in C; [|lia|rewrite abs_IZR; lra].
  destruct C as [C1 [C2 _]]. rewrite C1, rd_Z by assumption. auto.
Qed.

Lemma b64_div_correct x y n : B2R y <> 0 -> (0 <= n <= 2^53)%Z -> Rabs (B2R x / B2R y) <= IZR n ->
  B2R (b64_div x y) = rd (B2R x / B2R y) /\ is_finite (b64_div x y) = is_finite x.
Proof.
  intros Hy Hn H. unfold b64_div.
  pose proof (@Bdiv_correct 53 1024 b64_prec_gt_0 b64_prec_lt_emax mode_NE x y Hy) as C.
  change (round _ _ (round_mode mode_NE) (B2R x / B2R y)) with (rd (B2R x / B2R y)) in C.
  rewrite (Rabs_rd_lt _ n) in C by assumption. tauto.
Qed.

Lemma b64_mul_correct x y n : (0 <= n <= 2^53)%Z -> Rabs (B2R x * B2R y) <= IZR n ->
  B2R (b64_mul x y) = rd (B2R x * B2R y) /\
  is_finite (b64_mul x y) = andb (is_finite x) (is_finite y).
Proof.
  intros Hn H. unfold b64_mul.
  pose proof (@Bmult_correct 53 1024 b64_prec_gt_0 b64_prec_lt_emax mode_NE x y) as C.
  change (round _ _ (round_mode mode_NE) (B2R x * B2R y)) with (rd (B2R x * B2R y)) in C.
  rewrite (Rabs_rd_lt _ n) in C by assumption. tauto.
Qed.

Lemma round_FIX0 (f : R -> Z) x : round radix2 (FIX_exp 0) f x = IZR (f x).
Proof. unfold round, scaled_mantissa, cexp, FIX_exp, F2R. cbn. rewrite !Rmult_1_r. reflexivity. Qed.

Lemma b64_floor_correct x : b64_floor x = Zfloor (B2R x).
Proof.
  apply eq_IZR. unfold b64_floor. rewrite Btrunc_correct by reflexivity. rewrite round_FIX0.
  pose proof (@Bnearbyint_correct 53 1024 b64_prec_lt_emax mode_DN x) as [C _].
  rewrite C, round_FIX0. cbn. now rewrite Ztrunc_IZR.
Qed.

Lemma b64_ceil_correct x : b64_ceil x = Zceil (B2R x).
Proof.
  apply eq_IZR. unfold b64_ceil. rewrite Btrunc_correct by reflexivity. rewrite round_FIX0.
  pose proof (@Bnearbyint_correct 53 1024 b64_prec_lt_emax mode_UP x) as [C _].
  rewrite C, round_FIX0. cbn. now rewrite Ztrunc_IZR.
Qed.

(** Relative rounding error, for numbers not close to underflow. *)
Lemma rd_error x : bpow radix2 (-1000) <= x ->
  x * (1 - bpow radix2 (-53)) <= rd x <= x * (1 + bpow radix2 (-53)).
Proof.
  intros H. assert (Hx : 0 < x) by (eapply Rlt_le_trans; [apply bpow_gt_0|exact H]).
  pose proof (relative_error_N_FLT radix2 (-1074) 53 eq_refl (fun n => negb (Z.even n)) x) as E.
  assert (E' : Rabs (rd x - x) <= / 2 * bpow radix2 (-53 + 1) * Rabs x).
  { apply E. rewrite Rabs_pos_eq by lra. eapply Rle_trans; [|exact H]. apply bpow_le. lia. }
  rewrite (Rabs_pos_eq x) in E' by lra.
  replace (/ 2 * bpow radix2 (-53 + 1)) with (bpow radix2 (-53)) in E'.
  - apply Rabs_le_inv in E'. lra.
  - rewrite bpow_plus. change (bpow radix2 1) with 2. lra.
Qed.

Lemma bpow_m1000_le a b : (0 < a)%Z -> (0 < b <= 2 ^ 600)%Z -> bpow radix2 (-1000) <= IZR a / IZR b.
Proof.
  intros Ha [Hb Hb2]. apply Rmult_le_reg_r with (IZR b); [apply IZR_lt; lia|].
  unfold Rdiv. rewrite Rmult_assoc, Rinv_l, Rmult_1_r by (apply not_0_IZR; lia).
  apply Rle_trans with (bpow radix2 (-1000) * bpow radix2 600).
  - apply Rmult_le_compat_l; [apply bpow_ge_0|]. apply IZR_le in Hb2.
    rewrite <- (IZR_Zpower radix2 600) by lia. exact Hb2.
  - rewrite <- bpow_plus. apply Rle_trans with 1.
    + change 1 with (bpow radix2 0). apply bpow_le. lia.
    + apply (IZR_le 1). lia.
Qed.

(** ceil(double(a) / double(b)) is the exact quotient rounded up. *)
Lemma b64_ceil_div a b : (0 <= a < 2^53)%Z -> (0 < b <= 2^53)%Z ->
  b64_ceil (b64_div (b64_of_Z a) (b64_of_Z b)) = ((a + b - 1) / b)%Z.
Proof.
  intros Ha Hb.
  destruct (b64_of_Z_correct a) as [Ea Fa]; [lia|].
  destruct (b64_of_Z_correct b) as [Eb Fb]; [lia|].
  assert (Hb0 : 0 < IZR b) by (apply IZR_lt; lia).
  assert (Ha0 : 0 <= IZR a) by (apply IZR_le; lia).
  assert (Hq0 : 0 <= IZR a / IZR b) by (apply Rmult_le_pos; [lra|apply Rlt_le, Rinv_0_lt_compat; lra]).
  assert (Hqm : IZR a / IZR b * IZR b = IZR a) by (field; lra).
  destruct (b64_div_correct (b64_of_Z a) (b64_of_Z b) a) as [Ed _].
  - rewrite Eb. lra.
  - lia.
  - rewrite Ea, Eb, Rabs_pos_eq by lra.
    assert (1 <= IZR b) by (apply (IZR_le 1); lia). nra.
  - rewrite b64_ceil_correct, Ed, Ea, Eb.
    set (q := ((a + b - 1) / b)%Z).
    assert (Hq : (q * b - b < a <= q * b)%Z).
    { pose proof (Z.div_mod (a + b - 1) b) as D. pose proof (Z.mod_pos_bound (a + b - 1) b) as M.
      fold q in D. rewrite Z.mul_comm in D. lia. }
    assert (Hqr : (0 <= q <= 2^53)%Z).
    { split; [apply Z.div_pos; lia|]. unfold q. apply Z.div_le_upper_bound; nia. }
    apply Zceil_imp. rewrite <- (rd_Z q) by lia. split.
    2:{ apply rd_le. apply Rmult_le_reg_r with (IZR b); [lra|]. rewrite Hqm, <- mult_IZR. apply IZR_le; lia. }
    destruct (Z.eq_dec a 0) as [->|Hane].
    { replace (0 / IZR b) with 0 by (field; lra). rewrite rd_0. apply IZR_lt.
      assert (q = 0)%Z by nia. lia. }
    pose proof (rd_error (IZR a / IZR b)) as [He _].
    { apply bpow_m1000_le; [lia|]. split; [lia|]. etransitivity; [apply Hb|]. apply Z.pow_le_mono_r; lia. }
    rewrite minus_IZR. eapply Rlt_le_trans; [|exact He].
    apply Rmult_lt_reg_r with (IZR b); [lra|].
    replace (IZR a / IZR b * (1 - bpow radix2 (-53)) * IZR b)
      with (IZR a * (1 - bpow radix2 (-53))) by (field; lra).
    replace ((IZR q - 1) * IZR b) with (IZR (q * b - b)) by (rewrite minus_IZR, mult_IZR; ring).
    assert (Hl : IZR (q * b - b) <= IZR a - 1) by (rewrite <- minus_IZR; apply IZR_le; lia).
    assert (Hu : IZR a * bpow radix2 (-53) < 1).
    { assert (IZR a < bpow radix2 53) by (change (bpow radix2 53) with (IZR (2^53)); apply IZR_lt; lia).
      replace 1 with (bpow radix2 53 * bpow radix2 (-53)) by (rewrite <- bpow_plus; reflexivity).
      apply Rmult_lt_compat_r; [apply bpow_gt_0|assumption]. }
    lra.
Qed.

(** floor((double(out) / double(n)) * double(v)): the exact quotient v * out / n
    rounded down, except that an exact multiple may end up one lower. *)
Lemma b64_floor_scale out n v :
  (0 < out <= n)%Z -> (0 <= v < n)%Z -> (out * n <= 2^50)%Z ->
  let r := b64_floor (b64_mul (b64_div (b64_of_Z out) (b64_of_Z n)) (b64_of_Z v)) in
  ((v * out - 1) / n <= r <= v * out / n)%Z /\ (0 <= r)%Z /\ (out = n -> r = v)%Z.
Proof.
  intros Ho Hv Hb r.
  assert (Hn : (n <= 2^50)%Z) by nia.
  destruct (b64_of_Z_correct out) as [Eo Fo]; [lia|].
  destruct (b64_of_Z_correct n) as [En Fn]; [lia|].
  destruct (b64_of_Z_correct v) as [Ev Fv]; [lia|].
  assert (Hn0 : 0 < IZR n) by (apply IZR_lt; lia).
  assert (Ho0 : 0 < IZR out) by (apply IZR_lt; lia).
  assert (Hon : IZR out <= IZR n) by (apply IZR_le; lia).
  assert (Hv0 : 0 <= IZR v) by (apply IZR_le; lia).
  set (q := IZR out / IZR n).
  assert (Hq : q * IZR n = IZR out) by (unfold q; field; lra).
  assert (Hq0 : 0 < q) by (unfold q; apply Rdiv_lt_0_compat; lra).
  assert (Hq1 : q <= 1) by nra.
  destruct (b64_div_correct (b64_of_Z out) (b64_of_Z n) 1) as [Ed _].
  { rewrite En. lra. } { lia. }
  { rewrite Eo, En. fold q. rewrite Rabs_pos_eq; lra. }
  rewrite Eo, En in Ed. fold q in Ed.
  set (f := rd q) in *.
  assert (Hf : 0 <= f <= 1).
  { split.
    - rewrite <- rd_0. apply rd_le. lra.
    - rewrite <- (rd_Z 1) by lia. apply rd_le. lra. }
  destruct (b64_mul_correct (b64_div (b64_of_Z out) (b64_of_Z n)) (b64_of_Z v) v) as [Em _].
  { lia. } { rewrite Ed, Ev, Rabs_pos_eq; nra. }
  rewrite Ed, Ev in Em.
  assert (Er : r = Zfloor (rd (f * IZR v))) by (unfold r; rewrite b64_floor_correct, Em; reflexivity).
  assert (Hr0 : (0 <= r)%Z).
  { rewrite Er. apply Zfloor_lub. rewrite <- rd_0. apply rd_le. nra. }
  split; [|split; [exact Hr0|]].
  2:{ intros Eon. rewrite Er. unfold f, q. rewrite Eon. replace (IZR n / IZR n) with (IZR 1) by (field; lra).
      rewrite (rd_Z 1) by lia. rewrite Rmult_1_l, rd_Z by lia. apply Zfloor_IZR. }
  destruct (Z.eq_dec v 0) as [Hvz|Hvz].
  { rewrite Hvz in *. rewrite Er, Rmult_0_r, rd_0, (Zfloor_IZR 0), Z.mul_0_l, Zdiv_0_l.
    split; [|lia]. pose proof (Z.div_lt_upper_bound (0 - 1) n 0). lia. }
  set (u := bpow radix2 (-53)).
  assert (Hu0 : 0 < u) by apply bpow_gt_0.
  assert (Hu : u * IZR (out * n) <= / 8).
  { apply Rle_trans with (u * bpow radix2 50).
    - apply Rmult_le_compat_l; [lra|]. change (bpow radix2 50) with (IZR (2^50)). apply IZR_le; lia.
    - unfold u. rewrite <- bpow_plus. cbn. lra. }
  assert (Hu1 : u <= / 8).
  { unfold u. change (/8) with (bpow radix2 (-3)). apply bpow_le. lia. }
  rewrite mult_IZR in Hu.
  pose proof (rd_error q) as Hfe.
  assert (Hqmin : bpow radix2 (-1000) <= q).
  { unfold q. apply bpow_m1000_le; [lia|]. split; [lia|]. etransitivity; [apply Hn|]. apply Z.pow_le_mono_r; lia. }
  specialize (Hfe Hqmin). fold f in Hfe. fold u in Hfe.
  assert (Hv1 : 1 <= IZR v) by (apply (IZR_le 1); lia).
  assert (Hfmin : bpow radix2 (-1000) <= f * IZR v).
  { apply Rle_trans with f; [|nra]. 
    unfold f. rewrite <- (round_generic radix2 (FLT_exp (-1074) 53) ZnearestE (bpow radix2 (-1000))).
    - apply rd_le. exact Hqmin.
    - apply generic_format_bpow. cbn. unfold FLT_exp. lia. }
  pose proof (rd_error _ Hfmin) as Hxe. fold u in Hxe. set (x := rd (f * IZR v)) in *.
  set (t := q * IZR v) in *.
  assert (Ht : t * IZR n = IZR (v * out)) by (unfold t; rewrite mult_IZR; nra).
  assert (Hvn : IZR v <= IZR n - 1) by (rewrite <- minus_IZR; apply IZR_le; lia).
  assert (Htlt : 0 < t < IZR out) by (unfold t; nra).
  assert (Htu0 : 0 < t * u) by (apply Rmult_lt_0_compat; lra).
  assert (Htuu : t * u * u <= t * u * / 8) by (apply Rmult_le_compat_l; lra).
  assert (Hxhi : x <= t + t * (3 * u)).
  { assert (f * IZR v <= t * (1 + u)).
    { unfold t. replace (q * IZR v * (1 + u)) with (q * (1 + u) * IZR v) by ring.
      apply Rmult_le_compat_r; lra. }
    apply Rle_trans with (t * (1 + u) * (1 + u)).
    - apply Rle_trans with (f * IZR v * (1 + u)); [lra|]. apply Rmult_le_compat_r; lra.
    - lra. }
  assert (Hxlo : t - t * (2 * u) <= x).
  { assert (t * (1 - u) <= f * IZR v).
    { unfold t. replace (q * IZR v * (1 - u)) with (q * (1 - u) * IZR v) by ring.
      apply Rmult_le_compat_r; lra. }
    apply Rle_trans with (t * (1 - u) * (1 - u)).
    - assert (0 <= t * u * u) by (apply Rlt_le, Rmult_lt_0_compat; lra). lra.
    - apply Rle_trans with (f * IZR v * (1 - u)); [|lra]. apply Rmult_le_compat_r; lra. }
  assert (Htun : t * u * IZR n <= / 8).
  { apply Rle_trans with (IZR out * u * IZR n); [|lra].
    apply Rmult_le_compat_r; [lra|]. apply Rmult_le_compat_r; lra. }
  assert (Htu : t * (3 * u) * IZR n < 1 /\ t * (2 * u) * IZR n < 1) by lra.
  destruct Htu as [Htu3 Htu2].
  rewrite Er. split.
  - apply Zfloor_lub. set (k := ((v * out - 1) / n)%Z).
    assert (Hk : (k * n <= v * out - 1)%Z).
    { unfold k. rewrite Z.mul_comm. apply Z.mul_div_le. lia. }
    apply Rle_trans with (t - t * (2 * u)); [|exact Hxlo].
    apply Rmult_le_reg_r with (IZR n); [lra|].
    apply IZR_le in Hk. rewrite minus_IZR, (mult_IZR k) in Hk. rewrite <- Ht in Hk. lra.
  - set (k := (v * out / n)%Z).
    assert (Hk : (v * out + 1 <= (k + 1) * n)%Z).
    { pose proof (Z.mul_succ_div_gt (v * out) n ltac:(lia)) as H. fold k in H. rewrite Z.mul_comm in H.
      unfold Z.succ in H. lia. }
    assert (Hx : x < IZR (k + 1)).
    { apply Rle_lt_trans with (t + t * (3 * u)); [exact Hxhi|].
      apply Rmult_lt_reg_r with (IZR n); [lra|].
      apply IZR_le in Hk. rewrite (plus_IZR (v * out)), (mult_IZR (k + 1)), <- Ht in Hk. lra. }
    assert (Zfloor x < k + 1)%Z; [|lia].
    apply lt_IZR. eapply Rle_lt_trans; [apply Zfloor_lb|exact Hx].
Qed.
