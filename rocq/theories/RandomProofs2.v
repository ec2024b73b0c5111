(** Proofs about random values: numbers drawn from the uniform distribution. *)
From Coq Require Import Reals Lra.
From Flocq Require Import Core.
From Flocq Require Import IEEE754.BinarySingleNaN.
From Flocq Require Import Plus_error.
From Verif Require Import Common RandomModel RandomSpec.
Open Scope R_scope.

Section Floats.
Context (prec emax : Z) (Hprec : Prec_gt_0 prec) (Hemax : Prec_lt_emax prec emax) (Hp1 : (1 < prec)%Z).
Notation element := (binary_float prec emax).
Notation emin := (3 - emax - prec)%Z.
Notation fexp := (SpecFloat.fexp prec emax).
Notation rnd := (round radix2 fexp (round_mode mode_NE)).
Notation format := (generic_format radix2 fexp).
Local Instance valid_fexp : Valid_exp fexp := fexp_correct prec emax Hprec.
Local Instance monotone_fexp : Monotone_exp fexp := fexp_monotone prec emax.
Local Instance valid_mode : Valid_rnd (round_mode mode_NE) := valid_rnd_round_mode mode_NE.

Lemma rnd_le x y : x <= y -> rnd x <= rnd y.
Proof. apply round_le; auto with typeclass_instances. Qed.
Lemma rnd_id x : format x -> rnd x = x.
Proof. apply round_generic; auto with typeclass_instances. Qed.
Lemma format_B2R (x : element) : format (B2R x).
Proof. apply generic_format_B2R. Qed.
Lemma fexp_eq e : fexp e = FLT_exp emin prec e.
Proof. reflexivity. Qed.
Lemma format_0 : format 0. Proof. apply generic_format_0. Qed.
Lemma format_1 : format 1.
Proof.
  change 1 with (bpow radix2 0). apply generic_format_bpow. rewrite fexp_eq. unfold FLT_exp. pose proof Hprec as P. pose proof Hemax as Q. unfold Prec_gt_0 in P. unfold Prec_lt_emax in Q. lia.
Qed.

(** Multiplication by less than one leads below [d], if [d] is not too small *)
Lemma mult_below u d : format u -> u < 1 -> format d -> bpow radix2 (prec + emin) <= d -> 0 <= u -> rnd (u * d) <= pred radix2 fexp d.
Proof.
  intros Fu Lu Fd Ld Hu. pose proof Hprec as P. pose proof Hemax as Q. unfold Prec_gt_0 in P. unfold Prec_lt_emax in Q.
  assert (Dp : 0 < d) by (eapply Rlt_le_trans; [apply (bpow_gt_0 radix2)|exact Ld]).
  destruct (mag radix2 d) as [e He]. assert (Ne : d <> 0) by lra. specialize (He Ne). rewrite Rabs_pos_eq in He by lra.
  assert (Ee : (prec + emin <= e - 1)%Z).
  { assert ((prec + emin < e)%Z); [|lia]. apply (lt_bpow radix2). lra. }
  assert (Me : (mag radix2 d : Z) = e) by (apply mag_unique; rewrite Rabs_pos_eq; lra).
  assert (Pd : format (pred radix2 fexp d)) by (apply generic_format_pred; auto with typeclass_instances).
  assert (U1 : u <= 1 - bpow radix2 (- prec)).
  { assert (E1 : pred radix2 fexp 1 = 1 - bpow radix2 (- prec)).
    { change 1 with (bpow radix2 0) at 1. rewrite pred_bpow. rewrite fexp_eq. unfold FLT_exp. rewrite Z.max_l by lia. cbn [bpow]. f_equal. }
    rewrite <- E1. apply pred_ge_gt; auto with typeclass_instances. apply format_1. }
  assert (UD : u * d <= d - bpow radix2 (- prec) * d) by nra.
  destruct (Req_dec d (bpow radix2 (e - 1))) as [Ed|Nd].
  - assert (Ep : pred radix2 fexp d = d - bpow radix2 (- prec) * d).
    { rewrite Ed. rewrite pred_bpow. rewrite fexp_eq. unfold FLT_exp. rewrite Z.max_l by lia. rewrite <- bpow_plus. replace (- prec + (e - 1))%Z with (e - 1 - prec)%Z by lia. reflexivity. }
    rewrite <- Ep in UD. apply round_le_generic; auto with typeclass_instances.
  - assert (Ld' : bpow radix2 (e - 1) < d) by lra.
    assert (Ep : pred radix2 fexp d = d - bpow radix2 (e - prec)).
    { rewrite pred_eq_pos by lra. unfold pred_pos. rewrite Me. rewrite Req_bool_false by assumption. rewrite ulp_neq_0 by assumption. unfold cexp. rewrite Me, fexp_eq. unfold FLT_exp. rewrite Z.max_l by lia. reflexivity. }
    change (round_mode mode_NE) with ZnearestE. apply round_N_le_midp; auto with typeclass_instances.
    rewrite succ_pred by (auto with typeclass_instances). rewrite Ep.
    assert (bpow radix2 (e - prec) = 2 * bpow radix2 (e - 1) * bpow radix2 (- prec)) as ->.
    { change 2 with (bpow radix2 1). rewrite <- !bpow_plus. f_equal. lia. }
    pose proof (bpow_gt_0 radix2 (- prec)). nra.
Qed.

(** The product, for numbers whose difference is not rounded down *)
Lemma product_le A B u : format A -> format B -> A <= B -> format u -> 0 <= u < 1 -> 0 <= rnd (u * rnd (B - A)) <= B - A.
Proof.
  intros FA FB AB Fu [U0 U1]. pose proof Hprec as P. pose proof Hemax as Q. unfold Prec_gt_0 in P. unfold Prec_lt_emax in Q.
  set (D := rnd (B - A)). assert (FD : format D) by (apply generic_format_round; auto with typeclass_instances).
  assert (D0 : 0 <= D) by (unfold D; rewrite <- (rnd_id 0 format_0); apply rnd_le; lra).
  assert (P0 : 0 <= rnd (u * D)) by (rewrite <- (rnd_id 0 format_0); apply rnd_le; nra).
  assert (PD : rnd (u * D) <= D) by (rewrite <- (rnd_id D FD) at 2; apply rnd_le; nra).
  split; [assumption|]. destruct (Rle_lt_dec D (B - A)) as [L|L]; [lra|].
  destruct (Rle_lt_dec (B - A) (bpow radix2 (prec + emin))) as [S|S].
  - exfalso. assert (D = B - A); [|lra]. apply rnd_id.
    replace (B - A) with (B + - A) by ring. apply FLT_format_plus_small; [auto with typeclass_instances|assumption|now apply generic_format_opp|]. replace (B + - A) with (B - A) by ring. rewrite Rabs_pos_eq by lra. exact S.
  - apply Rle_trans with (pred radix2 fexp D).
    + apply mult_below; try assumption; lra.
    + destruct (Rle_lt_dec (pred radix2 fexp D) (B - A)) as [K|K]; [assumption|]. exfalso.
      assert (Hle : D <= pred radix2 fexp D).
      { unfold D at 1. apply round_le_generic; auto with typeclass_instances; [apply generic_format_pred; auto with typeclass_instances|lra]. }
      assert (pred radix2 fexp D < D); [|lra]. apply pred_lt_id. lra.
Qed.

Lemma finite_minus (a b : element) : is_finite (Bminus mode_NE b a) = true -> is_finite a = true /\ is_finite b = true.
Proof. destruct a as [[]|[]| |[]], b as [[]|[]| |[]]; cbn; intros H; try discriminate; auto. Qed.
Lemma minus_value (a b : element) : is_finite (Bminus mode_NE b a) = true -> B2R (Bminus mode_NE b a) = rnd (B2R b - B2R a) /\ Rabs (rnd (B2R b - B2R a)) < bpow radix2 emax.
Proof.
  intros H. destruct (finite_minus a b H) as [Fa Fb]. pose proof (Bminus_correct prec emax Hprec Hemax mode_NE b a Fb Fa) as C.
  destruct (Rlt_bool_spec (Rabs (rnd (B2R b - B2R a))) (bpow radix2 emax)) as [L|L]; [split; [apply C|assumption]|].
  exfalso. destruct C as [C _]. destruct (Bminus mode_NE b a); cbn in C; try discriminate C; try discriminate H; unfold binary_overflow in C; cbn in C; discriminate C.
Qed.

Lemma uniform_real_between {G} (canonical : G -> element * G) a b g : (forall g, in_unit_interval (fst (canonical g))) ->
  d_accepts (uniform_real prec emax Hprec Hemax canonical) a b = true -> between a b (fst (d_draw (uniform_real prec emax Hprec Hemax canonical) a b g)).
Proof.
  intros C Ac. cbn [uniform_real d_accepts d_draw] in *. apply andb_prop in Ac. destruct Ac as [Le Fi]. destruct (finite_minus a b Fi) as [Fa Fb]. destruct (minus_value a b Fi) as [Ed Hd].
  rewrite (Bleb_correct prec emax a b Fa Fb) in Le. apply Rle_bool_true_iff in Le || (destruct (Rle_bool_spec (B2R a) (B2R b)) as [Le'|]; [clear Le; rename Le' into Le|discriminate Le]).
  specialize (C g). destruct (canonical g) as [u g']. cbn [fst] in C |- *. destruct C as [Fu [U0 U1]].
  destruct (product_le (B2R a) (B2R b) (B2R u) (format_B2R a) (format_B2R b) Le (format_B2R u) (conj U0 U1)) as [P0 P1]. rewrite <- Ed in P0, P1.
  pose proof (Bmult_correct prec emax Hprec Hemax mode_NE u (Bminus mode_NE b a)) as M. rewrite Rlt_bool_true in M.
  2:{ rewrite Rabs_pos_eq by assumption. eapply Rle_lt_trans; [|exact Hd]. rewrite <- Ed.
      assert (D0 : 0 <= B2R (Bminus mode_NE b a)) by (rewrite Ed; rewrite <- (rnd_id 0 format_0); apply rnd_le; lra).
      rewrite Rabs_pos_eq by assumption. rewrite <- (rnd_id _ (format_B2R (Bminus mode_NE b a))) at 2. apply rnd_le. nra. }
  destruct M as [Mv [Mf _]]. rewrite Fu, Fi in Mf. cbn [andb] in Mf.
  set (P := Bmult mode_NE u (Bminus mode_NE b a)) in *. rewrite <- Mv in P0, P1.
  assert (Lo : B2R a <= rnd (B2R P + B2R a)) by (rewrite <- (rnd_id _ (format_B2R a)) at 1; apply rnd_le; lra).
  assert (Hi : rnd (B2R P + B2R a) <= B2R b) by (rewrite <- (rnd_id _ (format_B2R b)); apply rnd_le; lra).
  pose proof (Bplus_correct prec emax Hprec Hemax mode_NE P a Mf Fa) as S. rewrite Rlt_bool_true in S.
  2:{ pose proof (abs_B2R_lt_emax prec emax a) as La. pose proof (abs_B2R_lt_emax prec emax b) as Lb. unfold Rabs in *. destruct (Rcase_abs (rnd (B2R P + B2R a))), (Rcase_abs (B2R a)), (Rcase_abs (B2R b)); lra. }
  destruct S as [Sv [Sf _]]. split; [exact Sf|]. rewrite Sv. split; assumption.
Qed.

(** From 0 to 1, the number that is drawn is the canonical one. *)
Lemma uniform_unit {G} (canonical : G -> element * G) g : (forall g, in_unit_interval (fst (canonical g))) ->
  in_unit_interval (fst (d_draw (uniform_real prec emax Hprec Hemax canonical) (B754_zero false) (Bone) g)) /\
  B2R (fst (d_draw (uniform_real prec emax Hprec Hemax canonical) (B754_zero false) (Bone) g)) = B2R (fst (canonical g)).
Proof.
  intros C. assert (Ac : d_accepts (uniform_real prec emax Hprec Hemax canonical) (B754_zero false) Bone = true).
  { cbn [uniform_real d_accepts]. apply andb_true_intro. split.
    - rewrite Bleb_correct; [|reflexivity|apply is_finite_Bone]. rewrite Bone_correct. cbn [B2R]. apply Rle_bool_true. lra.
    - pose proof (Bminus_correct prec emax Hprec Hemax mode_NE Bone (B754_zero false) (is_finite_Bone prec emax Hprec Hemax) eq_refl) as M. rewrite Bone_correct in M. cbn [B2R] in M. rewrite Rminus_0_r, (rnd_id 1 format_1), Rlt_bool_true in M; [apply M|].
      rewrite Rabs_R1. change 1 with (bpow radix2 0). apply bpow_lt. pose proof Hprec as P. pose proof Hemax as Q. unfold Prec_gt_0 in P. unfold Prec_lt_emax in Q. lia. }
  pose proof (uniform_real_between canonical _ _ g C Ac) as [Fv _].
  assert (V : B2R (fst (d_draw (uniform_real prec emax Hprec Hemax canonical) (B754_zero false) (Bone) g)) = B2R (fst (canonical g))).
  { cbn [uniform_real d_accepts d_draw] in *. apply andb_prop in Ac. destruct Ac as [_ Fi]. destruct (minus_value _ _ Fi) as [Ed _]. rewrite Bone_correct in Ed. cbn [B2R] in Ed. rewrite Rminus_0_r, (rnd_id 1 format_1) in Ed.
    specialize (C g). destruct (canonical g) as [u g']. cbn [fst] in *. destruct C as [Fu [U0 U1]].
    assert (L1 : B2R u < bpow radix2 emax). { pose proof (abs_B2R_lt_emax prec emax u) as L. rewrite Rabs_pos_eq in L by assumption. exact L. }
    pose proof (Bmult_correct prec emax Hprec Hemax mode_NE u (Bminus mode_NE Bone (B754_zero false))) as M. rewrite Ed, Rmult_1_r, (rnd_id _ (format_B2R u)), Rlt_bool_true in M by (now rewrite Rabs_pos_eq).
    destruct M as [Mv [Mf _]]. rewrite Fu, Fi in Mf. cbn [andb] in Mf.
    pose proof (Bplus_correct prec emax Hprec Hemax mode_NE (Bmult mode_NE u (Bminus mode_NE Bone (B754_zero false))) (B754_zero false) Mf eq_refl) as S. rewrite Mv in S. cbn [B2R] in S. rewrite Rplus_0_r, (rnd_id _ (format_B2R u)), Rlt_bool_true in S by (now rewrite Rabs_pos_eq).
    apply S. }
  split; [|exact V]. split; [exact Fv|]. rewrite V. apply C.
Qed.
Lemma unit_accepted {G} (canonical : G -> element * G) : d_accepts (uniform_real prec emax Hprec Hemax canonical) (B754_zero false) Bone = true.
Proof.
  cbn [uniform_real d_accepts]. apply andb_true_intro. split.
  - rewrite Bleb_correct; [|reflexivity|apply is_finite_Bone]. rewrite Bone_correct. cbn [B2R]. apply Rle_bool_true. lra.
  - pose proof (Bminus_correct prec emax Hprec Hemax mode_NE Bone (B754_zero false) (is_finite_Bone prec emax Hprec Hemax) eq_refl) as M. rewrite Bone_correct in M. cbn [B2R] in M. rewrite Rminus_0_r, (rnd_id 1 format_1), Rlt_bool_true in M; [apply M|].
    rewrite Rabs_R1. change 1 with (bpow radix2 0). apply bpow_lt. pose proof Hprec as P. pose proof Hemax as Q. unfold Prec_gt_0 in P. unfold Prec_lt_emax in Q. lia.
Qed.
End Floats.
