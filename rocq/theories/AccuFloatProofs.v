(** The accumulator in floating point arithmetic follows the exact one. *)
From Coq Require Import Reals QArith Qcanon Qreals Lra.
From Flocq Require Import Core Plus_error Relative.
From Flocq Require Import IEEE754.BinarySingleNaN.
From Verif Require Import Common CommonProofs RouterModel RouterSim AccuModel AccuFloatModel.
Local Open Scope R_scope.

Definition qr (q : Qc) : R := Q2R (this q).
Lemma qr_Q2Qc q : qr (Q2Qc q) = Q2R q. Proof. unfold qr. apply Qeq_eqR. cbn. apply Qred_correct. Qed.
Lemma qr_plus a b : qr (a + b)%Qc = qr a + qr b. Proof. unfold Qcplus. rewrite qr_Q2Qc. apply Q2R_plus. Qed.
Lemma qr_0 : qr (Q2Qc 0) = 0. Proof. rewrite qr_Q2Qc. unfold Q2R. cbn. lra. Qed.
Lemma qr_Z z : qr (Q2Qc (inject_Z z)) = IZR z. Proof. rewrite qr_Q2Qc. unfold Q2R. cbn. field. Qed.
Lemma qr_le a b : (a <= b)%Qc <-> qr a <= qr b.
Proof. unfold Qcle, qr. split; [apply Qle_Rle|apply Rle_Qle]. Qed.
Lemma qr_inj a b : qr a = qr b -> a = b.
Proof. intros H. apply Qc_is_canon. apply eqR_Qeq. exact H. Qed.
Lemma qc_le_qr a b : qc_le a b = true <-> qr a <= qr b.
Proof. rewrite <- qr_le. unfold qc_le, Qccompare, Qcle. rewrite Qle_alt. destruct (_ ?= _)%Q; split; try discriminate; try (intros H; now exfalso; apply H); intros; discriminate || reflexivity. Qed.

(** The rational number that is the value of a finite number *)
Definition two_to (e : Z) : Q := match e with Z0 => 1 | Zpos _ => inject_Z (2 ^ e) | Zneg p => 1 # (Pos.pow 2 p) end.
Lemma two_to_R e : Q2R (two_to e) = bpow radix2 e.
Proof.
  destruct e as [|p|p]; unfold two_to, Q2R; cbn [Qnum Qden inject_Z bpow].
  - lra.
  - rewrite Z.pow_pos_fold. change (radix_val radix2) with 2%Z. field.
  - rewrite Pos2Z.inj_pow, Z.pow_pos_fold. change (radix_val radix2) with 2%Z. field. apply IZR_neq. apply Z.pow_nonzero; lia.
Qed.

Section AccuFloat.
Context {prec emax : Z} {Hprec : Prec_gt_0 prec} {Hemax : Prec_lt_emax prec emax}.
Notation element := (binary_float prec emax).
Notation fexp := (FLT_exp (3 - emax - prec) prec).
Definition b2q (v : element) : Qc :=
  Q2Qc (match v with B754_finite s m e _ => inject_Z (cond_Zopp s (Zpos m)) * two_to e | _ => 0 end).
Lemma b2q_R v : qr (b2q v) = B2R v.
Proof.
  unfold b2q. rewrite qr_Q2Qc. destruct v as [s|s| |s m e H]; cbn [B2R]; try (unfold Q2R; cbn; lra).
  rewrite Q2R_mult, two_to_R. unfold F2R. cbn [Fnum Fexp]. f_equal. unfold Q2R. cbn [Qnum Qden inject_Z]. field.
Qed.

Lemma ge0_finite v : is_finite v = true -> f_ge0 prec emax v = true <-> 0 <= B2R v.
Proof.
  intros F. unfold f_ge0. rewrite Bcompare_correct by (assumption || reflexivity). cbn [B2R].
  destruct (Rcompare_spec (B2R v) 0); split; intros; try discriminate; try reflexivity; lra.
Qed.
Lemma ge0_sign v : f_ge0 prec emax v = true -> is_finite v = true \/ v = B754_infinity false.
Proof. destruct v as [s|[|]| |s m e H]; cbn; auto; discriminate. Qed.

(** Amounts: numbers that are not negative; one of them may be infinite. *)
Definition nn (v : element) : Prop := is_nan v = false /\ f_ge0 prec emax v = true.
Notation plus := (Bplus (prec := prec) (emax := emax) mode_NE).
Lemma nn_case v : nn v -> (is_finite v = true /\ 0 <= B2R v) \/ v = B754_infinity false.
Proof. intros [N G]. destruct (ge0_sign v G) as [F| ->]; [left|now right]. split; [exact F|now apply ge0_finite]. Qed.
Lemma nn_finite v : is_finite v = true -> 0 <= B2R v -> nn v.
Proof. intros F H. split; [now destruct v|now apply ge0_finite]. Qed.
Lemma nn_inf : nn (B754_infinity false). Proof. split; reflexivity. Qed.
Lemma finite_not_nan (v : element) : is_finite v = true -> is_nan v = false. Proof. now destruct v. Qed.

Lemma plus_finite a b : is_finite a = true -> is_finite b = true -> 0 <= B2R a -> 0 <= B2R b ->
  let r := round radix2 fexp ZnearestE (B2R a + B2R b) in
  (r < bpow radix2 emax -> is_finite (plus a b) = true /\ B2R (plus a b) = r) /\ nn (plus a b).
Proof.
  intros Fa Fb Ha Hb r. pose proof (Bplus_correct prec emax Hprec Hemax mode_NE a b Fa Fb) as C. cbn [round_mode] in C. change (round radix2 (SpecFloat.fexp prec emax) ZnearestE (B2R a + B2R b)) with r in C.
  assert (R0 : 0 <= r). { unfold r. apply round_ge_generic; [apply FLT_exp_valid, Hprec|apply valid_rnd_N|apply generic_format_0|lra]. }
  rewrite Rabs_pos_eq in C by exact R0.
  destruct (Rlt_bool_spec r (bpow radix2 emax)) as [L|L].
  - destruct C as [C1 [C2 _]]. split; [auto|]. apply nn_finite; [exact C2|]. rewrite C1. exact R0.
  - split; [intros; exfalso; lra|]. destruct C as [C1 C2]. cbn [binary_overflow] in C1. unfold binary_overflow, overflow_to_inf in C1.
    assert (SA : Bsign a = false).
    { destruct (Bsign a) eqn:E; [|reflexivity]. exfalso.
      assert (N : forall v : element, Bsign v = true -> B2R v <= 0).
      { intros [s|s| |s m e H]; cbn; try lra. intros ->. unfold F2R. cbn. pose proof (bpow_gt_0 radix2 e). assert (IZR (Zneg m) < 0) by (apply IZR_lt; lia). nra. }
      pose proof (N a E). pose proof (N b ltac:(congruence)). assert (B2R a + B2R b = 0) by lra. unfold r in L. rewrite H1 in L. rewrite round_0 in L by apply valid_rnd_N. pose proof (bpow_gt_0 radix2 emax). lra. }
    rewrite SA in C1. destruct (plus a b) as [s|s| |s m e H]; cbn in C1; try discriminate C1. injection C1 as ->. apply nn_inf.
Qed.
Lemma plus_nn a b : nn a -> nn b -> nn (plus a b).
Proof.
  intros Na Nb. destruct (nn_case a Na) as [[Fa Ha]| ->].
  - destruct (nn_case b Nb) as [[Fb Hb]| ->]; [now apply plus_finite|]. destruct a; try discriminate; apply nn_inf.
  - destruct (nn_case b Nb) as [[Fb Hb]| ->]; [|apply nn_inf]. destruct b; try discriminate; apply nn_inf.
Qed.
Lemma plus_0_l a b : is_finite a = true -> is_finite b = true -> 0 <= B2R b -> B2R a = 0 -> is_finite (plus a b) = true /\ B2R (plus a b) = B2R b.
Proof.
  intros Fa Fb Hb E. pose proof (plus_finite a b Fa Fb ltac:(lra) Hb) as [C _]. rewrite E, Rplus_0_l in C. cbv zeta in C.
  rewrite round_generic in C by (apply valid_rnd_N || apply generic_format_B2R). apply C. eapply Rle_lt_trans; [apply Rle_abs|apply abs_B2R_lt_emax].
Qed.
Lemma plus_0_r a b : is_finite a = true -> is_finite b = true -> 0 <= B2R a -> B2R b = 0 -> is_finite (plus a b) = true /\ B2R (plus a b) = B2R a.
Proof.
  intros Fa Fb Ha E. pose proof (plus_finite a b Fa Fb Ha ltac:(lra)) as [C _]. rewrite E, Rplus_0_r in C. cbv zeta in C.
  rewrite round_generic in C by (apply valid_rnd_N || apply generic_format_B2R). apply C. eapply Rle_lt_trans; [apply Rle_abs|apply abs_B2R_lt_emax].
Qed.

(** A relation between the number and the exact amount that is kept by additions *)
Section Relation.
Context (J : element -> Qc -> Qc -> Prop).
Context (J_init : J (B754_zero false) (Q2Qc 0) (Q2Qc 0)).
Context (J_plus : forall v w q q' k k', nn v -> nn w -> 0 <= qr q -> 0 <= qr q' -> J v q k -> J w q' k' -> J (plus v w) (q + q')%Qc (k + k')%Qc).
Definition RX (v : element) (q k : option Qc) : Prop :=
  match q, k with
  | None, _ => is_nan v = true
  | Some q, Some k => nn v /\ 0 <= qr q /\ J v q k
  | Some _, None => False
  end.
Definition RA (v : element) (q k : option Qc) : Prop :=
  match q, k with
  | None, _ => is_nan v = true \/ f_ge0 prec emax v = false
  | Some q, Some k => is_nan v = false /\ (0 <= qr k) /\ (f_ge0 prec emax v = true <-> 0 <= qr q) /\ (0 <= qr q -> J v q k)
  | Some _, None => False
  end.
Lemma accu_follows : follows (accu_f prec emax Hprec Hemax) accu accu RA RX RX.
Proof.
  constructor; cbn [ac_initial ac_mark_no_data ac_enter_cell ac_leave_cell ac_enter_inter ac_outflow accu_f accu].
  - cbn. split; [split; reflexivity|]. split; [rewrite qr_0; lra|exact J_init].
  - reflexivity.
  - intros a b c x y z HA HX y2 y3. unfold f_enter_cell, accu_enter_cell, f_no_data, f_within_domain, f_mark.
    destruct y as [q|]; cbn [RX] in HX.
    + destruct z as [k|]; [|contradiction]. destruct HX as [[N G] [Q0 HJ]]. rewrite N.
      destruct b as [e|]; cbn [RA] in HA.
      * destruct c as [c|]; [|contradiction]. destruct HA as [Na [Hc [Ge Ja]]]. rewrite Na. cbn [orb]. unfold inflow_ok.
        replace (qc_le (Q2Qc 0) c) with true by (symmetry; apply qc_le_qr; rewrite qr_0; exact Hc). cbn [negb].
        destruct (qc_le (Q2Qc 0) e) eqn:Le; cbn [negb].
        -- apply qc_le_qr in Le. rewrite qr_0 in Le. intros E2 E3. injection E2 as <-. injection E3 as <-. apply Ge in Le as G'. rewrite G'. cbn [negb]. eexists. split; [reflexivity|].
           cbn [RX]. split; [apply plus_nn; split; assumption|]. split; [rewrite qr_plus; lra|]. apply J_plus; try assumption; try (split; assumption). now apply Ja.
        -- intros E2 E3. injection E2 as <-. destruct (f_ge0 prec emax a) eqn:G'; [|cbn [negb]; eexists; split; [reflexivity|reflexivity]].
           exfalso. assert (0 <= qr e) by now apply Ge. assert (qc_le (Q2Qc 0) e = true) by (apply qc_le_qr; rewrite qr_0; assumption). congruence.
      * intros E2 E3. injection E2 as <-. replace (is_nan a || negb (f_ge0 prec emax a))%bool with true by (destruct HA as [-> | ->]; destruct (is_nan a); reflexivity).
        eexists. split; [reflexivity|reflexivity].
    + intros E2 E3. injection E2 as <-. rewrite HX. eexists. split; [reflexivity|exact HX].
  - intros u v w x y z HU HX y2 y3. unfold f_leave_cell, accu_leave_cell, f_no_data, f_mark.
    destruct y as [q|]; cbn [RX] in HX; [|intros E2 E3; injection E2 as <-; rewrite HX; eexists; split; [reflexivity|exact HX]].
    destruct z as [k|]; [|contradiction]. destruct HX as [[N G] [Q0 HJ]]. rewrite N.
    destruct v as [o|]; cbn [RX] in HU; [|intros E2 E3; injection E2 as <-; rewrite HU; eexists; split; [reflexivity|reflexivity]].
    destruct w as [k'|]; [|contradiction]. destruct HU as [[N' G'] [Q0' HJ']]. rewrite N', G'.
    destruct (qc_le (Q2Qc 0) o); [|discriminate]. destruct (qc_le (Q2Qc 0) k'); [|discriminate]. intros E2 E3. injection E2 as <-. injection E3 as <-.
    eexists. split; [reflexivity|]. cbn [RX]. split; [apply plus_nn; split; assumption|]. split; [rewrite qr_plus; lra|]. apply J_plus; try assumption; split; assumption.
  - intros v o w x y z HU HX y2 y3. unfold f_enter_inter, accu_enter_inter, f_no_data, f_mark.
    destruct y as [q|]; cbn [RX] in HX; [|intros E2 E3; injection E2 as <-; rewrite HX; eexists; split; [reflexivity|exact HX]].
    destruct z as [k|]; [|contradiction]. destruct HX as [[N G] [Q0 HJ]]. rewrite N.
    destruct o as [o|]; cbn [RX] in HU; [|intros E2 E3; injection E2 as <-; rewrite HU; eexists; split; [reflexivity|reflexivity]].
    destruct w as [k'|]; [|contradiction]. destruct HU as [[N' G'] [Q0' HJ']]. rewrite N'. intros E2 E3. injection E2 as <-. injection E3 as <-.
    eexists. split; [reflexivity|]. cbn [RX]. split; [apply plus_nn; split; assumption|]. split; [rewrite qr_plus; lra|]. apply J_plus; try assumption; split; assumption.
  - auto.
Qed.
End Relation.
End AccuFloat.

(** Rounding errors *)
Section Rounding.
Context {prec emax : Z} {Hprec : Prec_gt_0 prec} {Hemax : Prec_lt_emax prec emax}.
Notation element := (binary_float prec emax).
Notation fexp := (FLT_exp (3 - emax - prec) prec).
Notation plus := (Bplus (prec := prec) (emax := emax) mode_NE).
Notation u := (bpow radix2 (- prec)).
Definition nq (n : nat) : Qc := Q2Qc (inject_Z (Z.of_nat n)).
Lemma nq_plus a b : (nq a + nq b)%Qc = nq (a + b).
Proof. apply qr_inj. rewrite qr_plus. unfold nq. rewrite !qr_Z, Nat2Z.inj_add, plus_IZR. reflexivity. Qed.

Definition Jr (v : element) (q k : Qc) : Prop :=
  exists n, k = nq n /\ (n = 0%nat -> is_finite v = true /\ B2R v = 0 /\ qr q = 0) /\
    (qr q * (1 + u) ^ (n - 1) < bpow radix2 emax -> is_finite v = true /\ Rabs (B2R v - qr q) <= ((1 + u) ^ (n - 1) - 1) * qr q).
Lemma Jr_init : Jr (B754_zero false) (Q2Qc 0) (Q2Qc 0).
Proof.
  exists 0%nat. split; [apply qr_inj; unfold nq; rewrite qr_Z, qr_0; reflexivity|]. split; [intros _; split; [reflexivity|split; [reflexivity|apply qr_0]]|].
  intros _. split; [reflexivity|]. rewrite qr_0. cbn. rewrite Rminus_0_r, Rabs_R0. lra.
Qed.
Lemma u_pos : 0 < u. Proof. apply bpow_gt_0. Qed.
Lemma pow_ge1 n : 1 <= (1 + u) ^ n. Proof. apply pow_R1_Rle. pose proof u_pos. lra. Qed.
Lemma pow_mono a b : (a <= b)%nat -> (1 + u) ^ a <= (1 + u) ^ b. Proof. intros H. apply Rle_pow; [|exact H]. pose proof u_pos. lra. Qed.
Lemma u_ro_eq : u_ro radix2 prec = u.
Proof. unfold u_ro. replace (- prec)%Z with ((-1) + (1 - prec))%Z by lia. rewrite bpow_plus. cbn. lra. Qed.

Lemma Jr_plus v w q q' k k' : nn v -> nn w -> 0 <= qr q -> 0 <= qr q' -> Jr v q k -> Jr w q' k' -> Jr (plus v w) (q + q')%Qc (k + k')%Qc.
Proof.
  intros Nv Nw Q0 Q0' [n [-> [Z1 H1]]] [n' [-> [Z2 H2]]]. exists (n + n')%nat. split; [apply nq_plus|]. rewrite qr_plus.
  destruct n as [|n].
  { destruct (Z1 eq_refl) as [Fv [Ev Eq]]. rewrite Eq, Rplus_0_l. cbn [plus Nat.add]. destruct (nn_case w Nw) as [[Fw Hw]| ->].
    - destruct (plus_0_l (Hprec := Hprec) (Hemax := Hemax) v w Fv Fw Hw Ev) as [F E]. rewrite F, E. split; [intros E0; destruct (Z2 E0) as [A B]; auto|]. intros L. split; [reflexivity|]. now apply H2.
    - split; [intros E0; destruct (Z2 E0) as [A B]; discriminate A|]. intros L. destruct (H2 L) as [A _]. discriminate A. }
  destruct n' as [|n'].
  { destruct (Z2 eq_refl) as [Fv [Ev Eq]]. rewrite Eq, Rplus_0_r, Nat.add_0_r. destruct (nn_case v Nv) as [[Fw Hw]| ->].
    - destruct (plus_0_r (Hprec := Hprec) (Hemax := Hemax) v w Fw Fv Hw Ev) as [F E]. rewrite F, E. split; [discriminate|]. intros L. split; [reflexivity|]. now apply H1.
    - split; [discriminate|]. intros L. destruct (H1 L) as [A _]. discriminate A. }
  split; [discriminate|]. replace (S n + S n' - 1)%nat with (S (n + n')) by lia. cbn [Nat.sub] in H1, H2. rewrite Nat.sub_0_r in H1, H2.
  clear Z1 Z2. set (P := (1 + u) ^ (n + n')). assert (GP : 1 <= P) by apply pow_ge1. assert (Gn : (1 + u) ^ n <= P) by (apply pow_mono; lia). assert (Gn' : (1 + u) ^ n' <= P) by (apply pow_mono; lia).
  pose proof (pow_ge1 n) as G1. pose proof (pow_ge1 n') as G2. pose proof u_pos as U. change ((1 + u) ^ S (n + n')) with ((1 + u) * P). intros L.
  assert (T1 : qr q * P <= (qr q + qr q') * P) by nra. assert (T2 : qr q' * P <= (qr q + qr q') * P) by nra. assert (T3 : (qr q + qr q') * P <= (qr q + qr q') * ((1 + u) * P)). { apply Rmult_le_compat_l; [lra|]. nra. }
  assert (T4 : qr q * (1 + u) ^ n <= qr q * P) by (apply Rmult_le_compat_l; assumption). assert (T5 : qr q' * (1 + u) ^ n' <= qr q' * P) by (apply Rmult_le_compat_l; assumption).
  destruct (H1 ltac:(lra)) as [Fv E1]. destruct (H2 ltac:(lra)) as [Fw E2]. clear H1 H2.
  destruct (nn_case v Nv) as [[_ Hv]| ->]; [|discriminate Fv]. destruct (nn_case w Nw) as [[_ Hw]| ->]; [|discriminate Fw].
  destruct (plus_finite (Hprec := Hprec) (Hemax := Hemax) v w Fv Fw Hv Hw) as [PF _]. cbv zeta in PF.
  destruct (FLT_plus_error_N_ex radix2 (3 - emax - prec) prec (fun x => negb (Z.even x)) (B2R v) (B2R w) (generic_format_B2R prec emax v) (generic_format_B2R prec emax w)) as [eps [Be Ee]].
  change (Znearest (fun x => negb (Z.even x))) with ZnearestE in Ee. rewrite Ee in PF.
  assert (Be' : Rabs eps <= u). { eapply Rle_trans; [exact Be|]. rewrite <- u_ro_eq. apply u_rod1pu_ro_le_u_ro. }
  apply Rabs_le_inv in Be'.
  set (d1 := B2R v - qr q) in *. set (d2 := B2R w - qr q') in *.
  assert (D1 : Rabs d1 <= (P - 1) * qr q). { eapply Rle_trans; [exact E1|]. apply Rmult_le_compat_r; lra. }
  assert (D2 : Rabs d2 <= (P - 1) * qr q'). { eapply Rle_trans; [exact E2|]. apply Rmult_le_compat_r; lra. }
  apply Rabs_le_inv in D1. apply Rabs_le_inv in D2.
  set (Q := qr q + qr q') in *. assert (ES : B2R v + B2R w = Q + (d1 + d2)) by (unfold d1, d2, Q; lra).
  assert (SB : B2R v + B2R w <= Q * P) by (unfold Q in *; nra).
  assert (S0 : 0 <= B2R v + B2R w) by lra.
  assert (LT : (B2R v + B2R w) * (1 + eps) < bpow radix2 emax).
  { eapply Rle_lt_trans; [|exact L]. replace (Q * ((1 + u) * P)) with ((Q * P) * (1 + u)) by ring. assert (u < 1) by (change 1 with (bpow radix2 0); apply bpow_lt; unfold Prec_gt_0 in Hprec; lia). apply Rmult_le_compat; lra. }
  destruct (PF LT) as [F E]. split; [exact F|]. rewrite E. replace ((B2R v + B2R w) * (1 + eps) - Q) with ((d1 + d2) + (B2R v + B2R w) * eps) by (rewrite ES; ring).
  eapply Rle_trans; [apply Rabs_triang|]. rewrite Rabs_mult, (Rabs_pos_eq (B2R v + B2R w)) by exact S0.
  assert (A1 : Rabs (d1 + d2) <= (P - 1) * Q) by (apply Rabs_le; unfold Q; lra).
  assert (A2 : (B2R v + B2R w) * Rabs eps <= Q * P * u) by (apply Rmult_le_compat; [exact S0|apply Rabs_pos|exact SB|apply Rabs_le; lra]).
  replace (((1 + u) * P - 1) * Q) with ((P - 1) * Q + Q * P * u) by ring. lra.
Qed.
End Rounding.

(** Whole numbers of units *)
Section Whole.
Context {prec emax : Z} {Hprec : Prec_gt_0 prec} {Hemax : Prec_lt_emax prec emax} (e : Z) (He : (3 - emax - prec <= e)%Z).
Notation element := (binary_float prec emax).
Notation fexp := (FLT_exp (3 - emax - prec) prec).
Notation plus := (Bplus (prec := prec) (emax := emax) mode_NE).

Lemma whole_format n : (Z.abs n <= 2 ^ prec)%Z -> generic_format radix2 fexp (IZR n * bpow radix2 e).
Proof.
  intros H. unfold Prec_gt_0 in Hprec.
  destruct (Z.eq_dec (Z.abs n) (2 ^ prec)) as [E|E].
  - assert (G : generic_format radix2 fexp (bpow radix2 (prec + e))) by (apply generic_format_bpow; unfold FLT_exp; lia).
    assert (B : bpow radix2 (prec + e) = IZR (2 ^ prec) * bpow radix2 e) by (rewrite bpow_plus, <- IZR_Zpower by lia; reflexivity).
    destruct (Z.abs_eq_or_opp n) as [A|A].
    + replace n with (2 ^ prec)%Z by lia. rewrite <- B. exact G.
    + replace n with (- 2 ^ prec)%Z by lia. rewrite opp_IZR, Ropp_mult_distr_l_reverse, <- B. now apply generic_format_opp.
  - apply generic_format_FLT. exists (Float radix2 n e); cbn [Fnum Fexp]; [reflexivity| |exact He]. change (radix_val radix2) with 2%Z. lia.
Qed.

Definition Jw (v : element) (q k : Qc) : Prop :=
  0 <= qr k /\ (qr k = 0 -> exists n : Z, qr q = IZR n * bpow radix2 e /\ (qr q <= bpow radix2 (prec + e) -> qr q < bpow radix2 emax -> is_finite v = true /\ B2R v = qr q)).
Lemma Jw_init : Jw (B754_zero false) (Q2Qc 0) (Q2Qc 0).
Proof. split; [rewrite qr_0; lra|]. intros _. exists 0%Z. rewrite qr_0. split; [lra|]. intros _ _. split; reflexivity. Qed.
Lemma Jw_plus v w q q' k k' : nn v -> nn w -> 0 <= qr q -> 0 <= qr q' -> Jw v q k -> Jw w q' k' -> Jw (plus v w) (q + q')%Qc (k + k')%Qc.
Proof.
  intros Nv Nw Q0 Q0' [K0 H1] [K0' H2]. split; [rewrite qr_plus; lra|]. rewrite !qr_plus. intros KE. destruct (H1 ltac:(lra)) as [n [E1 F1]]. destruct (H2 ltac:(lra)) as [n' [E2 F2]].
  exists (n + n')%Z. assert (EQ : qr q + qr q' = IZR (n + n') * bpow radix2 e) by (rewrite plus_IZR; lra). split; [exact EQ|]. intros L1 L2.
  destruct (F1 ltac:(lra) ltac:(lra)) as [Fv Ev]. destruct (F2 ltac:(lra) ltac:(lra)) as [Fw Ew].
  destruct (plus_finite (Hprec := Hprec) (Hemax := Hemax) v w Fv Fw ltac:(lra) ltac:(lra)) as [PF _]. cbv zeta in PF. rewrite Ev, Ew in PF.
  rewrite round_generic in PF; [apply PF; exact L2|apply valid_rnd_N|]. rewrite EQ. apply whole_format.
  pose proof (bpow_gt_0 radix2 e). rewrite bpow_plus in L1. rewrite EQ in L1. apply Rmult_le_reg_r in L1; [|assumption]. unfold Prec_gt_0 in Hprec. rewrite <- IZR_Zpower in L1 by lia. apply le_IZR in L1. change (radix_val radix2 ^ prec)%Z with (2 ^ prec)%Z in L1.
  assert (0 <= IZR (n + n')) by nra. apply le_IZR in H0. lia.
Qed.
Definition whole (v : element) : bool := if Req_EM_T (IZR (Zfloor (B2R v * bpow radix2 (- e)))) (B2R v * bpow radix2 (- e)) then true else false.
Lemma whole_spec v : whole v = true <-> exists n : Z, B2R v = IZR n * bpow radix2 e.
Proof.
  unfold whole. assert (B : bpow radix2 (- e) * bpow radix2 e = 1) by (rewrite <- bpow_plus; replace (- e + e)%Z with 0%Z by lia; reflexivity).
  destruct (Req_EM_T _ _) as [E|E]; split; try discriminate; try reflexivity.
  - intros _. eexists. rewrite E. rewrite Rmult_assoc, B. ring.
  - intros [n H]. exfalso. apply E. rewrite H, Rmult_assoc, (Rmult_comm _ (bpow _ (- e))), B, Rmult_1_r. now rewrite Zfloor_IZR.
Qed.
End Whole.
