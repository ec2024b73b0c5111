(** The equation of the kinematic wave *)
From Coq Require Import Reals Lra Ranalysis5.
From Verif Require Import Common KinematicModel KinematicSpec.
Local Open Scope R_scope.

Lemma r_lt_true a b : a < b -> r_lt a b = true. Proof. intros H. unfold r_lt. destruct (Rlt_dec a b); [reflexivity|contradiction]. Qed.
Lemma r_lt_false a b : b <= a -> r_lt a b = false. Proof. intros H. unfold r_lt. destruct (Rlt_dec a b); [lra|reflexivity]. Qed.
Lemma r_le_true a b : a <= b -> r_le a b = true. Proof. intros H. unfold r_le. destruct (Rle_dec a b); [reflexivity|contradiction]. Qed.
Lemma r_le_false a b : b < a -> r_le a b = false. Proof. intros H. unfold r_le. destruct (Rle_dec a b); [lra|reflexivity]. Qed.
Lemma r_lt_iff a b : r_lt a b = true <-> a < b. Proof. unfold r_lt. destruct (Rlt_dec a b); split; intros; try assumption; try reflexivity; try discriminate; contradiction. Qed.
Lemma r_le_iff a b : r_le a b = true <-> a <= b. Proof. unfold r_le. destruct (Rle_dec a b); split; intros; try assumption; try reflexivity; try discriminate; contradiction. Qed.
Lemma r_eq_iff a b : r_eq a b = true <-> a = b. Proof. unfold r_eq. destruct (Req_EM_T a b); split; intros; try assumption; try reflexivity; try discriminate; contradiction. Qed.

Lemma Rpower_pos x y : 0 < Rpower x y. Proof. apply exp_pos. Qed.
Lemma power_pos q b : 0 < q -> power q b = Rpower q b. Proof. intros H. unfold power. destruct (Req_EM_T q 0); [lra|reflexivity]. Qed.
Lemma power_0 b : power 0 b = 0. Proof. unfold power. destruct (Req_EM_T 0 0); [reflexivity|contradiction]. Qed.
Lemma power_nonneg q b : 0 <= power q b. Proof. unfold power. destruct (Req_EM_T q 0); [lra|]. left. apply Rpower_pos. Qed.
Lemma Rpower_lt_l x y b : 0 < b -> 0 < x < y -> Rpower x b < Rpower y b.
Proof. intros Hb [H0 H]. unfold Rpower. apply exp_increasing. apply Rmult_lt_compat_l; [exact Hb|]. now apply ln_increasing. Qed.
Lemma power_lt x y b : 0 < b -> 0 <= x < y -> power x b < power y b.
Proof.
  intros Hb [H0 H]. rewrite (power_pos y) by lra. destruct (Req_EM_T x 0) as [->|N]; [rewrite power_0; apply Rpower_pos|]. rewrite power_pos by lra. apply Rpower_lt_l; lra.
Qed.
Lemma power_le x y b : 0 < b -> 0 <= x <= y -> power x b <= power y b.
Proof. intros Hb [H0 [H| ->]]; [left; apply power_lt; lra|lra]. Qed.
Lemma c_pow_power x b : 0 <= x -> 0 < b -> c_pow x b = Ok (power x b).
Proof.
  intros H Hb. unfold c_pow. destruct H as [H| <-].
  - rewrite r_lt_true by exact H. now rewrite power_pos.
  - rewrite !r_lt_false by lra. destruct (r_eq b 0) eqn:E; [apply r_eq_iff in E; lra|]. rewrite r_lt_true by exact Hb. now rewrite power_0.
Qed.
Lemma c_pow_pos x b : 0 < x -> c_pow x b = Ok (Rpower x b).
Proof. intros H. unfold c_pow. now rewrite r_lt_true. Qed.

(** The left hand side *)
Section Equation.
Context (c alpha beta K : R) (Hc : 0 < c) (Ha : 0 < alpha) (Hb : 0 < beta) (HK : 0 < K).
Definition lhs (q : R) : R := c * q + alpha * power q beta.
Lemma lhs_lt x y : 0 <= x < y -> lhs x < lhs y.
Proof. intros H. unfold lhs. pose proof (power_lt x y beta Hb H). apply Rplus_lt_compat; apply Rmult_lt_compat_l; lra. Qed.
Lemma lhs_inj x y : 0 <= x -> 0 <= y -> lhs x = lhs y -> x = y.
Proof. intros Hx Hy E. destruct (Rtotal_order x y) as [H|[H|H]]; [|exact H|]; exfalso; [assert (H' : lhs x < lhs y) by (apply lhs_lt; lra)|assert (H' : lhs y < lhs x) by (apply lhs_lt; lra)]; lra. Qed.

Definition Fq (q : R) : R := c * q + alpha * Rpower q beta - K.
Definition Fd (q : R) : R := c + (alpha * beta) * Rpower q (beta - 1).
Lemma F_deriv q : 0 < q -> derivable_pt_lim Fq q (Fd q).
Proof.
  intros H. unfold Fq, Fd. replace (c + alpha * beta * Rpower q (beta - 1)) with (c * 1 + alpha * (beta * Rpower q (beta - 1)) - 0) by ring.
  apply derivable_pt_lim_minus; [apply derivable_pt_lim_plus|apply derivable_pt_lim_const].
  - apply derivable_pt_lim_scal, derivable_pt_lim_id.
  - apply derivable_pt_lim_scal. now apply derivable_pt_lim_power.
Qed.
Lemma Fd_pos q : 0 < Fd q.
Proof. unfold Fd. pose proof (Rpower_pos q (beta - 1)). assert (0 < alpha * beta) by (now apply Rmult_lt_0_compat). assert (0 < alpha * beta * Rpower q (beta - 1)) by (now apply Rmult_lt_0_compat). lra. Qed.

Lemma root_exists : {q : R | 0 < q /\ Fq q = 0}.
Proof.
  set (d1 := K / (4 * c)). set (d2 := Rpower (K / (4 * alpha)) (/ beta)).
  assert (D1 : 0 < d1) by (unfold d1; apply Rdiv_lt_0_compat; lra). assert (D2 : 0 < d2) by apply Rpower_pos.
  set (lo := Rmin d1 d2). assert (L0 : 0 < lo) by (unfold lo; apply Rmin_glb_lt; assumption).
  assert (L1 : c * lo <= K / 4). { replace (K / 4) with (c * d1) by (unfold d1; field; lra). apply Rmult_le_compat_l; [lra|apply Rmin_l]. }
  assert (L2 : alpha * Rpower lo beta <= K / 4).
  { replace (K / 4) with (alpha * Rpower d2 beta).
    - apply Rmult_le_compat_l; [lra|]. destruct (Rmin_r d1 d2) as [H|H]; fold lo in H; [left; apply Rpower_lt_l; lra|rewrite H; lra].
    - unfold d2. rewrite Rpower_mult. replace (/ beta * beta) with 1 by (field; lra). rewrite Rpower_1 by (apply Rdiv_lt_0_compat; lra). field. lra. }
  set (hi := K / c). assert (H0 : 0 < hi) by (now apply Rdiv_lt_0_compat).
  assert (LH : lo < hi). { unfold lo, hi. eapply Rle_lt_trans; [apply Rmin_l|]. unfold d1. unfold Rdiv. rewrite Rinv_mult. assert (0 < K * / c) by (apply Rmult_lt_0_compat; [lra|now apply Rinv_0_lt_compat]). lra. }
  destruct (IVT_interv Fq lo hi) as [z [Hz Ez]].
  - intros a Ha'. apply derivable_continuous_pt. exists (Fd a). apply F_deriv. lra.
  - exact LH.
  - unfold Fq. lra.
  - unfold Fq, hi. replace (c * (K / c)) with K by (field; lra). assert (0 < alpha * Rpower (K / c) beta) by (apply Rmult_lt_0_compat; [lra|apply Rpower_pos]). lra.
  - exists z. split; [lra|exact Ez].
Qed.
Lemma F_lhs q : 0 < q -> Fq q = lhs q - K.
Proof. intros H. unfold Fq, lhs. now rewrite power_pos. Qed.
End Equation.

(** The equation that the code solves *)
Section Wave.
Context (up old lat alpha beta dt dx : R) (Hup : 0 <= up) (Hold : 0 <= old) (Hlat : 0 <= lat) (Ha : 0 < alpha) (Hb : 0 < beta) (Ht : 0 < dt) (Hx : 0 < dx).
Notation c := (dt / dx).
Definition known : R := c * up + alpha * power old beta + dt * lat.
Lemma c_pos : 0 < c. Proof. now apply Rdiv_lt_0_compat. Qed.
Lemma wave_lhs q : wave_equation up old lat alpha beta dt dx q <-> lhs c alpha beta q = known.
Proof. unfold wave_equation, lhs, known. split; lra. Qed.
Lemma known_pos : 0 < up + old + lat -> 0 < known.
Proof.
  intros H. pose proof c_pos as C. unfold known.
  assert (A1 : 0 <= c * up) by (apply Rmult_le_pos; lra). assert (A2 : 0 <= alpha * power old beta) by (apply Rmult_le_pos; [lra|apply power_nonneg]).
  assert (A3 : 0 <= dt * lat) by (apply Rmult_le_pos; lra).
  destruct Hup as [U|U]; [assert (0 < c * up) by (now apply Rmult_lt_0_compat); lra|].
  destruct Hlat as [L|L]; [assert (0 < dt * lat) by (now apply Rmult_lt_0_compat); lra|].
  assert (0 < old) by lra. assert (0 < alpha * power old beta) by (apply Rmult_lt_0_compat; [lra|]; rewrite power_pos by assumption; apply Rpower_pos). lra.
Qed.
Definition the_wave : wave := Wave up old lat alpha beta (alpha * beta) dt c known.
Lemma make_wave_ok : 0 < up + old + lat -> make_wave up old lat alpha beta dt dx = Ok the_wave.
Proof.
  intros H. unfold make_wave. rewrite !r_le_true by assumption. rewrite !r_lt_true by assumption. cbn [r_assert obind]. rewrite c_pow_power by assumption. reflexivity.
Qed.
Lemma fq_ok q : 0 < q -> fq the_wave q = Ok (Fq c alpha beta known q).
Proof. intros H. unfold fq. rewrite r_lt_true by exact H. cbn [r_assert obind the_wave w_beta w_alpha w_known w_duration_over_length]. rewrite c_pow_pos by exact H. reflexivity. Qed.
Lemma dfq_ok q : 0 < q -> dfq the_wave q = Ok (Fd c alpha beta q).
Proof. intros H. unfold dfq. rewrite r_lt_true by exact H. cbn [r_assert obind the_wave w_beta w_alpha_beta w_known w_duration_over_length]. rewrite c_pow_pos by exact H. reflexivity. Qed.

Lemma guess_ok m : 0 < m -> exists g, guess m the_wave = Ok g /\ 0 < g.
Proof.
  intros Hm. pose proof c_pos as C. unfold guess. cbn [the_wave w_current w_upstream w_beta w_alpha_beta w_duration_over_length w_duration w_lateral].
  assert (POW : forall p, 0 <= p -> forall n, exists g, obind (if r_eq (c + alpha * beta * p) 0 then UB else Ok (Rmax (n / (c + alpha * beta * p)) m)) (fun g => obind (r_assert (r_lt 0 g)) (fun _ => Ok g)) = Ok g /\ 0 < g).
  { intros p Hp n. assert (0 <= alpha * beta * p) by (apply Rmult_le_pos; [apply Rmult_le_pos; lra|exact Hp]).
    destruct (r_eq _ 0) eqn:E; [apply r_eq_iff in E; lra|]. cbn [obind]. set (g := Rmax _ m). assert (G : 0 < g) by (unfold g; eapply Rlt_le_trans; [exact Hm|apply Rmax_r]).
    exists g. rewrite r_lt_true by exact G. split; [reflexivity|exact G]. }
  destruct (negb (r_eq (old + up) 0) || r_le 1 beta) eqn:B.
  - assert (E : exists p, c_pow ((old + up) / 2) (beta - 1) = Ok p /\ 0 <= p).
    { destruct (Req_EM_T (old + up) 0) as [Z|N].
      - assert (B1 : 1 <= beta). { apply orb_true_iff in B. destruct B as [B|B]; [|now apply r_le_iff]. exfalso. rewrite (proj2 (r_eq_iff _ _) Z) in B. discriminate B. }
        rewrite Z. replace (0 / 2) with 0 by lra. unfold c_pow. rewrite !(r_lt_false 0 0) by lra. destruct (r_eq (beta - 1) 0) eqn:E; [exists 1; split; [reflexivity|lra]|].
        rewrite r_lt_true; [exists 0; split; [reflexivity|lra]|]. destruct B1 as [B1|B1]; [lra|]. exfalso. assert (r_eq (beta - 1) 0 = true) by (apply r_eq_iff; lra). congruence.
      - rewrite c_pow_pos by lra. eexists. split; [reflexivity|]. left. apply Rpower_pos. }
    destruct E as [p [-> Hp]]. cbn [obind]. now apply POW.
  - cbn [obind]. exists m. rewrite r_lt_true by exact Hm. split; [reflexivity|exact Hm].
Qed.

Lemma root_of_fq q : 0 < q -> (fq the_wave q = Ok 0 <-> wave_equation up old lat alpha beta dt dx q).
Proof.
  intros H. rewrite fq_ok, wave_lhs, F_lhs by exact H. split; [intros E; injection E; lra|]. intros ->. f_equal. lra.
Qed.
Lemma equation_unique q q' : 0 <= q -> 0 <= q' -> wave_equation up old lat alpha beta dt dx q -> wave_equation up old lat alpha beta dt dx q' -> q = q'.
Proof. intros H H' E E'. apply wave_lhs in E, E'. apply (lhs_inj c alpha beta c_pos Ha Hb q q' H H'). congruence. Qed.
(** The solution is between the old discharge and what enters the cell *)
Lemma equation_bounds q : 0 <= q -> wave_equation up old lat alpha beta dt dx q -> Rmin old (up + dx * lat) <= q <= Rmax old (up + dx * lat).
Proof.
  intros H E. apply wave_lhs in E. unfold lhs, known in E. pose proof c_pos as C.
  assert (D : dt * lat = c * (dx * lat)) by (field; lra). rewrite D in E.
  assert (I : 0 <= dx * lat) by (apply Rmult_le_pos; lra).
  split; apply Rnot_lt_le; intros L.
  - assert (L1 : q < old) by (eapply Rlt_le_trans; [exact L|apply Rmin_l]). assert (L2 : q < up + dx * lat) by (eapply Rlt_le_trans; [exact L|apply Rmin_r]).
    pose proof (power_lt q old beta Hb (conj H L1)) as P. assert (c * q < c * (up + dx * lat)) by (now apply Rmult_lt_compat_l). assert (alpha * power q beta < alpha * power old beta) by (now apply Rmult_lt_compat_l). lra.
  - assert (L1 : old < q) by (eapply Rle_lt_trans; [apply Rmax_l|exact L]). assert (L2 : up + dx * lat < q) by (eapply Rle_lt_trans; [apply Rmax_r|exact L]).
    pose proof (power_lt old q beta Hb (conj Hold L1)) as P. assert (c * (up + dx * lat) < c * q) by (now apply Rmult_lt_compat_l). assert (alpha * power old beta < alpha * power q beta) by (now apply Rmult_lt_compat_l). lra.
Qed.
Lemma solution : 0 < up + old + lat -> exists q, 0 < q /\ fq the_wave q = Ok 0 /\ wave_equation up old lat alpha beta dt dx q.
Proof.
  intros H. destruct (root_exists c alpha beta known c_pos Ha Hb (known_pos H)) as [q [Hq E]]. exists q. split; [exact Hq|].
  assert (fq the_wave q = Ok 0) by (rewrite fq_ok by exact Hq; now rewrite E). split; [assumption|]. now apply root_of_fq.
Qed.
End Wave.

(** More water in gives more water out *)
Lemma equation_monotone up up' old old' lat lat' alpha beta dt dx q q' : 0 < alpha -> 0 < beta -> 0 < dt -> 0 < dx -> 0 <= old -> 0 <= q -> 0 <= q' ->
  up <= up' -> old <= old' -> lat <= lat' -> wave_equation up old lat alpha beta dt dx q -> wave_equation up' old' lat' alpha beta dt dx q' -> q <= q'.
Proof.
  intros Ha Hb Ht Hx Ho Hq Hq' Hu Hold Hl E E'. apply wave_lhs in E, E'. pose proof (c_pos dt dx Ht Hx) as C.
  apply Rnot_lt_le. intros L. pose proof (lhs_lt (dt / dx) alpha beta C Ha Hb q' q (conj Hq' L)) as M. rewrite E, E' in M. unfold known in M.
  assert (dt / dx * up <= dt / dx * up') by (apply Rmult_le_compat_l; lra). assert (dt * lat <= dt * lat') by (apply Rmult_le_compat_l; lra).
  pose proof (power_le old old' beta Hb (conj Ho Hold)). assert (alpha * power old beta <= alpha * power old' beta) by (apply Rmult_le_compat_l; lra). lra.
Qed.
