(** The order of floating point numbers of any format, infinities and NaN included, and the sign of differences. *)
From Coq Require Import ZArith Reals Psatz Bool.
From Flocq Require Import Core BinarySingleNaN.

Section Order.
Context (prec emax : Z) (Hprec : Prec_gt_0 prec) (Hmax : Prec_lt_emax prec emax).
Notation float := (binary_float prec emax).
Notation minus := (@Bminus prec emax Hprec Hmax mode_NE).

(** Minus infinity, numbers, plus infinity *)
Definition level (x : float) : Z := match x with B754_infinity true => -1 | B754_infinity false => 1 | _ => 0 end.

Lemma Bltb_iff (x y : float) : Bltb x y = true <->
  is_nan x = false /\ is_nan y = false /\ ((level x < level y)%Z \/ (level x = 0%Z /\ level y = 0%Z /\ (B2R x < B2R y)%R)).
Proof.
  destruct (is_finite x) eqn:Fx; [destruct (is_finite y) eqn:Fy|].
  - rewrite Bltb_correct by assumption.
    assert (Lx : level x = 0%Z) by (destruct x; try discriminate; reflexivity). assert (Ly : level y = 0%Z) by (destruct y; try discriminate; reflexivity).
    assert (Nx : is_nan x = false) by (destruct x; try discriminate; reflexivity). assert (Ny : is_nan y = false) by (destruct y; try discriminate; reflexivity).
    rewrite Lx, Ly, Nx, Ny. case Rlt_bool_spec; intros H; split; intros G; try discriminate; try reflexivity.
    + repeat split. right. auto.
    + exfalso. destruct G as [_ [_ [G|[_ [_ G]]]]]; [lia|lra].
  - destruct y as [|[]| |]; try discriminate; destruct x as [s|s| |s]; try discriminate; cbn; split; intros H;
      try discriminate; try reflexivity; repeat split; try (left; lia); exfalso; destruct H as [H1 [H2 [H|[H [H' _]]]]]; try discriminate; lia.
  - destruct x as [|[]| |]; try discriminate; destruct y as [s|[]| |s]; try discriminate; cbn; split; intros H;
      try discriminate; try reflexivity; repeat split; try (left; lia); exfalso; destruct H as [H1 [H2 [H|[H [H' _]]]]]; try discriminate; lia.
Qed.

Lemma Bltb_trans (x y z : float) : Bltb x y = true -> Bltb y z = true -> Bltb x z = true.
Proof. rewrite !Bltb_iff. intros [A [B C]] [A' [B' C']]. repeat split; try assumption. destruct C as [C|[C1 [C2 C]]], C' as [C'|[C1' [C2' C']]]; try (left; lia). right. repeat split; try assumption. lra. Qed.
Lemma Bltb_irrefl (x : float) : Bltb x x = false.
Proof. destruct (Bltb x x) eqn:E; [|reflexivity]. apply Bltb_iff in E. destruct E as [_ [_ [E|[_ [_ E]]]]]; [lia|lra]. Qed.
Lemma Bltb_cotrans (x y z : float) : is_nan y = false -> Bltb x z = true -> Bltb x y = true \/ Bltb y z = true.
Proof.
  intros Ny H. rewrite !Bltb_iff in *. destruct H as [A [B C]].
  assert (Rx : (-1 <= level x <= 1)%Z) by (destruct x as [|[]| |]; cbn; lia). assert (Ry : (-1 <= level y <= 1)%Z) by (destruct y as [|[]| |]; cbn; lia).
  assert (Rz : (-1 <= level z <= 1)%Z) by (destruct z as [|[]| |]; cbn; lia).
  destruct (Z_lt_dec (level x) (level y)) as [L|L]; [left; repeat split; auto|].
  destruct (Z_lt_dec (level y) (level z)) as [L'|L']; [right; repeat split; auto|].
  destruct C as [C|[C1 [C2 C]]]; [lia|]. assert (level y = 0%Z) by lia.
  destruct (Rlt_le_dec (B2R x) (B2R y)) as [H1|H1]; [left|right]; repeat split; auto; right; repeat split; auto. lra.
Qed.

Definition fzero : float := B754_zero false.

Lemma Bsign_pos (x : float) : is_finite x = true -> Bsign x = false -> (0 <= B2R x)%R.
Proof.
  destruct x as [s|s| |s m e H]; cbn; intros F S; try discriminate; try lra. subst s. cbn.
  apply F2R_ge_0. cbn. lia.
Qed.
Lemma Bsign_neg (x : float) : is_finite x = true -> Bsign x = true -> (B2R x <= 0)%R.
Proof.
  destruct x as [s|s| |s m e H]; cbn; intros F S; try discriminate; try lra. subst s. cbn.
  apply F2R_le_0. cbn. lia.
Qed.

(** A positive difference: the numbers are ordered. *)
Lemma minus_pos (x y : float) : Bltb fzero (minus x y) = true -> Bltb y x = true.
Proof.
  destruct (is_finite x) eqn:Fx; [destruct (is_finite y) eqn:Fy|].
  - intros H. rewrite Bltb_correct by assumption. pose proof (Bminus_correct prec emax Hprec Hmax mode_NE x y Fx Fy) as C.
    revert C. case Rlt_bool_spec; intros Hov C.
    + destruct C as [E [F _]]. rewrite Bltb_correct in H by (reflexivity || assumption). rewrite E in H. revert H. cbn [B2R fzero].
      case Rlt_bool_spec; [intros H _|discriminate]. apply Rlt_bool_true.
      destruct (Rlt_le_dec (B2R y) (B2R x)) as [L|L]; [exact L|]. exfalso.
      assert (round radix2 (SpecFloat.fexp prec emax) (round_mode mode_NE) (B2R x - B2R y) <= 0)%R; [|lra].
      rewrite <- (round_0 radix2 (SpecFloat.fexp prec emax) (round_mode mode_NE)). apply round_le.
      * exact (fexp_correct prec emax Hprec).
      * apply valid_rnd_round_mode.
      * lra.
    + destruct C as [E S]. apply Rlt_bool_true.
      assert (N : (B2R x - B2R y <> 0)%R).
      { intros Z0. rewrite Z0, round_0, Rabs_R0 in Hov; [|apply valid_rnd_round_mode]. pose proof (bpow_gt_0 radix2 emax). lra. }
      destruct (Bsign x) eqn:Sx.
      * exfalso. unfold Bltb in H. rewrite E in H. cbn in H. discriminate.
      * pose proof (Bsign_pos x Fx Sx). assert (Sy : Bsign y = true) by (destruct (Bsign y); [reflexivity|discriminate]).
        pose proof (Bsign_neg y Fy Sy). lra.
  - destruct y as [|[]| |]; try discriminate; destruct x as [s|s| |s]; try discriminate; cbn; intros H; try discriminate; reflexivity.
  - destruct x as [|[]| |]; try discriminate; destruct y as [s|[]| |s]; try discriminate; cbn; intros H; try discriminate; reflexivity.
Qed.
End Order.
