From Coq Require Import ZArith Bool Reals Lra.
From Flocq Require Import Core BinarySingleNaN.
From Verif Require Import PcrModel PcrSpec Float64 PcrFloat.

Lemma compare_nan (a b : b32) : is_nan a = false -> is_nan b = false -> Bcompare a b <> None.
Proof. destruct a, b; try discriminate; intros _ _; repeat match goal with s : bool |- _ => destruct s end; cbn; discriminate. Qed.
Lemma compare_valid (a b : b32) : Bcompare a b <> None -> is_nan a = false /\ is_nan b = false.
Proof. destruct a, b; try (split; reflexivity); cbn; try congruence. Qed.

(** Numbers, with the infinities below and above *)
Definition below_all (a : b32) : Prop := a = B754_infinity true.
Definition above_all (a : b32) : Prop := a = B754_infinity false.
Lemma ge_iff (a b : b32) : compare_is ge_test a b = true <->
  is_nan a = false /\ is_nan b = false /\
  (above_all a \/ below_all b \/ (is_finite a = true /\ is_finite b = true /\ (B2R b <= B2R a)%R)).
Proof.
  unfold compare_is. destruct (is_finite a) eqn:Fa, (is_finite b) eqn:Fb.
  - rewrite Bcompare_correct by assumption. assert (is_nan a = false /\ is_nan b = false) as [Na Nb].
    { split; [destruct a|destruct b]; (reflexivity || discriminate). }
    rewrite Na, Nb. destruct (Rcompare_spec (B2R a) (B2R b)); cbn; split; intros H'; try discriminate; try (repeat split; auto; right; right; repeat split; auto; lra).
    destruct H' as [_ [_ [H'|[H'|[_ [_ H']]]]]]; [unfold above_all in H'; subst; discriminate|unfold below_all in H'; subst; discriminate|lra].
  - destruct a, b; try discriminate; unfold above_all, below_all; repeat match goal with s : bool |- _ => destruct s end; cbn;
      (split; [intros; try discriminate; repeat split; auto|intros [? [? [?|[?|[? [? ?]]]]]]; congruence]).
  - destruct a, b; try discriminate; unfold above_all, below_all; repeat match goal with s : bool |- _ => destruct s end; cbn;
      (split; [intros; try discriminate; repeat split; auto|intros [? [? [?|[?|[? [? ?]]]]]]; congruence]).
  - destruct a, b; try discriminate; unfold above_all, below_all; repeat match goal with s : bool |- _ => destruct s end; cbn;
      (split; [intros; try discriminate; repeat split; auto|intros [? [? [?|[?|[? [? ?]]]]]]; congruence]).
Qed.

Lemma ieee_proper : proper_floats ieee.
Proof.
  constructor; cbn [f_nan f_mark f_ge f_le f_ne f_of_Z ieee].
  - reflexivity.
  - intros a b. unfold compare_is. rewrite (Bcompare_swap 24 128 a b). destruct (Bcompare a b) as [[]|]; reflexivity.
  - intros a b Na Nb. unfold compare_is. rewrite (Bcompare_swap 24 128 a b). assert (N := compare_nan a b Na Nb).
    destruct (Bcompare a b) as [[]|]; cbn; congruence.
  - intros a Na. unfold compare_is. assert (N := compare_nan a a Na Na). assert (S := Bcompare_swap 24 128 a a).
    destruct (Bcompare a a) as [[]|]; cbn in *; congruence.
  - intros a b c. rewrite !ge_iff. intros [Na [Nb H1]] [_ [Nc H2]]. split; [assumption|]. split; [assumption|].
    unfold above_all, below_all in *.
    destruct H1 as [H1|[H1|[F1 [F2 H1]]]]; [auto| |].
    + subst. destruct H2 as [H2|[H2|[F3 _]]]; [discriminate|auto|discriminate].
    + destruct H2 as [H2|[H2|[F3 [F4 H2]]]]; [subst; discriminate|auto|]. right. right. repeat split; auto. lra.
  - intros a b. unfold compare_is. rewrite (Bcompare_swap 24 128 a b). destruct (Bcompare a b) as [[]|]; reflexivity.
  - reflexivity.
Qed.
