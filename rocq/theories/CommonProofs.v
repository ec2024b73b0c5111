(** Lemmas about the vocabulary of Common.v *)
From Verif Require Import Common.

Lemma zseq_length s n : length (zseq s n) = Z.to_nat n.
Proof. unfold zseq. now rewrite map_length, seq_length. Qed.

Lemma in_zseq s n i : In i (zseq s n) <-> s <= i < s + n.
Proof.
  unfold zseq. rewrite in_map_iff. split.
  - intros [k [Hk Hin]]. apply in_seq in Hin. lia.
  - intros H. exists (Z.to_nat (i - s)). split; [lia|]. apply in_seq. lia.
Qed.

Lemma zseq_NoDup s n : NoDup (zseq s n).
Proof.
  unfold zseq. apply FinFun.Injective_map_NoDup; [|apply seq_NoDup].
  intros a b H. lia.
Qed.

Lemma zseq_nil s n : n <= 0 -> zseq s n = [].
Proof. intros H. unfold zseq. replace (Z.to_nat n) with O by lia. reflexivity. Qed.

Lemma zseq_cons s n : 0 < n -> zseq s n = s :: zseq (s + 1) (n - 1).
Proof.
  intros H. unfold zseq. replace (Z.to_nat n) with (S (Z.to_nat (n - 1))) by lia.
  cbn [seq map]. f_equal; [lia|]. rewrite <- seq_shift, map_map.
  apply map_ext. intros k. lia.
Qed.

Lemma zseq_shift s n : zseq s n = map (fun i => s + i) (zseq 0 n).
Proof. unfold zseq. rewrite map_map. apply map_ext. intros; lia. Qed.

Lemma zseq_app s n m : 0 <= n -> 0 <= m -> zseq s (n + m) = zseq s n ++ zseq (s + n) m.
Proof.
  intros Hn. revert s. pattern n. apply natlike_ind; [| |exact Hn].
  - intros s Hm. rewrite (zseq_nil s 0) by lia. cbn [app]. f_equal; lia.
  - intros k Hk IH s Hm. rewrite (zseq_cons s (Z.succ k + m)) by lia.
    rewrite (zseq_cons s (Z.succ k)) by lia. cbn [app]. f_equal.
    replace (Z.succ k + m - 1) with (k + m) by lia.
    replace (Z.succ k - 1) with k by lia.
    rewrite IH by lia. f_equal. f_equal. lia.
Qed.

Lemma zseq_snoc s n : 0 <= n -> zseq s (n + 1) = zseq s n ++ [s + n].
Proof. intros H. rewrite zseq_app by lia. f_equal. rewrite zseq_cons by lia. rewrite zseq_nil by lia. reflexivity. Qed.

Lemma nth_error_zseq s n k : (k < Z.to_nat n)%nat -> nth_error (zseq s n) k = Some (s + Z.of_nat k).
Proof.
  intros H. unfold zseq. rewrite nth_error_map.
  rewrite (nth_error_nth' _ O) by (rewrite seq_length; lia).
  rewrite seq_nth by lia. reflexivity.
Qed.

(** ** upd_nth *)

Lemma upd_nth_Some {A} n (a : A) l : (n < length l)%nat -> exists l', upd_nth n a l = Some l'.
Proof.
  revert l. induction n as [|n IH]; intros [|h t] H; cbn in *; try lia; eauto.
  destruct (IH t) as [l' Hl']; [lia|]. rewrite Hl'. cbn. eauto.
Qed.

Lemma upd_nth_length {A} n (a : A) l l' : upd_nth n a l = Some l' -> length l' = length l.
Proof.
  revert l l'. induction n as [|n IH]; intros [|h t] l' H; cbn in *; try discriminate.
  - injection H as <-. reflexivity.
  - destruct (upd_nth n a t) eqn:E; cbn in H; [|discriminate]. injection H as <-. cbn. f_equal. eauto.
Qed.

Lemma upd_nth_same {A} n (a : A) l l' : upd_nth n a l = Some l' -> nth_error l' n = Some a.
Proof.
  revert l l'. induction n as [|n IH]; intros [|h t] l' H; cbn in *; try discriminate.
  - injection H as <-. reflexivity.
  - destruct (upd_nth n a t) eqn:E; cbn in H; [|discriminate]. injection H as <-. cbn. eauto.
Qed.

Lemma upd_nth_other {A} n m (a : A) l l' : upd_nth n a l = Some l' -> n <> m -> nth_error l' m = nth_error l m.
Proof.
  revert m l l'. induction n as [|n IH]; intros m [|h t] l' H Hne; cbn in *; try discriminate.
  - injection H as <-. destruct m; [congruence|reflexivity].
  - destruct (upd_nth n a t) eqn:E; cbn in H; [|discriminate]. injection H as <-.
    destruct m; [reflexivity|]. cbn. eapply IH; eauto.
Qed.

Lemma nth_error_ext {A} (l l' : list A) :
  (forall n, nth_error l n = nth_error l' n) -> l = l'.
Proof.
  revert l'. induction l as [|h t IH]; intros [|h' t'] H; try reflexivity.
  - specialize (H O). discriminate.
  - specialize (H O). discriminate.
  - pose proof (H O) as H0. cbn in H0. injection H0 as ->. f_equal. apply IH. intros n. apply (H (S n)).
Qed.

(** ** products *)

Lemma fold_left_mul l a : fold_left Z.mul l a = a * prodZ l.
Proof.
  unfold prodZ. revert a. induction l as [|h t IH]; intros a; cbn [fold_left]; [lia|].
  rewrite IH. rewrite (IH (1 * h)). lia.
Qed.

Lemma prodZ_nil : prodZ [] = 1. Proof. reflexivity. Qed.
Lemma prodZ_cons h t : prodZ (h :: t) = h * prodZ t.
Proof. unfold prodZ at 1. cbn [fold_left]. rewrite fold_left_mul. lia. Qed.

Lemma prodZ_app a b : prodZ (a ++ b) = prodZ a * prodZ b.
Proof. induction a as [|h t IH]; cbn [app]; rewrite ?prodZ_cons, ?prodZ_nil, ?IH; lia. Qed.

Lemma prodZ_nonneg l : Forall (fun e => 0 <= e) l -> 0 <= prodZ l.
Proof. induction 1; rewrite ?prodZ_cons, ?prodZ_nil; nia. Qed.

Lemma prodZ_pos l : Forall (fun e => 0 < e) l -> 0 < prodZ l.
Proof. induction 1; rewrite ?prodZ_cons, ?prodZ_nil; nia. Qed.

Lemma prodZ_pos_inv l : Forall (fun e => 0 <= e) l -> prodZ l <> 0 -> Forall (fun e => 0 < e) l.
Proof.
  induction l as [|x l IH]; intros Hf Hp; constructor; inversion Hf as [|? ? Hx Hl]; subst;
    rewrite prodZ_cons in Hp.
  - destruct (Z.eq_dec x 0) as [->|]; lia.
  - apply IH; [assumption|]. intros E. rewrite E in Hp. lia.
Qed.

Arguments prodZ : simpl never.
Arguments zseq : simpl never.
