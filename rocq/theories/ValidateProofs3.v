(** Datasets that are written as they are meant to be, are valid. *)
From Verif Require Import Common CommonProofs ArrayModel IOModel NumpyModel ValueModel ValueProofs3 ValidateModel ValidateSpec ValidateProofs ValidateProofs2.

Lemma len_app {A} (l l' : list A) : len (l ++ l') = len l + len l'.
Proof. unfold len. rewrite app_length. lia. Qed.
Lemma len_nonneg {A} (l : list A) : 0 <= len l. Proof. unfold len. lia. Qed.
Lemma starts_length sets : forall f, length (starts f sets) = length sets.
Proof. induction sets as [|s sets IH]; intros f; cbn; auto. Qed.
Lemma starts_app a b : forall f, starts f (a ++ b) = starts f a ++ starts (f + len (concat a)) b.
Proof.
  induction a as [|s a IH]; intros f; cbn [app starts concat]; [unfold len; cbn; f_equal; lia|]. rewrite IH, len_app. cbn [app]. do 3 f_equal. lia.
Qed.
Lemma indices_length sets : forall before, length (indices before sets) = length (concat sets).
Proof. induction sets as [|s sets IH]; intros before; cbn [indices concat]; [reflexivity|]. now rewrite !app_length, map_length, IH. Qed.
Lemma indices_app a b : forall before, indices before (a ++ b) = indices before a ++ indices (before ++ a) b.
Proof.
  induction a as [|s a IH]; intros before; cbn [app indices]; [now rewrite app_nil_r|]. rewrite IH, <- app_assoc. now rewrite <- app_assoc.
Qed.

Lemma set_first_split a b : set_first (written (a ++ b)) (length a) = len (concat a).
Proof.
  unfold set_first, written. cbn [tr_sets tr_ids]. rewrite starts_app, app_nth2; rewrite starts_length; [|lia]. rewrite Nat.sub_diag.
  destruct b as [|s b]; cbn [starts nth]; [rewrite app_nil_r; reflexivity|lia].
Qed.
Lemma split_at {A} (l : list A) k : (k < length l)%nat -> exists a x b, l = a ++ x :: b /\ length a = k.
Proof.
  intros H. destruct (nth_error l k) as [x|] eqn:E1; [|apply nth_error_None in E1; lia]. apply nth_error_split in E1 as [a [b [-> HL]]]. now exists a, x, b.
Qed.
Lemma set_bounds a s b : set_first (written (a ++ s :: b)) (length a) = len (concat a) /\ set_last (written (a ++ s :: b)) (length a) = len (concat a) + len s.
Proof.
  split; [apply set_first_split|]. unfold set_last. replace (a ++ s :: b) with ((a ++ [s]) ++ b) by (now rewrite <- app_assoc). replace (S (length a)) with (length (a ++ [s])) by (rewrite app_length; cbn; lia).
  rewrite set_first_split, concat_app, len_app. cbn [concat]. now rewrite app_nil_r.
Qed.
Lemma active_set_written a s b : active_set (written (a ++ s :: b)) (length a) = s.
Proof.
  unfold active_set. destruct (set_bounds a s b) as [-> ->]. unfold written. cbn [tr_ids]. rewrite concat_app. cbn [concat].
  replace (Z.to_nat (len (concat a))) with (length (concat a) + 0)%nat by (unfold len; lia). rewrite skipn_app, skipn_all2 by lia. replace (length (concat a) + 0 - length (concat a))%nat with 0%nat by lia. cbn [app skipn].
  replace (Z.to_nat (len (concat a) + len s - len (concat a))) with (length s + 0)%nat by (unfold len; lia). rewrite firstn_app_2. cbn [firstn]. apply app_nil_r.
Qed.

Lemma starts_ge sets : forall f, Forall (fun e => f <= e) (starts f sets).
Proof.
  induction sets as [|s sets IH]; intros f; cbn [starts]; constructor; [lia|]. eapply Forall_impl; [|apply IH]. cbn. intros e He. pose proof (len_nonneg s). lia.
Qed.
Lemma starts_le sets : forall f, Forall (fun e => e <= f + len (concat sets)) (starts f sets).
Proof.
  induction sets as [|s sets IH]; intros f; cbn [starts concat]; constructor; [pose proof (len_nonneg (s ++ concat sets)); lia|].
  eapply Forall_impl; [|apply IH]. cbn. intros e He. rewrite len_app. lia.
Qed.
Lemma starts_increasing sets : forall f, increasing (starts f sets).
Proof.
  unfold increasing. induction sets as [|s sets IH]; intros f; cbn [starts]; constructor; [apply IH|]. eapply Forall_impl; [|apply starts_ge]. cbn. intros e He. pose proof (len_nonneg s). lia.
Qed.

Lemma written_consistent ids sets : NoDup ids -> Forall (@NoDup Z) sets -> (ids <> [] -> incl (concat sets) ids) -> consistent ids (written sets).
Proof.
  intros H1 H2 H3. constructor; cbn [written tr_sets tr_ids tr_idxs].
  - exact H1.
  - destruct sets; [split; reflexivity|discriminate].
  - apply increasing_last. split; [apply starts_increasing|]. pose proof (starts_le sets 0) as H. rewrite Z.add_0_l in H. exact H.
  - intros k Hk. rewrite starts_length in Hk. destruct (split_at sets k Hk) as [a [s [b [-> <-]]]]. rewrite active_set_written. apply Forall_app in H2 as [_ H2]. now inversion H2.
  - intros _. pose proof (starts_le sets 0) as H. rewrite Z.add_0_l in H. unfold len in *. now rewrite indices_length.
  - exact H3.
Qed.

Lemma times_app a b id : times_active (a ++ b) id = times_active a id + times_active b id.
Proof. unfold times_active. now rewrite filter_app, len_app. Qed.
Lemma times_cons s b id : times_active (s :: b) id = (if existsb (Z.eqb id) s then 1 else 0) + times_active b id.
Proof. unfold times_active. cbn [filter]. destruct (existsb (Z.eqb id) s); unfold len; cbn [length]; lia. Qed.
Lemma times_nonneg sets id : 0 <= times_active sets id. Proof. apply len_nonneg. Qed.
Lemma times_pos sets id : In id (concat sets) -> 0 < times_active sets id.
Proof.
  intros H. apply in_concat in H as [s [Hs Hid]]. apply in_split in Hs as [a [b ->]]. rewrite times_app, times_cons.
  assert (HE : existsb (Z.eqb id) s = true) by (apply is_known_in; exact Hid). rewrite HE. pose proof (times_nonneg a id). pose proof (times_nonneg b id). lia.
Qed.
Lemma sum_len (sets : list (list Z)) : sumZ (map len sets) = len (concat sets).
Proof. induction sets as [|s sets IH]; cbn [map sumZ fold_right concat]; [reflexivity|]. unfold sumZ in *. cbn [fold_right]. rewrite len_app. lia. Qed.

Section Written.
Context {E : Type}.
Lemma written_complete ids sets (p : @property E) : written_value ids sets p -> complete ids (written sets) p.
Proof.
  destruct p as [v|g|v|g|g|g]; cbn [written_value complete].
  - auto.
  - auto.
  - intros H. now rewrite H, sum_len.
  - intros [H1 H2]. cbn [written tr_ids tr_idxs tr_sets]. split; [exact H1|]. split.
    + intros id Hid. destruct (H2 id (times_pos _ _ Hid)) as [v [Ev _]]. now exists v.
    + intros k position Hk. rewrite starts_length in Hk. destruct (split_at sets k Hk) as [a [s [b [-> <-]]]]. unfold in_set. destruct (set_bounds a s b) as [-> ->]. intros Hp.
      assert (HJ : exists j, Z.to_nat position = (length (concat a) + j)%nat /\ (j < length s)%nat).
      { exists (Z.to_nat (position - len (concat a))). unfold len in *. lia. }
      destruct HJ as [j [EJ Lj]]. destruct (nth_error s j) as [id|] eqn:EI; [|apply nth_error_None in EI; lia].
      assert (Hin : In id s) by (eapply nth_error_In; eassumption).
      assert (HT : 0 < times_active (a ++ s :: b) id). { apply times_pos. rewrite concat_app. apply in_or_app. right. cbn. apply in_or_app. now left. }
      destruct (H2 id HT) as [v [Ev Nv]]. exists id, (times_active a id), v. rewrite EJ. split.
      { rewrite concat_app, nth_error_app2 by lia. replace (length (concat a) + j - length (concat a))%nat with j by lia. cbn [concat]. rewrite nth_error_app1 by lia. exact EI. }
      split.
      { rewrite indices_app, nth_error_app2 by (rewrite indices_length; lia). rewrite indices_length. replace (length (concat a) + j - length (concat a))%nat with j by lia. cbn [indices app].
        rewrite nth_error_app1 by (rewrite map_length; lia). now rewrite nth_error_map, EI. }
      split; [exact Ev|]. rewrite Nv, times_app, times_cons. assert (HE : existsb (Z.eqb id) s = true) by (apply is_known_in; exact Hin). rewrite HE. pose proof (times_nonneg b id). lia.
  - intros [H1 H2]. cbn [written tr_sets]. split; [now rewrite H1; unfold len; rewrite starts_length|]. intros k Hk. rewrite starts_length in Hk.
    destruct (split_at sets k Hk) as [a [s [b [-> <-]]]]. rewrite active_set_written. apply H2. rewrite nth_error_app2 by lia. now rewrite Nat.sub_diag.
  - intros H1. cbn [written tr_sets]. rewrite H1. unfold len. now rewrite starts_length.
Qed.
End Written.
