(** Validation of the object tracker. *)
From Verif Require Import Common CommonProofs ArrayModel NumpyModel ValueModel ValidateModel ValidateSpec.
From Coq Require Import Permutation.

(** ** Sorting *)
Lemma insert_perm x l : Permutation (insert_sorted x l) (x :: l).
Proof.
  induction l as [|y l IH]; cbn; [reflexivity|]. destruct (x <=? y); [reflexivity|].
  rewrite IH. apply perm_swap.
Qed.
Lemma sort_perm l : Permutation (sort_numbers l) l.
Proof. unfold sort_numbers. induction l as [|x l IH]; cbn [fold_right]; [reflexivity|]. rewrite insert_perm. now rewrite IH. Qed.
Lemma insert_sorted_ok x l : increasing l -> increasing (insert_sorted x l).
Proof.
  unfold increasing. induction l as [|y l IH]; intros H; cbn; [repeat constructor|].
  destruct (Z.leb_spec x y).
  - constructor; [exact H|]. constructor; [lia|]. inversion H; subst. eapply Forall_impl; [|eassumption]. cbn. intros; lia.
  - inversion H as [|? ? H1 H2]; subst. constructor; [now apply IH|].
    apply Forall_forall. intros z Hz. apply (Permutation_in _ (insert_perm x l)) in Hz. destruct Hz as [<-|Hz]; [lia|]. rewrite Forall_forall in H2. now apply H2.
Qed.
Lemma sort_increasing l : increasing (sort_numbers l).
Proof. unfold sort_numbers. induction l as [|x l IH]; cbn [fold_right]; [constructor|]. now apply insert_sorted_ok. Qed.

Lemma adjacent_unique l : increasing l -> (adjacent_find Z.eqb l = None <-> NoDup l).
Proof.
  unfold increasing. induction l as [|a [|b l] IH]; intros H; cbn [adjacent_find].
  - split; [constructor|reflexivity].
  - split; [repeat constructor; intros []|reflexivity].
  - inversion H as [|? ? H1 H2]; subst. specialize (IH H1). destruct (Z.eqb_spec a b) as [->|N].
    + split; [discriminate|]. intros HN. inversion HN as [|? ? X _]; subst. exfalso. apply X. now left.
    + rewrite IH. split; [|intros HN; now inversion HN]. intros HN. constructor; [|exact HN].
      inversion H1 as [|? ? H3 H4]; subst. inversion H2; subst. intros [->|Hin]; [lia|]. rewrite Forall_forall in H4. specialize (H4 a Hin). lia.
Qed.
Lemma adjacent_increasing l : adjacent_find Z.gtb l = None <-> increasing l.
Proof.
  unfold increasing. induction l as [|a [|b l] IH]; cbn [adjacent_find].
  - split; [constructor|reflexivity].
  - split; [repeat constructor|reflexivity].
  - rewrite Z.gtb_ltb. destruct (Z.ltb_spec b a) as [L|L].
    + split; [discriminate|]. intros HS. inversion HS as [|? ? _ X]; subst. inversion X; subst. lia.
    + rewrite IH. split; [|intros HS; now inversion HS]. intros HS. constructor; [exact HS|]. constructor; [exact L|].
      inversion HS as [|? ? H1 H2]; subst. eapply Forall_impl; [|exact H2]. cbn. intros; lia.
Qed.

(** ** All issues of the tracker are errors *)
Definition all_errors (l : list issue) : Prop := forallb is_error l = true.
Lemma all_errors_none l : all_errors l -> (errors_found l = false <-> l = []).
Proof. unfold all_errors, errors_found. destruct l as [|i l]; cbn; [tauto|]. intros H. apply andb_prop in H as [-> _]. cbn. split; discriminate. Qed.
Lemma errors_app l l' : errors_found (l ++ l') = false <-> errors_found l = false /\ errors_found l' = false.
Proof. unfold errors_found. rewrite existsb_app. apply Bool.orb_false_iff. Qed.

Lemma same_number_ok a b : errors_found (same_number a b) = false <-> a = b.
Proof. unfold same_number. destruct (Z.eqb_spec a b); cbn; split; congruence. Qed.

Lemma unique_none ids : assert_ids_are_unique ids = [] <-> NoDup ids.
Proof.
  unfold assert_ids_are_unique. pose proof (adjacent_unique _ (sort_increasing ids)) as H.
  assert (HP : NoDup (sort_numbers ids) <-> NoDup ids) by (split; apply Permutation_NoDup; [|symmetry]; apply sort_perm).
  rewrite <- HP, <- H. destruct (adjacent_find Z.eqb (sort_numbers ids)) as [[a b]|]; split; congruence.
Qed.
Lemma unique_errors ids : all_errors (assert_ids_are_unique ids).
Proof. unfold assert_ids_are_unique. now destruct (adjacent_find Z.eqb (sort_numbers ids)) as [[a b]|]. Qed.
Lemma unique_ok ids : errors_found (assert_ids_are_unique ids) = false <-> NoDup ids.
Proof. rewrite all_errors_none by apply unique_errors. apply unique_none. Qed.
Lemma increasing_ok l : errors_found (assert_increasing l) = false <-> increasing l.
Proof. rewrite <- adjacent_increasing. unfold assert_increasing. destruct (adjacent_find Z.gtb l) as [[a b]|]; cbn; split; congruence. Qed.

(** ** Active sets *)
Definition slice_of (ids : list Z) (first last : Z) : list Z := firstn (Z.to_nat (last - first)) (skipn (Z.to_nat first) ids).

Lemma check_sets_errors ends : forall first ids, all_errors (check_sets first ends ids).
Proof.
  induction ends as [|last ends IH]; intros first ids; cbn [check_sets]; [reflexivity|].
  destruct (last <? first); [reflexivity|]. destruct (len ids <? last); [reflexivity|].
  pose proof (unique_errors (firstn (Z.to_nat (last - first)) (skipn (Z.to_nat first) ids))) as U.
  destruct (assert_ids_are_unique _) as [|i l]; [apply IH|exact U].
Qed.
Lemma check_idxs_errors ends : forall first size, all_errors (check_idxs first ends size).
Proof.
  induction ends as [|last ends IH]; intros first size; cbn [check_idxs]; [reflexivity|].
  destruct (last <? first); [reflexivity|]. destruct (size <? last); [reflexivity|]. apply IH.
Qed.

Lemma increasing_cons a b l : increasing (a :: b :: l) <-> a <= b /\ increasing (b :: l).
Proof.
  unfold increasing. split.
  - intros H. inversion H as [|? ? H1 H2]; subst. inversion H2; subst. split; assumption.
  - intros [L H]. constructor; [exact H|]. constructor; [exact L|]. inversion H as [|? ? H1 H2]; subst. eapply Forall_impl; [|exact H2]. cbn. intros; lia.
Qed.
Lemma increasing_one a : increasing [a]. Proof. repeat constructor. Qed.

Lemma check_idxs_ok ends : forall first size,
  check_idxs first ends size = [] <-> increasing (first :: ends) /\ Forall (fun e => e <= size) ends.
Proof.
  induction ends as [|last ends IH]; intros first size; cbn [check_idxs].
  - split; [intros _; split; [apply increasing_one|constructor]|reflexivity].
  - rewrite increasing_cons. destruct (Z.ltb_spec last first) as [L|L]; [split; [discriminate|lia]|].
    destruct (Z.ltb_spec size last) as [L'|L']; [split; [discriminate|intros [_ H]; inversion H; subst; lia]|].
    rewrite IH. split; [intros [H1 H2]; repeat split; auto|]. intros [[_ H1] H2]. inversion H2; subst. split; assumption.
Qed.
Lemma check_sets_ok ends : forall first ids,
  check_sets first ends ids = [] <-> increasing (first :: ends) /\ Forall (fun e => e <= len ids) ends /\
    forall k, (k < length ends)%nat -> NoDup (slice_of ids (nth k (first :: ends) 0) (nth k ends 0)).
Proof.
  induction ends as [|last ends IH]; intros first ids; cbn [check_sets].
  - split; [intros _; split; [apply increasing_one|]; split; [constructor|]; cbn; lia|reflexivity].
  - rewrite increasing_cons. destruct (Z.ltb_spec last first) as [L|L]; [split; [discriminate|lia]|].
    destruct (Z.ltb_spec (len ids) last) as [L'|L']; [split; [discriminate|intros [_ [H _]]; inversion H; subst; lia]|].
    pose proof (unique_none (firstn (Z.to_nat (last - first)) (skipn (Z.to_nat first) ids))) as U.
    destruct (assert_ids_are_unique _) as [|i l] eqn:EU.
    + apply proj1 in U. specialize (U eq_refl). rewrite IH. split.
      * intros [H1 [H2 H3]]. split; [split; assumption|]. split; [constructor; assumption|]. intros [|k] Hk; cbn [nth length] in *; [exact U|]. apply H3. lia.
      * intros [[_ H1] [H2 H3]]. inversion H2; subst. split; [assumption|]. split; [assumption|]. intros k Hk. specialize (H3 (S k)). cbn [nth length] in H3. apply H3. lia.
    + split; [discriminate|]. intros [_ [_ H3]]. specialize (H3 O). cbn [nth length] in H3. apply U in H3; [discriminate H3|lia].
Qed.

Lemma increasing_last l n : increasing (l ++ [n]) <-> increasing l /\ Forall (fun e => e <= n) l.
Proof.
  unfold increasing. induction l as [|a l IH]; cbn [app].
  - split; [intros _; split; constructor|intros _; repeat constructor].
  - split.
    + intros H. inversion H as [|? ? H1 H2]; subst. apply IH in H1 as [H3 H4]. apply Forall_app in H2 as [H5 H6]. inversion H6; subst.
      split; constructor; assumption.
    + intros [H1 H2]. inversion H1; subst. inversion H2; subst. constructor; [apply IH; split; assumption|]. apply Forall_app. split; [assumption|]. repeat constructor. assumption.
Qed.

Lemma nth_app_last (l : list Z) n k d : (k <= length l)%nat -> nth k (l ++ [n]) d = nth k l n.
Proof.
  revert k. induction l as [|a l IH]; intros [|k] H; cbn in *; try lia; auto. apply IH. lia.
Qed.

Lemma active_ids_ok t : errors_found (validate_active_ids (tr_sets t) (tr_ids t)) = false <->
  (tr_sets t = [] -> tr_ids t = []) /\ increasing (tr_sets t ++ [len (tr_ids t)]) /\ forall k, (k < length (tr_sets t))%nat -> NoDup (active_set t k).
Proof.
  unfold validate_active_ids. destruct (tr_sets t) as [|first rest] eqn:ES.
  - cbn [app length]. destruct (tr_ids t) as [|i l]; cbn; split.
    + intros _. split; [reflexivity|]. split; [apply increasing_one|lia].
    + reflexivity.
    + discriminate.
    + intros [H _]. specialize (H eq_refl). discriminate H.
  - rewrite all_errors_none by apply check_sets_errors. rewrite check_sets_ok. cbn [app]. split.
    + intros [H1 [H2 H3]]. split; [discriminate|]. split; [exact H1|]. intros k Hk. specialize (H3 k).
      rewrite app_length in H3. cbn [length] in *. specialize (H3 ltac:(lia)). change (first :: rest ++ [len (tr_ids t)]) with ((first :: rest) ++ [len (tr_ids t)]) in H3.
      rewrite nth_app_last in H3 by (cbn; lia). rewrite nth_app_last in H3 by lia. unfold active_set, set_last, set_first. rewrite ES. cbn [nth]. exact H3.
    + intros [_ [H1 H2]]. split; [exact H1|]. split.
      { change (first :: rest ++ [len (tr_ids t)]) with ((first :: rest) ++ [len (tr_ids t)]) in H1. apply increasing_last in H1 as [_ H1]. inversion H1; subst. apply Forall_app. split; [assumption|]. repeat constructor. lia. }
      intros k Hk. rewrite app_length in Hk. cbn [length] in *. specialize (H2 k ltac:(lia)).
      change (first :: rest ++ [len (tr_ids t)]) with ((first :: rest) ++ [len (tr_ids t)]). rewrite nth_app_last by (cbn; lia). rewrite nth_app_last by lia.
      unfold active_set, set_last, set_first in H2. rewrite ES in H2. exact H2.
Qed.

Lemma active_idxs_ok t : increasing (tr_sets t) -> errors_found (validate_active_object_idxs (tr_sets t) (tr_idxs t)) = false <->
  (tr_sets t = [] -> tr_idxs t = []) /\ (tr_idxs t <> [] -> Forall (fun first => first <= len (tr_idxs t)) (tr_sets t)).
Proof.
  intros HI. unfold validate_active_object_idxs. destruct (tr_sets t) as [|first rest] eqn:ES.
  - destruct (tr_idxs t) as [|i l]; cbn; split; try discriminate; auto; try tauto. intros [H _]. specialize (H eq_refl). discriminate H.
  - destruct (tr_idxs t) as [|i l]; [cbn; split; [|reflexivity]; intros _; split; [discriminate|congruence]|].
    rewrite all_errors_none by apply check_idxs_errors. rewrite check_idxs_ok. change (first :: rest ++ [len (i :: l)]) with ((first :: rest) ++ [len (i :: l)]). rewrite increasing_last. split.
    + intros [[_ H1] _]. split; [discriminate|]. intros _. exact H1.
    + intros [_ H]. specialize (H ltac:(discriminate)). split; [split; assumption|]. inversion H; subst. apply Forall_app. split; [assumption|]. repeat constructor. lia.
Qed.

Lemma is_known_in ids id : is_known ids id = true <-> In id ids.
Proof. unfold is_known. rewrite existsb_exists. split; [intros [x [H E]]; apply Z.eqb_eq in E; now subst|intros H; exists id; split; [exact H|apply Z.eqb_refl]]. Qed.
Lemma find_none_iff {A} (f : A -> bool) l : find f l = None <-> forall x, In x l -> f x = false.
Proof.
  split; [apply find_none|]. induction l as [|a l IH]; intros H; cbn; [reflexivity|]. rewrite (H a (or_introl eq_refl)). apply IH. intros x Hx. apply H. now right.
Qed.

Lemma tracker_ok ids t : errors_found (validate_object_tracker ids t) = false <-> consistent ids t.
Proof.
  unfold validate_object_tracker. rewrite !errors_app, unique_ok, active_ids_ok.
  assert (HK : errors_found match ids with [] => [] | _ :: _ => match find (fun id => negb (is_known ids id)) (tr_ids t) with Some id => [Error (UnknownID id)] | None => [] end end = false
    <-> (ids <> [] -> incl (tr_ids t) ids)).
  { destruct ids as [|i ids']; [cbn; tauto|]. set (ids := i :: ids'). pose proof (find_none_iff (fun id => negb (is_known ids id)) (tr_ids t)) as F.
    destruct (find _ (tr_ids t)) as [x|]; cbn.
    - split; [discriminate|]. intros H. exfalso. assert (Some x = None) by (apply F; intros y Hy; apply Bool.negb_false_iff, is_known_in, H; [discriminate|exact Hy]). discriminate.
    - split; [|reflexivity]. intros _ _ y Hy. apply is_known_in, Bool.negb_false_iff. now apply (proj1 F eq_refl). }
  rewrite HK. split.
  - intros [H1 [[H2 [H3 H4]] [H5 H6]]]. apply active_idxs_ok in H5; [|now apply increasing_last in H3]. destruct H5 as [H5 H7]. constructor; auto.
  - intros [H1 H2 H3 H4 H5 H6]. split; [exact H1|]. split; [split; [intros X; now apply H2|split; assumption]|]. split; [|exact H6].
    apply active_idxs_ok; [now apply increasing_last in H3|]. split; [intros X; now apply H2|exact H5].
Qed.
