(** Proofs about the serializer (C41). *)
From Coq Require Import Permutation.
From Verif Require Import Common IOOrderModel IOOrderSpec.

Lemma set_gen_length : forall s k v, length (set_generation k v s) = length s.
Proof. induction s as [|x s IH]; intros [|k] v; cbn; auto. Qed.
Lemma set_gen_same : forall s k v, (k < length s)%nat -> nth_error (set_generation k v s) k = Some v.
Proof. induction s as [|x s IH]; intros [|k] v H; cbn in *; try lia; auto. apply IH. lia. Qed.
Lemma set_gen_other : forall s k v j, j <> k -> nth_error (set_generation k v s) j = nth_error s j.
Proof. induction s as [|x s IH]; intros [|k] v [|j] H; cbn in *; try congruence; auto. Qed.

(** The state after the requests [rq] and the runs [1 .. r]. *)
Record tinv (rq : list nat) (s : tasks_state) : Prop := {
  ti_runs : t_runs s = seq 1 (length (t_runs s));
  ti_done : forall g, In g (t_runs s) -> In g rq;
  ti_waiting : forall g, In g (t_waiting s) <-> In g rq /\ ~ In g (t_runs s);
  ti_useful : t_useless s = false;
  ti_len : forall g, In g rq -> (g < length (t_serializer s))%nat;
  ti_gen : forall k x, nth_error (t_serializer s) k = Some x ->
      (g_ready x = true <-> k = 0%nat \/ In k (t_runs s)) /\ (g_promise x = true <-> k <> 0%nat /\ ~ In k rq)
}.

Lemma tinv_init : tinv [] tasks_init.
Proof.
  split; cbn; try tauto; try reflexivity. intros k x H. destruct k; discriminate.
Qed.

Lemma add_gen_nth : forall s g k x, nth_error (add_generations s g) k = Some x ->
  nth_error s k = Some x \/ (nth_error s k = None /\ ((k = 0%nat /\ x = Generation false true) \/ (k <> 0%nat /\ x = Generation true false))).
Proof.
  intros s g k x H. unfold add_generations in H. destruct s as [|y s].
  - right. split; [destruct k; reflexivity|]. destruct k as [|k]; cbn in H; [left; split; congruence|].
    right. split; [lia|]. apply nth_error_In in H. apply repeat_spec in H. assumption.
  - destruct (Nat.lt_ge_cases k (length (y :: s))) as [A|A].
    + rewrite nth_error_app1 in H by assumption. left. assumption.
    + rewrite nth_error_app2 in H by assumption. right. split; [apply nth_error_None; assumption|]. right. split; [cbn in A; lia|].
      apply nth_error_In in H. apply repeat_spec in H. assumption.
Qed.
Lemma add_gen_length : forall s g, (g < length (add_generations s g))%nat /\ (length s <= length (add_generations s g))%nat.
Proof.
  intros s g. unfold add_generations. destruct s as [|y s]; rewrite app_length, repeat_length; cbn [length]; lia.
Qed.

Lemma in_seq1 : forall r k, In k (seq 1 r) <-> (1 <= k <= r)%nat.
Proof. intros r k. rewrite in_seq. lia. Qed.

Lemma tinv_request : forall rq s g, tinv rq s -> ~ In g rq -> g <> 0%nat -> exists s', task_step (Request g) s = Ok (Some s') /\ tinv (g :: rq) s' /\ t_runs s' = t_runs s.
Proof.
  intros rq s g H Hn Hg. destruct H as [I1 I2 I3 I4 I5 I6]. unfold task_step, promise_for. destruct g as [|g']; [congruence|]. set (g := S g') in *.
  pose proof (add_gen_length (t_serializer s) g) as [A B]. destruct (nth_error (add_generations (t_serializer s) g) g) as [x|] eqn:Ex; [|apply nth_error_None in Ex; lia].
  cbn [obind]. assert (Hx : g_promise x = true /\ g_ready x = false).
  { destruct (add_gen_nth _ _ _ _ Ex) as [C|[_ [[C _]|[_ ->]]]]; [|congruence|split; reflexivity].
    destruct (I6 _ _ C) as [P Q]. split; [apply Q; split; assumption|]. destruct (g_ready x); [|reflexivity]. destruct (proj1 P eq_refl) as [D|D]; [congruence|]. elim Hn. apply I2. assumption. }
  destruct Hx as [Hp Hr]. rewrite Hp, Hr. unfold when_predecessor_done. fold g. unfold g at 1. unfold when_done.
  assert (Hpred : nth_error (set_generation g (Generation false false) (add_generations (t_serializer s) g)) g' <> None).
  { apply nth_error_Some. rewrite set_gen_length. unfold g in *. lia. }
  destruct (nth_error (set_generation g _ _) g') as [y|]; [|congruence]. cbn [obind]. eexists. split; [reflexivity|]. split; [|reflexivity].
  split; cbn [t_runs t_waiting t_serializer t_useless].
  - assumption.
  - intros h Hh. right. apply I2. assumption.
  - intros h. cbn [In]. rewrite I3. split.
    + intros [E|[C D]]; [|tauto]. subst h. split; [left; reflexivity|]. intros D. apply Hn. apply I2. assumption.
    + intros [[E|C] D]; [left; assumption|right; tauto].
  - rewrite I4. reflexivity.
  - intros h [E|Hh]; rewrite set_gen_length; [subst h; assumption|]. specialize (I5 _ Hh). lia.
  - intros k z Hz. destruct (Nat.eq_dec k g) as [->|Hk].
    + rewrite set_gen_same in Hz by assumption. injection Hz as <-. cbn. split; split; intros C; try discriminate.
      * destruct C as [C|C]; [unfold g in C; congruence|]. elim Hn. apply I2. assumption.
      * elim (proj2 C). left. reflexivity.
    + rewrite set_gen_other in Hz by assumption. assert (W : ~ In k (g :: rq) <-> ~ In k rq) by (cbn [In]; split; [tauto|intros C [D|D]; congruence || tauto]).
      rewrite W. destruct (add_gen_nth _ _ _ _ Hz) as [C|[C [[-> ->]|[D ->]]]]; [exact (I6 _ _ C)|cbn; split; [tauto|split; [discriminate|tauto]]|].
      cbn. assert (X : ~ In k rq). { intros Y. specialize (I5 _ Y). apply nth_error_None in C. lia. }
      split; [|tauto]. split; [discriminate|]. intros [Y|Y]; [congruence|]. elim X. apply I2. assumption.
Qed.

Lemma existsb_in : forall g l, existsb (Nat.eqb g) l = true <-> In g l.
Proof. intros g l. rewrite existsb_exists. split; [intros [x [A B]]; apply Nat.eqb_eq in B; subst; assumption|intros H; exists g; split; [assumption|apply Nat.eqb_refl]]. Qed.

Lemma tinv_run : forall rq s g, tinv rq s -> ~ In 0%nat rq ->
  (exists s', task_step (Run g) s = Ok (Some s') /\ tinv rq s' /\ t_runs s' = t_runs s ++ [g] /\ g = S (length (t_runs s)) /\ In g rq) \/
  (task_step (Run g) s = Ok None /\ ~ (g = S (length (t_runs s)) /\ In g rq)).
Proof.
  intros rq s g H H0. destruct H as [I1 I2 I3 I4 I5 I6]. unfold task_step. destruct (existsb (Nat.eqb g) (t_waiting s)) eqn:E.
  - apply existsb_in in E. apply I3 in E. destruct E as [Hin Hnr]. destruct g as [|g']; [contradiction|]. cbn [when_predecessor_done]. unfold when_done.
    specialize (I5 _ Hin) as Hlen. destruct (nth_error (t_serializer s) g') as [y|] eqn:Ey; [|apply nth_error_None in Ey; lia]. cbn [obind].
    destruct (I6 _ _ Ey) as [P Q]. rewrite I1, in_seq1 in Hnr. destruct (g_ready y) eqn:Er.
    + assert (Hg : g' = length (t_runs s)). { destruct (proj1 P eq_refl) as [C|C]; [subst g'; lia|]. rewrite I1, in_seq1 in C. lia. }
      left. eexists. split; [reflexivity|]. split; [|split; [reflexivity|split; [congruence|assumption]]].
      assert (Hr : t_runs s ++ [S g'] = seq 1 (length (t_runs s ++ [S g']))). { rewrite app_length, Nat.add_comm. cbn [length Nat.add]. rewrite seq_S. cbn [Nat.add]. rewrite <- I1. congruence. }
      split; cbn [t_runs t_waiting t_serializer t_useless].
      * assumption.
      * intros h Hh. apply in_app_or in Hh. destruct Hh as [Hh|[<-|[]]]; [apply I2|]; assumption.
      * intros h. rewrite filter_In, I3, in_app_iff. cbn [In]. destruct (Nat.eqb_spec h (S g')) as [->|C]; cbn [negb]; split; intros D; try tauto.
        -- destruct D; discriminate.
        -- destruct D as [[D1 D2] _]. split; [assumption|]. intros [F|[F|[]]]; [contradiction|congruence].
      * assumption.
      * intros h Hh. rewrite set_gen_length. apply I5. assumption.
      * intros k z Hz. rewrite in_app_iff. cbn [In]. destruct (Nat.eq_dec k (S g')) as [->|Hk].
        -- rewrite set_gen_same in Hz by assumption. injection Hz as <-. cbn. split; [tauto|]. split; [discriminate|tauto].
        -- rewrite set_gen_other in Hz by assumption. destruct (I6 _ _ Hz) as [P' Q']. split; [|assumption]. rewrite P'. split; [tauto|]. intros [C|[C|[C|[]]]]; [tauto|tauto|congruence].
    + right. split; [reflexivity|]. intros [C _]. assert (Z : false = true); [|discriminate]. apply P. rewrite I1, in_seq1. destruct g'; [left; reflexivity|right; lia].
  - right. split; [reflexivity|]. intros [C D]. assert (X : existsb (Nat.eqb g) (t_waiting s) = true); [|congruence]. apply existsb_in. apply I3. split; [assumption|].
    rewrite I1, in_seq1. lia.
Qed.

Lemma requests_cons : forall e es, requests (e :: es) = (match e with Request g => [g] | Run _ => [] end) ++ requests es.
Proof. reflexivity. Qed.

Lemma task_run_ok : forall es rq s, tinv rq s -> NoDup (rev rq ++ requests es) -> ~ In 0%nat (rev rq ++ requests es) ->
  task_run es s = Ok None \/ (exists s', task_run es s = Ok (Some s') /\ tinv (rev (requests es) ++ rq) s').
Proof.
  induction es as [|e es IH]; intros rq s H Hn H0.
  - right. exists s. split; [reflexivity|]. exact H.
  - rewrite requests_cons in *. destruct e as [g|g].
    + destruct (tinv_request rq s g H) as [s' [E [I _]]].
      * cbn [app] in Hn. apply NoDup_remove_2 in Hn. intros C. apply Hn. apply in_or_app. left. apply in_rev in C. assumption.
      * intros ->. apply H0. apply in_or_app. right. left. reflexivity.
      * destruct (IH (g :: rq) s' I) as [F|[s2 [F G]]].
        -- cbn [rev]. rewrite <- app_assoc. assumption.
        -- cbn [rev]. rewrite <- app_assoc. assumption.
        -- left. cbn [task_run]. rewrite E. assumption.
        -- right. exists s2. split; [cbn [task_run]; rewrite E; assumption|]. cbn [app rev]. rewrite <- app_assoc. assumption.
    + cbn [app] in *. destruct (tinv_run rq s g H) as [[s' [E [I _]]]|[E _]].
      * intros C. apply H0. apply in_or_app. left. apply in_rev in C. assumption.
      * destruct (IH rq s' I Hn H0) as [F|[s2 [F G]]]; [left|right; exists s2; split; [|assumption]]; cbn [task_run]; rewrite E; assumption.
      * left. cbn [task_run]. rewrite E. reflexivity.
Qed.

Lemma serializer_run : forall es, well_numbered es -> task_run es tasks_init = Ok None \/
  (exists s, task_run es tasks_init = Ok (Some s) /\ tinv (rev (requests es)) s).
Proof.
  intros es [A B]. destruct (task_run_ok es [] tasks_init tinv_init A B) as [H|[s [E I]]]; [left; assumption|right]. exists s. split; [assumption|]. rewrite app_nil_r in I. assumption.
Qed.
