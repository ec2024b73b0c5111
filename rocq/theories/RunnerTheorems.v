(** Property theorems: running Python models (C70).  [user]: what the methods of the user's model do to the user's state, given the time step and sample
    that it can ask for; these may fail. *)
From Coq Require Import Lia.
From Verif Require Import Common CommonProofs ArrayModel SimulateModel SimulateSpec SimulateProofs SimulateTheorems RunnerModel RunnerSpec RunnerProofs RunnerProofs2.

(** C70: running a static model calls initial, once. *)
Theorem C70_static :
  forall (S : Type) (user : user_method -> attributes -> S -> outcome S) rate_limit program calls m s,
  run_static rate_limit = Ok program -> calls_of program calls ->
  outcome_of (perform user StaticKind calls m s) = user Initial m s.
Proof.
  intros S user r prog calls m s E [es [st [R [T L]]]]. unfold run_static in E. destruct (r <? 0); [discriminate|].
  destruct (proj1 C32_calls_in_order 0 r prog es st E R) as [rest [Q N]]. rewrite (N T), app_nil_r in Q. rewrite <- L, <- Q, perform_static.
  destruct (user Initial m s); reflexivity.
Qed.
Print Assumptions C70_static.

(** C70: running a dynamic model calls initial, and then dynamic for each time step, in order, while currentTimeStep() is the number of that time step. *)
Theorem C70_dynamic :
  forall (S : Type) (user : user_method -> attributes -> S -> outcome S) n rate_limit program calls s,
  run_dynamic 1 n rate_limit = Ok program -> calls_of program calls ->
  outcome_of (perform user DynamicKind calls new_model s) = effect user (simulation 0 1 n) s.
Proof.
  intros S user n r prog calls s E [es [st [R [T L]]]]. unfold run_dynamic in E. destruct (Z.leb_spec 1 n) as [Hn|]; [|discriminate].
  cbn in E. destruct (r <? 0); [discriminate|].
  destruct (proj1 C32_calls_in_order n r prog es st E R) as [rest [Q N]]. rewrite (N T), app_nil_r in Q.
  rewrite <- L, <- Q, perform_deterministic by (congruence || lia). unfold outcome_of. cbn [new_model current_time_step current_sample].
  destruct (effect user _ s); reflexivity.
Qed.
Print Assumptions C70_dynamic.

(** C70: it is refused to start at another time step than the first one, and not to run any. *)
Theorem C70_dynamic_accepted :
  forall first n rate_limit, (exists program, run_dynamic first n rate_limit = Ok program) <-> first = 1 /\ 1 <= n /\ 0 <= rate_limit.
Proof.
  intros f n r. unfold run_dynamic. destruct (Z.eqb_spec f 1) as [->|N]; [|split; [intros [p H]; discriminate|lia]].
  change (1 <=? 1) with true. destruct (Z.leb_spec 1 n); cbn [negb andb orb]; [|split; [intros [p E]; discriminate|lia]].
  destruct (Z.ltb_spec r 0); [split; [intros [p E]; discriminate|lia]|]. unfold run_deterministic, simulate.
  destruct (Z.ltb_spec 0 n); [|lia]. destruct (Z.ltb_spec r 0); [lia|]. destruct (Z.ltb_spec n 1); [lia|]. cbn [orb obind].
  split; [lia|eauto].
Qed.
Print Assumptions C70_dynamic_accepted.

(** C70, stochastic models.  Full claim: premcloop is called once; then, for each sample, initial and dynamic for each time step, while currentSampleNumber()
    is the number of that sample; then postmcloop is called once.  currentTimeStep() is 0 in initial.
    Proved: all samples are simulated, in order, with these numbers in dynamic, and nothing else is called than as follows.  Not as claimed: premcloop is called before and after each sample, postmcloop is
    not called; in initial, currentTimeStep() is that of the last time step of the sample before. *)
Theorem C70_samples_partial :
  forall (S : Type) (user : user_method -> attributes -> S -> outcome S) samples n rate_limit program calls s,
  1 <= n -> run_monte_carlo StochasticKind samples n rate_limit = Ok program -> calls_of program calls ->
  outcome_of (perform user StochasticKind calls (prepared_for_samples new_model) s) =
  effect user (flat_map (fun k => sample_calls (if k =? 1 then 0 else n) k n PreLoop PreLoop) (zseq 1 samples)) s.
Proof.
  intros S user samples n r prog calls s Hn E [es [st [R [T L]]]]. unfold run_monte_carlo in E. destruct (r <? 0); [discriminate|].
  destruct (proj2 C32_calls_in_order samples n r prog es st E R) as [rest [Q N]]. rewrite (N T), app_nil_r in Q.
  rewrite <- L, <- Q. apply perform_stochastic. lia.
Qed.
Print Assumptions C70_samples_partial.

(** Recording the methods that are called, and the time step in initial *)
Definition record_methods (m : user_method) (_ : attributes) (s : list user_method) : outcome (list user_method) := Ok (s ++ [m]).
Definition record_initial (m : user_method) (a : attributes) (s : list Z) : outcome (list Z) :=
  Ok (match m with Initial => s ++ [current_time_step a] | _ => s end).

Lemma recorded l : forall s, effect record_methods l s = Ok (s ++ map uc_method l).
Proof. induction l as [|c l IH]; intros s; cbn [effect map]; [now rewrite app_nil_r|]. unfold record_methods at 1. cbn [obind]. rewrite IH, <- app_assoc. reflexivity. Qed.

(** C70, refuted: postmcloop is never called (post_monte_carlo calls premcloop), in any run. *)
Theorem C70_postmcloop_refuted :
  forall samples n rate_limit program calls, 1 <= n ->
  run_monte_carlo StochasticKind samples n rate_limit = Ok program -> calls_of program calls ->
  exists methods, outcome_of (perform record_methods StochasticKind calls (prepared_for_samples new_model) []) = Ok methods /\
    ~ In PostLoop methods /\ methods <> monte_carlo samples n.
Proof.
  intros samples n r prog calls Hn E C. rewrite (C70_samples_partial _ _ samples n r prog calls [] Hn E C), recorded. eexists. split; [reflexivity|].
  cbn [app]. assert (N : ~ In PostLoop (map uc_method (flat_map (fun k => sample_calls (if k =? 1 then 0 else n) k n PreLoop PreLoop) (zseq 1 samples)))).
  { intros H. apply in_map_iff in H. destruct H as [c [Hc H]]. apply in_flat_map in H. destruct H as [k [_ H]]. unfold sample_calls, simulation in H.
    destruct H as [<-|H]; [discriminate|]. apply in_app_or in H. destruct H as [[<-|H]|[<-|[]]]; try discriminate.
    apply in_map_iff in H. destruct H as [t [<- _]]. discriminate. }
  split; [exact N|]. intros H. apply N. rewrite H. unfold monte_carlo. apply in_or_app. right. apply in_or_app. right. now left.
Qed.
Print Assumptions C70_postmcloop_refuted.

(** A run: all time steps finish at once. *)
Definition prompt_sample (n : Z) : list event :=
  repeat Main 5 ++ flat_map (fun t => [Main; Finish t; Signal; Main; Main] ++ (if t =? n then [Main] else [])) (zseq 1 n) ++ repeat Main 5.
Definition prompt (samples n : Z) : list event := flat_map (fun _ => prompt_sample n) (zseq 1 samples).
Example C70_case : exists program, run_monte_carlo StochasticKind 2 3 1 = Ok program /\ calls_of program (expected_stochastic 2 3).
Proof. eexists. split; [reflexivity|]. eexists (prompt 2 3), _. vm_compute. repeat split. Qed.
Example C70_case_dynamic : exists program, run_dynamic 1 3 0 = Ok program /\ calls_of program (expected_deterministic 3).
Proof. eexists. split; [reflexivity|]. eexists (repeat Main 3 ++ skipn 5 (firstn 21 (prompt_sample 3)) ++ repeat Main 3), _. vm_compute. repeat split. Qed.
Example C70_case_static : exists program, run_static 0 = Ok program /\ calls_of program (expected_deterministic 0).
Proof. eexists. split; [reflexivity|]. eexists (repeat Main 4), _. vm_compute. repeat split. Qed.

(** C70, refuted: in initial of the second sample the current time step is the last one of the first sample. *)
Theorem C70_time_step_in_initial_refuted :
  exists program calls, run_monte_carlo StochasticKind 2 3 1 = Ok program /\ calls_of program calls /\
    outcome_of (perform record_initial StochasticKind calls (prepared_for_samples new_model) []) = Ok [0; 3].
Proof. destruct C70_case as [p [E C]]. exists p, (expected_stochastic 2 3). split; [exact E|]. split; [exact C|]. reflexivity. Qed.
Print Assumptions C70_time_step_in_initial_refuted.

(** C70, refuted: static stochastic models can not be run. *)
Theorem C70_static_samples_refuted : forall samples n rate_limit, run_monte_carlo StaticKind samples n rate_limit = Throw.
Proof. intros. unfold run_monte_carlo. destruct (rate_limit <? 0); reflexivity. Qed.
Print Assumptions C70_static_samples_refuted.

(** C70, refuted: a rate limit has no effect on models run by lue.pcraster.framework's DynamicFramework.  Whatever the limit, there is an execution in
    which the work of all time steps is unfinished at the same time. *)
Theorem C70_rate_limit_refuted :
  forall n rate_limit program, 1 <= n -> 0 <= rate_limit -> run_dynamic 1 n rate_limit = Ok program ->
  exists es st, pcr_run es (PcrState (sim_init program) []) = Some st /\ Z.of_nat (length (pw_work st)) = n /\ NoDup (pw_work st).
Proof. exact all_at_once. Qed.
Print Assumptions C70_rate_limit_refuted.

(** C70: each sample has a directory; what existing ones contain is removed if, and only if, that is asked for; nothing else is touched. *)
Theorem C70_sample_directories :
  forall (C : Type) nr_samples remove (names : Z -> entry C), (forall n, 1 <= n <= nr_samples -> names n <> AFile) ->
  exists names', initialize_sample_directories nr_samples remove names = Ok names' /\
    (forall n, 1 <= n <= nr_samples -> names' n = if remove then ADirectory [] else match names n with ADirectory c => ADirectory c | _ => ADirectory [] end) /\
    (forall n, ~ 1 <= n <= nr_samples -> names' n = names n).
Proof.
  intros C k remove names H. assert (I : forall n, In n (zseq 1 k) <-> 1 <= n <= k).
  { intros n. split; [intros Hn; apply in_zseq in Hn; lia|]. intros Hn. unfold zseq. apply in_map_iff. exists (Z.to_nat (n - 1)). split; [lia|]. apply in_seq. lia. }
  destruct (make_directories_ok remove (zseq 1 k) names (zseq_nodup 1 k)) as [names' [E [A B]]].
  { intros n Hn. apply H, I, Hn. }
  exists names'. split; [exact E|]. split; intros n Hn; [apply A, I, Hn|apply B; rewrite I; exact Hn].
Qed.
Print Assumptions C70_sample_directories.
(** C70: ... and if the name of one of these is that of a file, that is reported. *)
Theorem C70_sample_directories_refused :
  forall (C : Type) nr_samples remove (names : Z -> entry C) n, 1 <= n <= nr_samples -> names n = AFile -> initialize_sample_directories nr_samples remove names = Throw.
Proof.
  intros C k remove names n H A. unfold initialize_sample_directories.
  assert (I : In n (zseq 1 k)) by (unfold zseq; apply in_map_iff; exists (Z.to_nat (n - 1)); split; [lia|]; apply in_seq; lia).
  clear H. revert names A. induction (zseq 1 k) as [|m l IH]; intros names A; [destruct I|]. cbn [make_directories]. destruct I as [-> |I]; [rewrite A; reflexivity|].
  destruct (Z.eqb_spec n m) as [->|N]; [rewrite A; reflexivity|].
  destruct (make_directory remove (names m)) as [e| |] eqn:Q; [|reflexivity|destruct (names m); discriminate]. cbn [obind]. apply (IH I). destruct (Z.eqb_spec n m); [contradiction|exact A].
Qed.
Print Assumptions C70_sample_directories_refused.
Example C70_case_directories :
  match initialize_sample_directories 2 false (fun n => if n =? 1 then ADirectory [7] else Nothing) with
  | Ok names => names 1 = ADirectory [7] /\ names 2 = ADirectory [] /\ names 3 = Nothing
  | _ => False
  end.
Proof. repeat split. Qed.
