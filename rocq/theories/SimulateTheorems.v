(** C32: simulations. *)
From Verif Require Import Common CommonProofs ArrayModel SimulateModel SimulateSpec SimulateProofs.

(** The programs of the calling thread: run_deterministic or run_stochastic with [n] time steps and rate limit [r]. *)
Definition runs (n r : Z) (prog : list command) : Prop := run_deterministic n r = Ok prog \/ exists samples, run_stochastic samples n r = Ok prog.

Definition rate_limit_holds : Prop := forall n r prog es s, 1 <= n -> 0 <= r -> runs n r prog -> sim_run es (sim_init prog) = Some s ->
  Z.of_nat (length (in_flight s)) <= effective_limit n r.

(** C32.  Missing: until the first time step has finished there can be one time step more in flight; see [C32_rate_limit_refuted]. *)
Theorem C32_rate_limit_partial : forall n r prog es s, 1 <= n -> 0 <= r -> runs n r prog -> sim_run es (sim_init prog) = Some s ->
  Z.of_nat (length (in_flight s)) <= effective_limit n r + 1 /\
  (In 1 (ss_finished s) -> Z.of_nat (length (in_flight s)) <= effective_limit n r).
Proof. exact rate_limit. Qed.
Print Assumptions C32_rate_limit_partial.

(** The code as it is exceeds the rate limit in the beginning. *)
Theorem C32_rate_limit_refuted : ~ rate_limit_holds.
Proof.
  intros H. destruct (run_deterministic 2 1) as [prog| |] eqn:E; try discriminate.
  destruct (sim_run (repeat Main 7) (sim_init prog)) as [s|] eqn:R; [|injection E as <-; discriminate].
  specialize (H 2 1 prog (repeat Main 7) s ltac:(lia) ltac:(lia) (or_introl E) R). injection E as <-. injection R as <-. cbn in H. lia.
Qed.
Print Assumptions C32_rate_limit_refuted.

(** C32: calls are made in order, and all of them when the run is done. *)
Theorem C32_calls_in_order :
  (forall n r prog es s, run_deterministic n r = Ok prog -> sim_run es (sim_init prog) = Some s ->
    exists rest, expected_deterministic n = ss_log s ++ rest /\ (ss_todo s = [] -> rest = [])) /\
  (forall samples n r prog es s, run_stochastic samples n r = Ok prog -> sim_run es (sim_init prog) = Some s ->
    exists rest, expected_stochastic samples n = ss_log s ++ rest /\ (ss_todo s = [] -> rest = [])).
Proof.
  split.
  - intros n r prog es s E H. rewrite <- (calls_deterministic n r prog E). now apply in_order with es.
  - intros samples n r prog es s E H. rewrite <- (calls_stochastic samples n r prog E). now apply in_order with es.
Qed.
Print Assumptions C32_calls_in_order.

(** C32: when another function than the time steps' ones is about to be called, or the run is done, all time steps have finished; and no continuation uses
    a semaphore that is gone. *)
Theorem C32_time_steps_finish_first : forall n r prog es s, 1 <= n -> 0 <= r -> runs n r prog -> sim_run es (sim_init prog) = Some s ->
  ss_dangling s = false /\
  (ss_todo s = [] \/ (exists c rest, ss_todo s = Call c :: rest /\ forall t, c <> SimulateProgressor t) -> in_flight s = []).
Proof. exact nothing_left. Qed.
Print Assumptions C32_time_steps_finish_first.

(** C32: a run is done after a bounded number of events, if time steps finish. *)
Theorem C32_run_ends : forall n r prog, 1 <= n -> 0 <= r -> runs n r prog -> exists bound, forall es s, sim_run es (sim_init prog) = Some s ->
  (length es <= bound)%nat /\ (ss_todo s <> [] -> exists e s', sim_step e s = Some s').
Proof. exact ends. Qed.
Print Assumptions C32_run_ends.

(** A run with three time steps that finish in another order, with rate limit 2 *)
Definition sim_ex_events : list event :=
  repeat Main 9 ++ [Finish 2; Main; Finish 1; Signal; Signal; Main; Main; Finish 3; Signal] ++ repeat Main 4.
Example C32_ex : exists prog s, run_deterministic 3 2 = Ok prog /\ sim_run sim_ex_events (sim_init prog) = Some s /\ ss_todo s = [] /\ ss_log s = expected_deterministic 3.
Proof. eexists. eexists. split; [reflexivity|]. split; [vm_compute; reflexivity|]. split; reflexivity. Qed.
