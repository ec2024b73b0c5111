(** C41: tasks run in the order of their generation; C42: reading and writing a dataset has the effect of executing the calls one after the other. *)
From Coq Require Import Permutation.
From Verif Require Import Common IOOrderModel IOOrderSpec IOOrderProofs IOOrderProofs2.

(** C41: in whatever order generations are asked for, the tasks run in the order 1, 2, 3, ..., each promise can be used and nothing undefined happens. *)
Theorem C41_in_order : forall es, well_numbered es ->
  task_run es tasks_init <> UB /\ task_run es tasks_init <> Throw /\
  forall s, task_run es tasks_init = Ok (Some s) ->
    t_runs s = seq 1 (length (t_runs s)) /\ (forall g, In g (t_runs s) -> In g (requests es)) /\ t_useless s = false.
Proof.
  intros es H. destruct (serializer_run es H) as [E|[s [E I]]]; rewrite E; (split; [discriminate|split; [discriminate|]]); intros s' Es; [discriminate|].
  injection Es as <-. destruct I as [I1 I2 _ I4 _ _]. split; [assumption|]. split; [|assumption]. intros g Hg. apply in_rev. apply I2. assumption.
Qed.
Print Assumptions C41_in_order.

(** C41: once the generations 1 .. n have been asked for, the next one can run, until all have run. *)
Theorem C41_no_deadlock : forall es n s, well_numbered es -> Permutation (requests es) (seq 1 n) -> task_run es tasks_init = Ok (Some s) ->
  (length (t_runs s) <= n)%nat /\
  ((length (t_runs s) < n)%nat -> exists s', task_step (Run (S (length (t_runs s)))) s = Ok (Some s') /\ t_runs s' = seq 1 (S (length (t_runs s)))).
Proof.
  intros es n s H Hp E. destruct (serializer_run es H) as [E'|[s1 [E' I]]]; rewrite E in E'; [discriminate|]. injection E' as <-.
  assert (W : forall g, In g (rev (requests es)) <-> (1 <= g <= n)%nat).
  { intros g. rewrite <- in_rev. split; intros X; [eapply Permutation_in in X; [|exact Hp]; apply in_seq in X; lia|]. eapply Permutation_in; [apply Permutation_sym; exact Hp|apply in_seq; lia]. }
  pose proof (ti_runs _ _ I) as R. split.
  - destruct (length (t_runs s)) as [|r] eqn:El; [lia|]. destruct (proj1 (W (S r))); [|assumption]. apply (ti_done _ _ I). rewrite R. apply in_seq. lia.
  - intros Hlt. destruct (tinv_run (rev (requests es)) s (S (length (t_runs s))) I) as [[s' [A [B [C _]]]]|[_ A]].
    + intros X. apply W in X. lia.
    + exists s'. split; [assumption|]. rewrite C, seq_S. cbn [Nat.add]. rewrite <- R. reflexivity.
    + elim A. split; [reflexivity|]. apply W. lia.
Qed.
Print Assumptions C41_no_deadlock.

(** Generations 2, 3 and 1 are asked for in this order. *)
Example C41_ex :
  well_numbered [Request 2; Request 3; Request 1] /\
  (exists s, task_run [Request 2; Request 3; Request 1; Run 1; Run 2] tasks_init = Ok (Some s) /\ t_runs s = [1%nat; 2%nat] /\ t_waiting s = [3%nat]) /\
  task_run [Request 2; Run 2] tasks_init = Ok None /\ task_run [Request 0] tasks_init = UB /\
  (exists s, task_run [Request 1; Request 1] tasks_init = Ok (Some s) /\ t_useless s = true) /\
  Permutation (requests [Request 2; Request 3; Request 1]) (seq 1 3).
Proof.
  split; [split; [|vm_compute; intuition discriminate]; repeat constructor; vm_compute; intuition discriminate|].
  split; [eexists; repeat split; reflexivity|]. split; [reflexivity|]. split; [reflexivity|]. split; [eexists; split; reflexivity|].
  cbn. apply Permutation_sym. apply Permutation_cons_app with (l1 := [2%nat; 3%nat]) (l2 := []). apply Permutation_refl.
Qed.

(** C42, full statement: in every execution each read sees the effect of exactly the writes before it, as if calls were executed one after the other.
    It does not hold (C42_sequential_refuted); proved here for builds with HDF5 that is not thread-safe, and for programs in which each read of a time
    step is separated from the read before it by a write. *)
Theorem C42_sequential_partial : forall (F : Type) thread_safe nr_localities calls (effect : nat -> nat -> F -> F) f es s x,
  thread_safe = false \/ reads_apart calls ->
  history thread_safe nr_localities calls effect es io_init (f, []) = Some (s, x) ->
  (forall c l v, In (c, l, v) (snd x) -> v = sequentially nr_localities calls effect c f) /\
  (all_done nr_localities calls s -> fst x = sequentially nr_localities calls effect (length calls) f /\
     forall c l v, nth_error calls c = Some (FromLue, v) -> (l < nr_localities)%nat -> exists v', In (c, l, v') (snd x)).
Proof. intros F ts L calls effect f es s x H E. eapply history_ok; eassumption. Qed.
Print Assumptions C42_sequential_partial.

(** C42: a call is sent to a locality only once all localities are done with all earlier calls it conflicts with. *)
Theorem C42_exclusive_partial : forall thread_safe nr_localities calls es s c1 c2 k1 k2 l1 l2,
  thread_safe = false \/ reads_apart calls ->
  io_run thread_safe nr_localities calls es io_init = Some s ->
  (c1 < c2)%nat -> nth_error calls c1 = Some k1 -> nth_error calls c2 = Some k2 -> is_write k1 = true \/ is_write k2 = true ->
  (l1 < nr_localities)%nat -> s c2 l2 <> NotStarted -> s c1 l1 = Closed.
Proof.
  intros ts L calls es s c1 c2 k1 k2 l1 l2 Hr E Hc E1 E2 Hw Hl H.
  exact (conflicts_ordered ts L calls Hr s (passed_run ts L calls es _ _ (passed_init ts L calls) E) c1 c2 k1 k2 l2 Hc E1 E2 Hw H l1 Hl).
Qed.
Print Assumptions C42_exclusive_partial.

(** C42: the assertions in the tasks hold. *)
Theorem C42_assertions_partial : forall thread_safe nr_localities calls es s c l,
  thread_safe = false \/ reads_apart calls ->
  io_run thread_safe nr_localities calls es io_init = Some s -> assertions thread_safe calls c l s = true.
Proof. intros ts L calls es s c l Hr E. exact (assertions_hold ts L calls Hr s (passed_run ts L calls es _ _ (passed_init ts L calls) E) c l). Qed.
Print Assumptions C42_assertions_partial.

(** C42: no deadlock, whatever the program and the build: an execution goes on until all calls are done, after at most four steps per call and locality. *)
Theorem C42_no_deadlock : forall thread_safe nr_localities calls es s,
  io_run thread_safe nr_localities calls es io_init = Some s ->
  (length es <= 4 * nr_localities * length calls)%nat /\
  (all_done nr_localities calls s \/ exists c l s', io_step thread_safe nr_localities calls c l s = Some s').
Proof.
  intros ts L calls es s E. split; [|apply some_step]. pose proof (run_length _ _ _ _ _ _ E). pose proof (total_bound L (length calls) s). lia.
Qed.
Print Assumptions C42_no_deadlock.

(** C42: two reads of time steps followed by a write, with thread-safe HDF5: the first read can see what the last call writes, because a write waits
    for the last read only, and a read of a time step closes the dataset without waiting for the read before it.  The assertion that the earlier read
    is done (from_lue.hpp:432) fails then. *)
Definition two_reads_and_a_write : list io_call := [(FromLue, VariableValue); (FromLue, VariableValue); (ToLue, VariableValue)].
Definition overtaking : list (nat * nat) := [(0, 0); (0, 0); (1, 0); (1, 0); (1, 0); (1, 0); (2, 0); (2, 0); (2, 0); (2, 0); (0, 0); (0, 0)]%nat.
Theorem C42_sequential_refuted : exists s x,
  history true 1 two_reads_and_a_write (fun c _ _ => c) overtaking io_init (99%nat, []) = Some (s, x) /\ all_done 1 two_reads_and_a_write s /\
  In (0, 0, 2)%nat (snd x) /\ sequentially 1 two_reads_and_a_write (fun c _ _ => c) 0 99%nat = 99%nat /\
  (exists s', io_run true 1 two_reads_and_a_write (firstn 5 overtaking) io_init = Some s' /\ assertions true two_reads_and_a_write 1 0 s' = false).
Proof.
  destruct (history true 1 two_reads_and_a_write (fun c _ _ => c) overtaking io_init (99%nat, [])) as [[s x]|] eqn:E; [|vm_compute in E; discriminate].
  exists s, x. split; [reflexivity|].
  assert (D : match history true 1 two_reads_and_a_write (fun c _ _ => c) overtaking io_init (99%nat, []) with
              | Some (s, x) => (s 0 0, s 1 0, s 2 0, snd x) = (Closed, Closed, Closed, [(0, 0, 2); (1, 0, 99)])
              | None => False end%nat) by (vm_compute; reflexivity).
  rewrite E in D. injection D as D0 D1 D2 D3. split; [|split; [|split; [reflexivity|]]].
  - intros c Hc l Hl. destruct l; [|lia]. destruct c as [|[|[|c]]]; cbn in Hc; try lia; assumption.
  - rewrite D3. left. reflexivity.
  - destruct (io_run true 1 two_reads_and_a_write (firstn 5 overtaking) io_init) as [s'|] eqn:E'; [|vm_compute in E'; discriminate]. exists s'. split; [reflexivity|].
    assert (A : match io_run true 1 two_reads_and_a_write (firstn 5 overtaking) io_init with Some s' => assertions true two_reads_and_a_write 1 0 s' = false | None => False end) by (vm_compute; reflexivity).
    rewrite E' in A. exact A.
Qed.
Print Assumptions C42_sequential_refuted.

(** A program that meets the condition: write, read, write, read, at two localities; effects: the writers. *)
Definition write_read_twice : list io_call := [(ToLue, ConstantValue); (FromLue, VariableValue); (ToLue, VariableValue); (FromLue, VariableValue)].
Definition steps_of (c l : nat) : list (nat * nat) := repeat (c, l) 4.
Definition two_localities : list (nat * nat) :=
  steps_of 0 0 ++ steps_of 0 1 ++ [(1, 1); (1, 0); (1, 0); (1, 1); (1, 1); (1, 1); (1, 0); (1, 0)]%nat ++ steps_of 2 0 ++ steps_of 2 1 ++ steps_of 3 1 ++ steps_of 3 0.
Example C42_ex :
  reads_apart write_read_twice /\
  match history true 2 write_read_twice (fun c l f => f ++ [(c, l)]) two_localities io_init ([], []) with
  | Some (s, x) => x = ([(0, 0); (0, 1); (2, 0); (2, 1)], [(3, 0, [(0, 0); (0, 1); (2, 0); (2, 1)]); (3, 1, [(0, 0); (0, 1); (2, 0); (2, 1)]); (1, 0, [(0, 0); (0, 1)]); (1, 1, [(0, 0); (0, 1)])])%nat
                   /\ map (fun c => map (s c) [0%nat; 1%nat]) [0; 1; 2; 3]%nat = repeat [Closed; Closed] 4
  | None => False
  end /\
  io_run true 2 write_read_twice [(0, 1)%nat] io_init = None /\ length two_localities = (4 * 2 * 4)%nat.
Proof.
  split; [|split; [vm_compute; split; reflexivity|split; reflexivity]].
  intros c1 c2 v Hc E1 E2. destruct c2 as [|[|[|[|c2]]]]; try discriminate; [| |destruct c2; discriminate].
  - destruct c1 as [|c1]; [discriminate|lia].
  - destruct c1 as [|[|[|c1]]]; try discriminate; [|lia]. exists 2%nat, VariableValue. split; [lia|reflexivity].
Qed.
