(** Property theorems: the jobs of strong and weak scalability experiments (C85). *)
From Verif Require Import Common PoolModel BenchModel BenchProofs.
Open Scope Z_scope.

(** A cluster as it is described: each part has at least one of each smaller part. *)
Definition described (c : cluster) : Prop :=
  1 <= nr_cluster_nodes c /\ 1 <= nr_packages c /\ 1 <= numa_nodes_per_package c /\ 1 <= cores_per_numa_node c /\ 1 <= threads_per_core c /\ 0 <= memory_per_numa_node c.

(** C85.  An experiment is accepted if, and only if, the pool results in at least two numbers of workers, and the largest one is not larger than what there
    is: the number of cores in a NUMA node or in a cluster node, the number of NUMA nodes in a cluster node, or the number of cluster nodes.  NUMA nodes and
    cluster nodes can only be added if there is a process per NUMA node.  The jobs of strong and weak scalability experiments
    that are submitted then are these, with a job step for each number of
    workers, in the order of the pool. *)
Theorem C85_jobs :
  forall kind (c : cluster) t (d : pool_data) l, described c ->
  let numa_nodes := nr_packages c * numa_nodes_per_package c in
  let cores := numa_nodes * cores_per_numa_node c in
  let accepted p :=
    pool_of_data d = Ok p /\ pool_min_size p < pool_max_size p /\
    match t, l with
    | Thread, PerNumaNode => pool_max_size p <= cores_per_numa_node c
    | Thread, PerClusterNode => pool_max_size p <= cores
    | NumaNode, PerNumaNode => pool_max_size p <= numa_nodes
    | ClusterNode, PerNumaNode => pool_max_size p <= nr_cluster_nodes c
    | _, PerClusterNode => False
    end in
  (forall p, accepted p ->
     exists n workers, nr_benchmarks p = Ok n /\ 2 <= n /\ map (nr_workers p) (zseq 0 n) = map Ok workers /\
     slurm_jobs kind t d c l = Ok
       match t with
       | Thread =>
           [Job 1 1
              (match l with PerNumaNode => cores_per_numa_node c * threads_per_core c | PerClusterNode => cores * threads_per_core c end)
              (Some match l with PerNumaNode => memory_per_numa_node c | PerClusterNode => numa_nodes * memory_per_numa_node c end)
              false (map (fun w => Step w 1 w (w =? 1)) workers)]
       | NumaNode =>
           map (fun w => Job 1 w (cores_per_numa_node c * threads_per_core c) 
               (Some match kind with Strong => numa_nodes * memory_per_numa_node c | Weak => w * memory_per_numa_node c end)
               (match kind with Strong => true | Weak => false end) [Step w w (cores_per_numa_node c) false]) workers
       | ClusterNode =>
           map (fun w => Job w (w * numa_nodes) (cores_per_numa_node c * threads_per_core c) None false [Step w (w * numa_nodes) (cores_per_numa_node c) false]) workers
       end) /\
  (~ (exists p, accepted p) -> slurm_jobs kind t d c l = Throw).
Proof.
  intros kind c t d l (HN & HP & HU & HC & _ & _) numa_nodes cores accepted.
  assert (EC : node_cores c = cores) by (unfold node_cores, cores, numa_nodes; lia).
  assert (EX : forall p, pool_of_data d = Ok p -> exists n vs, nr_benchmarks p = Ok n /\ (pool_min_size p < pool_max_size p <-> 2 <= n) /\ map (nr_workers p) (zseq 0 n) = map (@Ok Z) vs /\ 1 <= pool_min_size p /\
     slurm_jobs kind t d c l = if (pool_min_size p <? pool_max_size p) && (pool_max_size p <=? room c t l) then Ok (the_jobs c kind t l vs) else Throw).
  { intros p E. destruct (pool_values d p E) as [n [vs [EN [S [EV [H1 HV]]]]]]. exists n, vs. split; [exact EN|]. split; [exact S|]. split; [|split; [exact H1|]].
    - rewrite <- EV. reflexivity.
    - exact (jobs_exact c HP HU HC kind t d l p n vs E EN EV HV). }
  assert (ER : forall p, 1 <= pool_min_size p -> pool_min_size p < pool_max_size p ->
     (match t, l with Thread, PerNumaNode => pool_max_size p <= cores_per_numa_node c | Thread, PerClusterNode => pool_max_size p <= cores | NumaNode, PerNumaNode => pool_max_size p <= numa_nodes
      | ClusterNode, PerNumaNode => pool_max_size p <= nr_cluster_nodes c | _, PerClusterNode => False end <-> pool_max_size p <= room c t l)).
  { intros p H H'. unfold room. rewrite EC. change (node_numa_nodes c) with numa_nodes. destruct t, l; split; intros; try lia; try tauto. }
  split.
  - intros p (E & LT & A). destruct (EX p E) as [n [vs [EN [S [EV [H1 EJ]]]]]]. exists n, vs. split; [exact EN|]. split; [now apply S|]. split; [exact EV|]. rewrite EJ.
    destruct (Z.ltb_spec (pool_min_size p) (pool_max_size p)); [|lia]. apply ER in A; [|assumption..]. destruct (Z.leb_spec (pool_max_size p) (room c t l)); [|lia]. cbn [andb]. f_equal.
    assert (ET : node_threads c = cores * threads_per_core c) by (unfold node_threads, numa_node_threads, cores, numa_nodes; lia). assert (EM : node_memory c = numa_nodes * memory_per_numa_node c) by (unfold node_memory, numa_nodes; lia).
    unfold the_jobs. rewrite ET, EM. destruct t, l; reflexivity.
  - intros NA. destruct (pool_total d) as [[p E]|E]; [|now apply rejected]. destruct (EX p E) as [n [vs [_ [_ [_ [H1 EJ]]]]]]. rewrite EJ.
    destruct (Z.ltb_spec (pool_min_size p) (pool_max_size p)); [|reflexivity]. destruct (Z.leb_spec (pool_max_size p) (room c t l)); [|reflexivity]. exfalso. apply NA. exists p. split; [exact E|]. split; [assumption|]. now apply ER.
Qed.
Print Assumptions C85_jobs.

(** C85.  What a job asks for and uses is available in the cluster: nodes, memory, hardware threads for all tasks, and cores for all threads of all tasks
    that a job step starts. *)
Theorem C85_jobs_fit :
  forall kind (c : cluster) t d l jobs, described c -> slurm_jobs kind t d c l = Ok jobs ->
  let cores := nr_packages c * numa_nodes_per_package c * cores_per_numa_node c in
  forall j, In j jobs ->
    1 <= j_nodes j <= nr_cluster_nodes c /\
    1 <= j_tasks j /\ j_tasks j * j_cpus_per_task j <= j_nodes j * (cores * threads_per_core c) /\
    (forall memory, j_memory j = Some memory -> memory <= nr_packages c * numa_nodes_per_package c * memory_per_numa_node c) /\
    forall s, In s (j_steps j) -> 1 <= s_workers s /\ 1 <= s_tasks s <= j_tasks j /\ 1 <= s_threads s /\ s_tasks s * s_threads s <= j_nodes j * cores.
Proof.
  intros kind c t d l jobs (HN & HP & HU & HC & HT & HM) EJ cores j Hj. destruct (pool_total d) as [[p E]|E]; [|rewrite rejected in EJ by exact E; discriminate EJ].
  destruct (pool_values d p E) as [n [vs [EN [S [EV [H1 HV]]]]]]. rewrite (jobs_exact c HP HU HC kind t d l p n vs E EN EV HV) in EJ.
  destruct (Z.ltb_spec (pool_min_size p) (pool_max_size p)); [|discriminate EJ]. destruct (Z.leb_spec (pool_max_size p) (room c t l)) as [R|]; [|discriminate EJ]. cbn [andb] in EJ. injection EJ as <-.
  assert (NU : 1 <= nr_packages c * numa_nodes_per_package c) by nia. set (u := nr_packages c * numa_nodes_per_package c) in *.
  assert (KC : cores_per_numa_node c <= cores) by (unfold cores; nia). assert (KT : cores_per_numa_node c * threads_per_core c <= cores * threads_per_core c) by nia.
  assert (ET : node_threads c = cores * threads_per_core c) by (unfold node_threads, numa_node_threads, cores, u; lia). assert (EM : node_memory c = u * memory_per_numa_node c) by (unfold node_memory, u; lia).
  assert (EC : node_cores c = cores) by (unfold node_cores, cores, u; lia). assert (MM : memory_per_numa_node c <= u * memory_per_numa_node c) by nia.
  unfold room in R. unfold the_jobs in Hj. rewrite ?EC, ?ET, ?EM in *. change (node_numa_nodes c) with u in *. unfold numa_node_threads in Hj. destruct t.
  - destruct Hj as [<-|[]]. cbn [j_nodes j_tasks j_cpus_per_task j_memory j_steps]. split; [lia|]. split; [lia|]. split; [destruct l; cbn [per_numa_node]; lia|]. split; [intros m [= <-]; destruct l; cbn [per_numa_node]; lia|].
    intros s Hs. apply in_map_iff in Hs. destruct Hs as [v [<- Hv]]. specialize (HV v Hv). cbn [s_workers s_tasks s_threads]. destruct l; lia.
  - destruct l; [lia|]. apply in_map_iff in Hj. destruct Hj as [v [<- Hv]]. specialize (HV v Hv). cbn [j_nodes j_tasks j_cpus_per_task j_memory j_steps]. split; [lia|]. split; [lia|]. split; [unfold cores; nia|]. split; [intros m [= <-]; destruct kind; [lia|apply Z.mul_le_mono_nonneg_r; lia]|].
    intros s [<-|[]]. cbn [s_workers s_tasks s_threads]. unfold cores. repeat split; try lia; nia.
  - destruct l; [lia|]. apply in_map_iff in Hj. destruct Hj as [v [<- Hv]]. specialize (HV v Hv). cbn [j_nodes j_tasks j_cpus_per_task j_memory j_steps]. split; [lia|]. split; [nia|]. split; [unfold cores; nia|]. split; [discriminate|].
    intros s [<-|[]]. cbn [s_workers s_tasks s_threads]. unfold cores. repeat split; try lia; nia.
Qed.
Print Assumptions C85_jobs_fit.

(** C85.  Without a scheduler, only threads can be added.  The commands are the job steps for threads. *)
Theorem C85_shell :
  forall kind (c : cluster) t (d : pool_data) l, described c ->
  shell_commands t d c l =
  match t with
  | Thread => match slurm_jobs kind Thread d c l with Ok jobs => Ok (concat (map j_steps jobs)) | _ => Throw end
  | _ => Throw
  end.
Proof.
  intros kind c t d l (HN & HP & HU & HC & _ & _). destruct (pool_total d) as [[p E]|E].
  2: { unfold shell_commands, slurm_jobs, benchmark_of, worker_of. rewrite E. cbn [obind]. now destruct t. }
  destruct (pool_values d p E) as [n [vs [EN [S [EV [H1 HV]]]]]]. rewrite (jobs_exact c HP HU HC kind Thread d l p n vs E EN EV HV). unfold shell_commands. rewrite (benchmark_exact c HP HU HC t d l p E).
  destruct (Z.leb_spec (pool_max_size p) (room c t l)) as [R|R].
  2: { destruct t; [|reflexivity..]. rewrite (proj2 (Z.leb_gt _ _) R), andb_false_r. reflexivity. }
  cbn [obind]. assert (EW : b_worker (the_benchmark c t l p) = the_worker c t l p) by (unfold the_benchmark; destruct t, l; reflexivity). rewrite EW.
  destruct (pool_facts d p E) as [n' [N1 [EN' [B _]]]]. rewrite EN in EN'. injection EN' as <-. rewrite one_range_exact by lia.
  destruct (Z.ltb_spec (pool_min_size p) (pool_max_size p)); [|now destruct t]. cbn [py_assert obind]. assert (EP : w_pool (the_worker c t l p) = p) by (destruct t; reflexivity). rewrite EP, EN. cbn [obind].
  destruct (Z.ltb_spec 0 n); [|lia]. cbn [py_assert obind]. destruct t; [|reflexivity..]. rewrite (proj2 (Z.leb_le _ _) R). cbn [the_worker w_type py_assert obind andb].
  unfold nodes_range, numa_range, threads_range. cbn [min_nodes max_nodes min_numa max_numa min_threads max_threads]. rewrite !Z.sub_diag. destruct (Z.leb_spec 1 (pool_max_size p - pool_min_size p)); [|lia]. cbn [Z.eqb andb py_assert obind].
  rewrite (for_each_values (range n) (nr_workers p) _ (fun v => Step v 1 v (v =? 1)) vs EV).
  - cbn [the_jobs map j_steps concat]. now rewrite app_nil_r.
  - intros i v Hv Ev. unfold thread_step. cbn [w_pool]. rewrite Ev. cbn [obind]. do 2 f_equal. specialize (HV v Hv). destruct (Z.ltb_spec 1 v), (Z.eqb_spec v 1); try reflexivity; lia.
Qed.
Print Assumptions C85_shell.

(** Twelve nodes of two packages of four NUMA nodes of six cores *)
Example C85_ex :
  let c := Cluster 12 2 4 6 2 32 in
  described c /\
  slurm_jobs Strong Thread (PoolData (Some 1) (Some 6) (Some 2) None None) c PerNumaNode = Ok [Job 1 1 12 (Some 32) false [Step 1 1 1 true; Step 2 1 2 false; Step 4 1 4 false]] /\
  slurm_jobs Strong NumaNode (PoolData (Some 1) (Some 8) None (Some 3) None) c PerNumaNode =
    Ok [Job 1 1 12 (Some 256) true [Step 1 1 6 false]; Job 1 4 12 (Some 256) true [Step 4 4 6 false]; Job 1 7 12 (Some 256) true [Step 7 7 6 false]] /\
  slurm_jobs Strong ClusterNode (PoolData (Some 1) (Some 4) None (Some 3) None) c PerNumaNode = Ok [Job 1 8 12 None false [Step 1 8 6 false]; Job 4 32 12 None false [Step 4 32 6 false]] /\
  slurm_jobs Strong ClusterNode (PoolData (Some 1) (Some 16) (Some 2) None None) c PerNumaNode = Throw /\
  slurm_jobs Weak NumaNode (PoolData (Some 1) (Some 8) None (Some 3) None) c PerNumaNode =
    Ok [Job 1 1 12 (Some 32) false [Step 1 1 6 false]; Job 1 4 12 (Some 128) false [Step 4 4 6 false]; Job 1 7 12 (Some 224) false [Step 7 7 6 false]] /\
  shell_commands Thread (PoolData (Some 1) (Some 48) None (Some 40) None) c PerClusterNode = Ok [Step 1 1 1 true; Step 41 1 41 false].
Proof. vm_compute. repeat split; discriminate. Qed.
