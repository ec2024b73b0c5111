(** Proofs about the jobs of strong and weak scalability experiments (C85). *)
From Verif Require Import Common PoolModel PoolProofs PoolProofs2 BenchModel.
Open Scope Z_scope.

Lemma range_in n k : In k (range n) -> 0 <= k < n.
Proof. unfold range. rewrite in_map_iff. intros [x [<- H]]. apply in_seq in H. lia. Qed.

Lemma pool_facts d p : pool_of_data d = Ok p ->
  exists n, 1 <= n /\ nr_benchmarks p = Ok n /\ 1 <= pool_min_size p <= pool_max_size p /\ (pool_min_size p < pool_max_size p <-> 2 <= n) /\
    forall k, 0 <= k < n -> exists v, nr_workers p k = Ok v /\ pool_min_size p <= v <= pool_max_size p.
Proof.
  destruct d as [lo hi m i size]. intros E.
  assert (IN : forall k n, 0 <= k < n + 1 -> (0 <=? k) && (k <=? n) = true) by (intros; apply andb_true_iff; split; apply Z.leb_le; lia).
  destruct m as [m|]; [|destruct i as [i|]].
  - unfold pool_of_data in E. cbn [pd_min_size pd_max_size pd_multiplier pd_incrementor pd_size] in E. destruct (Z.ltb_spec 1 m); [|discriminate E]. destruct lo as [lo|]; [|discriminate E]. destruct hi as [hi|]; [|discriminate E]. cbn [py_assert obind key] in E.
    destruct (Z_le_gt_dec 1 lo); [|rewrite range_rejected in E by lia; discriminate E]. destruct (Z_le_gt_dec lo hi); [|rewrite range_rejected in E by lia; discriminate E].
    destruct (multiplied_ok lo hi m i size) as [p' [n [E' [Hn [B [P1 [P2 [P3 [P4 _]]]]]]]]]; [lia|lia|]. unfold pool_of_data in E'. cbn [pd_min_size pd_max_size pd_multiplier pd_incrementor pd_size] in E'. destruct (Z.ltb_spec 1 m); [|lia]. cbn [py_assert obind key] in E'. rewrite E' in E. injection E as <-.
    exists (n + 1). rewrite P1, P2. assert (M : forall k, 0 <= k <= n -> 1 <= m ^ k <= m ^ n) by (intros; split; [pose proof (Z.pow_pos_nonneg m k); lia|apply Z.pow_le_mono_r; lia]).
    pose proof (M n ltac:(lia)). repeat split; try assumption; try lia; try nia.
    + intros. destruct (Z.eq_dec n 0) as [->|]; [|lia]. rewrite Z.pow_0_r in *. lia.
    + intros. assert (m ^ 1 <= m ^ n) by (apply Z.pow_le_mono_r; lia). rewrite Z.pow_1_r in *. nia.
    + intros k Hk. exists (lo * m ^ k). rewrite P4, IN by lia. specialize (M k ltac:(lia)). split; [reflexivity|]. nia.
  - unfold pool_of_data in E. cbn [pd_min_size pd_max_size pd_multiplier pd_incrementor pd_size] in E. destruct (Z.leb_spec 1 i); [|discriminate E]. destruct lo as [lo|]; [|discriminate E]. destruct hi as [hi|]; [|discriminate E]. cbn [py_assert obind key] in E.
    destruct (Z_le_gt_dec 1 lo); [|rewrite range_rejected in E by lia; discriminate E]. destruct (Z_le_gt_dec lo hi); [|rewrite range_rejected in E by lia; discriminate E].
    destruct (incremented_ok lo hi i size) as [p' [n [E' [Hn [B [P1 [P2 [P3 [P4 _]]]]]]]]]; [lia|lia|]. unfold pool_of_data in E'. cbn [pd_min_size pd_max_size pd_multiplier pd_incrementor pd_size] in E'. destruct (Z.leb_spec 1 i); [|lia]. cbn [py_assert obind key] in E'. rewrite E' in E. injection E as <-.
    exists (n + 1). rewrite P1, P2. repeat split; try assumption; try lia; try nia.
    intros k Hk. exists (lo + k * i). rewrite P4, IN by lia. split; [reflexivity|]. nia.
  - unfold pool_of_data in E. cbn [pd_min_size pd_max_size pd_multiplier pd_incrementor pd_size] in E. destruct size as [size|]; [|discriminate E]. cbn [key obind] in E. destruct (Z.leb_spec 1 size); [|discriminate E].
    destruct (fixed_ok lo hi size) as [p' [E' [P1 [P2 [P3 [P4 _]]]]]]; [lia|]. unfold pool_of_data in E'. cbn [pd_min_size pd_max_size pd_multiplier pd_incrementor pd_size key obind] in E'. destruct (Z.leb_spec 1 size); [|lia]. rewrite E' in E. injection E as <-.
    exists 1. rewrite P1, P2. repeat split; try assumption; try lia. intros k Hk. exists size. rewrite P4. replace k with 0 by lia. split; [reflexivity|lia].
Qed.

Lemma values (idxs : list Z) (f : Z -> outcome Z) (P : Z -> Prop) : (forall k, In k idxs -> exists v, f k = Ok v /\ P v) -> exists vs : list Z, map f idxs = map (@Ok Z) vs /\ forall v, In v vs -> P v.
Proof.
  induction idxs as [|k idxs IH]; intros H.
  - exists []. split; [reflexivity|]. intros v [].
  - destruct (H k (or_introl eq_refl)) as [v [E Pv]]. destruct IH as [vs [EV PV]]; [intros; apply H; now right|]. exists (v :: vs). cbn [map]. rewrite E, EV. split; [reflexivity|]. intros v' [<-|]; auto.
Qed.
Lemma for_each_values {A} idxs (f : Z -> outcome Z) (body : Z -> outcome A) g : forall vs, map f idxs = map (@Ok Z) vs ->
  (forall i v, In v vs -> f i = Ok v -> body i = Ok (g v)) -> for_each idxs body = Ok (map g vs).
Proof.
  induction idxs as [|i idxs IH]; intros [|v vs] E H; try discriminate E; [reflexivity|]. cbn [map] in E. injection E as E1 E2. cbn [for_each map].
  rewrite (H i v (or_introl eq_refl) E1). cbn [obind]. rewrite (IH vs E2); [reflexivity|]. intros; apply H; [now right|assumption].
Qed.

Ltac clean := repeat match goal with
  | |- context [?a =? ?a] => rewrite (Z.eqb_refl a)
  | |- context [?a <=? ?a] => rewrite (Z.leb_refl a)
  | |- context [?a - ?a] => rewrite (Z.sub_diag a)
  end.

Section Cluster.
Context (c : cluster).
Context (HP : 1 <= nr_packages c) (HU : 1 <= numa_nodes_per_package c) (HC : 1 <= cores_per_numa_node c).

(** The number of workers there is room for *)
Definition room (t : worker_type) (l : locality) : Z :=
  match t, l with
  | Thread, PerClusterNode => node_cores c
  | Thread, PerNumaNode => cores_per_numa_node c
  | NumaNode, PerNumaNode => node_numa_nodes c
  | ClusterNode, PerNumaNode => nr_cluster_nodes c
  | _, PerClusterNode => 0
  end.
Definition the_worker (t : worker_type) (l : locality) (p : pool) : worker :=
  let lo := pool_min_size p in let hi := pool_max_size p in
  let numa := node_numa_nodes c in let cores := cores_per_numa_node c in
  match t with
  | Thread => let n := if per_numa_node l then 1 else numa in Worker t p 1 1 n n lo hi
  | NumaNode => Worker t p 1 1 lo hi cores cores
  | ClusterNode => Worker t p lo hi numa numa cores cores
  end.
Definition the_benchmark (t : worker_type) (l : locality) (p : pool) : benchmark :=
  if match t with Thread => per_numa_node l | _ => true end then Benchmark l (the_worker t l p) (numa_node_threads c) (cores_per_numa_node c)
  else Benchmark l (the_worker t l p) (node_threads c) (node_cores c).

Lemma numa_pos : 1 <= node_numa_nodes c. Proof. unfold node_numa_nodes. nia. Qed.

Lemma benchmark_exact t d l p : pool_of_data d = Ok p ->
  benchmark_of t d c l = if pool_max_size p <=? room t l then Ok (the_benchmark t l p) else Throw.
Proof.
  intros E. destruct (pool_facts d p E) as [n [_ [_ [B _]]]]. pose proof numa_pos as U. unfold benchmark_of, worker_of. rewrite E. cbn [obind].
  assert (L1 : (1 <=? pool_min_size p) = true) by (apply Z.leb_le; lia). assert (L2 : (pool_min_size p <=? pool_max_size p) = true) by (apply Z.leb_le; lia).
  assert (L3 : (1 <=? node_numa_nodes c) = true) by (apply Z.leb_le; lia). assert (L4 : (1 <=? cores_per_numa_node c) = true) by (apply Z.leb_le; lia).
  assert (L5 : (pool_max_size p <=? 0) = false) by (apply Z.leb_gt; lia).
  destruct t, l; cbn [per_numa_node py_assert obind room]; unfold ranges_ok; cbn [min_nodes max_nodes min_numa max_numa min_threads max_threads];
    repeat first [rewrite L1|rewrite L2|rewrite L3|rewrite L4|rewrite L5|rewrite Z.leb_refl|rewrite Z.eqb_refl|progress cbn [andb py_assert obind min_nodes max_nodes min_numa max_numa min_threads max_threads physical_cores]];
    try reflexivity; match goal with |- context [py_assert ?b] => destruct b end; reflexivity.
Qed.

(** The jobs, given the numbers of workers *)
Definition the_jobs (kind : experiment) (t : worker_type) (l : locality) (vs : list Z) : list job :=
  match t with
  | Thread => [Job 1 1 (if per_numa_node l then numa_node_threads c else node_threads c) (Some (if per_numa_node l then memory_per_numa_node c else node_memory c)) false
                 (map (fun v => Step v 1 v (v =? 1)) vs)]
  | NumaNode => map (fun v => Job 1 v (numa_node_threads c) (Some match kind with Strong => node_memory c | Weak => v * memory_per_numa_node c end) (match kind with Strong => true | Weak => false end) [Step v v (cores_per_numa_node c) false]) vs
  | ClusterNode => map (fun v => Job v (v * node_numa_nodes c) (numa_node_threads c) None false [Step v (v * node_numa_nodes c) (cores_per_numa_node c) false]) vs
  end.

Lemma one_range_exact t l p : pool_min_size p <= pool_max_size p -> one_range (the_worker t l p) = (pool_min_size p <? pool_max_size p).
Proof.
  intros B. unfold one_range, nodes_range, numa_range, threads_range. destruct t; cbn [the_worker min_nodes max_nodes min_numa max_numa min_threads max_threads];
    rewrite ?Z.sub_diag; destruct (Z.ltb_spec 0 (pool_max_size p - pool_min_size p)), (Z.ltb_spec (pool_min_size p) (pool_max_size p)); try lia; reflexivity.
Qed.

Lemma jobs_exact kind t d l p n vs : pool_of_data d = Ok p -> nr_benchmarks p = Ok n -> map (nr_workers p) (range n) = map (@Ok Z) vs ->
  (forall v, In v vs -> pool_min_size p <= v <= pool_max_size p) ->
  slurm_jobs kind t d c l = if (pool_min_size p <? pool_max_size p) && (pool_max_size p <=? room t l) then Ok (the_jobs kind t l vs) else Throw.
Proof.
  intros E EN EV HV. destruct (pool_facts d p E) as [n' [H1 [EN' [B _]]]]. rewrite EN in EN'. injection EN' as <-. unfold slurm_jobs. rewrite (benchmark_exact t d l p E).
  destruct (Z.leb_spec (pool_max_size p) (room t l)) as [R|R]; [|now rewrite andb_false_r]. cbn [obind]. rewrite andb_true_r.
  assert (EW : b_worker (the_benchmark t l p) = the_worker t l p) by (unfold the_benchmark; destruct t, l; reflexivity). rewrite EW, one_range_exact by lia.
  destruct (Z.ltb_spec (pool_min_size p) (pool_max_size p)) as [LT|]; [|reflexivity]. cbn [py_assert obind].
  assert (EP : w_pool (the_worker t l p) = p) by (destruct t; reflexivity). rewrite EP, EN. cbn [obind]. destruct (Z.ltb_spec 0 n); [|lia]. cbn [py_assert obind].
  assert (S1 : (1 <=? pool_max_size p - pool_min_size p) = true) by (apply Z.leb_le; lia). assert (S0 : (0 <? pool_max_size p - pool_min_size p) = true) by (apply Z.ltb_lt; lia).
  destruct t.
  - unfold nodes_range, numa_range, threads_range. cbn [the_worker min_nodes max_nodes min_numa max_numa min_threads max_threads]. rewrite !Z.sub_diag, S0. cbn [Z.ltb Z.compare].
    unfold slurm_threads. rewrite EW. unfold nodes_range, numa_range, threads_range. cbn [the_worker min_nodes max_nodes min_numa max_numa min_threads max_threads w_pool]. rewrite !Z.sub_diag, S1. cbn [Z.eqb andb py_assert obind]. rewrite EN. cbn [obind].
    rewrite (for_each_values (range n) (nr_workers p) _ (fun v => Step v 1 v (v =? 1)) vs EV).
    + cbn [obind]. unfold slurm_script2, memory_requirements. rewrite EW. unfold the_benchmark. destruct l; reflexivity.
    + intros i v Hv Ev. unfold thread_step. cbn [w_pool]. rewrite Ev. cbn [obind]. do 2 f_equal. specialize (HV v Hv). destruct (Z.ltb_spec 1 v), (Z.eqb_spec v 1); try reflexivity; lia.
  - destruct l; [cbn [room] in R; lia|]. unfold nodes_range, numa_range. cbn [the_worker min_nodes max_nodes min_numa max_numa min_threads max_threads]. rewrite !Z.sub_diag, S0. cbn [Z.ltb Z.compare].
    unfold slurm_numa_nodes, w_nr_threads. rewrite EW. unfold nodes_range, numa_range, threads_range. cbn [the_worker min_nodes max_nodes min_numa max_numa min_threads max_threads w_pool]. rewrite !Z.sub_diag, S1. cbn [Z.eqb andb py_assert obind]. rewrite EN. cbn [obind].
    apply (for_each_values (range n) (nr_workers p)); [exact EV|]. intros i v Hv Ev. rewrite Ev. cbn [obind]. unfold slurm_script2, memory_requirements. rewrite EW. specialize (HV v Hv). cbn [room] in R.
    cbn. destruct (Z.leb_spec v (node_numa_nodes c)); [reflexivity|lia].
  - destruct l; [cbn [room] in R; lia|]. unfold nodes_range. cbn [the_worker min_nodes max_nodes min_numa max_numa min_threads max_threads]. rewrite S0.
    unfold slurm_cluster_nodes, w_nr_threads, w_nr_numa_nodes. rewrite EW. unfold nodes_range, numa_range, threads_range. cbn [the_worker min_nodes max_nodes min_numa max_numa min_threads max_threads w_pool]. rewrite !Z.sub_diag, S1. cbn [Z.eqb andb py_assert obind]. rewrite EN. cbn [obind].
    apply (for_each_values (range n) (nr_workers p)); [exact EV|]. intros i v Hv Ev. rewrite Ev. reflexivity.
Qed.

Lemma pool_values d p : pool_of_data d = Ok p -> exists n vs, nr_benchmarks p = Ok n /\ (pool_min_size p < pool_max_size p <-> 2 <= n) /\ map (nr_workers p) (range n) = map (@Ok Z) vs /\ 1 <= pool_min_size p /\
  forall v, In v vs -> pool_min_size p <= v <= pool_max_size p.
Proof.
  intros E. destruct (pool_facts d p E) as [n [H1 [EN [B [S A]]]]]. destruct (values (range n) (nr_workers p) (fun v => pool_min_size p <= v <= pool_max_size p)) as [vs [EV HV]].
  - intros k Hk. apply A. now apply range_in.
  - exists n, vs. repeat split; try assumption; try lia; try tauto; apply HV; assumption.
Qed.

Lemma rejected kind t d l : pool_of_data d = Throw -> slurm_jobs kind t d c l = Throw.
Proof. intros E. unfold slurm_jobs, benchmark_of, worker_of. rewrite E. reflexivity. Qed.

Lemma pool_total d : (exists p, pool_of_data d = Ok p) \/ pool_of_data d = Throw.
Proof.
  destruct d as [lo hi m i size]. destruct (pool_of_data (PoolData lo hi m i size)) eqn:E; [left; eexists; reflexivity|now right|]. exfalso. revert E.
  destruct m as [m|]; [|destruct i as [i|]]; unfold pool_of_data; cbn [pd_min_size pd_max_size pd_multiplier pd_incrementor pd_size].
  - destruct (Z.ltb_spec 1 m); [|discriminate]. destruct lo as [lo|]; [|discriminate]. destruct hi as [hi|]; [|discriminate]. cbn [py_assert obind key].
    destruct (Z_le_gt_dec 1 lo); [|rewrite range_rejected by lia; discriminate]. destruct (Z_le_gt_dec lo hi); [|rewrite range_rejected by lia; discriminate].
    destruct (multiplied_ok lo hi m i size) as [p' [n [E' _]]]; [lia|lia|]. unfold pool_of_data in E'. cbn [pd_min_size pd_max_size pd_multiplier pd_incrementor pd_size] in E'. destruct (Z.ltb_spec 1 m); [|lia]. cbn [py_assert obind key] in E'. rewrite E'. discriminate.
  - destruct (Z.leb_spec 1 i); [|discriminate]. destruct lo as [lo|]; [|discriminate]. destruct hi as [hi|]; [|discriminate]. cbn [py_assert obind key].
    destruct (Z_le_gt_dec 1 lo); [|rewrite range_rejected by lia; discriminate]. destruct (Z_le_gt_dec lo hi); [|rewrite range_rejected by lia; discriminate].
    destruct (incremented_ok lo hi i size) as [p' [n [E' _]]]; [lia|lia|]. unfold pool_of_data in E'. cbn [pd_min_size pd_max_size pd_multiplier pd_incrementor pd_size] in E'. destruct (Z.leb_spec 1 i); [|lia]. cbn [py_assert obind key] in E'. rewrite E'. discriminate.
  - destruct size as [size|]; [|discriminate]. cbn [key obind]. destruct (Z.leb_spec 1 size); [|discriminate]. destruct (fixed_ok lo hi size) as [p' [E' _]]; [lia|]. unfold pool_of_data in E'. cbn [pd_min_size pd_max_size pd_multiplier pd_incrementor pd_size key obind] in E'. destruct (Z.leb_spec 1 size); [|lia]. rewrite E'. discriminate.
Qed.
End Cluster.
