(** Model of the workers, benchmarks and jobs of strong and weak scalability experiments: experiment/cluster.py, experiment/worker.py, experiment/benchmark.py,
    experiment/job.py, experiment/strong_scalability/generate_script.py and, with other line numbers, experiment/weak_scalability/generate_script.py (paths are relative to
    source/quality_assurance/scalability/command/scalability).  Pools of workers: PoolModel.v.
    Simplified: numbers are integers; names of worker types and locality kinds that are not known raise an exception in the code (worker.py:65,
    benchmark.py:153) and are not part of the types here; pathnames, options and everything else that is only copied to the script are left out.
    Shapes of arrays are left out as well; those of weak scalability experiments are in ScaleModel.v. *)
From Verif Require Import Common PoolModel.
Open Scope Z_scope.

(** Cluster, ClusterNode, Package, NUMANode, Core: cluster.py:1-118, 221-252 *)
Record cluster := Cluster { nr_cluster_nodes : Z; nr_packages : Z; numa_nodes_per_package : Z; cores_per_numa_node : Z; threads_per_core : Z; memory_per_numa_node : Z }.
(** ClusterNode.nr_numa_nodes, 94-96 *)
Definition node_numa_nodes (c : cluster) : Z := nr_packages c * numa_nodes_per_package c.
(** NUMANode.nr_threads, 30-32 *)
Definition numa_node_threads (c : cluster) : Z := cores_per_numa_node c * threads_per_core c.
(** ClusterNode.nr_cores, 102-104, and Package.nr_cores, 65-67 *)
Definition node_cores (c : cluster) : Z := nr_packages c * (numa_nodes_per_package c * cores_per_numa_node c).
(** ClusterNode.nr_threads, 106-108, and Package.nr_threads, 69-71 *)
Definition node_threads (c : cluster) : Z := nr_packages c * (numa_nodes_per_package c * numa_node_threads c).
(** ClusterNode.memory, 98-100, and Package.memory, 61-63 *)
Definition node_memory (c : cluster) : Z := nr_packages c * (numa_nodes_per_package c * memory_per_numa_node c).

Inductive worker_type := Thread | NumaNode | ClusterNode.
Inductive locality := PerClusterNode | PerNumaNode.
Definition per_numa_node (l : locality) : bool := match l with PerNumaNode => true | PerClusterNode => false end.

Record worker := Worker { w_type : worker_type; w_pool : pool; min_nodes : Z; max_nodes : Z; min_numa : Z; max_numa : Z; min_threads : Z; max_threads : Z }.
(** Worker.__init__, worker.py:5-55 *)
Definition ranges_ok (w : worker) : bool :=
  (1 <=? min_nodes w) && (min_nodes w <=? max_nodes w) && (1 <=? min_numa w) && (min_numa w <=? max_numa w) && (1 <=? min_threads w) && (min_threads w <=? max_threads w).
Definition worker_of (t : worker_type) (d : pool_data) (c : cluster) (l : locality) : outcome worker :=
  obind (pool_of_data d) (fun p =>
  let lo := pool_min_size p in let hi := pool_max_size p in
  let numa := node_numa_nodes c in let cores := cores_per_numa_node c in
  obind (match t with
         | Thread => let n := if per_numa_node l then 1 else numa in Ok (Worker t p 1 1 n n lo hi)
         | NumaNode => obind (py_assert (per_numa_node l)) (fun _ => Ok (Worker t p 1 1 lo hi cores cores))
         | ClusterNode => obind (py_assert (per_numa_node l)) (fun _ => Ok (Worker t p lo hi numa numa cores cores))
         end) (fun w => obind (py_assert (ranges_ok w)) (fun _ => Ok w))).
(** nr_cluster_nodes_range, nr_numa_nodes_range, nr_threads_range: worker.py:75-94 *)
Definition nodes_range (w : worker) : Z := max_nodes w - min_nodes w.
Definition numa_range (w : worker) : Z := max_numa w - min_numa w.
Definition threads_range (w : worker) : Z := max_threads w - min_threads w.
(** nr_numa_nodes, nr_threads: worker.py:147-167 *)
Definition w_nr_numa_nodes (w : worker) : outcome Z := obind (py_assert (numa_range w =? 0)) (fun _ => Ok (min_numa w)).
Definition w_nr_threads (w : worker) : outcome Z := obind (py_assert (threads_range w =? 0)) (fun _ => Ok (min_threads w)).

Record benchmark := Benchmark { b_locality : locality; b_worker : worker; logical_cores : Z; physical_cores : Z }.
(** Benchmark.__init__, benchmark.py:34-143 *)
Definition benchmark_of (t : worker_type) (d : pool_data) (c : cluster) (l : locality) : outcome benchmark :=
  obind (worker_of t d c l) (fun w =>
  match t with
  | Thread =>
      let b := if per_numa_node l then Benchmark l w (numa_node_threads c) (cores_per_numa_node c) else Benchmark l w (node_threads c) (node_cores c) in
      obind (py_assert ((min_nodes w =? 1) && (max_nodes w =? 1))) (fun _ =>
      obind (py_assert (if per_numa_node l then (min_numa w =? 1) && (max_numa w =? 1) else (min_numa w =? min_numa w) && (max_numa w =? max_numa w))) (fun _ =>
      obind (py_assert ((1 <=? min_threads w) && (max_threads w <=? physical_cores b))) (fun _ => Ok b)))
  | NumaNode =>
      let b := Benchmark l w (numa_node_threads c) (cores_per_numa_node c) in
      obind (py_assert (per_numa_node l)) (fun _ =>
      obind (py_assert ((min_nodes w =? 1) && (max_nodes w =? 1))) (fun _ =>
      obind (py_assert ((1 <=? min_numa w) && (max_numa w <=? node_numa_nodes c))) (fun _ =>
      obind (py_assert ((min_threads w =? physical_cores b) && (max_threads w =? physical_cores b))) (fun _ => Ok b))))
  | ClusterNode =>
      let b := Benchmark l w (numa_node_threads c) (cores_per_numa_node c) in
      obind (py_assert (per_numa_node l)) (fun _ =>
      obind (py_assert ((1 <=? min_nodes w) && (max_nodes w <=? nr_cluster_nodes c))) (fun _ =>
      obind (py_assert ((min_numa w =? node_numa_nodes c) && (max_numa w =? node_numa_nodes c))) (fun _ =>
      obind (py_assert ((min_threads w =? physical_cores b) && (max_threads w =? physical_cores b))) (fun _ => Ok b))))
  end).

(** What a job step starts: --lue:nr_workers, srun's --ntasks, --hpx:threads, and whether the array is a single partition *)
Record step := Step { s_workers : Z; s_tasks : Z; s_threads : Z; s_single_partition : bool }.
(** What a job asks of the scheduler: --nodes, --ntasks, --cpus-per-task, --mem (if there is one), --exclusive *)
Record job := Job { j_nodes : Z; j_tasks : Z; j_cpus_per_task : Z; j_memory : option Z; j_exclusive : bool; j_steps : list step }.

Inductive experiment := Strong | Weak.
Section Experiment.
Context (kind : experiment).

(** memory_requirements, job.py:177-227, in case of strong and weak scalability experiments *)
Definition memory_requirements (c : cluster) (b : benchmark) (nr_tasks : Z) : outcome Z :=
  match w_type (b_worker b) with
  | Thread => obind (py_assert (nr_tasks =? 1)) (fun _ => Ok (if per_numa_node (b_locality b) then memory_per_numa_node c else node_memory c))
  | NumaNode => obind (py_assert (per_numa_node (b_locality b))) (fun _ => obind (py_assert (nr_tasks <=? node_numa_nodes c)) (fun _ =>
      Ok match kind with Strong => node_memory c | Weak => nr_tasks * memory_per_numa_node c end))
  | ClusterNode => obind (py_assert (per_numa_node (b_locality b))) (fun _ => obind (py_assert (node_numa_nodes c <=? nr_tasks)) (fun _ => Ok (node_memory c)))
  end.
(** create_slurm_script2, job.py:230-307 *)
Definition slurm_script2 (c : cluster) (b : benchmark) (nr_nodes nr_tasks : Z) (steps : list step) : outcome job :=
  obind (memory_requirements c b nr_tasks) (fun memory =>
  Ok (Job nr_nodes nr_tasks (logical_cores b) (Some memory) (match w_type (b_worker b), kind with Thread, _ => false | _, Strong => true | _, Weak => false end) steps)).
(** create_slurm_script, job.py:310-379 *)
Definition slurm_script (nr_nodes nr_tasks cpus_per_task : Z) (steps : list step) : job := Job nr_nodes nr_tasks cpus_per_task None false steps.

(** for benchmark_idx in range(nr_benchmarks): the results of the body *)
Fixpoint for_each {A} (idxs : list Z) (body : Z -> outcome A) : outcome (list A) :=
  match idxs with [] => Ok [] | i :: idxs => obind (body i) (fun a => obind (for_each idxs body) (fun l => Ok (a :: l))) end.
Definition range (n : Z) : list Z := map Z.of_nat (seq 0 (Z.to_nat n)).

(** The steps of generate_script_slurm_threads, generate_script.py:24-45, and generate_script_shell, 296-320 *)
Definition thread_step (w : worker) (idx : Z) : outcome step :=
  obind (nr_workers (w_pool w) idx) (fun n => Ok (Step n 1 n (negb (1 <? n)))).
(** generate_script_slurm_threads, 7-79 *)
Definition slurm_threads (c : cluster) (b : benchmark) : outcome (list job) :=
  let w := b_worker b in
  obind (py_assert ((nodes_range w =? 0) && (numa_range w =? 0) && (1 <=? threads_range w))) (fun _ =>
  obind (nr_benchmarks (w_pool w)) (fun n =>
  obind (for_each (range n) (thread_step w)) (fun steps =>
  obind (slurm_script2 c b 1 1 steps) (fun j => Ok [j])))).
(** generate_script_slurm_numa_nodes, 82-158 *)
Definition slurm_numa_nodes (c : cluster) (b : benchmark) : outcome (list job) :=
  let w := b_worker b in
  obind (py_assert ((nodes_range w =? 0) && (1 <=? numa_range w) && (threads_range w =? 0))) (fun _ =>
  obind (w_nr_threads w) (fun nr_threads =>
  obind (nr_benchmarks (w_pool w)) (fun n =>
  for_each (range n) (fun idx => obind (nr_workers (w_pool w) idx) (fun nr => slurm_script2 c b 1 nr [Step nr nr nr_threads false]))))).
(** generate_script_slurm_cluster_nodes, 161-259 *)
Definition slurm_cluster_nodes (c : cluster) (b : benchmark) : outcome (list job) :=
  let w := b_worker b in
  obind (py_assert ((1 <=? nodes_range w) && (numa_range w =? 0) && (threads_range w =? 0))) (fun _ =>
  obind (w_nr_threads w) (fun nr_threads =>
  obind (nr_benchmarks (w_pool w)) (fun n =>
  for_each (range n) (fun idx => obind (nr_workers (w_pool w) idx) (fun nr => obind (w_nr_numa_nodes w) (fun numa =>
    Ok (slurm_script nr (nr * numa) (logical_cores b) [Step nr (nr * numa) nr_threads false]))))))).
(** generate_script: the assertions, 340-350.  sum([...]) == 1 *)
Definition one_range (w : worker) : bool := (Z.b2z (0 <? nodes_range w) + Z.b2z (0 <? numa_range w) + Z.b2z (0 <? threads_range w)) =? 1.
(** generate_script, 326-368, and generate_script_slurm, 262-278, in case of the scheduler slurm: the jobs that are submitted *)
Definition slurm_jobs (t : worker_type) (d : pool_data) (c : cluster) (l : locality) : outcome (list job) :=
  obind (benchmark_of t d c l) (fun b =>
  let w := b_worker b in
  obind (py_assert (one_range w)) (fun _ => obind (nr_benchmarks (w_pool w)) (fun n => obind (py_assert (0 <? n)) (fun _ =>
  if 0 <? nodes_range w then slurm_cluster_nodes c b
  else if 0 <? numa_range w then slurm_numa_nodes c b
  else if 0 <? threads_range w then slurm_threads c b
  else Ok [])))).
(** generate_script, 326-368, and generate_script_shell, 281-323, in case of the scheduler shell: the commands that are run *)
Definition shell_commands (t : worker_type) (d : pool_data) (c : cluster) (l : locality) : outcome (list step) :=
  obind (benchmark_of t d c l) (fun b =>
  let w := b_worker b in
  obind (py_assert (one_range w)) (fun _ => obind (nr_benchmarks (w_pool w)) (fun n => obind (py_assert (0 <? n)) (fun _ =>
  obind (py_assert (match w_type w with Thread => true | _ => false end)) (fun _ =>
  obind (py_assert ((nodes_range w =? 0) && (numa_range w =? 0) && (1 <=? threads_range w))) (fun _ =>
  for_each (range n) (thread_step w))))))).
End Experiment.
