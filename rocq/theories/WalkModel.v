(** Model of first_n, which walks along the routes of a SerialRoute: algorithm/definition/first_n.hpp, algorithm/walk.hpp and
    algorithm/source/routing_operation/walk/cell_counter.cpp.  Paths are relative to source/framework; line numbers are
    those of definition/first_n.hpp. *)
From Verif Require Import Common IndexModel DecompModel ArrayModel LocalModel ZonalModel OrderModel.

(** server::Walk, 31-341: _fragment_idxs, the data of the output partition, and how often the promise of the output partition
    was set.  The map with downstream components, which walk.hpp:151-196 fills with the components of all partitions
    that follow a fragment of this partition, is not there: the components are looked up by partition. *)
Record walker := Walker { wk_idxs : zmap Z; wk_output : list Z; wk_ready : Z }.

(** Actions called asynchronously on the component of a partition.  CellCounter is the number of cells visited; the maximum is a
    constant. *)
Inductive walk_task :=
| ResultPartition (p : Z)         (* result_partition *)
| WalkRoute (p id visited : Z)    (* walk *)
| SkipRoute (p id : Z).           (* skip_walking_route_fragments *)
Definition walk_task_partition (t : walk_task) : Z := match t with ResultPartition p => p | WalkRoute p _ _ => p | SkipRoute p _ => p end.

(** All components, and the tasks that have been spawned but did not run yet.  Nothing orders these. *)
Record walk_state := WalkState { ws_walkers : list walker; ws_tasks : list walk_task }.

Section Walk.
Context (no_data max_nr_cells : Z).

(** CellCounter::keep_walking, cell_counter.cpp:31-34 *)
Definition keep_walking (visited : Z) : bool := visited <? max_nr_cells.

(** The constructor, 53-92 *)
Definition walker_of (q : placed (zmap (list fragment))) : walker :=
  Walker (map (fun '(id, _) => (id, 0)) (pl_data q)) (map (fun _ => no_data) (zseq 0 (nr_elements (pl_shape q)))) 0.

(** finish_partition, 310-320: setting the promise for the second time is an error, which hpx::promise reports by an exception. *)
Definition finish_partition (w : walker) : outcome walker :=
  if 0 <? wk_ready w then Throw else Ok (Walker (wk_idxs w) (wk_output w) (wk_ready w + 1)).
Definition finish_if_walked (w : walker) : outcome walker := if is_nil (wk_idxs w) then finish_partition w else Ok w.

(** result_partition, 95-110 *)
Definition result_partition (w : walker) : outcome walker := finish_if_walked w.

(** The loop over the cells of a fragment, 159-167 *)
Fixpoint mark_cells (cells : list Z) (output : list Z) (visited : Z) : outcome (list Z * Z) :=
  match cells with
  | [] => Ok (output, visited)
  | idx :: cells' =>
      if keep_walking visited then
        match upd_z idx 1 output with
        | Some output' => mark_cells cells' output' (visited + 1)
        | None => UB
        end
      else Ok (output, visited)
  end.

(** Removes the route when its last fragment in the partition has been handled, 214-225, 282-294 *)
Definition advance (w : walker) (id fragment_idx nr_fragments : Z) (output : list Z) : outcome walker :=
  if fragment_idx =? nr_fragments then finish_if_walked (Walker (zerase (wk_idxs w) id) output (wk_ready w))
  else Ok (Walker (zset_map (wk_idxs w) id fragment_idx) output (wk_ready w)).

(** walk, 118-226, all of it within a write lock *)
Definition walk (q : placed (zmap (list fragment))) (w : walker) (id visited : Z) : outcome (walker * list walk_task) :=
  match zfind (pl_data q) id, zfind (wk_idxs w) id with
  | Some fragments, Some fragment_idx =>
      obind (at_z fragments fragment_idx) (fun f =>
      obind (mark_cells (fr_cells f) (wk_output w) visited) (fun '(output, visited') =>
      let idx := fragment_idx + 1 in
      let nr := Z.of_nat (length fragments) in
      match fr_next f with
      | Some p => obind (advance w id idx nr output) (fun w' => Ok (w', [if keep_walking visited' then WalkRoute p id visited' else SkipRoute p id]))
      | None => if idx =? nr then obind (advance w id idx nr output) (fun w' => Ok (w', [])) else UB   (* assert, 209-212 *)
      end))
  | _, _ => UB   (* asserts, 142-156 *)
  end.

(** skip_walking_route_fragments, 229-295, all of it within a write lock *)
Definition skip_walking_route_fragments (q : placed (zmap (list fragment))) (w : walker) (id : Z) : outcome (walker * list walk_task) :=
  match zfind (pl_data q) id, zfind (wk_idxs w) id with
  | Some fragments, Some fragment_idx =>
      obind (at_z fragments fragment_idx) (fun f =>
      obind (advance w id (fragment_idx + 1) (Z.of_nat (length fragments)) (wk_output w)) (fun w' =>
      Ok (w', match fr_next f with Some p => [SkipRoute p id] | None => [] end)))
  | _, _ => UB
  end.

Definition run_walk_task (t : walk_task) (q : placed (zmap (list fragment))) (w : walker) : outcome (walker * list walk_task) :=
  match t with
  | ResultPartition _ => obind (result_partition w) (fun w' => Ok (w', []))
  | WalkRoute _ id visited => walk q w id visited
  | SkipRoute _ id => skip_walking_route_fragments q w id
  end.

Context (route : serial_route).
(** The scheduler picks task [k]. *)
Definition walk_step (k : nat) (st : walk_state) : option (outcome walk_state) :=
  match nth_error (ws_tasks st) k with
  | None => None
  | Some t =>
      let p := walk_task_partition t in
      Some (match nth_z p (rt_parts route), nth_z p (ws_walkers st) with
            | Some q, Some w =>
                obind (run_walk_task t q w) (fun '(w', spawned) =>
                match upd_z p w' (ws_walkers st) with
                | None => UB
                | Some walkers => Ok (WalkState walkers (firstn k (ws_tasks st) ++ skipn (S k) (ws_tasks st) ++ spawned))
                end)
            | _, _ => UB
            end)
  end.
Inductive walk_run : walk_state -> list nat -> walk_state -> Prop :=
| walk_run_nil st : walk_run st [] st
| walk_run_cons st k st' ks st'' : walk_step k st = Some (Ok st') -> walk_run st' ks st'' -> walk_run st (k :: ks) st''.

(** first_n, 439-520, and walk, walk.hpp:66-250: the state once the components have been created, result_partition has been called for each
    of these, and the walk of each route has been started. *)
Definition first_n : walk_state :=
  WalkState (map walker_of (rt_parts route))
    (map ResultPartition (zseq 0 (Z.of_nat (length (rt_parts route)))) ++ map (fun '(id, p) => WalkRoute p id 0) (rt_starts route)).

(** The array returned.  A partition may be used once its promise is set. *)
Definition first_n_result (st : walk_state) : parray Z :=
  PArray (rt_shape route) (rt_sip route)
    (map2 (fun q w => Placed (pl_locality q) (pl_offset q) (pl_shape q) (wk_output w)) (rt_parts route) (ws_walkers st)).
End Walk.
