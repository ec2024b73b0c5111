(** Model of integrate, which accumulates values along the routes of a SerialRoute: image_land/include/lue/framework/algorithm/
    definition/integrate.hpp, with algorithm/walk.hpp, algorithm/include/lue/framework/algorithm/routing/walk/accumulator.hpp and
    cell_counter.cpp.  Paths are relative to source/framework; line numbers are those of definition/integrate.hpp. *)
From Verif Require Import Common IndexModel DecompModel ArrayModel LocalModel ZonalModel OrderModel.

Section Integrate.
(** The floating point element type: what a zero-initialised value is, operator+=, the input no-data policy and what the output
    no-data policy marks a cell with *)
Context {E : Type} (zero : E) (plus : E -> E -> E) (is_no_data : E -> bool) (no_data : E) (max_nr_cells : Z).

(** server::Walk, 61-375: _fragment_idxs, the data of the output partition, and how often the promise of the output partition
    was set.  As for first_n, the components downstream are looked up by partition. *)
Record integrator := Integrator { ig_idxs : zmap Z; ig_output : list E; ig_ready : Z }.

(** Data, 21-52: CellCounter, and Accumulator, which is a map with values by route id.  The maximum is a constant. *)
Record walk_data := WalkData { wd_visited : Z; wd_values : zmap E }.

(** Actions called asynchronously on the component of a partition *)
Inductive integrate_task :=
| AskResult (p : Z)                            (* result_partition *)
| Integrate (p id : Z) (data : walk_data)      (* walk *)
| SkipFragments (p id : Z).                    (* skip_walking_route_fragments *)
Definition integrate_task_partition (t : integrate_task) : Z := match t with AskResult p => p | Integrate p _ _ => p | SkipFragments p _ => p end.

(** All components, and the tasks that have been spawned but did not run yet.  Nothing orders these. *)
Record integrate_state := IntegrateState { is_integrators : list integrator; is_tasks : list integrate_task }.

(** CellCounter::keep_walking, cell_counter.cpp:31-34 *)
Definition keep_integrating (visited : Z) : bool := visited <? max_nr_cells.

(** Accumulator::value, accumulator.hpp:17-22 *)
Definition accumulated (d : walk_data) (id : Z) : E := match zfind (wd_values d) id with Some v => v | None => zero end.

(** The constructor, 80-125 *)
Definition integrator_of (q : placed (zmap (list fragment))) : integrator :=
  Integrator (map (fun '(id, _) => (id, 0)) (pl_data q)) (map (fun _ => no_data) (zseq 0 (nr_elements (pl_shape q)))) 0.

(** finish_partition, 346-356: setting the promise for the second time is an error, which hpx::promise reports by an exception. *)
Definition deliver (w : integrator) : outcome integrator :=
  if 0 <? ig_ready w then Throw else Ok (Integrator (ig_idxs w) (ig_output w) (ig_ready w + 1)).
Definition deliver_if_walked (w : integrator) : outcome integrator := if is_nil (ig_idxs w) then deliver w else Ok w.

(** The loop over the cells of a fragment, 205-212.  [output] and [integrand] are the data of the partitions; reading and writing outside
    these is undefined behaviour. *)
Fixpoint integrate_cells (integrand : list E) (cells : list Z) (output : list E) (visited : Z) (value : E) : outcome (list E * Z * E) :=
  match cells with
  | [] => Ok (output, visited, value)
  | idx :: cells' =>
      if keep_integrating visited then
        match nth_z idx integrand with
        | None => UB
        | Some e =>
            if is_no_data e then integrate_cells integrand cells' output (visited + 1) value
            else match upd_z idx (plus value e) output with
                 | Some output' => integrate_cells integrand cells' output' (visited + 1) (plus value e)
                 | None => UB
                 end
        end
      else Ok (output, visited, value)
  end.

(** Removes the route when its last fragment in the partition has been handled, 259-270, 319-331 *)
Definition next_fragment (w : integrator) (id fragment_idx nr_fragments : Z) (output : list E) : outcome integrator :=
  if fragment_idx =? nr_fragments then deliver_if_walked (Integrator (zerase (ig_idxs w) id) output (ig_ready w))
  else Ok (Integrator (zset_map (ig_idxs w) id fragment_idx) output (ig_ready w)).

(** walk, 151-271, all of it within a write lock *)
Definition integrate_walk (q : placed (zmap (list fragment))) (integrand : list E) (w : integrator) (id : Z) (data : walk_data) :
    outcome (integrator * list integrate_task) :=
  match zfind (pl_data q) id, zfind (ig_idxs w) id with
  | Some fragments, Some fragment_idx =>
      obind (at_z fragments fragment_idx) (fun f =>
      obind (integrate_cells integrand (fr_cells f) (ig_output w) (wd_visited data) (accumulated data id)) (fun '(output, visited, value) =>
      let data' := WalkData visited (zset_map (wd_values data) id value) in
      let idx := fragment_idx + 1 in
      let nr := Z.of_nat (length fragments) in
      match fr_next f with
      | Some p => obind (next_fragment w id idx nr output) (fun w' => Ok (w', [if keep_integrating visited then Integrate p id data' else SkipFragments p id]))
      | None => if idx =? nr then obind (next_fragment w id idx nr output) (fun w' => Ok (w', [])) else UB   (* assert, 254-257 *)
      end))
  | _, _ => UB   (* asserts, 179-192 *)
  end.

(** skip_walking_route_fragments, 274-332, all of it within a write lock *)
Definition integrate_skip (q : placed (zmap (list fragment))) (w : integrator) (id : Z) : outcome (integrator * list integrate_task) :=
  match zfind (pl_data q) id, zfind (ig_idxs w) id with
  | Some fragments, Some fragment_idx =>
      obind (at_z fragments fragment_idx) (fun f =>
      obind (next_fragment w id (fragment_idx + 1) (Z.of_nat (length fragments)) (ig_output w)) (fun w' =>
      Ok (w', match fr_next f with Some p => [SkipFragments p id] | None => [] end)))
  | _, _ => UB
  end.

(** result_partition, 128-142, is [deliver_if_walked]. *)
Definition run_integrate_task (t : integrate_task) (q : placed (zmap (list fragment))) (integrand : list E) (w : integrator) :
    outcome (integrator * list integrate_task) :=
  match t with
  | AskResult _ => obind (deliver_if_walked w) (fun w' => Ok (w', []))
  | Integrate _ id data => integrate_walk q integrand w id data
  | SkipFragments _ id => integrate_skip q w id
  end.

Context (route : serial_route) (integrand : parray E).
(** The scheduler picks task [k].  The component of a partition has the partitions of route and integrand at the same index, 503-520. *)
Definition integrate_step (k : nat) (st : integrate_state) : option (outcome integrate_state) :=
  match nth_error (is_tasks st) k with
  | None => None
  | Some t =>
      let p := integrate_task_partition t in
      Some (match nth_z p (rt_parts route), nth_z p (pa_parts integrand), nth_z p (is_integrators st) with
            | Some q, Some g, Some w =>
                obind (run_integrate_task t q (pl_data g) w) (fun '(w', spawned) =>
                match upd_z p w' (is_integrators st) with
                | None => UB
                | Some integrators => Ok (IntegrateState integrators (firstn k (is_tasks st) ++ skipn (S k) (is_tasks st) ++ spawned))
                end)
            | _, _, _ => UB
            end)
  end.
Inductive integrate_run : integrate_state -> list nat -> integrate_state -> Prop :=
| integrate_run_nil st : integrate_run st [] st
| integrate_run_cons st k st' ks st'' : integrate_step k st = Some (Ok st') -> integrate_run st' ks st'' -> integrate_run st (k :: ks) st''.

(** integrate, 469-555, and walk, walk.hpp:66-250: the state once the components have been created, result_partition has been called for each
    of these, and the walk of each route has been started, each with a copy of the data. *)
Definition integrate : integrate_state :=
  IntegrateState (map integrator_of (rt_parts route))
    (map AskResult (zseq 0 (Z.of_nat (length (rt_parts route)))) ++ map (fun '(id, p) => Integrate p id (WalkData 0 [])) (rt_starts route)).

(** The array returned.  A partition may be used once its promise is set. *)
Definition integrate_result (st : integrate_state) : parray E :=
  PArray (rt_shape route) (rt_sip route)
    (map2 (fun q w => Placed (pl_locality q) (pl_offset q) (pl_shape q) (ig_output w)) (rt_parts route) (is_integrators st)).
End Integrate.
Arguments integrator : clear implicits.
Arguments walk_data : clear implicits.
Arguments integrate_task : clear implicits.
Arguments integrate_state : clear implicits.
