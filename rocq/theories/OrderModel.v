(** Model of decreasing_order: algorithm/definition/decreasing_order.hpp, and of the routes that it returns:
    partitioned_route/include/lue/framework/serial_route.hpp and partitioned_route/.../serial_route_fragment.hpp.
    Paths are relative to source/framework. *)
From Verif Require Import Common IndexModel DecompModel ArrayModel LocalModel ZonalModel.

(** SerialRouteFragment, serial_route_fragment.hpp:25-120: linear indices of cells within the partition, and the
    partition in which the next fragment is, if any.  A partition is identified by its linear index instead of the ID of its component. *)
Record fragment := Fragment { fr_cells : list Z; fr_next : option Z }.

(** SerialRoute, serial_route.hpp:28-180: shape of the array, for each route the partition with the first fragment, and
    for each partition its offset, its shape and, for each route, the fragments. *)
Record serial_route := SerialRoute {
  rt_shape : list Z; rt_sip : list Z; rt_starts : zmap Z; rt_parts : list (placed (zmap (list fragment)))
}.

(** std::map::erase(key) *)
Fixpoint zerase {S} (m : zmap S) (k : Z) : zmap S :=
  match m with
  | [] => []
  | (k', s) :: m' => if k' =? k then zerase m' k else (k', s) :: zerase m' k
  end.
(** m[k].push_back(s) *)
Definition zpush {S} (m : zmap (list S)) (k : Z) (s : S) : zmap (list S) :=
  zset_map m k (match zfind m k with None => [s] | Some l => l ++ [s] end).
Definition is_nil {A} (l : list A) : bool := match l with [] => true | _ => false end.

(** The component of a partition, server::DecreasingOrderZonal, 204-567.  [cm_finished]: how often finish_partition was called. *)
Record component (V : Type) := Component {
  cm_local : zmap (list (V * Z));        (* _local_values_by_zone: values in decreasing order, with the index of the cell *)
  cm_fragments : zmap (list fragment);   (* _data._route_fragments, with their ends *)
  cm_finished : Z
}.
Arguments Component {V}. Arguments cm_local {V}. Arguments cm_fragments {V}. Arguments cm_finished {V}.

(** Actions called asynchronously on the component of partition [p]. *)
Inductive order_task (V : Type) :=
| RecordFragment (p zone : Z) (maxima : list (V * Z)) (current : Z)   (* record_route_fragment *)
| SkipRecording (p zone : Z).                                         (* skip_recording_route_fragments *)
Arguments RecordFragment {V}. Arguments SkipRecording {V}.

(** All components, and the tasks that have been spawned but did not run yet.  HPX may run these in any order. *)
Record order_state (V : Type) := OrderState { os_components : list (component V); os_tasks : list (order_task V) }.
Arguments OrderState {V}. Arguments os_components {V}. Arguments os_tasks {V}.

Section Order.
Context {V : Type}.
Context (ltb : V -> V -> bool) (eqb : V -> V -> bool).  (* operator< and operator== of the element type *)
Context (min_value : V).                               (* std::numeric_limits<Value>::min() *)
Context (sort : list (V * Z) -> list (V * Z)).         (* std::sort with a comparison by > of the first elements of the tuples *)
Context (max_nr_cells : Z).

(** lhs >= rhs, lhs > rhs, in terms of <; no NaNs here *)
Definition geb (x y : V) : bool := negb (ltb x y).
Definition gtb (x y : V) : bool := ltb y x.

(** The loop that adds local values to the fragment, 383-402 / 889-908: the cells added, the local values that are left, and
    current_nr_cells after the loop *)
Fixpoint take_local (remote_value : V) (local : list (V * Z)) (current : Z) : list Z * list (V * Z) * Z :=
  match local with
  | [] => ([], [], current)
  | (v, idx) :: local' =>
      if current <? max_nr_cells then
        if geb v remote_value then
          let '(cells, rest, n) := take_local remote_value local' (current + 1) in (idx :: cells, rest, n)
        else ([], local, current)
      else ([], local, current)
  end.

(** downstream_maxima.insert(std::lower_bound(...), record), 465-478 / 964-977: before the first element that is not larger
    than the new one.  std::lower_bound finds that position if the collection is sorted. *)
Fixpoint insert_maximum (m : V * Z) (maxima : list (V * Z)) : list (V * Z) :=
  match maxima with
  | [] => [m]
  | m' :: maxima' => if gtb (fst m') (fst m) then m' :: insert_maximum m maxima' else m :: maxima
  end.

(** A call to finish_partition once nothing is left to be done, 503-506, 525-528.  In the code, this waits for the
    locations of the fragments that follow the partition's fragments, and sets the ends of these.  Those locations are the
    partitions of the components on which record_route_fragment was called, which are known already, so here the end is set
    when the fragment is added. *)
Definition finish_if_done (c : component V) : component V :=
  if is_nil (cm_local c) then Component (cm_local c) (cm_fragments c) (cm_finished c + 1) else c.

(** record_route_fragment, 332-514; the global variant, 838-1011, is the same for a single zone.  Between the sections with a read
    lock and a write lock only tasks for other zones can run, which do not touch this zone's values: atomic here.
    Result: the component after the call, and the tasks spawned. *)
Definition record_route_fragment (p : Z) (c : component V) (zone : Z) (maxima : list (V * Z)) (current : Z) :
    outcome (component V * list (order_task V)) :=
  match zfind (cm_local c) zone, maxima with
  | Some (((local_value, _) :: _) as local), (maximum, id) :: downstream =>
      if negb (eqb maximum local_value) then UB            (* asserts, 356-357 *)
      else if negb (id =? p) then UB
      else
        let remote_value := match downstream with [] => min_value | (v, _) :: _ => v end in
        if match downstream with [] => false | (v, q) :: _ => negb (geb local_value v) || (q =? p) end then UB   (* asserts, 368-369 *)
        else
          let '(cells, local', current') := take_local remote_value local current in
          let add next m := Component m (zpush (cm_fragments c) zone (Fragment cells next)) (cm_finished c) in
          match (if current' <? max_nr_cells then downstream else []) with
          | [] =>                                           (* not continue_downstream *)
              if existsb (fun '(_, q) => q =? p) downstream then UB   (* assert, 558 *)
              else Ok (finish_if_done (add None (zerase (cm_local c) zone)), map (fun '(_, q) => SkipRecording q zone) downstream)
          | (v, q) :: _ =>
              match local' with
              | [] => Ok (finish_if_done (add (Some q) (zerase (cm_local c) zone)), [RecordFragment q zone downstream current'])
              | (new_maximum, _) :: _ =>
                  if negb (ltb new_maximum v) then UB       (* assert, 459 *)
                  else Ok (finish_if_done (add (Some q) (zset_map (cm_local c) zone local')),
                           [RecordFragment q zone (insert_maximum (new_maximum, p) downstream) current'])
              end
          end
  | _, _ => UB                                              (* asserts, 344-353 *)
  end.

(** skip_recording_route_fragments, 517-529; 1014-1021 *)
Definition skip_recording_route_fragments (c : component V) (zone : Z) : outcome (component V) :=
  match zfind (cm_local c) zone with
  | Some _ => Ok (finish_if_done (Component (zerase (cm_local c) zone) (cm_fragments c) (cm_finished c)))
  | None => UB
  end.

(** Running a task *)
Definition task_partition (t : order_task V) : Z := match t with RecordFragment p _ _ _ => p | SkipRecording p _ => p end.
Definition run_task (t : order_task V) (c : component V) : outcome (component V * list (order_task V)) :=
  match t with
  | RecordFragment p zone maxima current => record_route_fragment p c zone maxima current
  | SkipRecording _ zone => obind (skip_recording_route_fragments c zone) (fun c => Ok (c, []))
  end.
(** The scheduler picks task [k]. *)
Definition order_step (k : nat) (st : order_state V) : option (outcome (order_state V)) :=
  match nth_error (os_tasks st) k with
  | None => None
  | Some t =>
      Some (match nth_z (task_partition t) (os_components st) with
            | None => UB
            | Some c =>
                obind (run_task t c) (fun '(c, spawned) =>
                match upd_z (task_partition t) c (os_components st) with
                | None => UB
                | Some components => Ok (OrderState components (firstn k (os_tasks st) ++ skipn (S k) (os_tasks st) ++ spawned))
                end)
            end)
  end.
Inductive order_run : order_state V -> list nat -> order_state V -> Prop :=
| order_run_nil st : order_run st [] st
| order_run_cons st k st' ks st'' : order_step k st = Some (Ok st') -> order_run st' ks st'' -> order_run st (k :: ks) st''.

(** sort_values, 268-324.  [zone_nd], [value_nd]: is_no_data of the no-data policies.  The global variant,
    790-829, does not look at zones. *)
Context (value_nd : V -> bool).
Definition local_values (zone_nd : Z -> bool) (zones : placed (list Z)) (values : placed (list V)) : outcome (zmap (list (V * Z))) :=
  fold_left (fun acc idx =>
      obind acc (fun m => obind (at_z (pl_data zones) idx) (fun z => obind (at_z (pl_data values) idx) (fun v =>
        Ok (if negb (zone_nd z) && negb (value_nd v) then zpush m z (v, idx) else m)))))
    (zseq 0 (nr_elements (pl_shape values))) (Ok []).
Definition sort_values (zone_nd : Z -> bool) (zones : placed (list Z)) (values : placed (list V)) : outcome (component V * zmap V) :=
  obind (local_values zone_nd zones values) (fun m =>
  let sorted := map (fun '(z, l) => (z, sort l)) m in
  obind (sequence (map (fun '(z, l) => match l with [] => UB | (v, _) :: _ => Ok (z, v) end) sorted)) (fun maxima =>
  Ok (finish_if_done (Component sorted [] 0), maxima))).

(** For each zone the maxima, in the order of the partitions, 1365-1378 *)
Definition collect_maxima (maxima : list (zmap V)) : zmap (list (V * Z)) :=
  fold_left (fun acc '(p, m) => fold_left (fun acc '(z, v) => zpush acc z (v, p)) m acc)
    (combine (zseq 0 (Z.of_nat (length maxima))) maxima) [].

(** decreasing_order, 1201-1436: the starts of the routes, and the state once the first tasks have been spawned.  The order of
    zones in std::map does not matter. *)
Definition decreasing_order (zone_nd : Z -> bool) (zone : parray Z) (value : parray V) : outcome (zmap Z * order_state V) :=
  obind (verify_compatible zone value) (fun _ =>
  obind (sequence (map2 (sort_values zone_nd) (pa_parts zone) (pa_parts value))) (fun sorted =>
  let maxima := map (fun '(z, l) => (z, sort l)) (collect_maxima (map snd sorted)) in
  obind (sequence (map (fun '(z, l) => match l with [] => UB | (_, p) :: _ => Ok (z, p) end) maxima)) (fun starts =>
  Ok (starts, OrderState (map fst sorted) (map (fun '((z, p), (_, l)) => RecordFragment p z l 0) (combine starts maxima)))))).

(** The overload without zones, 1444-1567: a single route with ID 0.  If there is no valid cell at all, then
    downstream_maxima.front() is evaluated on an empty collection, 1607. *)
Definition decreasing_order_global (value : parray V) : outcome (zmap Z * order_state V) :=
  obind (sequence (map (fun q => sort_values (fun _ => false) (Placed 0 (pl_offset q) (pl_shape q) (map (fun _ => 0) (pl_data q))) q) (pa_parts value))) (fun sorted =>
  match collect_maxima (map snd sorted) with
  | [] => UB
  | (z, l) :: _ =>
      match sort l with
      | [] => UB
      | ((_, p) :: _) as l => Ok ([(z, p)], OrderState (map fst sorted) [RecordFragment p z l 0])
      end
  end).

(** The route is ready if all components called finish_partition, and may be used then. *)
Definition order_result (value : parray V) (starts : zmap Z) (st : order_state V) : serial_route :=
  SerialRoute (pa_shape value) (pa_sip value) starts
    (map2 (fun q c => Placed (pl_locality q) (pl_offset q) (pl_shape q) (cm_fragments c)) (pa_parts value) (os_components st)).
End Order.
