(** Model of the accumulating router: definition/accumulating_router.hpp (paths are relative to
    source/framework/algorithm/include/lue/framework/algorithm). *)
From Verif Require Import Common IndexModel DecompModel ArrayModel GridModel FlowModel.

(** A CellAccumulator (e.g. definition/accu.hpp:27-197), for one cell: [A] are the values of the arguments in
    the cell, [X] the values of the results in the cell, [M] the material that is sent to other partitions.  The
    hooks that are empty for the modelled algorithms are not there (enter_intra_partition_stream,
    leave_intra_partition_stream, leave_inter_partition_stream, and the stop_at functions). *)
Record accumulator (A X M : Type) := Accumulator {
  ac_initial : X;                     (* Functor::initialize_result_data, 1486-1491 *)
  ac_mark_no_data : X;                (* mark_no_data *)
  ac_enter_cell : A -> X -> outcome X;
  ac_leave_cell : X -> X -> outcome X; (* results of the upstream cell, results of the downstream cell *)
  ac_enter_inter : M -> X -> outcome X; (* enter_inter_partition_stream *)
  ac_outflow : X -> M
}.
Arguments Accumulator {A X M}. Arguments ac_initial {A X M}. Arguments ac_mark_no_data {A X M}.
Arguments ac_enter_cell {A X M}. Arguments ac_leave_cell {A X M}. Arguments ac_enter_inter {A X M}. Arguments ac_outflow {A X M}.

(** destination_cell, 146-294 *)
Definition destination_cell (n0 n1 r c dr dc : Z) : outcome (Z * Z) :=
  if negb ((r =? 0) || (r =? n0 - 1) || ((c =? 0) || (c =? n1 - 1))) then UB
  else if negb ((-1 <=? dr) && (dr <=? 1) && (-1 <=? dc) && (dc <=? 1)) then UB
  else if r =? 0 then
    if c =? 0 then
      if 0 <=? dr then if dc =? -1 then Ok (to_west, r + dr) else UB
      else if 0 <=? dc then if dr =? -1 then Ok (to_north, c + dc) else UB
      else if (dr =? -1) && (dc =? -1) then Ok (to_north_west, -1) else UB
    else if c =? n1 - 1 then
      if 0 <=? dr then if dc =? 1 then Ok (to_east, r + dr) else UB
      else if dc <=? 0 then if dr =? -1 then Ok (to_north, c + dc) else UB
      else if (dr =? -1) && (dc =? 1) then Ok (to_north_east, 0) else UB
    else if dr =? -1 then Ok (to_north, c + dc) else UB
  else if r =? n0 - 1 then
    if c =? 0 then
      if dr <=? 0 then if dc =? -1 then Ok (to_west, r + dr) else UB
      else if 0 <=? dc then if dr =? 1 then Ok (to_south, c + dc) else UB
      else if (dr =? 1) && (dc =? -1) then Ok (to_south_west, -1) else UB
    else if c =? n1 - 1 then
      if dr <=? 0 then if dc =? 1 then Ok (to_east, r + dr) else UB
      else if dc <=? 0 then if dr =? 1 then Ok (to_south, c + dc) else UB
      else if (dr =? 1) && (dc =? 1) then Ok (to_south_east, -1) else UB
    else if dr =? 1 then Ok (to_south, c + dc) else UB
  else if c =? 0 then if dc =? -1 then Ok (to_west, r + dr) else UB
  else if c =? n1 - 1 then if dc =? 1 then Ok (to_east, r + dr) else UB
  else Ok (to_north, -1).

(** std::find_if followed by erase; the assertion that the cell is found. *)
Fixpoint erase_first {B} (p : B -> bool) (l : list B) : outcome (list B) :=
  match l with
  | [] => UB
  | b :: l' => if p b then Ok l' else obind (erase_first p l') (fun l'' => Ok (b :: l''))
  end.

Section Router.
Context {A X M : Type} (ac : accumulator A X M).
Context (nd : Z -> bool).            (* is_no_data of the flow direction's input no-data policy *)

(** A channel: the values that are sent and not yet received, and whether it is closed. *)
Record channel := Channel { ch_queue : list (Z * M); ch_closed : bool }.

(** The tasks of a partition.  What solve_intra_partition_stream_cells (789-899) and, later, the monitors of
    solve_inter_partition_stream_cells (902-1209) work on: *)
Record partition_state := PState {
  ps_flow : grid Z;                  (* flow_direction_data *)
  ps_args : grid A;                  (* the arguments' data *)
  ps_original : grid Z;              (* inflow_count_data *)
  ps_count : grid Z;                 (* inflow_count_data_copy *)
  ps_result : grid X;                (* result_data *)
  ps_outputs : list output_cell;     (* output_cells_idxs *)
  ps_inputs : Z -> list (Z * Z);     (* by direction: input_cells_idxs of the direction's monitor *)
  ps_todo : list (Z * Z);            (* cells the loops over all cells (866-882) have not visited yet *)
  ps_sends : Z -> channel            (* by direction: the send channel *)
}.

Definition upd_z_fun {B} (f : Z -> B) (d : Z) (b : B) : Z -> B := fun d' => if d' =? d then b else f d'.

Definition set_result (s : partition_state) (x : grid X) : partition_state :=
  PState (ps_flow s) (ps_args s) (ps_original s) (ps_count s) x (ps_outputs s) (ps_inputs s) (ps_todo s) (ps_sends s).
Definition set_count (s : partition_state) (k : grid Z) : partition_state :=
  PState (ps_flow s) (ps_args s) (ps_original s) k (ps_result s) (ps_outputs s) (ps_inputs s) (ps_todo s) (ps_sends s).
Definition set_outputs (s : partition_state) (o : list output_cell) : partition_state :=
  PState (ps_flow s) (ps_args s) (ps_original s) (ps_count s) (ps_result s) o (ps_inputs s) (ps_todo s) (ps_sends s).
Definition set_input (s : partition_state) (d : Z) (i : list (Z * Z)) : partition_state :=
  PState (ps_flow s) (ps_args s) (ps_original s) (ps_count s) (ps_result s) (ps_outputs s) (upd_z_fun (ps_inputs s) d i) (ps_todo s) (ps_sends s).
Definition set_todo (s : partition_state) (t : list (Z * Z)) : partition_state :=
  PState (ps_flow s) (ps_args s) (ps_original s) (ps_count s) (ps_result s) (ps_outputs s) (ps_inputs s) t (ps_sends s).
Definition set_send (s : partition_state) (d : Z) (c : channel) : partition_state :=
  PState (ps_flow s) (ps_args s) (ps_original s) (ps_count s) (ps_result s) (ps_outputs s) (ps_inputs s) (ps_todo s) (upd_z_fun (ps_sends s) d c).

(** result(r, c) = body(result(r, c)) *)
Definition update_result (s : partition_state) (r c : Z) (body : X -> outcome X) : outcome partition_state :=
  obind (gget (ps_result s) r c) (fun x => obind (body x) (fun x' =>
  obind (gset (ps_result s) r c x') (fun g => Ok (set_result s g)))).

(** Communicator::send (detail/communicator.hpp:190-197); setting a closed channel is an error. *)
Definition send (s : partition_state) (d : Z) (m : Z * M) : outcome partition_state :=
  if ch_closed (ps_sends s d) then UB
  else Ok (set_send s d (Channel (ch_queue (ps_sends s d) ++ [m]) false)).
(** Communicator::close, detail/communicator.hpp:274-282 *)
Definition close (s : partition_state) (d : Z) : partition_state :=
  set_send s d (Channel (ch_queue (ps_sends s d)) true).

(** Accumulator::stop_at_partition_output_cell, 467-506.  [hn d]: the communicator has a neighbour at [d]. *)
Definition stop_at_partition_output_cell (hn : Z -> bool) (s : partition_state) (n0 n1 r c dr dc : Z) : outcome partition_state :=
  obind (destination_cell n0 n1 r c dr dc) (fun '(d, idx) =>
  obind (erase_first (fun o => (oc_direction o =? d) && (fst (oc_cell o) =? r) && (snd (oc_cell o) =? c)) (ps_outputs s)) (fun o =>
  let s := set_outputs s o in
  if hn d then
    obind (gget (ps_result s) r c) (fun x =>
    obind (send s d (idx, ac_outflow ac x)) (fun s =>
    Ok (match filter (fun o => oc_direction o =? d) o with [] => close s d | _ => s end)))
  else Ok s)).

(** accumulate, 525-599.  [fuel] bounds the number of iterations of the while (true); running out of it is UB
    here, and the theorems show that it does not happen. *)
Fixpoint accumulate (fuel : nat) (hn : Z -> bool) (s : partition_state) (r c : Z) : outcome partition_state :=
  match fuel with
  | O => UB
  | S fuel' =>
      let n0 := g0 (ps_flow s) in
      let n1 := g1 (ps_flow s) in
      obind (gget (ps_count s) r c) (fun k => if negb (k =? 0) then UB else
      obind (gget (ps_args s) r c) (fun a =>
      obind (update_result s r c (ac_enter_cell ac a)) (fun s =>
      obind (downstream_within (ps_flow s) n0 n1 r c) (fun '(dr, dc, within) =>
      if (dr =? 0) && (dc =? 0) then Ok s
      else if negb within then stop_at_partition_output_cell hn s n0 n1 r c dr dc
      else
        obind (gget (ps_result s) r c) (fun x =>
        obind (update_result s (r + dr) (c + dc) (ac_leave_cell ac x)) (fun s =>
        obind (gget (ps_count s) (r + dr) (c + dc)) (fun k => if negb (1 <=? k) then UB else
        obind (gset (ps_count s) (r + dr) (c + dc) (k - 1)) (fun g =>
        if 0 <? k - 1 then Ok (set_count s g)
        else accumulate fuel' hn (set_count s g) (r + dr) (c + dc)))))))))
  end.

Definition iterations (s : partition_state) : nat := S (Z.to_nat (g0 (ps_flow s) * g1 (ps_flow s))).

(** An iteration of the loops over all cells, 866-882 *)
Definition intra (hn : Z -> bool) (s : partition_state) (r c : Z) : outcome partition_state :=
  obind (gget (ps_flow s) r c) (fun d =>
  if nd d then update_result s r c (fun _ => Ok (ac_mark_no_data ac))
  else obind (gget (ps_original s) r c) (fun k =>
       if k =? 0 then accumulate (iterations s) hn s r c else Ok s)).

(** The lambda accumulate of solve_inter_partition_stream_cells, 987-1011 *)
Definition inter (hn : Z -> bool) (s : partition_state) (r c : Z) (v : M) : outcome partition_state :=
  obind (gget (ps_count s) r c) (fun k => if negb (1 <=? k) then UB else
  obind (update_result s r c (ac_enter_inter ac v)) (fun s =>
  obind (gset (ps_count s) r c (k - 1)) (fun g =>
  if k - 1 =? 0 then accumulate (iterations s) hn (set_count s g) r c else Ok (set_count s g)))).

(** The state of all partitions *)
Definition router_state := Z -> Z -> partition_state.
Definition upd_part (st : router_state) (r c : Z) (s : partition_state) : router_state :=
  fun r' c' => if (r' =? r) && (c' =? c) then s else st r' c'.

(** What can happen next.  An intra step is an iteration of the loops over all cells.  An inter step is an
    iteration of the loop of the monitor of a direction.  The monitors of a partition start after the loops over
    all cells are done (a dataflow on their results, 921-1207), and use a mutex.  The send at the end of
    accumulate is the only thing of a step that other partitions can see, so nothing is lost by taking these
    iterations as atomic steps. *)
Inductive label := Intra (r c : Z) | Inter (r c d : Z).

Section Step.
Context (n0 n1 : Z).    (* shape in partitions *)
Definition in_parts (r c : Z) : bool := (0 <=? r) && (r <? n0) && (0 <=? c) && (c <? n1).

(** [None]: not possible in this state. *)
Definition step (l : label) (st : router_state) : option (outcome router_state) :=
  match l with
  | Intra r c =>
      if in_parts r c then
        match ps_todo (st r c) with
        | [] => None
        | (i, j) :: todo =>
            Some (obind (intra (has_neighbour n0 n1 r c) (set_todo (st r c) todo) i j) (fun s => Ok (upd_part st r c s)))
        end
      else None
  | Inter r c d =>
      (* monitor_material_inputs, 602-644, for a direction whose collection of input cells is not empty *)
      if in_parts r c && (0 <=? d) && (d <? 8) then
        match ps_todo (st r c), ps_inputs (st r c) d with
        | [], _ :: _ =>
            (* lue_hpx_assert(channel) *)
            if has_neighbour n0 n1 r c d then
              let (rn, cn) := neighbour_idxs d r c in
              let d' := sender_direction d in
              let ch := ps_sends (st rn cn) d' in
              match ch_queue ch with
              | [] => if ch_closed ch then Some UB (* the loop ends while the collection is not empty *) else None
              | (idx, v) :: queue =>
                  let st := upd_part st rn cn (set_send (st rn cn) d' (Channel queue (ch_closed ch))) in
                  let s := st r c in
                  let (i, j) := idx_to_idxs d (g0 (ps_flow s)) (g1 (ps_flow s)) idx in
                  Some (obind (erase_first (fun rc => (fst rc =? i) && (snd rc =? j)) (ps_inputs s d)) (fun inputs =>
                        obind (inter (has_neighbour n0 n1 r c) (set_input s d inputs) i j v) (fun s =>
                        Ok (upd_part st r c s))))
              end
            else Some UB
        | _, _ => None
        end
      else None
  end.

(** A partition is done if its loops and its monitors are. *)
Definition part_finished (s : partition_state) : bool :=
  match ps_todo s with [] => forallb (fun d => match ps_inputs s d with [] => true | _ => false end) all_directions | _ => false end.
Definition finished (st : router_state) : bool :=
  forallb (fun rc => part_finished (st (fst rc) (snd rc))) (cells2 0 n0 0 n1).

(** A run: steps, in any order, that do not fail. *)
Inductive run : router_state -> list label -> router_state -> Prop :=
| run_nil st : run st [] st
| run_cons st l st' ls st'' : step l st = Some (Ok st') -> run st' ls st'' -> run st (l :: ls) st''.
End Step.

(** accumulate_partition, 1258-1336: inflow_count (1212-1247) with an output no-data policy that does nothing,
    and the initial state of the partition. *)
Definition initial_part (parts : grid (part2 Z)) (args : grid (part2 A)) (conns : grid (list output_cell)) (r c : Z) :
    outcome partition_state :=
  obind (gget parts r c) (fun q =>
  obind (gget args r c) (fun qa =>
  obind (inflow_count_action nd (fun k => k) (fun _ => false) parts conns r c) (fun '(cnt, inputs, outputs) =>
  Ok (PState (pl_data q) (pl_data qa) cnt cnt (gmake (g0 cnt) (g1 cnt) (fun _ _ => ac_initial ac)) outputs
        (fun d => nth (Z.to_nat d) inputs []) (cells2 0 (g0 cnt) 0 (g1 cnt)) (fun _ => Channel [] false))))).

(** accumulating_router, 1374-1419.  The arguments are given as a single array of tuples; in the code these are
    separate arrays, or scalars, all read at the same cell.  Connectivity and inflow counts do not depend on the
    routing of material, so they can be calculated first.  The result is a state in which the routing starts. *)
Definition unreached : partition_state :=
  PState (Grid 0 0 []) (Grid 0 0 []) (Grid 0 0 []) (Grid 0 0 []) (Grid 0 0 []) [] (fun _ => []) [] (fun _ => Channel [] true).
Definition router_start (flow : parray Z) (args : parray A) : outcome router_state :=
  let parts := flow_parts flow in
  let aparts := Grid (nth 0 (pa_sip args) 0) (nth 1 (pa_sip args) 0) (map to_part2 (pa_parts args)) in
  obind (connections nd parts) (fun conns =>
  obind (gbuild (g0 parts) (g1 parts) (initial_part parts aparts conns)) (fun states =>
  Ok (fun r c => match gget states r c with Ok s => s | _ => unreached end))).

(** The results, when all partitions are done; the assertion that all output cells have been handled, 1188-1193 *)
Definition router_results (flow : parray Z) (st : router_state) : outcome (parray X) :=
  let parts := flow_parts flow in
  obind (gbuild (g0 parts) (g1 parts) (fun r c =>
    obind (gget parts r c) (fun q =>
    match ps_outputs (st r c) with
    | [] => Ok (Placed (pl_locality q) (pl_offset q) [g0 (ps_result (st r c)); g1 (ps_result (st r c))] (ps_result (st r c)))
    | _ => UB
    end))) (fun out =>
  Ok (PArray (pa_shape flow) (pa_sip flow) (map of_part2 (gl out)))).
End Router.
