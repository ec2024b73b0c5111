(** Model of accu_info: definition/accu_info.hpp and accu_info.hpp, with the hooks called by
    definition/accumulating_router.hpp (paths are relative to
    source/framework/algorithm/include/lue/framework/algorithm). *)
From Verif Require Import Common IndexModel DecompModel ArrayModel GridModel FlowModel RouterModel.

(** The classes: accu_info.hpp:24-63.  255: the no-data value of CellClass, the largest value of the type
    (accu_info.hpp:22, SmallestUnsignedIntegralElement is std::uint8_t; value policies). *)
Definition no_class : Z := 255.
Definition ridge_cell : Z := 11.
Definition intra_partition_stream_cell : Z := 12.
Definition partition_output_cell : Z := 13.
Definition partition_input_cell : Z := 14.
Definition partition_input_output_cell : Z := 15.
Definition inter_partition_stream_cell : Z := 16.
Definition sink_cell : Z := 17.
Definition confluence_cell : Z := 18.

(** accu_info does not accumulate material: there are no arguments, and what is sent to other partitions (a class,
    outflow, definition/accu_info.hpp:136-139) is not used by the receiver (enter_inter_partition_stream, 66-71), so
    it is left out.  What is left of the tasks of a partition: the bookkeeping of RouterModel. *)
Definition no_material : accumulator unit unit unit :=
  Accumulator tt tt (fun _ _ => Ok tt) (fun _ _ => Ok tt) (fun _ _ => Ok tt) (fun _ => tt).
Definition bookkeeping := @partition_state unit unit unit.

(** CellAccumulator::leave_cell, definition/accu_info.hpp:94-115 *)
Definition leave_cell (g : grid Z) (r c r' c' : Z) : outcome (grid Z) :=
  obind (gget g r c) (fun upstream_class =>
  obind (gget g r' c') (fun downstream_class =>
  if negb (downstream_class =? no_class) then
    if upstream_class =? no_class then gset g r' c' no_class else gset g r' c' upstream_class
  else Ok g)).

(** CellAccumulator::leave_inter_partition_stream, definition/accu_info.hpp:74-86 *)
Definition leave_inter_partition_stream (g : grid Z) (r c : Z) : outcome (grid Z) :=
  obind (gget g r c) (fun k =>
  if negb (k =? partition_output_cell) then gset g r c partition_input_cell else gset g r c partition_input_output_cell).

Section Info.
Context (nd : Z -> bool).   (* is_no_data of the flow direction's input no-data policy *)

(** accumulate, definition/accumulating_router.hpp:525-599, with the hooks of definition/accu_info.hpp: enter_cell
    does nothing (89-91), stop_at_sink_cell (118-121), stop_at_confluence_cell (124-127),
    stop_at_partition_output_cell (130-133), which is called before the output cell is removed and its material is
    sent (accumulating_router.hpp:476). *)
Fixpoint info_accumulate (fuel : nat) (hn : Z -> bool) (s : bookkeeping) (g : grid Z) (r c : Z) : outcome (bookkeeping * grid Z) :=
  match fuel with
  | O => UB
  | S fuel' =>
      let n0 := g0 (ps_flow s) in
      let n1 := g1 (ps_flow s) in
      obind (gget (ps_count s) r c) (fun k => if negb (k =? 0) then UB else
      obind (downstream_within (ps_flow s) n0 n1 r c) (fun '(dr, dc, within) =>
      if (dr =? 0) && (dc =? 0) then obind (gset g r c sink_cell) (fun g => Ok (s, g))
      else if negb within then
        obind (gset g r c partition_output_cell) (fun g =>
        obind (stop_at_partition_output_cell no_material hn s n0 n1 r c dr dc) (fun s => Ok (s, g)))
      else
        obind (leave_cell g r c (r + dr) (c + dc)) (fun g =>
        obind (gget (ps_count s) (r + dr) (c + dc)) (fun k => if negb (1 <=? k) then UB else
        obind (gset (ps_count s) (r + dr) (c + dc) (k - 1)) (fun count =>
        if 0 <? k - 1 then obind (gset g (r + dr) (c + dc) confluence_cell) (fun g => Ok (set_count s count, g))
        else info_accumulate fuel' hn (set_count s count) g (r + dr) (c + dc))))))
  end.

(** An iteration of the loops over all cells, definition/accumulating_router.hpp:866-882;
    enter_intra_partition_stream (definition/accu_info.hpp:53-57), leave_intra_partition_stream (60-63), mark_no_data
    (142-145) *)
Definition info_intra (hn : Z -> bool) (s : bookkeeping) (g : grid Z) (r c : Z) : outcome (bookkeeping * grid Z) :=
  obind (gget (ps_flow s) r c) (fun d =>
  if nd d then obind (gset g r c no_class) (fun g => Ok (s, g))
  else obind (gget (ps_original s) r c) (fun k =>
       if k =? 0 then
         obind (gset g r c intra_partition_stream_cell) (fun g =>
         obind (info_accumulate (iterations s) hn s g r c) (fun '(s, g) =>
         obind (gset g r c ridge_cell) (fun g => Ok (s, g))))
       else Ok (s, g))).

(** The lambda accumulate of solve_inter_partition_stream_cells, definition/accumulating_router.hpp:987-1011 *)
Definition info_inter (hn : Z -> bool) (s : bookkeeping) (g : grid Z) (r c : Z) : outcome (bookkeeping * grid Z) :=
  obind (gget (ps_count s) r c) (fun k => if negb (1 <=? k) then UB else
  obind (gset g r c inter_partition_stream_cell) (fun g =>
  obind (gset (ps_count s) r c (k - 1)) (fun count =>
  if k - 1 =? 0 then
    obind (info_accumulate (iterations s) hn (set_count s count) g r c) (fun '(s, g) =>
    obind (leave_inter_partition_stream g r c) (fun g => Ok (s, g)))
  else Ok (set_count s count, g)))).

(** The state of all partitions: bookkeeping and classes *)
Definition info_state := ((Z -> Z -> bookkeeping) * (Z -> Z -> grid Z))%type.
Definition upd_classes (cl : Z -> Z -> grid Z) (r c : Z) (g : grid Z) : Z -> Z -> grid Z :=
  fun r' c' => if (r' =? r) && (c' =? c) then g else cl r' c'.

Section Step.
Context (n0 n1 : Z).    (* shape in partitions *)

(** As RouterModel.step *)
Definition info_step (l : label) (st : info_state) : option (outcome info_state) :=
  let (st, cl) := st in
  match l with
  | Intra r c =>
      if in_parts n0 n1 r c then
        match ps_todo (st r c) with
        | [] => None
        | (i, j) :: todo =>
            Some (obind (info_intra (has_neighbour n0 n1 r c) (set_todo (st r c) todo) (cl r c) i j) (fun '(s, g) =>
                  Ok (upd_part st r c s, upd_classes cl r c g)))
        end
      else None
  | Inter r c d =>
      if in_parts n0 n1 r c && (0 <=? d) && (d <? 8) then
        match ps_todo (st r c), ps_inputs (st r c) d with
        | [], _ :: _ =>
            if has_neighbour n0 n1 r c d then
              let (rn, cn) := neighbour_idxs d r c in
              let d' := sender_direction d in
              let ch := ps_sends (st rn cn) d' in
              match ch_queue ch with
              | [] => if ch_closed ch then Some UB else None
              | (idx, _) :: queue =>
                  let st := upd_part st rn cn (set_send (st rn cn) d' (Channel queue (ch_closed ch))) in
                  let s := st r c in
                  let (i, j) := idx_to_idxs d (g0 (ps_flow s)) (g1 (ps_flow s)) idx in
                  Some (obind (erase_first (fun rc => (fst rc =? i) && (snd rc =? j)) (ps_inputs s d)) (fun inputs =>
                        obind (info_inter (has_neighbour n0 n1 r c) (set_input s d inputs) (cl r c) i j) (fun '(s, g) =>
                        Ok (upd_part st r c s, upd_classes cl r c g))))
              end
            else Some UB
        | _, _ => None
        end
      else None
  end.

(** All partitions are done *)
Definition info_finished (st : info_state) : bool := finished n0 n1 (fst st).

(** A run: steps, in any order, that do not fail. *)
Inductive info_run : info_state -> list label -> info_state -> Prop :=
| info_run_nil st : info_run st [] st
| info_run_cons st l st' ls st'' : info_step l st = Some (Ok st') -> info_run st' ls st'' -> info_run st (l :: ls) st''.
End Step.

(** The start: accumulating_router (definition/accumulating_router.hpp:1374-1419); new partitions contain zeros (1486-1491,
    core/array.hpp:66-76).  accu_info has no arguments; [units], an array of units, stands for that. *)
Definition info_start (flow : parray Z) (units : parray unit) : outcome info_state :=
  obind (router_start no_material nd flow units) (fun st =>
  Ok (st, fun r c => gmake (g0 (ps_flow (st r c))) (g1 (ps_flow (st r c))) (fun _ _ => 0))).

(** The result, definition/accu_info.hpp:181-188, when all partitions are done; the assertion that all output cells
    have been handled, definition/accumulating_router.hpp:1188-1193 *)
Definition info_results (flow : parray Z) (st : info_state) : outcome (parray Z) :=
  let parts := flow_parts flow in
  obind (gbuild (g0 parts) (g1 parts) (fun r c =>
    obind (gget parts r c) (fun q =>
    match ps_outputs (fst st r c) with
    | [] => Ok (Placed (pl_locality q) (pl_offset q) [g0 (snd st r c); g1 (snd st r c)] (snd st r c))
    | _ => UB
    end))) (fun out =>
  Ok (PArray (pa_shape flow) (pa_sip flow) (map of_part2 (gl out)))).
End Info.
