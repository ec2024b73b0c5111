(** Model of flow directions, the connectivity of partitions and inflow_count.
    Paths are relative to source/framework/algorithm/include/lue/framework/algorithm. *)
From Verif Require Import Common IndexModel DecompModel ArrayModel GridModel.

(** A loop whose body updates a state. *)
Fixpoint for_each {B S} (l : list B) (body : B -> S -> outcome S) (s : S) : outcome S :=
  match l with
  | [] => Ok s
  | b :: l' => obind (body b s) (fun s' => for_each l' body s')
  end.

(** flow_direction.hpp:7-32 *)
Definition north_west := 7.
Definition north := 8.
Definition north_east := 9.
Definition west := 4.
Definition sink := 5.
Definition east := 6.
Definition south_west := 1.
Definition south := 2.
Definition south_east := 3.

(** downstream_cell with extents, detail/flow_direction.hpp:11-75: the offsets (two reference arguments)
    and whether the downstream cell is within the partition. *)
Definition downstream_within (g : grid Z) (n0 n1 r c : Z) : outcome (Z * Z * bool) :=
  obind (gget g r c) (fun d =>
  Ok (if d =? north_west then (-1, -1, negb ((r =? 0) || (c =? 0)))
      else if d =? north then (-1, 0, negb (r =? 0))
      else if d =? north_east then (-1, 1, negb ((r =? 0) || (c =? n1 - 1)))
      else if d =? west then (0, -1, negb (c =? 0))
      else if d =? east then (0, 1, negb (c =? n1 - 1))
      else if d =? south_west then (1, -1, negb ((r =? n0 - 1) || (c =? 0)))
      else if d =? south then (1, 0, negb (r =? n0 - 1))
      else if d =? south_east then (1, 1, negb ((r =? n0 - 1) || (c =? n1 - 1)))
      else (0, 0, true))).

(** downstream_cell without extents, detail/flow_direction.hpp:78-127 *)
Definition downstream_cell (g : grid Z) (r c : Z) : outcome (Z * Z) :=
  obind (gget g r c) (fun d =>
  Ok (if d =? north_west then (r - 1, c - 1)
      else if d =? north then (r - 1, c)
      else if d =? north_east then (r - 1, c + 1)
      else if d =? west then (r, c - 1)
      else if d =? east then (r, c + 1)
      else if d =? south_west then (r + 1, c - 1)
      else if d =? south then (r + 1, c)
      else if d =? south_east then (r + 1, c + 1)
      else (r, c))).

(** accu::Direction, detail/communicator.hpp:38-63; accu::directions is [zseq 0 8]. *)
Definition to_north := 0.
Definition to_north_east := 1.
Definition to_east := 2.
Definition to_south_east := 3.
Definition to_south := 4.
Definition to_south_west := 5.
Definition to_west := 6.
Definition to_north_west := 7.

(** Communicator::neighbour_idx, detail/communicator.hpp:343-361: the indices instead of the linear index. *)
Definition neighbour_idxs (d r c : Z) : Z * Z :=
  let o := nth (Z.to_nat d) [(-1, 0); (-1, 1); (0, 1); (1, 1); (1, 0); (1, -1); (0, -1); (-1, -1)] (0, 0) in
  (r + fst o, c + snd o).

(** sender_direction, detail/communicator.hpp:391-400: the direction to us from the neighbour at [d]. *)
Definition sender_direction (d : Z) : Z :=
  nth (Z.to_nat d) [to_south; to_south_west; to_west; to_north_west; to_north; to_north_east; to_east; to_south_east] 0.

(** Communicator constructor and has_neighbour, detail/communicator.hpp:91-187: which channels are set up
    by the communicator of partition (r, c) of an array of n0 x n1 partitions.  A send channel exists if and
    only if the receive channel with the same direction does. *)
Definition has_neighbour (n0 n1 r c d : Z) : bool :=
  if (1 <? n0) || (1 <? n1) then
    if d =? to_north then 0 <? r
    else if d =? to_north_west then (0 <? r) && (0 <? c)
    else if d =? to_north_east then (0 <? r) && (c <? n1 - 1)
    else if d =? to_south then r <? n0 - 1
    else if d =? to_south_west then (r <? n0 - 1) && (0 <? c)
    else if d =? to_south_east then (r <? n0 - 1) && (c <? n1 - 1)
    else if d =? to_west then 0 <? c
    else if d =? to_east then c <? n1 - 1
    else false
  else false.

(** RowIdxConverter, ColIdxConverter and CornerIdxConverter, detail/idx_converter.hpp:71-171, with the
    arguments used for each direction: definition/inflow_count.hpp:430-470, definition/accumulating_router.hpp:1021-1184. *)
Definition idx_to_idxs (d n0 n1 idx : Z) : Z * Z :=
  if d =? to_north then (0, idx)
  else if d =? to_south then (n0 - 1, idx)
  else if d =? to_west then (idx, 0)
  else if d =? to_east then (idx, n1 - 1)
  else if d =? to_north_west then (0, 0)
  else if d =? to_north_east then (0, n1 - 1)
  else if d =? to_south_east then (n0 - 1, n1 - 1)
  else (n0 - 1, 0).

Section Count.
Context (nd : Z -> bool).    (* is_no_data of the flow direction's input no-data policy *)
Context (mark : Z -> Z).     (* mark_no_data of the count's output no-data policy *)
Context (cnd : Z -> bool).   (* is_no_data of that policy *)

(** lue_hpx_assert(!indp.is_no_data(flow_direction_data(r, c))); inflow_count_data(r, c) += 1 *)
Definition count_into (g : grid Z) (r c : Z) (cnt : grid Z) : outcome (grid Z) :=
  obind (gget g r c) (fun d => if nd d then UB else
  obind (gget cnt r c) (fun k => gset cnt r c (k + 1))).

Definition mark_count (r c : Z) (cnt : grid Z) : outcome (grid Z) :=
  obind (gget cnt r c) (fun k => gset cnt r c (mark k)).

(** inflow_count_partition_data, detail/inflow_count.hpp:10-352.  A cell inside the partition, 25-48 *)
Definition count_inner (g : grid Z) (rc : Z * Z) (cnt : grid Z) : outcome (grid Z) :=
  let (r, c) := rc in
  obind (gget g r c) (fun d =>
  if nd d then mark_count r c cnt
  else
    obind (downstream_cell g r c) (fun '(rd, cd) =>
    if negb (rd =? r) || negb (cd =? c) then count_into g rd cd cnt else Ok cnt)).

(** A chain of else-ifs: a flow direction and the offset of the cell to count in. *)
Fixpoint count_chain (g : grid Z) (d r c : Z) (chain : list (Z * (Z * Z))) (cnt : grid Z) : outcome (grid Z) :=
  match chain with
  | [] => Ok cnt
  | (d', (dr, dc)) :: chain' => if d =? d' then count_into g (r + dr) (c + dc) cnt else count_chain g d r c chain' cnt
  end.
Definition count_border (g : grid Z) (chain : list (Z * (Z * Z))) (rc : Z * Z) (cnt : grid Z) : outcome (grid Z) :=
  let (r, c) := rc in
  obind (gget g r c) (fun d => if nd d then mark_count r c cnt else count_chain g d r c chain cnt).

Definition inflow_count_partition_data (g : grid Z) : outcome (grid Z) :=
  let n0 := g0 g in
  let n1 := g1 g in
  obind (for_each (cells2 1 (n0 - 2) 1 (n1 - 2)) (count_inner g) (gmake n0 n1 (fun _ _ => 0))) (fun cnt =>
  (* North-west cell, 51-81 *)
  obind (count_border g [(east, (0, 1)); (south_east, (1, 1)); (south, (1, 0))] (0, 0) cnt) (fun cnt =>
  (* North-east cell, 83-112 *)
  obind (count_border g [(west, (0, -1)); (south_west, (1, -1)); (south, (1, 0))] (0, n1 - 1) cnt) (fun cnt =>
  (* South-west cell, 114-143 *)
  obind (count_border g [(north, (-1, 0)); (north_east, (-1, 1)); (east, (0, 1))] (n0 - 1, 0) cnt) (fun cnt =>
  (* South-east cell, 145-174 *)
  obind (count_border g [(west, (0, -1)); (north_west, (-1, -1)); (north, (-1, 0))] (n0 - 1, n1 - 1) cnt) (fun cnt =>
  obind (if 2 <? n1 then
      (* North cells, 178-219 *)
      obind (for_each (cells2 0 1 1 (n1 - 2))
               (count_border g [(west, (0, -1)); (south_west, (1, -1)); (south, (1, 0)); (south_east, (1, 1)); (east, (0, 1))]) cnt) (fun cnt =>
      (* South cells, 221-262 *)
      for_each (cells2 (n0 - 1) 1 1 (n1 - 2))
        (count_border g [(west, (0, -1)); (north_west, (-1, -1)); (north, (-1, 0)); (north_east, (-1, 1)); (east, (0, 1))]) cnt)
    else Ok cnt) (fun cnt =>
  if 2 <? n0 then
      (* West cells, 267-308 *)
      obind (for_each (cells2 1 (n0 - 2) 0 1)
               (count_border g [(north, (-1, 0)); (north_east, (-1, 1)); (east, (0, 1)); (south_east, (1, 1)); (south, (1, 0))]) cnt) (fun cnt =>
      (* East cells, 310-351 *)
      for_each (cells2 1 (n0 - 2) (n1 - 1) 1)
        (count_border g [(north, (-1, 0)); (north_west, (-1, -1)); (west, (0, -1)); (south_west, (1, -1)); (south, (1, 0))]) cnt)
  else Ok cnt)))))).

(** connectivity_ready, definition/inflow_count.hpp:94-417.  A partition output cell: the direction of the
    neighbouring partition, the cell (an element of output_cells_idxs[direction]) and the index of the cell in
    the neighbour that receives its outflow (an element of input_cell_idxs[direction]).  The code has a list of
    cells and a list of indices for each direction; here there is one list, with the direction, in the order in
    which elements are added. *)
Record output_cell := OutputCell { oc_direction : Z; oc_cell : Z * Z; oc_idx : Z }.

(** A chain of else-ifs: flow direction, direction, index *)
Fixpoint connect_chain (d : Z) (rc : Z * Z) (chain : list (Z * (Z * Z))) : list output_cell :=
  match chain with
  | [] => []
  | (d', (dir, idx)) :: chain' => if d =? d' then [OutputCell dir rc idx] else connect_chain d rc chain'
  end.
Definition connect (g : grid Z) (chain : Z -> Z -> list (Z * (Z * Z))) (rc : Z * Z) (l : list output_cell) : outcome (list output_cell) :=
  obind (gget g (fst rc) (snd rc)) (fun d =>
  Ok (if nd d then l else l ++ connect_chain d rc (chain (fst rc) (snd rc)))).

Definition connectivity_ready (g : grid Z) : outcome (list output_cell) :=
  let n0 := g0 g in
  let n1 := g1 g in
  obind (if 2 <? n1 then
      (* North side, 140-166 *)
      obind (for_each (cells2 0 1 1 (n1 - 2))
               (connect g (fun r c => [(north_west, (to_north, c - 1)); (north, (to_north, c)); (north_east, (to_north, c + 1))])) []) (fun l =>
      (* South side, 168-194 *)
      for_each (cells2 (n0 - 1) 1 1 (n1 - 2))
        (connect g (fun r c => [(south_west, (to_south, c - 1)); (south, (to_south, c)); (south_east, (to_south, c + 1))])) l)
    else Ok []) (fun l =>
  obind (if 2 <? n0 then
      (* West side, 199-225 *)
      obind (for_each (cells2 1 (n0 - 2) 0 1)
               (connect g (fun r c => [(north_west, (to_west, r - 1)); (west, (to_west, r)); (south_west, (to_west, r + 1))])) l) (fun l =>
      (* East side, 227-253 *)
      for_each (cells2 1 (n0 - 2) (n1 - 1) 1)
        (connect g (fun r c => [(north_east, (to_east, r - 1)); (east, (to_east, r)); (south_east, (to_east, r + 1))])) l)
    else Ok l) (fun l =>
  (* North-west corner, 256-291 *)
  obind (connect g (fun r c => [(south_west, (to_west, r + 1)); (west, (to_west, r)); (north_west, (to_north_west, -1));
                                (north, (to_north, c)); (north_east, (to_north, c + 1))]) (0, 0) l) (fun l =>
  (* North-east corner, 293-328 *)
  obind (connect g (fun r c => [(north_west, (to_north, c - 1)); (north, (to_north, c)); (north_east, (to_north_east, -1));
                                (east, (to_east, r)); (south_east, (to_east, r + 1))]) (0, n1 - 1) l) (fun l =>
  (* South-east corner, 330-365 *)
  obind (connect g (fun r c => [(north_east, (to_east, r - 1)); (east, (to_east, r)); (south_east, (to_south_east, -1));
                                (south, (to_south, c)); (south_west, (to_south, c - 1))]) (n0 - 1, n1 - 1) l) (fun l =>
  (* South-west corner, 367-402 *)
  connect g (fun r c => [(north_west, (to_west, r - 1)); (west, (to_west, r)); (south_west, (to_south_west, -1));
                         (south, (to_south, c)); (south_east, (to_south, c + 1))]) (n0 - 1, 0) l))))).

(** What is sent in a direction, definition/inflow_count.hpp:404-417: the indices, if there are any, and an
    empty collection as sentinel. *)
Definition sent (l : list output_cell) (d : Z) : list (list Z) :=
  let idxs := map oc_idx (filter (fun o => oc_direction o =? d) l) in
  (match idxs with [] => [] | _ => [idxs] end) ++ [[]].

(** monitor_cell_idx_inputs, definition/inflow_count.hpp:50-92: receive until the sentinel. *)
Fixpoint received (d n0 n1 : Z) (msgs : list (list Z)) : list (Z * Z) :=
  match msgs with
  | [] => []
  | [] :: _ => []
  | idxs :: msgs' => map (idx_to_idxs d n0 n1) idxs ++ received d n0 n1 msgs'
  end.
(** The assertions at the end of monitor_cell_idx_inputs, 76-88 *)
Definition border_cells (n0 n1 : Z) (l : list (Z * Z)) : bool :=
  forallb (fun rc : Z * Z => let (r, c) := rc in
    (0 <=? r) && (r <? n0) && (0 <=? c) && (c <? n1) &&
    ((r =? 0) || (r =? n0 - 1) || (c =? 0) || (c =? n1 - 1))) l.

(** input_cells_idxs of partition (r, c): what it receives from each direction, 419-480.  Channels of
    directions without a neighbour are not valid: nothing is received.  [conns] holds the output cells of all
    partitions. *)
Definition input_cells (conns : grid (list output_cell)) (n0 n1 r c d : Z) : outcome (list (Z * Z)) :=
  if has_neighbour (g0 conns) (g1 conns) r c d then
    let (rn, cn) := neighbour_idxs d r c in
    obind (gget conns rn cn) (fun l =>
    let cells := received d n0 n1 (sent l (sender_direction d)) in
    if border_cells n0 n1 cells then Ok cells else UB)
  else Ok [].

(** inflow_count_ready, definition/inflow_count.hpp:508-563 *)
Definition count_input (g : grid Z) (rc : Z * Z) (cnt : grid Z) : outcome (grid Z) :=
  let (r, c) := rc in
  if border_cells (g0 g) (g1 g) [rc] then
    obind (gget g r c) (fun d => if nd d then UB else
    obind (gget cnt r c) (fun k => if cnd k then UB else
    obind (gset cnt r c (k + 1)) (fun cnt' => if k + 1 <=? 8 then Ok cnt' else UB)))
  else UB.
Definition inflow_count_ready (g : grid Z) (inputs : list (list (Z * Z))) : outcome (grid Z) :=
  obind (inflow_count_partition_data g) (fun cnt =>
  for_each inputs (fun cells cnt => for_each cells (count_input g) cnt) cnt).

(** inflow_count_action for a partition, definition/inflow_count.hpp:602-637: the count, the input cells in
    each of the eight directions, and the output cells. *)
Definition all_directions : list Z := zseq 0 8.
Definition flow_parts (arr : parray Z) : grid (part2 Z) :=
  Grid (nth 0 (pa_sip arr) 0) (nth 1 (pa_sip arr) 0) (map to_part2 (pa_parts arr)).
Definition connections (parts : grid (part2 Z)) : outcome (grid (list output_cell)) :=
  gbuild (g0 parts) (g1 parts) (fun r c => obind (gget parts r c) (fun q => connectivity_ready (pl_data q))).
Definition inflow_count_action (parts : grid (part2 Z)) (conns : grid (list output_cell)) (r c : Z) :
    outcome (grid Z * list (list (Z * Z)) * list output_cell) :=
  obind (gget parts r c) (fun q =>
  obind (sequence (map (input_cells conns (g0 (pl_data q)) (g1 (pl_data q)) r c) all_directions)) (fun inputs =>
  obind (inflow_count_ready (pl_data q) inputs) (fun cnt =>
  obind (gget conns r c) (fun outputs => Ok (cnt, inputs, outputs))))).

(** inflow_count, definition/inflow_count.hpp:651-713.  The tasks of a partition wait for the indices sent by
    its neighbours; nothing else is shared between partitions, so the order in which tasks run does not matter. *)
Definition inflow_count (arr : parray Z) : outcome (parray Z) :=
  let parts := flow_parts arr in
  obind (connections parts) (fun conns =>
  obind (gbuild (g0 parts) (g1 parts) (fun r c =>
           obind (gget parts r c) (fun q =>
           obind (inflow_count_action parts conns r c) (fun '(cnt, _, _) =>
           Ok (Placed (pl_locality q) (pl_offset q) [g0 cnt; g1 cnt] cnt))))) (fun out =>
  Ok (PArray (pa_shape arr) (pa_sip arr) (map of_part2 (gl out))))).
End Count.
