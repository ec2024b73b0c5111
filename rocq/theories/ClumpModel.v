(** Model of clump: framework/algorithm/include/lue/framework/algorithm/definition/clump.hpp.  Line numbers are those of this file.  Zones and
    clump IDs are of the same integral type (1944-1945), which is wide enough for the IDs.  Loops carry a bound on the number of their iterations; exceeding it is
    UB here, so that the theorems include that they end.  Failed assertions are UB. *)
From Verif Require Import Common IndexModel DecompModel ArrayModel GridModel UniqueModel ClumpSpec.

Definition assert (b : bool) {A} (x : outcome A) : outcome A := if b then x else UB.

(** SpanRequest, 47-67 *)
Record span_request := SpanRequest { sr_row : Z; sr_west : Z; sr_east : Z; sr_direction : Z }.

Section Clump.
(** The no-data policies of the zones and of the clumps, and the value that marks no-data in the clumps *)
Context (zone_nd clump_nd : Z -> bool) (clump_mark : Z).

Section Fill.
Context (how : connectivity) (zones : grid Z) (zone_id clump_id : Z).

(** row_available, 117-121, 325-329 *)
Definition row_available (row direction : Z) : bool :=
  ((direction =? -1) && (0 <? row)) || ((direction =? 1) && (row <? g0 zones - 1)).
(** cell_is_connected, 123-127, 331-335; in_clump, 22-28 *)
Definition cell_is_connected (row col : Z) : outcome bool :=
  obind (gget zones row col) (fun v => Ok (negb (zone_nd v) && (v =? zone_id))).
(** added_to_clump_already, 31-37 *)
Definition added_already (clumps : grid Z) (row col : Z) : outcome bool := obind (gget clumps row col) (fun v => Ok (negb (clump_nd v))).
(** add_to_clump, 40-45, and the assertion before it *)
Definition add_to_clump (clumps : grid Z) (row col : Z) : outcome (grid Z) :=
  obind (added_already clumps row col) (fun added => assert (negb added) (gset clumps row col clump_id)).

(** assert_request_is_valid, 70-88 *)
Definition request_is_valid (clumps : grid Z) (q : span_request) : bool :=
  (0 <=? sr_row q) && (sr_row q <? g0 clumps) && (0 <=? sr_west q) && (sr_west q <? g1 clumps) && (sr_east q <? g1 clumps) && (sr_west q <=? sr_east q) &&
  ((sr_direction q =? -1) || (sr_direction q =? 1)) &&
  forallb (fun col => match gget clumps (sr_row q - sr_direction q) col with Ok v => v =? clump_id | _ => false end)
    (zseq (sr_west q) (sr_east q - sr_west q + 1)).
(** requests.push, only if the row is available *)
Definition push (clumps : grid Z) (row direction west east : Z) (requests : list span_request) : outcome (list span_request) :=
  if row_available row direction then
    let q := SpanRequest (row + direction) west east direction in
    assert (request_is_valid clumps q) (Ok (q :: requests))
  else Ok requests.

(** The for-loop to the west, 163-172, 367-376 *)
Fixpoint scan_west (fuel : nat) (row col : Z) (clumps : grid Z) : outcome (Z * grid Z) :=
  match fuel with
  | O => UB
  | S fuel' =>
      if 0 <? col then
        obind (cell_is_connected row (col - 1)) (fun connected =>
        if connected then obind (add_to_clump clumps row (col - 1)) (fun clumps' => scan_west fuel' row (col - 1) clumps')
        else Ok (col, clumps))
      else Ok (col, clumps)
  end.

(** The while-loop to the east, 217-228, 422-433, 498-509 *)
Fixpoint scan_east (fuel : nat) (row west : Z) (clumps : grid Z) : outcome (Z * grid Z) :=
  match fuel with
  | O => UB
  | S fuel' =>
      if west <? g1 zones then
        obind (cell_is_connected row west) (fun connected =>
        if connected then obind (add_to_clump clumps row west) (fun clumps' => scan_east fuel' row (west + 1) clumps')
        else Ok (west, clumps))
      else Ok (west, clumps)
  end.

(** The while-loop that skips cells, 281-284, 486-489 *)
Fixpoint skip_cells (fuel : nat) (row west east : Z) : outcome Z :=
  match fuel with
  | O => UB
  | S fuel' =>
      if west <=? east then obind (cell_is_connected row west) (fun connected => if connected then Ok west else skip_cells fuel' row (west + 1) east)
      else Ok west
  end.

Definition columns : nat := S (S (Z.to_nat (g1 zones))).

(** The while-loop over the span of the parent, 205-288, 410-493.  Returns the last value of west. *)
Fixpoint span_loop (fuel : nat) (row east direction : Z) (west col : Z) (clumps : grid Z) (requests : list span_request)
  : outcome (Z * grid Z * list span_request) :=
  match fuel with
  | O => UB
  | S fuel' =>
      if west <=? east then
        obind (added_already clumps row west) (fun added =>
        obind (if added then Ok (west, clumps) else scan_east columns row west clumps) (fun '(west, clumps) =>
        obind (if col <? west then push clumps row direction col (west - 1) requests else Ok requests) (fun requests =>
        obind (if east <? west - 1 then push clumps row (- direction) (east + 1) (west - 1) requests else Ok requests) (fun requests =>
        obind (skip_cells columns row (west + 1) east) (fun west => span_loop fuel' row east direction west west clumps requests)))))
      else Ok (west, clumps, requests)
  end.

(** Whether to look to the west of the span: 154-156 (non-diagonal), 358-359 (diagonal) *)
Definition look_west (row col : Z) (clumps : grid Z) : outcome bool :=
  if 0 <? col then
    obind (cell_is_connected row (match how with Nondiagonal => col | Diagonal => col - 1 end)) (fun connected =>
    if connected then obind (added_already clumps row (col - 1)) (fun added => Ok (negb added)) else Ok false)
  else Ok false.

(** One iteration of the loop over the requests: 144-289 (non-diagonal), 347-534 (diagonal).  The functions differ in the test whether to look to the west, in
    where the request of the U-turn to the west ends (174, 192-197; 378, 390-395), and in the block at the end (495-533). *)
Definition handle_request (q : span_request) (clumps : grid Z) (requests : list span_request) : outcome (grid Z * list span_request) :=
  let row := sr_row q in let west := sr_west q in let east := sr_east q in let direction := sr_direction q in
  obind (look_west row west clumps) (fun look =>
  obind (if look then
           obind (scan_west columns row west clumps) (fun '(col, clumps) =>
           let end_ := match how with Nondiagonal => west - 1 | Diagonal => west end in
           obind (if col <? end_ then push clumps row (- direction) col (end_ - 1) requests else Ok requests) (fun requests =>
           Ok (col, clumps, requests)))
         else Ok (west, clumps, requests)) (fun '(col, clumps, requests) =>
  obind (span_loop columns row east direction west col clumps requests) (fun '(west, clumps, requests) =>
  match how with
  | Nondiagonal => Ok (clumps, requests)
  | Diagonal =>
      if (east <? g1 zones - 1) && (west - 1 =? east) then
        obind (cell_is_connected row west) (fun connected =>
        obind (if connected then added_already clumps row west else Ok true) (fun added =>
        if connected && negb added then
          obind (scan_east columns row west clumps) (fun '(west, clumps) =>
          obind (push clumps row direction (east + 1) (west - 1) requests) (fun requests =>
          obind (push clumps row (- direction) (east + 1) (west - 1) requests) (fun requests => Ok (clumps, requests))))
        else Ok (clumps, requests)))
      else Ok (clumps, requests)
  end))).

Fixpoint handle_requests (fuel : nat) (clumps : grid Z) (requests : list span_request) : outcome (grid Z) :=
  match requests with
  | [] => Ok clumps
  | q :: requests' =>
      match fuel with
      | O => UB
      | S fuel' => obind (handle_request q clumps requests') (fun '(clumps, requests) => handle_requests fuel' clumps requests)
      end
  end.
End Fill.

(** flood_fill, 538-561; flood_fill_nondiagonal, 91-290; flood_fill_diagonal, 300-535 *)
Definition flood_fill (how : connectivity) (zones : grid Z) (row col : Z) (clumps : grid Z) (clump_id : Z) : outcome (grid Z) :=
  obind (gget zones row col) (fun zone_id =>
  assert (negb (zone_nd zone_id)) (
  let requests := [SpanRequest row col col 1] in
  let requests := if row_available zones row (-1) then SpanRequest (row - 1) col col (-1) :: requests else requests in
  handle_requests how zones zone_id clump_id (Z.to_nat (3 * (g0 zones * g1 zones) + 2)) clumps requests)).

(** The loops over cells that call flood_fill: 845-863 (all rows of a partition), 1279-1303 and 1411-1434 (the first row of two rows at a border), 1534-1557 (four cells) *)
Definition fill_cells (how : connectivity) (zones : grid Z) (cells : list (Z * Z)) : outcome (grid Z * Z) :=
  fold_left (fun acc '(row, col) => obind acc (fun '(clumps, clump_id) =>
      obind (gget zones row col) (fun zone => obind (gget clumps row col) (fun clump =>
      if negb (zone_nd zone) && clump_nd clump then obind (flood_fill how zones row col clumps clump_id) (fun clumps => Ok (clumps, clump_id + 1))
      else Ok (clumps, clump_id)))))
    cells (Ok (gmake (g0 zones) (g1 zones) (fun _ _ => clump_mark), 0)).

(** LocalResult, 564-791: the sides of the zones and of the clumps, the clumps, and the LUT, in which position is local clump ID. *)
Record local_result := LocalResult {
  lr_zones : grid Z;    (* only the sides are looked at *)
  lr_clumps : grid Z;
  lr_lut : list Z }.

(** clump_partition, 806-918; the constructor fills the LUT with 0, 1, ... (635-640) *)
Definition clump_partition (how : connectivity) (zones : grid Z) : outcome local_result :=
  obind (fill_cells how zones (cells2 0 (g0 zones) 0 (g1 zones))) (fun '(clumps, nr_clumps) => Ok (LocalResult zones clumps (zseq 0 nr_clumps))).

(** north_side, ..., 690-727 and 866-908: zones and clumps *)
Definition grid_row (g : grid Z) (r : Z) : outcome (list Z) := sequence (map (fun c => gget g r c) (zseq 0 (g1 g))).
Definition grid_column (g : grid Z) (c : Z) : outcome (list Z) := sequence (map (fun r => gget g r c) (zseq 0 (g0 g))).
Inductive side := North | South | West | East.
Definition side_of (s : side) (g : grid Z) : outcome (list Z) :=
  match s with
  | North => grid_row g 0
  | South => grid_row g (g0 g - 1)
  | West => grid_column g 0
  | East => grid_column g (g1 g - 1)
  end.

(** reclassify_global_clump_ids, 661-669 and 1199-1205: the IDs of the partitions follow each other. *)
Fixpoint number_clumps (first : Z) (l : list local_result) : list local_result :=
  match l with
  | [] => []
  | r :: l' => LocalResult (lr_zones r) (lr_clumps r) (map (Z.add first) (lr_lut r)) :: number_clumps (first + Z.of_nat (length (lr_lut r))) l'
  end.

(** global_clump_ids_by_local_clump_id and global_clump_ids, 1207-1214.  The keys: partition (row-major position instead of row and column), local clump ID. *)
Definition clump_key : Type := Z * Z.
Definition key_eqb (k k' : clump_key) : bool := (fst k =? fst k') && (snd k =? snd k').
Record merge_state := MergeState { ms_index : list (clump_key * Z); ms_sets : list (list Z) }.
Fixpoint find_key (m : list (clump_key * Z)) (k : clump_key) : option Z :=
  match m with [] => None | (k', i) :: m' => if key_eqb k k' then Some i else find_key m' k end.
Definition add_key (m : list (clump_key * Z)) (k : clump_key) (i : Z) : list (clump_key * Z) :=
  match find_key m k with Some _ => m | None => m ++ [(k, i)] end.
Definition insert_into (sets : list (list Z)) (i : Z) (id : Z) : outcome (list (list Z)) :=
  obind (at_z sets i) (fun s => match upd_z i (set_insert id s) sets with Some sets' => Ok sets' | None => UB end).
(** global_clump_id, 678-683 *)
Definition global_clump_id (r : local_result) (local_clump_id : Z) : outcome Z := at_z (lr_lut r) local_clump_id.

(** The cells of one side of a border that are in the boundary clump: those at [start] and further.  [ids]: the local clump IDs of the side, [boundary]: the IDs
    the flood fill of the border gave to the cells. *)
Definition side_clumps (boundary ids : list Z) (boundary_clump_id start : Z) : outcome (list Z) :=
  obind (sequence (map (fun i => obind (at_z boundary i) (fun b => obind (at_z ids i) (fun id => Ok (b, id)))) (zseq start (Z.of_nat (length boundary) - start)))) (fun l =>
  Ok (map snd (filter (fun '(b, _) => negb (zone_nd b) && (b =? boundary_clump_id)) l))).

(** The first key that is there, 1019-1042, 1046-1072 *)
Fixpoint first_index (m : list (clump_key * Z)) (partition : Z) (ids : list Z) : option Z :=
  match ids with
  | [] => None
  | id :: ids' => match find_key m (partition, id) with Some i => Some i | None => first_index m partition ids' end
  end.

(** 1084-1112, 1114-1137 *)
Definition merge_side (partition : Z) (r : local_result) (ids : list Z) (i : Z) (ms : merge_state) : outcome merge_state :=
  fold_left (fun acc id => obind acc (fun ms =>
      obind (global_clump_id r id) (fun g => obind (insert_into (ms_sets ms) i g) (fun sets =>
      Ok (MergeState (add_key (ms_index ms) (partition, id) i) sets)))))
    ids (Ok ms).

(** merge_clump, 966-1138 *)
Definition merge_clump (north : Z * local_result) (north_ids : list Z) (south : Z * local_result) (south_ids : list Z) (ms : merge_state) : outcome merge_state :=
  let '(i, sets) :=
    match first_index (ms_index ms) (fst north) north_ids with
    | Some i => (i, ms_sets ms)
    | None =>
        match first_index (ms_index ms) (fst south) south_ids with
        | Some i => (i, ms_sets ms)
        | None => (Z.of_nat (length (ms_sets ms)), ms_sets ms ++ [[]])
        end
    end in
  obind (merge_side (fst north) (snd north) north_ids i (MergeState (ms_index ms) sets)) (fun ms => merge_side (fst south) (snd south) south_ids i ms).

(** std::find *)
Fixpoint find_position (v : Z) (l : list Z) : Z := match l with [] => 0 | x :: l' => if x =? v then 0 else 1 + find_position v l' end.

(** The loop over the cells of the north row, 1314-1353, 1445-1484 *)
Definition merge_border (north south : Z * local_result) (north_ids south_ids north_boundary south_boundary : list Z) (ms : merge_state) : outcome merge_state :=
  let nr_cols := Z.of_nat (length north_boundary) in
  obind (fold_left (fun acc north_idx => obind acc (fun '(handled, ms) =>
      obind (at_z north_boundary north_idx) (fun b =>
      if negb (zone_nd b) && negb (existsb (Z.eqb b) handled) then
        let south_idx := find_position b south_boundary in
        obind (if negb (south_idx =? nr_cols) then
                 obind (side_clumps north_boundary north_ids b north_idx) (fun ns =>
                 obind (side_clumps south_boundary south_ids b south_idx) (fun ss => merge_clump north ns south ss ms))
               else Ok ms) (fun ms => Ok (b :: handled, ms))
      else Ok (handled, ms))))
    (zseq 0 nr_cols) (Ok ([], ms))) (fun '(_, ms) => Ok ms).

(** A horizontal border, 1222-1355, or a vertical one, 1357-1486, of which the columns become rows *)
Definition handle_border (how : connectivity) (north : Z * local_result) (north_side : side) (south : Z * local_result) (south_side : side) (ms : merge_state) : outcome merge_state :=
  obind (side_of north_side (lr_zones (snd north))) (fun north_zones => obind (side_of south_side (lr_zones (snd south))) (fun south_zones =>
  obind (side_of north_side (lr_clumps (snd north))) (fun north_ids => obind (side_of south_side (lr_clumps (snd south))) (fun south_ids =>
  let nr_cols := Z.of_nat (length north_zones) in
  assert (nr_cols =? Z.of_nat (length south_zones)) (
  obind (fill_cells how (Grid 2 nr_cols (north_zones ++ south_zones)) (cells2 0 1 0 nr_cols)) (fun '(boundary, _) =>
  merge_border north south north_ids south_ids (firstn (length north_zones) (gl boundary)) (skipn (length north_zones) (gl boundary)) ms)))))).

(** A clump that extends diagonally, 1563-1652, 1654-1741 *)
Definition merge_diagonal (x : Z * local_result) (x_id : Z) (y : Z * local_result) (y_id : Z) (ms : merge_state) : outcome merge_state :=
  let x_key := (fst x, x_id) in let y_key := (fst y, y_id) in
  let '(xi, yi, index, sets) :=
    match find_key (ms_index ms) x_key, find_key (ms_index ms) y_key with
    | Some xi, Some yi => (xi, yi, ms_index ms, ms_sets ms)
    | Some xi, None => (xi, xi, add_key (ms_index ms) y_key xi, ms_sets ms)
    | None, Some yi => (yi, yi, add_key (ms_index ms) x_key yi, ms_sets ms)
    | None, None => let i := Z.of_nat (length (ms_sets ms)) in (i, i, add_key (add_key (ms_index ms) x_key i) y_key i, ms_sets ms ++ [[]])
    end in
  obind (global_clump_id (snd x) x_id) (fun gx => obind (global_clump_id (snd y) y_id) (fun gy =>
  obind (insert_into sets xi gx) (fun sets => obind (insert_into sets xi gy) (fun sets =>
  obind (insert_into sets yi gx) (fun sets => obind (insert_into sets yi gy) (fun sets => Ok (MergeState index sets))))))).

(** The corner where four partitions meet, 1488-1743; corners of a partition, 729-769 *)
Definition handle_corner (nw ne sw se : Z * local_result) (ms : merge_state) : outcome merge_state :=
  let south_east r := fun g => gget g (g0 (lr_clumps (snd r)) - 1) (g1 (lr_clumps (snd r)) - 1) in
  let south_west r := fun g => gget g (g0 (lr_clumps (snd r)) - 1) 0 in
  let north_east r := fun g => gget g 0 (g1 (lr_clumps (snd r)) - 1) in
  let north_west (r : Z * local_result) := fun g => gget g 0 0 in
  obind (south_east nw (lr_zones (snd nw))) (fun z0 => obind (south_west ne (lr_zones (snd ne))) (fun z1 =>
  obind (north_east sw (lr_zones (snd sw))) (fun z2 => obind (north_west se (lr_zones (snd se))) (fun z3 =>
  obind (south_east nw (lr_clumps (snd nw))) (fun i0 => obind (south_west ne (lr_clumps (snd ne))) (fun i1 =>
  obind (north_east sw (lr_clumps (snd sw))) (fun i2 => obind (north_west se (lr_clumps (snd se))) (fun i3 =>
  obind (fill_cells Diagonal (Grid 2 2 [z0; z1; z2; z3]) (cells2 0 2 0 2)) (fun '(boundary, _) =>
  match gl boundary with
  | [b0; b1; b2; b3] =>
      obind (if negb (zone_nd b0) && negb (zone_nd b3) && (b0 =? b3) then merge_diagonal nw i0 se i3 ms else Ok ms) (fun ms =>
      if negb (zone_nd b1) && negb (zone_nd b2) && (b1 =? b2) then merge_diagonal ne i1 sw i2 ms else Ok ms)
  | _ => UB
  end))))))))).

(** The loops over partitions, 1217-1747 *)
Definition handle_partition (how : connectivity) (results : grid local_result) (row col : Z) (ms : merge_state) : outcome merge_state :=
  let at_ r c := obind (gget results r c) (fun x => Ok (r * g1 results + c, x)) in
  obind (at_ row col) (fun q =>
  obind (if row <? g0 results - 1 then obind (at_ (row + 1) col) (fun s => handle_border how q South s North ms) else Ok ms) (fun ms =>
  obind (if col <? g1 results - 1 then obind (at_ row (col + 1)) (fun e => handle_border how q East e West ms) else Ok ms) (fun ms =>
  match how with
  | Diagonal =>
      if (row <? g0 results - 1) && (col <? g1 results - 1) then
        obind (at_ row (col + 1)) (fun ne => obind (at_ (row + 1) col) (fun sw => obind (at_ (row + 1) (col + 1)) (fun se => handle_corner q ne sw se ms)))
      else Ok ms
  | Nondiagonal => Ok ms
  end))).
Definition collect_sets (how : connectivity) (results : grid local_result) : outcome merge_state :=
  fold_left (fun acc '(row, col) => obind acc (fun ms => handle_partition how results row col ms))
    (cells2 0 (g0 results) 0 (g1 results)) (Ok (MergeState [] [])).

(** share_element, 1141-1189.  lower_bound: the first element that is not less. *)
Fixpoint lower_bound (v : Z) (l : list Z) : list Z := match l with [] => [] | x :: l' => if x <? v then lower_bound v l' else l end.
Fixpoint share_loop (fuel : nat) (l r : list Z) : outcome bool :=
  match l, r with
  | [], _ | _, [] => Ok false
  | x :: _, y :: _ =>
      match fuel with
      | O => UB
      | S fuel' => if x <? y then share_loop fuel' (lower_bound y l) r else if y <? x then share_loop fuel' l (lower_bound x r) else Ok true
      end
  end.
Definition share_element (l r : list Z) : outcome bool :=
  let size (s : list Z) := Z.of_nat (length s) in
  match l, r with
  | [], _ | _, [] => Ok false
  | _, _ =>
      if size l * 100 <? size r then Ok (existsb (fun x => existsb (Z.eqb x) r) l)
      else if size r * 100 <? size l then Ok (existsb (fun x => existsb (Z.eqb x) l) r)
      else share_loop (length l + length r) l r
  end.

(** The loop over pairs of sets, 1767-1809: the sets, and for a set that was merged the one it was merged into *)
Definition merge_sets (sets : list (list Z)) : outcome (list (list Z) * list (Z * Z)) :=
  let n := Z.of_nat (length sets) in
  fold_left (fun acc idx1 =>
      fold_left (fun acc idx2 => obind acc (fun '(sets, updates) =>
          obind (at_z sets idx1) (fun s1 => obind (at_z sets idx2) (fun s2 =>
          obind (share_element s1 s2) (fun share =>
          if share then
            assert (negb (existsb (fun u => fst u =? idx2) updates)) (
            match upd_z idx1 (fold_left (fun s v => set_insert v s) s2 s1) sets with
            | Some sets => match upd_z idx2 [] sets with Some sets => Ok (sets, (idx2, idx1) :: updates) | None => UB end
            | None => UB
            end)
          else Ok (sets, updates))))))
        (zseq (idx1 + 1) (n - (idx1 + 1))) acc)
    (zseq 0 n) (Ok (sets, [])).
Fixpoint find_update (updates : list (Z * Z)) (i : Z) : Z := match updates with [] => i | (k, j) :: u => if k =? i then j else find_update u i end.

(** determine_reclass_tables, 1192-1839: the LUTs after merging.  update_global_clump_id, 684-690 *)
Definition set_lut (results : list local_result) (partition local_clump_id id : Z) : outcome (list local_result) :=
  obind (at_z results partition) (fun r =>
  match upd_z local_clump_id id (lr_lut r) with
  | Some lut => match upd_z partition (LocalResult (lr_zones r) (lr_clumps r) lut) results with Some results' => Ok results' | None => UB end
  | None => UB
  end).
Definition determine_reclass_tables (how : connectivity) (sip : Z * Z) (local_results : list local_result) : outcome (list local_result) :=
  let results := number_clumps 0 local_results in
  obind (collect_sets how (Grid (fst sip) (snd sip) results)) (fun ms =>
  obind (merge_sets (ms_sets ms)) (fun '(sets, updates) =>
  fold_left (fun acc '(key, i) => obind acc (fun results =>
      obind (at_z sets (find_update updates i)) (fun s =>
      match s with
      | [] => UB   (* begin() of an empty set *)
      | id :: _ => set_lut results (fst key) (snd key) id
      end)))
    (ms_index ms) (Ok results))).

(** reclass_partition, 1842-1866 *)
Definition reclass_partition (r : local_result) : outcome (grid Z) :=
  for_cells (cells2 0 (g0 (lr_clumps r)) 0 (g1 (lr_clumps r))) (fun _ _ v => if negb (clump_nd v) then at_z (lr_lut r) v else Ok v) (lr_clumps r).

(** clump, 1937-1962.  solve_clump_locally, 930-963, solve_clump_globally, 1878-1933: partitions are handled independently of each other, and keep their place. *)
Definition clump (how : connectivity) (a : parray Z) : outcome (parray Z) :=
  let parts := map to_part2 (pa_parts a) in
  obind (sequence (map (fun q => clump_partition how (pl_data q)) parts)) (fun local_results =>
  match pa_sip a with
  | [nr_rows; nr_cols] =>
      obind (determine_reclass_tables how (nr_rows, nr_cols) local_results) (fun results =>
      obind (sequence (map reclass_partition results)) (fun clumps =>
      Ok (PArray (pa_shape a) (pa_sip a) (map (fun '(q, g) => of_part2 (Placed (pl_locality q) (pl_offset q) (pl_shape q) g)) (combine parts clumps)))))
  | _ => UB
  end).
End Clump.
