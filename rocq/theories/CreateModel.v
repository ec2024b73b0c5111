(** Operations that fill an array with numbers that depend on the position of the cells:
    range, mesh_grid, cell_index and array_like.
    ALG = source/framework/algorithm/include/lue/framework/algorithm *)
From Verif Require Import Common IndexModel DecompModel ArrayModel GridModel LocalModel FlowModel.

(** The partitions of a two-dimensional array, by row and column *)
Definition parts2 {E} (arr : parray E) : grid (part2 E) :=
  Grid (nth 0 (pa_sip arr) 0) (nth 1 (pa_sip arr) 0) (map to_part2 (pa_parts arr)).
Definition array2 {E} (a sip : list Z) (parts : grid (part2 E)) : parray E := PArray a sip (map of_part2 (gl parts)).

(** ** ALG/range.hpp, for integral elements of type [t] *)
Section Range.
Context (t : itype).

(** value++ on an Element.  int and wider: overflow is undefined behaviour; smaller types are promoted to int and
    converted back. *)
Definition increment (v : Z) : outcome Z :=
  if signed t && (32 <=? bits t) && negb (in_range t (v + 1)) then UB else Ok (wrap t (v + 1)).
(** value += offset, both an Element *)
Definition add_element (v d : Z) : outcome Z :=
  if signed t && (32 <=? bits t) && negb (in_range t (v + d)) then UB else Ok (wrap t (v + d)).
(** start_value += count: Element += std::int64_t, which is computed in 64 bits and converted to Element *)
Definition add_count (v n : Z) : outcome Z :=
  if signed t && (64 <=? bits t) && negb (in_range t (v + n)) then UB else Ok (wrap t (v + n)).

(** detail::range_partition, 12-50.  Line 32 is the assertion; [n0], [n1] is the partition's shape, [junk] the content of
    the new buffer. *)
Definition range_row (n1 : Z) (r : Z) (s : Z * grid Z) : outcome (Z * grid Z) :=
  for_each (zseq 0 n1) (fun c s =>
    obind (gset (snd s) r c (fst s)) (fun data => obind (increment (fst s)) (fun value => Ok (value, data)))) s.
Definition range_partition (junk : Z -> Z) (n0 n1 start_value stride : Z) : outcome (grid Z) :=
  if stride <? n1 then UB else
  let offset := wrap t (stride - n1) in
  obind (for_each (zseq 0 n0) (fun r s =>
           obind (range_row n1 r s) (fun s => obind (add_element (fst s) offset) (fun value => Ok (value, snd s))))
           (start_value, Grid n0 n1 (fresh junk (n0 * n1)))) (fun s => Ok (snd s)).

(** range, 78-160.  The tasks that set the data of the partitions are independent of each other; here they run when
    they are spawned.  The extents of the first partition of a row of partitions are used for all of them (139-140). *)
Definition range_partitions_row (junk : Z -> Z) (parts : grid (part2 Z)) (stride h w idx0 : Z) (s : Z * grid (part2 Z)) :
    outcome (Z * grid (part2 Z)) :=
  for_each (zseq 0 (g1 parts)) (fun idx1 s =>
    obind (gget parts idx0 idx1) (fun q =>
    obind (range_partition junk (nth 0 (pl_shape q) 0) (nth 1 (pl_shape q) 0) (fst s) stride) (fun data =>
    obind (gset (snd s) idx0 idx1 (Placed (pl_locality q) (pl_offset q) (pl_shape q) data)) (fun out =>
    obind (add_count (fst s) w) (fun start_value => Ok (start_value, out)))))) s.
Definition range (junk : Z -> Z) (arr : parray Z) (start_value : Z) : outcome (parray Z) :=
  let parts := parts2 arr in
  let stride := nth 1 (pa_shape arr) 0 in
  obind (for_each (zseq 0 (g0 parts)) (fun idx0 s =>
           obind (gget parts idx0 0) (fun q =>
           let h := nth 0 (pl_shape q) 0 in
           let w := nth 1 (pl_shape q) 0 in
           obind (range_partitions_row junk parts stride h w idx0 s) (fun s =>
           obind (add_count (fst s) ((h - 1) * stride)) (fun start_value => Ok (start_value, snd s)))))
           (start_value, parts)) (fun s =>
  Ok (array2 (pa_shape arr) (pa_sip arr) (snd s))).
End Range.

(** ** ALG/mesh_grid.hpp.  [times i step] is the product of an Index and an OutputElement, [plus] the addition of
    OutputElements *)
Section MeshGrid.
Context {I O : Type} (plus : O -> O -> O) (times : Z -> O -> O) (junk : Z -> O) (first_value step : O).

(** detail::mesh_grid_partition, 9-75; rank 1: 41-49 *)
Definition mesh_grid_partition1 (q : placed (list I)) : outcome (placed (list O)) :=
  let n := nth 0 (pl_shape q) 0 in
  obind (for_elements n (fun i _ => Ok (plus first_value (times (nth 0 (pl_offset q) 0 + i) step))) (fresh junk n)) (fun data =>
  Ok (Placed (pl_locality q) (pl_offset q) (pl_shape q) data)).
(** Rank 2: 50-75 *)
Definition mesh_grid_partition2 (dimension : Z) (q : placed (list I)) : outcome (placed (list O)) :=
  let n0 := nth 0 (pl_shape q) 0 in
  let n1 := nth 1 (pl_shape q) 0 in
  let offset := nth (Z.to_nat dimension) (pl_offset q) 0 in
  let out := Grid n0 n1 (fresh junk (n0 * n1)) in
  obind
    (if dimension =? 0 then
       for_cells (cells2 0 n0 0 n1) (fun idx0 idx1 _ => Ok (plus first_value (times (offset + idx0) step))) out
     else if dimension =? 1 then
       for_cells (cells2 0 n0 0 n1) (fun idx0 idx1 _ => Ok (plus first_value (times (offset + idx1) step))) out
     else Ok out) (fun data =>
  Ok (Placed (pl_locality q) (pl_offset q) (pl_shape q) (gl data))).

(** mesh_grid, 106-156: an array for each dimension *)
Definition mesh_grid1 (arr : parray I) : outcome (parray O) :=
  obind (sequence (map mesh_grid_partition1 (pa_parts arr))) (fun parts => Ok (PArray (pa_shape arr) (pa_sip arr) parts)).
Definition mesh_grid2 (arr : parray I) : outcome (parray O * parray O) :=
  obind (sequence (map (mesh_grid_partition2 0) (pa_parts arr))) (fun parts0 =>
  obind (sequence (map (mesh_grid_partition2 1) (pa_parts arr))) (fun parts1 =>
  Ok (PArray (pa_shape arr) (pa_sip arr) parts0, PArray (pa_shape arr) (pa_sip arr) parts1))).
End MeshGrid.

(** ** ALG/definition/cell_index.hpp.  [t] is the type of the indices; [mark] is mark_no_data. *)
Section CellIndex.
Context (t : itype) (no_data : Z -> bool) (mark : Z -> Z) (junk : Z -> Z).

(** detail::cell_index::cell_index_partition, 11-107: the new partition and an extent.  The running index idx is the
    linear index of the cell.  Index values are converted to the element type when they are assigned. *)
Definition cell_index_cell (condition : grid Z) (index : Z -> Z -> Z) (idx0 idx1 old : Z) : outcome Z :=
  obind (gget condition idx0 idx1) (fun c =>
  if no_data c || (c =? 0) then Ok (mark old) else Ok (wrap t (index idx0 idx1))).
Definition cell_index_partition (dimension_idx partition_idx partition_extent : Z) (q : part2 Z) : outcome (part2 Z * Z) :=
  let idx_offset := partition_idx * partition_extent in
  let n0 := nth 0 (pl_shape q) 0 in
  let n1 := nth 1 (pl_shape q) 0 in
  let out := Grid n0 n1 (fresh junk (n0 * n1)) in
  obind
    (if dimension_idx =? 0 then
       obind (for_cells (cells2 0 n0 0 n1) (cell_index_cell (pl_data q) (fun idx0 idx1 => idx_offset + idx0)) out) (fun data =>
       Ok (data, n1))    (* count = std::get<1>(partition_shape), 74 *)
     else if dimension_idx =? 1 then
       obind (for_cells (cells2 0 n0 0 n1) (cell_index_cell (pl_data q) (fun idx0 idx1 => idx_offset + idx1)) out) (fun data =>
       Ok (data, n0))    (* count = std::get<0>(partition_shape), 98 *)
     else Ok (out, 0)) (fun dc =>
  Ok (Placed (pl_locality q) (pl_offset q) (pl_shape q) (fst dc), snd dc)).

(** cell_index, 136-257.  First the partitions with index 0 in the dimension; the extent of the first of them is passed to
    the tasks of the other ones. *)
Definition cell_index (condition : parray Z) (dimension_idx : Z) : outcome (parray Z) :=
  let parts := parts2 condition in
  obind (gget parts 0 0) (fun q => obind (cell_index_partition dimension_idx 0 0 q) (fun first =>
  let extent := snd first in
  obind (gbuild (g0 parts) (g1 parts) (fun idx0 idx1 =>
    let partition_idx := if dimension_idx =? 0 then idx0 else idx1 in
    obind (gget parts idx0 idx1) (fun q =>
    obind (cell_index_partition dimension_idx partition_idx (if partition_idx =? 0 then 0 else extent) q) (fun r =>
    Ok (fst r))))) (fun out =>
  Ok (array2 (pa_shape condition) (pa_sip condition) out)))).
End CellIndex.

(** ** ALG/array_like.hpp: detail::array_like_partition, 13-67, and array_like, 99-126 *)
Definition array_like_partition {I O} (junk : Z -> O) (fill_value : O) (q : placed (list I)) : outcome (placed (list O)) :=
  let n := nr_elements (pl_shape q) in
  obind (for_elements n (fun _ _ => Ok fill_value) (fresh junk n)) (fun data =>
  Ok (Placed (pl_locality q) (pl_offset q) (pl_shape q) data)).
Definition array_like {I O} (junk : Z -> O) (arr : parray I) (fill_value : O) : outcome (parray O) :=
  obind (sequence (map (array_like_partition junk fill_value) (pa_parts arr))) (fun parts =>
  Ok (PArray (pa_shape arr) (pa_sip arr) parts)).
