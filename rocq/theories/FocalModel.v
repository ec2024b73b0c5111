(** Model of focal operations: algorithm/detail/halo_partition.hpp and
    algorithm/definition/focal_operation.hpp, for one input array.  Futures are replaced by
    their values: a task only reads the partitions it is given. *)
From Verif Require Import Common IndexModel DecompModel ArrayModel GridModel.

(** Halo policy: the values to use outside of the array.  policy/fill_halo_with_constant_value.hpp:12-93 *)
Record halo_policy (E : Type) := HaloPolicy {
  h_north_west : E; h_north : E; h_north_east : E; h_west : E; h_east : E;
  h_south_west : E; h_south : E; h_south_east : E
}.
Arguments HaloPolicy {E}. Arguments h_north_west {E}. Arguments h_north {E}. Arguments h_north_east {E}.
Arguments h_west {E}. Arguments h_east {E}. Arguments h_south_west {E}. Arguments h_south {E}. Arguments h_south_east {E}.
Definition constant_halo {E} (v : E) : halo_policy E := HaloPolicy v v v v v v v v.

(** Partition{find_here(), Offset{}, shape, fill_value}: halo_partition.hpp:14-80 *)
Definition halo_block {E} (n0 n1 : Z) (v : E) : part2 E := Placed 0 [0; 0] [n0; n1] (gmake n0 n1 (fun _ _ => v)).

(** halo_corner_partitions, halo_partition.hpp:111-155 *)
Definition halo_corner_partitions {E} (hp : halo_policy E) (radius : Z) : grid (part2 E) :=
  Grid 2 2 [halo_block radius radius (h_north_west hp); halo_block radius radius (h_north_east hp);
            halo_block radius radius (h_south_west hp); halo_block radius radius (h_south_east hp)].

(** halo_longitudinal_side_partitions, halo_partition.hpp:158-205 *)
Definition halo_longitudinal_side_partitions {E} (hp : halo_policy E) (radius : Z) (input : grid (part2 E)) : outcome (grid (part2 E)) :=
  gbuild 2 (g1 input) (fun rh cp =>
    let '(rp, fill_value) := if rh =? 0 then (0, h_north hp) else (g0 input - 1, h_south hp) in
    obind (gget input rp cp) (fun q => Ok (halo_block radius (g1 (pl_data q)) fill_value))).

(** halo_latitudinal_side_partitions, halo_partition.hpp:208-257 *)
Definition halo_latitudinal_side_partitions {E} (hp : halo_policy E) (radius : Z) (input : grid (part2 E)) : outcome (grid (part2 E)) :=
  gbuild (g0 input) 2 (fun rp ch =>
    let '(cp, fill_value) := if ch =? 0 then (0, h_west hp) else (g1 input - 1, h_east hp) in
    obind (gget input rp cp) (fun q => Ok (halo_block (g0 (pl_data q)) radius fill_value))).

(** The nine partitions a task gets. *)
Definition three_by_three {A} (l : list (outcome A)) : outcome (grid A) :=
  obind (sequence l) (fun l => Ok (Grid 3 3 l)).

Section Neighbours.
Context {A : Type} (input corner longi lati : grid A).
Let np0 := g0 input.
Let np1 := g1 input.

(** halo_partition.hpp:325-359 *)
Definition north_west_corner_input_partitions : outcome (grid A) :=
  three_by_three
    [gget corner 0 0; gget longi 0 0; if np1 =? 1 then gget corner 0 1 else gget longi 0 1;
     gget lati 0 0; gget input 0 0; if np1 =? 1 then gget lati 0 1 else gget input 0 1;
     if np0 =? 1 then gget corner 1 0 else gget lati 1 0;
     if np0 =? 1 then gget longi 1 0 else gget input 1 0;
     if np0 =? 1 then (if np1 =? 1 then gget corner 1 1 else gget longi 1 1)
     else (if np1 =? 1 then gget lati 1 1 else gget input 1 1)].
(** 373-414 *)
Definition north_east_corner_input_partitions : outcome (grid A) :=
  three_by_three
    ([gget longi 0 (np1 - 2); gget longi 0 (np1 - 1); gget corner 0 1;
      gget input 0 (np1 - 2); gget input 0 (np1 - 1); gget lati 0 1] ++
     (if np0 =? 1 then [gget longi 1 (np1 - 2); gget longi 1 (np1 - 1); gget corner 1 1]
      else [gget input 1 (np1 - 2); gget input 1 (np1 - 1); gget lati 1 1])).
(** 428-463 *)
Definition south_west_corner_input_partitions : outcome (grid A) :=
  three_by_three
    [gget lati (np0 - 2) 0; gget input (np0 - 2) 0; if np1 =? 1 then gget lati (np0 - 2) 1 else gget input (np0 - 2) 1;
     gget lati (np0 - 1) 0; gget input (np0 - 1) 0; if np1 =? 1 then gget lati (np0 - 1) 1 else gget input (np0 - 1) 1;
     gget corner 1 0; gget longi 1 0; if np1 =? 1 then gget corner 1 1 else gget longi 1 1].
(** 477-504 *)
Definition south_east_corner_input_partitions : outcome (grid A) :=
  three_by_three
    [gget input (np0 - 2) (np1 - 2); gget input (np0 - 2) (np1 - 1); gget lati (np0 - 2) 1;
     gget input (np0 - 1) (np1 - 2); gget input (np0 - 1) (np1 - 1); gget lati (np0 - 1) 1;
     gget longi 1 (np1 - 2); gget longi 1 (np1 - 1); gget corner 1 1].
(** 518-561 *)
Definition north_side_input_partitions (c : Z) : outcome (grid A) :=
  three_by_three
    ([gget longi 0 (c - 1); gget longi 0 c; gget longi 0 (c + 1);
      gget input 0 (c - 1); gget input 0 c; gget input 0 (c + 1)] ++
     (if np0 =? 1 then [gget longi 1 (c - 1); gget longi 1 c; gget longi 1 (c + 1)]
      else [gget input 1 (c - 1); gget input 1 c; gget input 1 (c + 1)])).
(** 576-605 *)
Definition south_side_input_partitions (c : Z) : outcome (grid A) :=
  three_by_three
    [gget input (np0 - 2) (c - 1); gget input (np0 - 2) c; gget input (np0 - 2) (c + 1);
     gget input (np0 - 1) (c - 1); gget input (np0 - 1) c; gget input (np0 - 1) (c + 1);
     gget longi 1 (c - 1); gget longi 1 c; gget longi 1 (c + 1)].
(** 620-655 *)
Definition west_side_input_partitions (r : Z) : outcome (grid A) :=
  three_by_three
    [gget lati (r - 1) 0; gget input (r - 1) 0; if np1 =? 1 then gget lati (r - 1) 1 else gget input (r - 1) 1;
     gget lati r 0; gget input r 0; if np1 =? 1 then gget lati r 1 else gget input r 1;
     gget lati (r + 1) 0; gget input (r + 1) 0; if np1 =? 1 then gget lati (r + 1) 1 else gget input (r + 1) 1].
(** 670-699 *)
Definition east_side_input_partitions (r : Z) : outcome (grid A) :=
  three_by_three
    [gget input (r - 1) (np1 - 2); gget input (r - 1) (np1 - 1); gget lati (r - 1) 1;
     gget input r (np1 - 2); gget input r (np1 - 1); gget lati r 1;
     gget input (r + 1) (np1 - 2); gget input (r + 1) (np1 - 1); gget lati (r + 1) 1].
(** 714-742 *)
Definition inner_input_partitions (r c : Z) : outcome (grid A) :=
  gbuild 3 3 (fun i j => gget input (r - 1 + i) (c - 1 + j)).
End Neighbours.

(** ** One partition: focal_operation.hpp *)

(** verify_border_partition_large_enough, 282-290 *)
Definition verify_border_partition_large_enough (n0 n1 radius : Z) : outcome unit :=
  if (n0 <? radius) || (n1 <? radius) then Throw else Ok tt.
(** verify_partition_large_enough, 293-301 *)
Definition verify_partition_large_enough (n0 n1 size : Z) : outcome unit :=
  if (n0 <? size) || (n1 <? size) then Throw else Ok tt.

(** WrappedArrayPartitions::read_data, 342-575: what is read from the partition at (i, j) of
    the three by three partitions. *)
Definition read_border {E} (radius : Z) (q : part2 E) (slice : Z -> Z -> Z * Z * Z * Z) : outcome (grid E) :=
  let n0 := g0 (pl_data q) in
  let n1 := g1 (pl_data q) in
  obind (verify_border_partition_large_enough n0 n1 radius) (fun _ =>
  let '(rb, re, cb, ce) := slice n0 n1 in gslice (pl_data q) rb re cb ce).
Definition read_data {E} (radius : Z) (parts : grid (part2 E)) : outcome (grid (grid E)) :=
  let border i j slice := obind (gget parts i j) (fun q => read_border radius q slice) in
  three_by_three
    [border 0 0 (fun n0 n1 => (n0 - radius, n0, n1 - radius, n1));
     border 0 1 (fun n0 n1 => (n0 - radius, n0, 0, n1));
     border 0 2 (fun n0 n1 => (n0 - radius, n0, 0, radius));
     border 1 0 (fun n0 n1 => (0, n0, n1 - radius, n1));
     obind (gget parts 1 1) (fun q => Ok (pl_data q));
     border 1 2 (fun n0 n1 => (0, n0, 0, radius));
     border 2 0 (fun n0 n1 => (0, radius, n1 - radius, n1));
     border 2 1 (fun n0 n1 => (0, radius, 0, n1));
     border 2 2 (fun n0 n1 => (0, radius, 0, radius))].

(** copy_to_array, 83-198.  Two loops per window; the running indices rk and ck that are
    incremented and set back in the code are here the loop variables.  [junk] is the content of the new array. *)
Definition copy_window {E} (rk ck : Z) (w : grid E) (arr : grid E) : outcome (grid E) :=
  for_cells (cells2 rk (g0 w) ck (g1 w)) (fun r c _ => gget w (r - rk) (c - ck)) arr.
Definition copy_windows_row {E} (windows : grid (grid E)) (rk rw : Z) (arr : grid E) : outcome (Z * grid E) :=
  fold_left
    (fun acc cw => obind acc (fun s => obind (gget windows rw cw) (fun w =>
       obind (copy_window rk (fst s) w (snd s)) (fun arr => Ok (fst s + g1 w, arr)))))
    (zseq 0 (g1 windows)) (Ok (0, arr)).
Definition copy_to_array {E} (junk : Z -> E) (size : Z) (windows : grid (grid E)) : outcome (grid E) :=
  obind
    (fold_left
       (fun acc rw => obind acc (fun s => obind (copy_windows_row windows (fst s) rw (snd s)) (fun s' =>
          obind (gget windows rw 0) (fun w => Ok (fst s + g0 w, snd s')))))
       (zseq 0 (g0 windows)) (Ok (0, Grid size size (fresh junk (size * size)))))
    (fun s => Ok (snd s)).

(** [functor] is the functor applied to a window; its kernel and policies are arguments of it. *)
Section Partition.
Context {E O : Type} (radius : Z) (functor : grid E -> outcome O) (junk : Z -> E) (ojunk : Z -> O).
(** Kernel::size(), kernel.hpp:112-116 *)
Let size := 2 * radius + 1.

(** border, 201-232, applied to subspans, 614-638 *)
Definition border4 (nw ne sw se : outcome (grid E)) : outcome O :=
  obind nw (fun nw => obind ne (fun ne => obind sw (fun sw => obind se (fun se =>
  obind (copy_to_array junk size (Grid 2 2 [nw; ne; sw; se])) functor)))).
Definition border_ns (n s : outcome (grid E)) : outcome O :=
  obind n (fun n => obind s (fun s =>
  obind (copy_to_array junk size (Grid 2 1 [n; s])) functor)).
Definition border_we (w e : outcome (grid E)) : outcome O :=
  obind w (fun w => obind e (fun e =>
  obind (copy_to_array junk size (Grid 1 2 [w; e])) functor)).

(** inner, 891-932 *)
Definition inner_cells (center : grid E) (out : grid O) : outcome (grid O) :=
  for_cells (cells2 radius (g0 center - radius - radius) radius (g1 center - radius - radius))
    (fun rf cf _ =>
       let rk := rf - radius in
       let ck := cf - radius in
       obind (gslice center rk (rk + size) ck (ck + size)) functor) out.

(** North-west corner, 1009-1082.  Note that the code takes ne_shape from partition (0, 2) and
    sw_shape from partition (2, 0). *)
Definition nw_corner_cells (d00 d01 d02 d10 d11 d20 : grid E) (out : grid O) : outcome (grid O) :=
  for_cells (cells2 0 radius 0 radius)
    (fun rf cf _ =>
       border4
         (gslice d00 (g0 d00 - radius + rf) (g0 d00) (g1 d00 - radius + cf) (g1 d00))
         (gslice d01 (g0 d02 - radius + rf) (g0 d02) 0 (radius + 1 + cf))
         (gslice d10 0 (radius + 1 + rf) (g1 d20 - radius + cf) (g1 d20))
         (gslice d11 0 (radius + 1 + rf) 0 (radius + 1 + cf))) out.
(** North-east corner, 1085-1157 *)
Definition ne_corner_cells (d01 d02 d11 d12 : grid E) (out : grid O) : outcome (grid O) :=
  let first := g1 d11 - radius in
  for_cells (cells2 0 radius first radius)
    (fun rf cf _ =>
       border4
         (gslice d01 (g0 d01 - radius + rf) (g0 d01) (g1 d01 - (size - 1) + (cf - first)) (g1 d01))
         (gslice d02 (g0 d02 - radius + rf) (g0 d02) 0 (1 + (cf - first)))
         (gslice d11 0 (radius + 1 + rf) (g1 d11 - (size - 1) + (cf - first)) (g1 d11))
         (gslice d12 0 (radius + 1 + rf) 0 (1 + (cf - first)))) out.
(** South-west corner, 1160-1236 *)
Definition sw_corner_cells (d10 d11 d20 d21 : grid E) (out : grid O) : outcome (grid O) :=
  let first := g0 d11 - radius in
  for_cells (cells2 first radius 0 radius)
    (fun rf cf _ =>
       border4
         (gslice d10 (g0 d10 - (size - 1) + (rf - first)) (g0 d10) (g1 d10 - radius + cf) (g1 d10))
         (gslice d11 (g0 d11 - (size - 1) + (rf - first)) (g0 d11) 0 (radius + 1 + cf))
         (gslice d20 0 (1 + (rf - first)) (g1 d20 - radius + cf) (g1 d20))
         (gslice d21 0 (1 + (rf - first)) 0 (radius + 1 + cf))) out.
(** South-east corner, 1239-1312 *)
Definition se_corner_cells (d11 d12 d21 d22 : grid E) (out : grid O) : outcome (grid O) :=
  let first0 := g0 d11 - radius in
  let first1 := g1 d11 - radius in
  for_cells (cells2 first0 radius first1 radius)
    (fun rf cf _ =>
       border4
         (gslice d11 (g0 d11 - (size - 1) + (rf - first0)) (g0 d11) (g1 d11 - (size - 1) + (cf - first1)) (g1 d11))
         (gslice d12 (g0 d12 - (size - 1) + (rf - first0)) (g0 d12) 0 (1 + (cf - first1)))
         (gslice d21 0 (1 + (rf - first0)) (g1 d21 - (size - 1) + (cf - first1)) (g1 d21))
         (gslice d22 0 (1 + (rf - first0)) 0 (1 + (cf - first1)))) out.
(** North side, 1320-1362 *)
Definition n_side_cells (d01 d11 : grid E) (out : grid O) : outcome (grid O) :=
  for_cells (cells2 0 radius radius (g1 d11 - radius - radius))
    (fun rf cf _ =>
       let cb := cf - radius in
       border_ns
         (gslice d01 (g0 d01 - radius + rf) (g0 d01) cb (cb + size))
         (gslice d11 0 (radius + 1 + rf) cb (cb + size))) out.
(** West side, 1365-1409 *)
Definition w_side_cells (d10 d11 : grid E) (out : grid O) : outcome (grid O) :=
  for_cells (cells2 radius (g0 d11 - radius - radius) 0 radius)
    (fun rf cf _ =>
       let rb := rf - radius in
       border_we
         (gslice d10 rb (rb + size) (g1 d10 - radius + cf) (g1 d10))
         (gslice d11 rb (rb + size) 0 (radius + 1 + cf))) out.
(** East side, 1412-1456 *)
Definition e_side_cells (d11 d12 : grid E) (out : grid O) : outcome (grid O) :=
  let first := g1 d11 - radius in
  for_cells (cells2 radius (g0 d11 - radius - radius) first radius)
    (fun rf cf _ =>
       let rb := rf - radius in
       border_we
         (gslice d11 rb (rb + size) (g1 d11 - (size - 1) + (cf - first)) (g1 d11))
         (gslice d12 rb (rb + size) 0 (1 + (cf - first)))) out.
(** South side, 1459-1504 *)
Definition s_side_cells (d11 d21 : grid E) (out : grid O) : outcome (grid O) :=
  let first := g0 d11 - radius in
  for_cells (cells2 first radius radius (g1 d11 - radius - radius))
    (fun rf cf _ =>
       let cb := cf - radius in
       border_ns
         (gslice d11 (g0 d11 - (size - 1) + (rf - first)) (g0 d11) cb (cb + size))
         (gslice d21 0 (1 + (rf - first)) cb (cb + size))) out.

(** focal_operation_partition, 862-1516 *)
Definition focal_operation_partition (parts : grid (part2 E)) : outcome (part2 O) :=
  obind (gget parts 1 1) (fun focal =>
  obind (read_data radius parts) (fun data =>
  obind (gget data 0 0) (fun d00 => obind (gget data 0 1) (fun d01 => obind (gget data 0 2) (fun d02 =>
  obind (gget data 1 0) (fun d10 => obind (gget data 1 1) (fun d11 => obind (gget data 1 2) (fun d12 =>
  obind (gget data 2 0) (fun d20 => obind (gget data 2 1) (fun d21 => obind (gget data 2 2) (fun d22 =>
  let n0 := g0 d11 in
  let n1 := g1 d11 in
  obind (verify_partition_large_enough n0 n1 size) (fun _ =>
  obind (inner_cells d11 (Grid n0 n1 (fresh ojunk (n0 * n1)))) (fun out =>
  obind (nw_corner_cells d00 d01 d02 d10 d11 d20 out) (fun out =>
  obind (ne_corner_cells d01 d02 d11 d12 out) (fun out =>
  obind (sw_corner_cells d10 d11 d20 d21 out) (fun out =>
  obind (se_corner_cells d11 d12 d21 d22 out) (fun out =>
  obind (n_side_cells d01 d11 out) (fun out =>
  obind (w_side_cells d10 d11 out) (fun out =>
  obind (e_side_cells d11 d12 out) (fun out =>
  obind (s_side_cells d11 d21 out) (fun out =>
  Ok (Placed (pl_locality focal) (pl_offset focal) [n0; n1] out)))))))))))))))))))))).

(** focal_operation_2d, 1867-1995: a task per partition. *)
Definition spawn (nine : outcome (grid (part2 E))) : outcome (option (part2 O)) :=
  obind nine (fun parts => obind (focal_operation_partition parts) (fun q => Ok (Some q))).

Definition focal_tasks (hp : halo_policy E) (input : grid (part2 E)) : outcome (grid (option (part2 O))) :=
  let np0 := g0 input in
  let np1 := g1 input in
  let corner := halo_corner_partitions hp radius in
  obind (halo_longitudinal_side_partitions hp radius input) (fun longi =>
  obind (halo_latitudinal_side_partitions hp radius input) (fun lati =>
  obind (for_cells [(0, 0)] (fun _ _ _ => spawn (north_west_corner_input_partitions input corner longi lati))
           (gmake np0 np1 (fun _ _ => None))) (fun out =>
  obind (if 1 <? np1 then for_cells [(0, np1 - 1)] (fun _ _ _ => spawn (north_east_corner_input_partitions input corner longi lati)) out
         else Ok out) (fun out =>
  obind (if 1 <? np0 then for_cells [(np0 - 1, 0)] (fun _ _ _ => spawn (south_west_corner_input_partitions input corner longi lati)) out
         else Ok out) (fun out =>
  obind (if (1 <? np0) && (1 <? np1) then
           for_cells [(np0 - 1, np1 - 1)] (fun _ _ _ => spawn (south_east_corner_input_partitions input corner longi lati)) out
         else Ok out) (fun out =>
  obind (for_cells (cells2 0 1 1 (np1 - 2)) (fun _ c _ => spawn (north_side_input_partitions input longi c)) out) (fun out =>
  obind (if 1 <? np0 then for_cells (cells2 (np0 - 1) 1 1 (np1 - 2)) (fun _ c _ => spawn (south_side_input_partitions input longi c)) out
         else Ok out) (fun out =>
  obind (for_cells (cells2 1 (np0 - 2) 0 1) (fun r _ _ => spawn (west_side_input_partitions input lati r)) out) (fun out =>
  obind (if 1 <? np1 then for_cells (cells2 1 (np0 - 2) (np1 - 1) 1) (fun r _ _ => spawn (east_side_input_partitions input lati r)) out
         else Ok out) (fun out =>
  for_cells (cells2 1 (np0 - 2) 1 (np1 - 2)) (fun r c _ => spawn (inner_input_partitions input r c)) out)))))))))).

(** lue_hpx_assert(all_are_valid(output_partitions)), 1992 *)
Definition all_valid {A} (l : list (option A)) : outcome (list A) :=
  sequence (map (fun o => match o with Some a => Ok a | None => UB end) l).

Definition focal_operation (hp : halo_policy E) (arr : parray E) : outcome (parray O) :=
  if nr_elements (pa_shape arr) =? 0 then Ok (PArray [0; 0] [0; 0] [])
  else
    let input := Grid (nth 0 (pa_sip arr) 0) (nth 1 (pa_sip arr) 0) (map to_part2 (pa_parts arr)) in
    obind (focal_tasks hp input) (fun out =>
    obind (all_valid (gl out)) (fun parts =>
    Ok (PArray (pa_shape arr) (pa_sip arr) (map of_part2 parts)))).
End Partition.
