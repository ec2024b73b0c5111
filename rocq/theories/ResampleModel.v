(** Model of downscale: algorithm/definition/resample.hpp and algorithm/detail/resample.hpp.  Line numbers without a file are those of
    definition/resample.hpp. *)
From Verif Require Import Common IndexModel Float64 DecompModel ArrayModel GridModel.

(** target_idx_to_source_idx, detail/resample.hpp:19-46.  The quotients are binary64 divisions that are rounded down. *)
Definition target_idx_to_source_idx (target_shape : list Z) (target_idx : Z) (source_shape : list Z) (count : Z) : outcome Z :=
  if negb (target_idx <? nr_elements target_shape) then UB
  else
    obind (linear_idx_to_idxs_checked target_idx target_shape) (fun idxs =>
    idxs_to_linear_idx (map2 (fun i n => Z.min (b64_floor (b64_div (b64_of_Z i) (b64_of_Z count))) (n - 1)) idxs source_shape) source_shape).

(** The loop over source cells along one dimension, 98-151: a source cell, the first target cell and the number of target cells that get
    its value.  At least one target cell is handled per iteration, so there are at most as many iterations as target cells: the first
    argument. *)
Fixpoint copy_loop (iterations : nat) (source_idx target_idx nr_copies nr_target_elements count : Z) : list (Z * Z * Z) :=
  match iterations with
  | O => []
  | S iterations' =>
      if target_idx <? nr_target_elements then
        let n := Z.min nr_copies (nr_target_elements - target_idx) in
        (source_idx, target_idx, n) :: copy_loop iterations' (source_idx + 1) (target_idx + n) count nr_target_elements count
      else []
  end.
Definition copy_cells (source_offset target_offset nr_target_elements count : Z) : list (Z * Z * Z) :=
  copy_loop (Z.to_nat nr_target_elements) source_offset 0 (count - Z.rem target_offset count) nr_target_elements count.

Section Downscale.
Context {E : Type} (nd : E -> bool) (mark : E -> E) (junk : Z -> E).

(** assign_partition, 15-160.  [nd], [mark]: the policies; [junk]: the content of the new partition. *)
Definition assign_partition_cells (source : grid E) (source_offset0 source_offset1 count target_offset0 target_offset1 n0 n1 : Z) : outcome (grid E) :=
  if negb (n0 <=? count * (g0 source - source_offset0)) || negb (n1 <=? count * (g1 source - source_offset1)) then UB   (* asserts, 91-94 *)
  else
    fold_left (fun acc '(s0, t0, c0) =>
        fold_left (fun acc '(s1, t1, c1) =>
            obind acc (fun g => obind (gget source s0 s1) (fun v => for_cells (cells2 t0 c0 t1 c1) (fun _ _ old => Ok (if nd v then mark old else v)) g)))
          (copy_cells source_offset1 target_offset1 n1 count) acc)
      (copy_cells source_offset0 target_offset0 n0 count) (Ok (Grid n0 n1 (fresh junk (n0 * n1)))).

(** The offset in the source partition, 233-256 *)
Definition source_area_offset (target_offset target_extent partition_extent count : Z) : Z :=
  let o := Z.rem (Z.quot target_offset count) partition_extent in
  if negb (target_extent =? partition_extent) && (o =? 0) then partition_extent else o.

(** Assign::instantiate, 204-275 *)
Definition assign_instantiate (source : parray E) (p0 p1 count : Z) (target_shape_in_partitions : list Z) (target_idx : Z) (q : placed unit) : outcome (placed (list E)) :=
  obind (target_idx_to_source_idx target_shape_in_partitions target_idx (pa_sip source) count) (fun source_idx =>
  obind (at_z (pa_parts source) source_idx) (fun s =>
  match pl_offset q, pl_shape q with
  | [o0; o1], [n0; n1] =>
      obind (assign_partition_cells (pl_data (to_part2 s)) (source_area_offset o0 n0 p0 count) (source_area_offset o1 n1 p1 count) count o0 o1 n0 n1) (fun g =>
      Ok (Placed (pl_locality q) (pl_offset q) (pl_shape q) (gl g)))
  | _, _ => UB
  end)).

(** copy, copy.hpp:20-127 *)
Definition copy_partition (q : placed (list E)) : outcome (placed (list E)) :=
  obind (for_elements (nr_elements (pl_shape q)) (fun i old => obind (at_z (pl_data q) i) (fun v => Ok (if nd v then mark old else v))) (fresh junk (nr_elements (pl_shape q)))) (fun d =>
  Ok (Placed (pl_locality q) (pl_offset q) (pl_shape q) d)).
Definition copy_array (a : parray E) : outcome (parray E) :=
  obind (sequence (map copy_partition (pa_parts a))) (fun parts => Ok (PArray (pa_shape a) (pa_sip a) parts)).

(** downscale_assign, 295-340.  create_partitioned_array instantiates each partition individually; the index that Assign::instantiate is called
    with is the position of the partition in the array of partitions.  Count is a signed type; negative counts are not modelled. *)
Definition downscale (nr_localities : Z) (a : parray E) (count : Z) : outcome (parray E) :=
  if count =? 0 then Throw
  else if count =? 1 then copy_array a
  else
    match pa_shape a, map pl_shape (pa_parts a) with
    | [a0; a1], [p0; p1] :: _ =>
        let target_shape := [count * a0; count * a1] in
        obind (partition_shapes target_shape [p0; p1]) (fun '(sip, _) =>
        obind (instantiate_individually nr_localities (fun _ _ _ => tt) target_shape [p0; p1]) (fun places =>
        obind (sequence (map (fun '(k, q) => assign_instantiate a p0 p1 count sip k q) (combine (zseq 0 (Z.of_nat (length places))) places))) (fun parts =>
        Ok (PArray target_shape sip parts))))
    | _, _ => UB
    end.
End Downscale.
