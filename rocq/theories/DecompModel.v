(** Model of the domain decomposition: partition shapes, locality assignment,
    instantiation of partitions, creation from a buffer, erasing slabs, default
    partition shapes. *)
From Verif Require Import Common IndexModel Float64.

Fixpoint map2 {A B C} (f : A -> B -> C) (l1 : list A) (l2 : list B) : list C :=
  match l1, l2 with
  | a :: l1', b :: l2' => f a b :: map2 f l1' l2'
  | _, _ => []
  end.

(** detail::is_subset_of / is_all_less (std::less_equal): core/domain_decomposition.hpp:71-87 *)
Definition is_subset_of (small_shape large_shape : list Z) : bool :=
  forallb (fun '(s, l) => s <=? l) (combine small_shape large_shape).

(** detail::ReshapeVisitor::operator() called for each visited cell, i.e.
    detail::reshape_shapes: core/domain_decomposition.hpp:17-68.  The linear index of
    the cursor is lue::linear_idx(current_cell, shape of the array of shapes). *)
Definition reshape_shapes (sip : list Z) (shapes : outcome (list (list Z)))
    (begin_indices end_indices : list Z) (d : nat) (new_extent : Z) : outcome (list (list Z)) :=
  fold_left
    (fun acc cell =>
       obind acc (fun l =>
         match nth_z (linear_idx cell sip) l with
         | Some sh =>
             match upd_z (linear_idx cell sip) (zset d new_extent sh) l with
             | Some l' => Ok l' | None => UB end
         | None => UB
         end))
    (visit_array begin_indices end_indices) shapes.

(** partition_shapes: core/domain_decomposition.hpp:90-182.  Returns the shape of the
    array of partition shapes and its elements in row-major order.  The loop over
    dimension_idx (lines 142-178) is a fold over 0 .. rank-1; the assert on line 153
    gives UB. *)
Definition partition_shapes (array_shape partition_shape : list Z)
  : outcome (list Z * list (list Z)) :=
  if nr_elements array_shape =? 0 then Throw
  else if nr_elements partition_shape =? 0 then Throw
  else if negb (is_subset_of partition_shape array_shape) then Throw
  else
    let sip := map2 Z.quot array_shape partition_shape in
    let shapes0 := repeat partition_shape (Z.to_nat (nr_elements sip)) in
    obind
      (fold_left
        (fun acc d =>
           let new_extent :=
             znth d partition_shape + znth d array_shape - znth d sip * znth d partition_shape in
           if new_extent <? 2 * znth d partition_shape then
             if new_extent =? znth d partition_shape then acc
             else
               reshape_shapes sip acc
                 (zset d (znth d sip - 1) (map (fun _ => 0) sip))
                 (zset d (znth d sip) sip) d new_extent
           else UB)
        (seq 0 (length array_shape)) (Ok shapes0))
      (fun shapes => Ok (sip, shapes)).

(** map_to_range with the asserts on its arguments: core/math.hpp:125-159.  The
    conversions to double, the division, the multiplication and std::floor are the
    binary64 operations; [result += floor] adds an integral double to an integer, which
    is exact below 2^53. *)
Definition map_to_range (from_min from_max to_min to_max from_value : Z) : outcome Z :=
  if (from_min <=? from_max) && (to_min <=? to_max) &&
     (from_min <=? from_value) && (from_value <=? from_max) then
    let result :=
      if from_min <? from_max then
        let input_range := b64_of_Z (from_max - from_min + 1) in
        let output_range := b64_of_Z (to_max - to_min + 1) in
        let factor := b64_div output_range input_range in
        to_min + b64_floor (b64_mul factor (b64_of_Z (from_value - from_min)))
      else to_min in
    if (to_min <=? result) && (result <=? to_max) then Ok result else UB
  else UB.

(** LocalityIdxByPartitionIdx: algorithm/create_partitioned_array.hpp:19-47 *)
Definition locality_idx_by_partition_idx (nr_partitions nr_localities partition_idx : Z) : outcome Z :=
  map_to_range 0 (nr_partitions - 1) 0 (nr_localities - 1) partition_idx.

(** The calls of the instantiator made by instantiate_partitions2 (lines 401-442): the
    Hilbert curve for rank 2, the linear curve for the other ranks.  UB: no curve. *)
Definition curve_visits (sip : list Z) : outcome (list (Z * list Z)) :=
  match sip with
  | [n0; n1] =>
      match hilbert_curve n0 n1 with
      | Some v => Ok (map (fun '(k, (i, j)) => (k, [i; j])) v)
      | None => UB
      end
  | [_] | [_; _; _] => Ok (linear_curve sip)
  | _ => UB
  end.

(** A partition: where it lives, where it is placed, and what the partition creator
    made of it. *)
Record placed (P : Type) := Placed {
  pl_locality : Z;
  pl_offset : list Z;
  pl_shape : list Z;
  pl_data : P
}.
Arguments Placed {P}. Arguments pl_locality {P}. Arguments pl_offset {P}.
Arguments pl_shape {P}. Arguments pl_data {P}.

(** Assignments [_localities(idxs...) = ..; _partitions(idxs...) = ..] (lines 230-240,
    378-387): Array::operator() asserts that the indices are within the shape. *)
Definition assign_partition {P} (sip : list Z) (arr : outcome (list (option P)))
    (idxs : list Z) (p : outcome P) : outcome (list (option P)) :=
  obind arr (fun l => obind p (fun p => obind (idxs_to_linear_idx idxs sip) (fun k =>
    match upd_z k (Some p) l with Some l' => Ok l' | None => UB end))).

(** All partitions are assigned (assert_invariants, lines 121-133). *)
Fixpoint all_assigned {P} (l : list (option P)) : outcome (list P) :=
  match l with
  | [] => Ok []
  | None :: _ => UB
  | Some p :: l' => obind (all_assigned l') (fun r => Ok (p :: r))
  end.

(** InstantiatePartition::operator() (lines 221-243) with locality_id, offset and
    partition_shape of the base class (lines 139-161).  [_partition_shape] is
    partition_shapes[0] (line 75).  [create] stands for partition_creator.instantiate. *)
Definition instantiate_one {P} (nr_localities : Z) (create : Z -> list Z -> list Z -> P)
    (sip : list Z) (shapes : list (list Z)) (visit : Z * list Z) : outcome (placed P) :=
  let '(k, idxs) := visit in
  obind (locality_idx_by_partition_idx (nr_elements sip) nr_localities k) (fun loc =>
  obind (idxs_to_linear_idx idxs sip) (fun i =>
    match nth_z 0 shapes, nth_z i shapes with
    | Some shape0, Some shape =>
        let offset := map2 Z.mul idxs shape0 in
        Ok (Placed loc offset shape (create loc offset shape))
    | _, _ => UB
    end)).

(** instantiate_partitions, one partition at a time: lines 445-534 with
    InstantiatePartition.  [nr_partitions < nr_localities] throws (lines 482-489; the
    check is skipped in QA builds, which are not modelled). *)
Definition instantiate_individually {P} (nr_localities : Z) (create : Z -> list Z -> list Z -> P)
    (array_shape partition_shape : list Z) : outcome (list (placed P)) :=
  obind (partition_shapes array_shape partition_shape) (fun '(sip, shapes) =>
  if nr_elements sip <? nr_localities then Throw else
  obind (curve_visits sip) (fun visits =>
  obind
    (fold_left
       (fun arr visit =>
          assign_partition sip arr (snd visit) (instantiate_one nr_localities create sip shapes visit))
       visits (Ok (repeat None (Z.to_nat (nr_elements sip)))))
    all_assigned)).

(** State of the InstantiatePartitions visitor: current locality, cached (offset,
    partition shape, indices) triples (lines 389-397). *)
Record batch_state (P : Type) := BatchState {
  bs_locality : Z;
  bs_cache : list (list Z * list Z * list Z);
  bs_array : list (option (placed P))
}.
Arguments BatchState {P}. Arguments bs_locality {P}. Arguments bs_cache {P}. Arguments bs_array {P}.

(** instantiate_partitions<Idxs...>() (lines 346-387): hands all cached offsets and
    shapes to the creator, which returns one partition per entry, in order, and assigns
    these. [create_batch] stands for partition_creator.instantiate. *)
Definition flush_batch {P} (create_batch : Z -> list (list Z * list Z) -> list P)
    (sip : list Z) (s : batch_state P) : outcome (batch_state P) :=
  let partitions := create_batch (bs_locality s) (map fst (bs_cache s)) in
  if (length partitions =? length (bs_cache s))%nat then
    obind
      (fold_left
         (fun arr '((offset, shape, idxs), p) =>
            assign_partition sip arr idxs (Ok (Placed (bs_locality s) offset shape p)))
         (combine (bs_cache s) partitions) (Ok (bs_array s)))
      (fun arr => Ok (BatchState (bs_locality s) (bs_cache s) arr))
  else UB.

(** InstantiatePartitions::operator(): lines 283-317 *)
Definition batch_visit {P} (nr_localities : Z) (create_batch : Z -> list (list Z * list Z) -> list P)
    (sip : list Z) (shapes : list (list Z)) (st : outcome (batch_state P)) (visit : Z * list Z)
  : outcome (batch_state P) :=
  obind st (fun s =>
  let '(k, idxs) := visit in
  obind (locality_idx_by_partition_idx (nr_elements sip) nr_localities k) (fun loc =>
  let s := if k =? 0 then BatchState loc [] (bs_array s) else s in
  obind (idxs_to_linear_idx idxs sip) (fun i =>
    match nth_z 0 shapes, nth_z i shapes with
    | Some shape0, Some shape =>
        let offset := map2 Z.mul idxs shape0 in
        obind
          (if loc =? bs_locality s then
             Ok (BatchState (bs_locality s) (bs_cache s ++ [(offset, shape, idxs)]) (bs_array s))
           else
             obind (flush_batch create_batch sip s) (fun s =>
               Ok (BatchState loc ([] ++ [(offset, shape, idxs)]) (bs_array s))))
          (fun s =>
             if k =? nr_elements sip - 1 then flush_batch create_batch sip s else Ok s)
    | _, _ => UB
    end))).

(** instantiate_partitions with Functor::instantiate_per_locality: lines 513-523.  The
    initial locality is the invalid id, here -1. *)
Definition instantiate_per_locality {P} (nr_localities : Z)
    (create_batch : Z -> list (list Z * list Z) -> list P)
    (array_shape partition_shape : list Z) : outcome (list (placed P)) :=
  obind (partition_shapes array_shape partition_shape) (fun '(sip, shapes) =>
  if nr_elements sip <? nr_localities then Throw else
  obind (curve_visits sip) (fun visits =>
  obind
    (fold_left (batch_visit nr_localities create_batch sip shapes) visits
       (Ok (BatchState (-1) [] (repeat None (Z.to_nat (nr_elements sip))))))
    (fun s => all_assigned (bs_array s)))).

(** InstantiateFromBuffer::instantiate (rank 2): create_partitioned_array.hpp:777-832.
    [copy_n] from [source]; UB when reading past the buffer.  Elements equal to
    no_data_value are marked as no-data by [mark]. *)
Definition copy_n {E} (buffer : list E) (source count : Z) : outcome (list E) :=
  if (0 <=? source) && (0 <=? count) && (source + count <=? Z.of_nat (length buffer)) then
    Ok (firstn (Z.to_nat count) (skipn (Z.to_nat source) buffer))
  else UB.

Fixpoint concat_outcomes {E} (l : list (outcome (list E))) : outcome (list E) :=
  match l with
  | [] => Ok []
  | x :: l' => obind x (fun a => obind (concat_outcomes l') (fun b => Ok (a ++ b)))
  end.

Definition from_buffer {E} (eqb : E -> E -> bool) (mark : E) (no_data_value : option E)
    (buffer : list E) (array_shape : list Z) (offset partition_shape : list Z) : outcome (list E) :=
  match array_shape, offset, partition_shape with
  | [_; a1], [o0; o1], [p0; p1] =>
      let source0 := o0 * a1 + o1 in
      obind
        (concat_outcomes (map (fun idx0 => copy_n buffer (source0 + idx0 * a1) p1) (zseq 0 p0)))
        (fun data =>
           Ok (match no_data_value with
               | Some nd => map (fun e => if eqb e nd then mark else e) data
               | None => data
               end))
  | _, _, _ => UB
  end.

(** lue::erase: core/erase.hpp:10-54, with Array::remove (core/array.hpp:281-287): the
    elements past the removed range are moved forward.  [fuel] bounds the loop. *)
Definition remove_range {E} (l : list E) (b count : Z) : outcome (list E) :=
  if (0 <=? b) && (0 <=? count) && (b + count <=? Z.of_nat (length l)) then
    Ok (firstn (Z.to_nat b) l ++ skipn (Z.to_nat (b + count)) l)
  else UB.

Fixpoint erase_loop {E} (fuel : nat) (slab_begin count stride : Z) (l : list E) : outcome (list E) :=
  if slab_begin <? Z.of_nat (length l) then
    match fuel with
    | O => UB
    | S fuel' =>
        obind (remove_range l slab_begin count) (fun l' =>
          erase_loop fuel' (slab_begin + (stride - count)) count stride l')
    end
  else Ok l.

Definition erase {E} (l : list E) (shape : list Z) (d : nat) (hb he : Z) : outcome (list E * list Z) :=
  if (d <? length shape)%nat && (hb <=? he) && (he <=? znth d shape) then
    if hb =? he then Ok (l, shape)
    else
      let slice := prodZ (skipn (S d) shape) in
      let offset := hb * slice in
      let count := (he - hb) * slice in
      let stride := prodZ (skipn d shape) in
      if (0 <=? offset) && (0 <? count) then
        obind (erase_loop (length l) offset count stride l) (fun l' =>
          Ok (l', zset d (znth d shape - (he - hb)) shape))
      else UB
  else UB.

(** shape_in_partitions (rounded up, binary64): core/domain_decomposition.hpp:185-200 *)
Definition shape_in_partitions (area_shape partition_shape : list Z) : list Z :=
  map2 (fun a p => b64_ceil (b64_div (b64_of_Z a) (b64_of_Z p))) area_shape partition_shape.

(** clamp_area_shape: core/domain_decomposition.hpp:296-317 *)
Definition clamp_area_shape (area_shape partition_shape : list Z) : list Z :=
  map2 (fun a p => b64_ceil (b64_div (b64_of_Z a) (b64_of_Z p)) * p) area_shape partition_shape.

(** max_partition_shape: core/domain_decomposition.hpp:227-257.
    [k] is nr_partitions_per_dimension = ceil(pow(min_nr_partitions, 1 / rank)), which is
    passed in because std::pow is not specified by IEEE-754. *)
Fixpoint max_partition_loop (k min_nr_partitions nr_partitions : Z) (shape : list Z) : list Z :=
  match shape with
  | [] => []
  | extent :: rest =>
      if nr_partitions <? min_nr_partitions
      then Z.quot extent k :: max_partition_loop k min_nr_partitions (nr_partitions + k) rest
      else extent :: max_partition_loop k min_nr_partitions nr_partitions rest
  end.

Definition max_partition_shape (k : Z) (array_shape : list Z) (min_nr_partitions : Z) : outcome (list Z) :=
  if (0 <? nr_elements array_shape) && (0 <? min_nr_partitions) &&
     (min_nr_partitions <=? nr_elements array_shape) then
    let partition_shape := max_partition_loop k min_nr_partitions 0 array_shape in
    if (0 <? nr_elements partition_shape) &&
       (min_nr_partitions <=? nr_elements (shape_in_partitions array_shape partition_shape))
    then Ok partition_shape else UB
  else UB.

(** default_partition_shape: core/domain_decomposition.hpp:330-375.  [root] is
    floor(pow(default_partition_size, 1 / rank)), e.g. 2000 for rank 2. *)
Definition min_element (l : list Z) : Z :=
  match l with [] => 0 | h :: t => fold_left Z.min t h end.

Definition default_partition_shape (root : Z) (array_shape : list Z) (nr_worker_threads : Z)
  : outcome (list Z) :=
  if 0 <? nr_worker_threads then
    let array_size := nr_elements array_shape in
    if (array_size =? 0) || (nr_worker_threads =? 1) then Ok array_shape
    else
      let dimension_size :=
        if Z.quot array_size nr_worker_threads <? 2000 * 2000
        then Z.max 1 (Z.quot (min_element array_shape) nr_worker_threads)
        else Z.max 1 root in
      let partition_shape := map (fun _ => dimension_size) array_shape in
      if is_subset_of partition_shape array_shape then Ok partition_shape else UB
  else UB.
