(** Model of operations with one value per partition: partition_operation, partition_count_unique, locality_id, timestamp.
    Paths are relative to source/framework/algorithm/include/lue/framework/algorithm. *)
From Verif Require Import Common IndexModel DecompModel ArrayModel LocalModel UniqueModel.

(** offset_in_partitions, partition_operation.hpp:10-23.  [asserts]: lue_hpx_assert is active. *)
Fixpoint offset_in_partitions (asserts : bool) (partition_offset partition_shape : list Z) : outcome (list Z) :=
  match partition_offset, partition_shape with
  | o :: os, s :: ss =>
      if asserts && negb (Z.rem o s =? 0) then UB
      else obind (offset_in_partitions asserts os ss) (fun r => Ok (Z.quot o s :: r))
  | _, _ => Ok []
  end.

(** CountUnique, partition_count_unique.hpp:13-58: a set of values.  Element types are integral.  Converting the size to
    the output element type [t] wraps around. *)
Definition result_is_valid (values : list Z) : bool := match values with [] => false | _ => true end.
Definition result (t : itype) (values : list Z) : Z := wrap t (Z.of_nat (length values)).

(** partition_aggregate_operation_partition, partition_operation.hpp:26-79, for this functor: each task has a copy of the
    functor.  The value before a result or no-data is stored is OutputElement{}: 0.  The task runs on the locality of the
    partition. *)
Definition count_unique_partition (asserts : bool) (nd : Z -> bool) (mark : Z -> Z) (t : itype) (q : placed (list Z)) :
    outcome (placed (list Z)) :=
  obind (fold_left (fun acc idx => obind acc (fun values => obind (at_z (pl_data q) idx) (fun v =>
           Ok (if negb (nd v) then set_insert v values else values))))
           (zseq 0 (nr_elements (pl_shape q))) (Ok [])) (fun values =>
  let r := if result_is_valid values then result t values else mark 0 in
  obind (offset_in_partitions asserts (pl_offset q) (pl_shape q)) (fun offset =>
  Ok (Placed (pl_locality q) offset [1; 1] [r]))).

(** partition_operation, partition_operation.hpp:102-140, and partition_count_unique, partition_count_unique.hpp:81-98 *)
Definition partition_count_unique (asserts : bool) (nd : Z -> bool) (mark : Z -> Z) (t : itype) (a : parray Z) : outcome (parray Z) :=
  obind (sequence (map (count_unique_partition asserts nd mark t) (pa_parts a))) (fun parts =>
  Ok (PArray (pa_sip a) (pa_sip a) parts)).

(** locality_id_partition, locality_id.hpp:10-32: the continuation runs on the locality of the partition. *)
Definition locality_id_partition {E} (shape_in_partitions : list Z) (iq : Z * placed (list E)) : placed (list Z) :=
  Placed (pl_locality (snd iq)) (linear_idx_to_idxs (fst iq) shape_in_partitions) (map (fun _ => 1) shape_in_partitions)
    [pl_locality (snd iq)].
(** locality_id, locality_id.hpp:47-79.  Locality ids fit in 32 bits. *)
Definition locality_id {E} (a : parray E) : parray Z :=
  PArray (pa_sip a) (pa_sip a) (map (locality_id_partition (pa_sip a)) (combine (zseq 0 (Z.of_nat (length (pa_parts a)))) (pa_parts a))).

(** timestamp_action and timestamp, timestamp.hpp:14-81; [now]: the time that the clock shows when the task of a partition runs *)
Definition timestamp_partition {E} (now : Z -> Z) (shape_in_partitions : list Z) (iq : Z * placed (list E)) : placed (list Z) :=
  Placed (pl_locality (snd iq)) (linear_idx_to_idxs (fst iq) shape_in_partitions) [1; 1] [now (fst iq)].
Definition timestamp {E} (now : Z -> Z) (a : parray E) : parray Z :=
  PArray (pa_sip a) (pa_sip a) (map (timestamp_partition now (pa_sip a)) (combine (zseq 0 (Z.of_nat (length (pa_parts a)))) (pa_parts a))).
