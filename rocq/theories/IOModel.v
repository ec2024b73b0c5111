(** Model of to_lue and from_lue: framework/io/include/lue/framework/io/{util,to_lue,from_lue}.hpp, and of the hyperslabs of data_model/hdf5.
    Elements in the file and in memory have the same type; no-data is not treated specially (from_lue.hpp:128, a TODO).  The schedule of the tasks
    is modelled in IOOrderModel.v; here all accesses to the file happen one after the other. *)
From Verif Require Import Common IndexModel DecompModel ArrayModel.

(** An array in a LUE dataset (an HDF5 dataset): the values are stored in row-major order. *)
Record dataset (E : Type) : Type := Dataset { ds_shape : list Z; ds_cells : list E }.
Arguments Dataset {E}. Arguments ds_shape {E}. Arguments ds_cells {E}.

(** hdf5::Hyperslab: data_model/hdf5/source/hyperslab.cpp:9-61 *)
Record hyperslab : Type := Hyperslab { hs_start : list Z; hs_stride : list Z; hs_count : list Z }.
Definition hyperslab_of (start count : list Z) : hyperslab := Hyperslab start (map (fun _ => 1) start) count.   (* 37-47 *)
Definition hyperslab_of_shape (shape : list Z) : hyperslab := hyperslab_of (map (fun _ => 0) shape) shape.      (* 50-73; util.hpp:33-38 *)

(** What H5Sselect_hyperslab, H5Dread and H5Dwrite accept: hsize_t is unsigned, the rank is that of the file, and the selection lies within the
    extent.  hdf5/source/dataset.cpp:237-277 and 334-371 throw otherwise.  Only strides of one are used by the framework. *)
Fixpoint selectable (start count shape : list Z) : bool :=
  match start, count, shape with
  | [], [], [] => true
  | s :: start', c :: count', n :: shape' => (0 <=? s) && (0 <=? c) && (s + c <=? n) && selectable start' count' shape'
  | _, _, _ => false
  end.

(** The position in the file of element [k] of the buffer: elements of buffer and selection are both visited in row-major order; the memory
    dataspace has the shape of the selection (dataset.cpp:214-215, 308-309). *)
Definition file_position (h : hyperslab) (shape : list Z) (k : Z) : Z :=
  linear_idx (map2 Z.add (hs_start h) (linear_idx_to_idxs k (hs_count h))) shape.

Section IO.
Context {E : Type}.

(** Array::write: data_model/cxx/source/core/array.cpp:108-114; Dataset::write: dataset.cpp:301-371.  Reading outside of the buffer is UB. *)
Definition write_hyperslab (h : hyperslab) (buffer : list E) (d : dataset E) : outcome (dataset E) :=
  if selectable (hs_start h) (hs_count h) (ds_shape d) then
    obind (fold_left (fun acc k => obind acc (fun cells => obind (at_z buffer k) (fun v =>
        match upd_z (file_position h (ds_shape d) k) v cells with Some cells' => Ok cells' | None => UB end)))
      (zseq 0 (nr_elements (hs_count h))) (Ok (ds_cells d))) (fun cells => Ok (Dataset (ds_shape d) cells))
  else Throw.

(** Array::read: array.cpp:77-85; Dataset::read: dataset.cpp:208-277.  Writing outside of the buffer is UB. *)
Definition read_hyperslab (h : hyperslab) (d : dataset E) (buffer : list E) : outcome (list E) :=
  if selectable (hs_start h) (hs_count h) (ds_shape d) then
    for_elements (nr_elements (hs_count h)) (fun k _ => at_z (ds_cells d) (file_position h (ds_shape d) k)) buffer
  else Throw.

(** hyperslab(array_hyperslab_start, partition_server): util.hpp:72-92, and with a time step: 116-139.  The assertion (79, 124): UB. *)
Definition partition_hyperslab (time_step : option Z) (array_hyperslab_start : list Z) (q : placed (list E)) : outcome hyperslab :=
  if (length array_hyperslab_start =? length (pl_offset q))%nat then
    let offset := map2 Z.add array_hyperslab_start (pl_offset q) in
    Ok (match time_step with
        | None => hyperslab_of offset (pl_shape q)
        | Some t => hyperslab_of (0 :: t :: offset) (1 :: 1 :: pl_shape q)
        end)
  else UB.

(** write_partition: to_lue.hpp:95-117 *)
Definition write_partition (time_step : option Z) (array_hyperslab_start : list Z) (d : dataset E) (q : placed (list E)) : outcome (dataset E) :=
  obind (partition_hyperslab time_step array_hyperslab_start q) (fun h => write_hyperslab h (pl_data q) d).

(** partition_idxs_by_locality: util.hpp:255-300.  A std::map: localities are visited in the order of their IDs.  Which collection gets the index
    does not depend on the capacity that is reserved. *)
Fixpoint add_partition_idx (locality : Z) (idx : Z) (l : list (Z * list Z)) : list (Z * list Z) :=
  match l with
  | [] => [(locality, [idx])]
  | (m, idxs) :: l' =>
      if locality <? m then (locality, [idx]) :: l
      else if locality =? m then (m, idxs ++ [idx]) :: l'
      else (m, idxs) :: add_partition_idx locality idx l'
  end.
Definition partition_idxs_by_locality (a : parray E) : list (Z * list Z) :=
  fold_left (fun acc '(idx, q) => add_partition_idx (pl_locality q) idx acc) (combine (zseq 0 (Z.of_nat (length (pa_parts a)))) (pa_parts a)) [].

(** The partitions of one locality, copied: to_lue.hpp:650-656, 772-777; from_lue.hpp:546-551, 708-713 *)
Definition selected_partitions (a : parray E) (idxs : list Z) : outcome (list (placed (list E))) := sequence (map (at_z (pa_parts a)) idxs).

(** to_lue: to_lue.hpp:612-719 and 737-863.  [order]: the order in which the partitions are written: by locality in case of serial I/O, in
    any order otherwise, and in any order within a locality when HDF5 is thread-safe (write_partitions, 120-182). *)
Definition to_lue (order : list (placed (list E)) -> list (placed (list E))) (time_step : option Z) (a : parray E) (d : dataset E) : outcome (dataset E) :=
  let array_hyperslab := hyperslab_of_shape (pa_shape a) in
  obind (sequence (map (fun '(_, idxs) => selected_partitions a idxs) (partition_idxs_by_locality a))) (fun groups =>
  fold_left (fun acc q => obind acc (fun d => write_partition time_step (hs_start array_hyperslab) d q)) (order (concat groups)) (Ok d)).

(** read_partitions: from_lue.hpp:87-131, one partition *)
Definition read_partition (time_step : option Z) (array_hyperslab_start : list Z) (d : dataset E) (q : placed (list E)) : outcome (placed (list E)) :=
  obind (partition_hyperslab time_step array_hyperslab_start q) (fun h =>
  obind (read_hyperslab h d (pl_data q)) (fun data => Ok (Placed (pl_locality q) (pl_offset q) (pl_shape q) data))).

(** Replacing partitions, from_lue.hpp:605-623 and 766-786 *)
Definition put_partitions (parts : list (placed (list E))) (idxs : list Z) (l : list (placed (list E))) : outcome (list (placed (list E))) :=
  fold_left (fun acc '(idx, q) => obind acc (fun parts => match upd_z idx q parts with Some parts' => Ok parts' | None => UB end)) (combine idxs l) (Ok parts).

(** detail::from_lue: from_lue.hpp:492-638 and 646-802 *)
Definition from_lue_into (time_step : option Z) (array_hyperslab_start : list Z) (d : dataset E) (a : parray E) : outcome (parray E) :=
  obind (fold_left (fun acc '(_, idxs) => obind acc (fun parts =>
           obind (selected_partitions a idxs) (fun l =>
           obind (sequence (map (read_partition time_step array_hyperslab_start d) l)) (fun l' => put_partitions parts idxs l'))))
         (partition_idxs_by_locality a) (Ok (pa_parts a))) (fun parts =>
  Ok (PArray (pa_shape a) (pa_sip a) parts)).

(** from_lue: from_lue.hpp:892-909 and 979-997.  hyperslab_to_shape (util.hpp:41-56) asserts that the strides are one.  [junk]: the content of a
    partition that is not initialized. *)
Definition from_lue (junk : Z -> E) (nr_localities : Z) (time_step : option Z) (d : dataset E) (h : hyperslab) (partition_shape : list Z) : outcome (parray E) :=
  if forallb (Z.eqb 1) (hs_stride h) && (length (hs_count h) =? length partition_shape)%nat then
    obind (partition_shapes (hs_count h) partition_shape) (fun '(sip, _) =>
    obind (instantiate_individually nr_localities (fun _ _ shape => fresh junk (nr_elements shape)) (hs_count h) partition_shape) (fun parts =>
    from_lue_into time_step (hs_start h) d (PArray (hs_count h) sip parts)))
  else UB.
End IO.
