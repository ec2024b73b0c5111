(** Model of indexing the arrays of a dataset from Python: data_model/python/source/core/array.cpp, on top of data_model/hdf5/source/{dataset,hyperslab}.cpp.
    The values in the array and in Python have the same type: HDF5's conversions between number types are not modelled. *)
From Verif Require Import Common IndexModel DecompModel ArrayModel IOModel.

(** What can be passed between the brackets: an integer, a slice, or something else (a string for example).  array.cpp:653-690 *)
Inductive index : Type :=
| Index (i : Z)
| Slice (start stop step : option Z)
| NotAnIndex.

(** ** CPython's slices
    pybind11's slice::compute calls PySlice_GetIndicesEx: PySlice_Unpack followed by PySlice_AdjustIndices.  This is the contract of CPython
    (Objects/sliceobject.c), which is not part of the repository.  Py_ssize_t has 64 bits. *)
Definition SSIZE_MAX : Z := 9223372036854775807.
Definition clip (v : Z) : Z := Z.max (- SSIZE_MAX - 1) (Z.min SSIZE_MAX v).                 (* _PyEval_SliceIndex *)
Definition adjust (n step v : Z) : Z :=                                                      (* PySlice_AdjustIndices *)
  if v <? 0 then (if v + n <? 0 then (if step <? 0 then -1 else 0) else v + n)
  else if n <=? v then (if step <? 0 then n - 1 else n) else v.
(** (start, step, length of the slice); a step of zero is an error *)
Definition slice_compute (n : Z) (start stop step : option Z) : outcome (Z * Z * Z) :=
  let step := match step with None => 1 | Some s => Z.max (- SSIZE_MAX) (clip s) end in
  if step =? 0 then Throw
  else
    let start := adjust n step (match start with None => if step <? 0 then SSIZE_MAX else 0 | Some s => clip s end) in
    let stop := adjust n step (match stop with None => if step <? 0 then - SSIZE_MAX - 1 else SSIZE_MAX | Some s => clip s end) in
    let count :=
      if step <? 0 then (if stop <? start then (start - stop - 1) / - step + 1 else 0)
      else (if start <? stop then (stop - start - 1) / step + 1 else 0) in
    Ok (start, step, count).

(** std::size_t and hsize_t *)
Definition SIZES : Z := 18446744073709551616.
Definition to_size (v : Z) : Z := v mod SIZES.

(** ** From indices to a hyperslab *)

(** The hyperslab that is being built, the shape of the result and the number of dimensions that the result has less: array.cpp:641-646 *)
Record selection : Type := Selection { se_slab : hyperslab; se_shape : list Z; se_erased : Z }.
Definition selection_of (shape : list Z) : selection := Selection (hyperslab_of_shape shape) shape 0.

(** v[i] = x, on a std::vector *)
Definition put (l : list Z) (i x : Z) : outcome (list Z) := match upd_z i x l with Some l' => Ok l' | None => UB end.
(** Assigning to the start, the stride and the count of a dimension: array.cpp:138-140, 171-173 *)
Definition put_dimension (h : hyperslab) (d start stride count : Z) : outcome hyperslab :=
  obind (put (hs_start h) d start) (fun s => obind (put (hs_stride h) d stride) (fun t => obind (put (hs_count h) d count) (fun c => Ok (Hyperslab s t c)))).
(** v.erase(v.begin() + i) *)
Definition erase (l : list Z) (i : Z) : list Z := firstn (Z.to_nat i) l ++ skipn (S (Z.to_nat i)) l.

(** update_hyperslab_by_index: array.cpp:113-149 *)
Definition update_by_index (d i : Z) (shape : list Z) (s : selection) : outcome selection :=
  obind (at_z shape d) (fun n =>
  let i := if i <? 0 then n + i else i in                                                    (* 121-124: a long *)
  if n <=? to_size i then Throw                                                              (* 126-131: compared as unsigned *)
  else
    obind (put_dimension (se_slab s) d (to_size i) 1 1) (fun h =>
    obind (put (se_shape s) (d - se_erased s) 1) (fun slice_shape =>                         (* 142 *)
    Ok (Selection h (erase slice_shape (d - se_erased s)) (se_erased s + 1))))).            (* 147-148 *)

(** update_hyperslab_by_slice: array.cpp:152-176.  The signed results of CPython end up in variables of type std::size_t. *)
Definition update_by_slice (d : Z) (start stop step : option Z) (shape : list Z) (s : selection) : outcome selection :=
  obind (at_z shape d) (fun n =>
  obind (slice_compute n start stop step) (fun '(start, step, count) =>
  obind (put_dimension (se_slab s) d (to_size start) (to_size step) (to_size count)) (fun h =>
  obind (put (se_shape s) (d - se_erased s) (to_size count)) (fun slice_shape =>
  Ok (Selection h slice_shape (se_erased s)))))).

Definition update (shape : list Z) (s : selection) (d : Z) (ix : index) : outcome selection :=
  match ix with
  | Index i => update_by_index d i shape s
  | Slice start stop step => update_by_slice d start stop step shape s
  | NotAnIndex => Throw                                                                      (* 659, 690 *)
  end.

(** create_hyperslab: array.cpp:622-694 *)
Fixpoint updates (shape : list Z) (s : selection) (d : Z) (ixs : list index) : outcome selection :=
  match ixs with
  | [] => Ok s
  | ix :: ixs' => obind (update shape s d ix) (fun s' => updates shape s' (d + 1) ixs')
  end.
Definition create_hyperslab (shape : list Z) (ixs : list index) : outcome selection :=
  if (length shape <? length ixs)%nat then Throw                                             (* 636-639 *)
  else updates shape (selection_of shape) 0 ixs.

(** A single integer or slice: array.cpp:748-753, 762-767, 531-536, 545-550, 559-564, 584-589.  Something else: 783-785. *)
Definition single_hyperslab (shape : list Z) (ix : index) : outcome selection := update shape (selection_of shape) 0 ix.

(** ** HDF5
    What H5Sselect_hyperslab, H5Dread and H5Dwrite do with a start, stride and count per dimension is the contract of the HDF5 library.
    A stride of zero is an error; nothing is selected when a count is zero; otherwise the last selected element must be within the extent.
    hsize_t is unsigned: what happens when the position of the last element does not fit is not specified (UB). *)
Fixpoint within_extent (start stride count shape : list Z) : outcome unit :=
  match start, stride, count, shape with
  | [], [], [], [] => Ok tt
  | s :: start', t :: stride', c :: count', n :: shape' =>
      let last := s + t * (c - 1) in
      if SIZES <=? last then UB else if last <? n then within_extent start' stride' count' shape' else Throw
  | _, _, _, _ => Throw
  end.
Definition select (h : hyperslab) (shape : list Z) : outcome unit :=
  if existsb (Z.eqb 0) (hs_stride h) then Throw
  else if existsb (Z.eqb 0) (hs_count h) then Ok tt
  else within_extent (hs_start h) (hs_stride h) (hs_count h) shape.

(** The position in the file of element [k] of the selection, in row-major order. *)
Definition strided_position (h : hyperslab) (shape : list Z) (k : Z) : Z :=
  linear_idx (map2 Z.add (hs_start h) (map2 Z.mul (hs_stride h) (linear_idx_to_idxs k (hs_count h)))) shape.

(** Hyperslab::nr_elements: hyperslab.cpp:148-163, empty: 138-142.  Modulo 2^64. *)
Definition slab_empty (h : hyperslab) : bool :=
  match hs_start h with [] => true | _ => existsb (Z.eqb 0) (hs_count h) || existsb (Z.eqb 0) (hs_stride h) end.
Definition slab_nr_elements (h : hyperslab) : Z :=
  if slab_empty h then 0 else fold_left (fun acc '(t, c) => to_size (acc * (to_size (t * c)))) (combine (hs_stride h) (hs_count h)) 1.

(** A NumPy array, C-style: shape and values in row-major order. *)
Record ndarray (E : Type) : Type := NDArray { nd_shape : list Z; nd_values : list E }.
Arguments NDArray {E}. Arguments nd_shape {E}. Arguments nd_values {E}.

Section Items.
Context {E : Type}.

(** Dataset::read: dataset.cpp:208-277; the memory dataspace has the extents of the hyperslab's count (214-215).  Writing outside of the buffer is UB. *)
Definition read_strided (h : hyperslab) (d : dataset E) (buffer : list E) : outcome (list E) :=
  obind (select h (ds_shape d)) (fun _ =>
  for_elements (prodZ (hs_count h)) (fun k _ => at_z (ds_cells d) (strided_position h (ds_shape d) k)) buffer).

(** Dataset::write: dataset.cpp:334-371.  [memory]: the number of elements of the memory dataspace: HDF5 requires that it equals the number of
    selected elements.  Reading outside of the buffer is UB. *)
Definition write_strided (h : hyperslab) (memory : Z) (buffer : list E) (d : dataset E) : outcome (dataset E) :=
  obind (select h (ds_shape d)) (fun _ =>
  if memory =? prodZ (hs_count h) then
    obind (fold_left (fun acc k => obind acc (fun cells => obind (at_z buffer k) (fun v =>
        match upd_z (strided_position h (ds_shape d) k) v cells with Some cells' => Ok cells' | None => UB end)))
      (zseq 0 (prodZ (hs_count h))) (Ok (ds_cells d))) (fun cells => Ok (Dataset (ds_shape d) cells))
  else Throw).

(** create_array and create_scalar: array.cpp:179-316 (numbers), 319-390.  The result is not initialized before the values are read ([junk]); a scalar is
    an array without dimensions, with one value. *)
Definition read_selection (junk : Z -> E) (d : dataset E) (s : selection) : outcome (ndarray E) :=
  obind (read_strided (se_slab s) d (fresh junk (prodZ (se_shape s)))) (fun values => Ok (NDArray (se_shape s) values)).

(** __getitem__: array.cpp:744-785 *)
Definition get_items (junk : Z -> E) (d : dataset E) (ixs : list index) : outcome (ndarray E) :=
  obind (create_hyperslab (ds_shape d) ixs) (read_selection junk d).
Definition get_item (junk : Z -> E) (d : dataset E) (ix : index) : outcome (ndarray E) :=
  obind (single_hyperslab (ds_shape d) ix) (read_selection junk d).

(** __setitem__ with a collection of indices and an array: array.cpp:697-709 *)
Definition set_items (d : dataset E) (ixs : list index) (values : ndarray E) : outcome (dataset E) :=
  obind (create_hyperslab (ds_shape d) ixs) (fun s => write_strided (se_slab s) (prodZ (nd_shape values)) (nd_values values) d).

(** __setitem__ with an integer and an array: 556-577, the shape of the values is not used; with a slice and an array: 580-619 *)
Definition set_item (d : dataset E) (ix : index) (values : ndarray E) : outcome (dataset E) :=
  obind (single_hyperslab (ds_shape d) ix) (fun s =>
  write_strided (se_slab s) (match ix with Index _ => prodZ (hs_count (se_slab s)) | _ => prodZ (nd_shape values) end) (nd_values values) d).

(** __setitem__ with a number: array.cpp:528-553, Dataset::fill: dataset.cpp:381-412 *)
Definition fill_item (d : dataset E) (ix : index) (value : E) : outcome (dataset E) :=
  obind (single_hyperslab (ds_shape d) ix) (fun s =>
  let nr_elements := slab_nr_elements (se_slab s) in
  write_strided (se_slab s) nr_elements (repeat value (Z.to_nat nr_elements)) d).
End Items.

(** ** Strings *)

(** A variable length string as stored in a dataset: the code points, without the terminating null.  UTF-8 encoding and decoding are CPython's
    and are each other's inverse; only the number of bytes matters here. *)
Definition utf8_length (c : Z) : Z := if c <? 128 then 1 else if c <? 2048 then 2 else if c <? 65536 then 3 else 4.
Definition strlen (s : list Z) : Z := fold_right Z.add 0 (map utf8_length s).

(** A C string ends at its first null. *)
Fixpoint c_string (s : list Z) : list Z :=
  match s with [] => [] | c :: s' => if c =? 0 then [] else c :: c_string s' end.

(** A NumPy array of fixed length strings: the number of code points per string, and all code points back to back, padded with nulls. *)
Record strings : Type := Strings { st_width : Z; st_count : Z; st_buffer : list Z }.
Definition piece (start width : Z) (buffer : list Z) : list Z := firstn (Z.to_nat width) (skipn (Z.to_nat start) buffer).

(** __setitem__ with a slice and an array of strings: array.cpp:891-1034.  The strings end up in an array with as many elements as the slice
    selects (926-930).  [unicode]: the pointer to the start of the string is incremented after the loop instead of in it (987-1023).
    Reading outside of the buffer with the strings, 945-950, is UB.  Finally the whole array is written (1027): reading outside of the
    array with as many elements as the slice selects is UB. *)
Definition set_strings (unicode : bool) (d : dataset (list Z)) (start stop step : option Z) (values : strings) : outcome (dataset (list Z)) :=
  obind (single_hyperslab (ds_shape d) (Slice start stop step)) (fun s =>
  match se_shape s with
  | [nr_strings] =>
      obind (sequence (map (fun i =>
          let first := if unicode then 0 else i * st_width values in
          if first + st_width values <=? Z.of_nat (length (st_buffer values)) then Ok (c_string (piece first (st_width values) (st_buffer values))) else UB)
        (zseq 0 nr_strings))) (fun buffer =>
      let whole := hyperslab_of_shape (ds_shape d) in                                        (* Dataset::write: dataset.cpp:288-293 *)
      write_strided whole (prodZ (hs_count whole)) buffer d)
  | _ => Throw                                                                               (* 921-924 *)
  end).

(** Copying code points into the buffer: PyUnicode_AsUCS4, array.cpp:256.  Writing outside of the buffer is UB. *)
Definition copy_to (buffer : list Z) (at_ : Z) (s : list Z) : outcome (list Z) :=
  if at_ + Z.of_nat (length s) <=? Z.of_nat (length buffer)
  then Ok (firstn (Z.to_nat at_) buffer ++ s ++ skipn (Z.to_nat at_ + length s) buffer) else UB.

(** create_array, strings: array.cpp:187-272.  The offset between strings in the buffer is counted in bytes (262), but it is an offset in
    code points; NumPy is told that a string has [max_nr_code_points] of them (269-271). *)
Definition create_string_array (values_read : list (list Z)) : outcome strings :=
  let max_nr_code_points := fold_right Z.max 0 (map strlen values_read) in
  let max_nr_bytes := max_nr_code_points * 4 in
  let nr_strings := Z.of_nat (length values_read) in
  obind (fold_left (fun acc '(i, s) => obind acc (fun buffer =>
      if Z.of_nat (length s) <=? max_nr_bytes then copy_to buffer (i * max_nr_bytes) s else Throw))
    (combine (zseq 0 nr_strings) values_read) (Ok (repeat 0 (Z.to_nat (nr_strings * max_nr_bytes))))) (fun buffer =>
  Ok (Strings max_nr_code_points nr_strings buffer)).
Definition get_strings (d : dataset (list Z)) (start stop step : option Z) : outcome strings :=
  obind (single_hyperslab (ds_shape d) (Slice start stop step)) (fun s =>
  match se_shape s with
  | [nr_strings] => obind (read_strided (se_slab s) d (repeat [] (Z.to_nat nr_strings))) create_string_array
  | _ => UB                                                                                  (* the assertion: 193 *)
  end).
