(** Model of from_numpy and to_numpy: framework/python/source/numpy/from_numpy.cpp and to_numpy.cpp.
    The memory of the process is a list of blocks.  A NumPy array is a view on a block: NumPy's own definition of the address of an element
    (start + sum of index * stride, here in elements) and of the C_CONTIGUOUS flag are taken from its documentation.  Overloads of from_numpy for
    other element types than that of the array are not considered: "array"_a.noconvert() (from_numpy.cpp:132) makes pybind11 skip these. *)
From Verif Require Import Common IndexModel DecompModel ArrayModel GdalArrayModel.

Definition memory (E : Type) : Type := list (list E).

(** numpy.ndarray: the block that it looks at, the position in it of the first element, shape and strides *)
Record ndarray : Type := NDArray { nd_block : nat; nd_start : Z; nd_shape : list Z; nd_strides : list Z }.

(** The C_CONTIGUOUS flag of NumPy: strides are those of row-major order; the stride of a dimension with one index is ignored, and so are
    the strides of arrays without elements. *)
Fixpoint row_major_strides (shape strides : list Z) : bool :=
  match shape, strides with
  | [], [] => true
  | n :: shape', s :: strides' => ((n =? 1) || (s =? fold_right Z.mul 1 shape')) && row_major_strides shape' strides'
  | _, _ => false
  end.
Definition c_contiguous (a : ndarray) : bool := existsb (Z.eqb 0) (nd_shape a) || row_major_strides (nd_shape a) (nd_strides a).

Section Numpy.
Context {E : Type} (kind : element_kind E).

(** The tasks that create the partitions (create_partitioned_array.hpp:765-832) have been started; these read the block that the handle
    refers to when they run. *)
Record pending : Type := Pending { pd_buffer : nat; pd_no_data : option E; pd_shape : list Z; pd_partition_shape : list Z }.

(** from_numpy_py: from_numpy.cpp:46-116.
    array_t<Element, c_style> with noconvert: an array that is not C-contiguous is refused (TypeError); rank: 57-62; partition shape: 64-86
    ([default]: the default partition shape of the array); the copy: 107-113.  The result is the memory and the array that is returned. *)
Definition from_numpy (default : list Z -> outcome (list Z)) (m : memory E) (a : ndarray) (partition_shape : option (list Z)) (no_data_value : option E)
    : outcome (memory E * pending) :=
  if negb (c_contiguous a) then Throw
  else if negb (length (nd_shape a) =? 2)%nat then Throw
  else
    obind (match partition_shape with
           | Some p => if (length p =? 2)%nat then Ok p else Throw
           | None => default (nd_shape a)
           end) (fun p =>
    match nth_error m (nd_block a) with
    | None => UB
    | Some block =>
        obind (copy_n block (nd_start a) (nr_elements (nd_shape a))) (fun copy =>
        Ok (m ++ [copy], Pending (length m) no_data_value (nd_shape a) p))
    end).

(** The array when its partitions are ready: create_partitioned_array.hpp:893-916 with InstantiateFromBuffer (777-832), given the memory at
    the moment that the tasks run. *)
Definition finish (nr_localities : Z) (m : memory E) (pd : pending) : outcome (parray E) :=
  match nth_error m (pd_buffer pd) with
  | None => UB
  | Some buffer =>
      obind (partition_shapes (pd_shape pd) (pd_partition_shape pd)) (fun '(sip, _) =>
      obind (instantiate_individually nr_localities (fun _ => from_buffer (ek_equal kind) (ek_mark kind) (pd_no_data pd) buffer (pd_shape pd))
               (pd_shape pd) (pd_partition_shape pd)) (fun parts =>
      obind (sequence (map (fun q => obind (pl_data q) (fun data => Ok (Placed (pl_locality q) (pl_offset q) (pl_shape q) data))) parts)) (fun parts =>
      Ok (PArray (pd_shape pd) sip parts))))
  end.

(** DefaultInputNoDataPolicy::is_no_data: policy/detect_no_data_by_nan.hpp:32-45, detect_no_data_by_value.hpp:76-89 *)
Definition is_no_data (v : E) : bool := if ek_floating kind then ek_is_nan kind v else ek_equal kind v (ek_mark kind).

(** std::copy to the position [at] of a buffer *)
Definition put (buffer : list E) (at_ : Z) (values : list E) : outcome (list E) :=
  if (0 <=? at_) && (at_ + Z.of_nat (length values) <=? Z.of_nat (length buffer))
  then Ok (firstn (Z.to_nat at_) buffer ++ values ++ skipn (Z.to_nat at_ + length values) buffer)
  else UB.

(** The loop over the rows of a partition: to_numpy.cpp:73-91; [source], [target]: positions of the pointers *)
Fixpoint copy_rows (no_data_value : option E) (array_width width : Z) (data : list E) (nr_rows : nat) (source target : Z) (result : list E) : outcome (list E) :=
  match nr_rows with
  | O => Ok result
  | S nr_left =>
      obind (copy_n data source width) (fun row =>
      let row := match no_data_value with
                 | Some value => map (fun v => if is_no_data v then value else v) row
                 | None => row
                 end in
      obind (put result target row) (fun result => copy_rows no_data_value array_width width data nr_left (source + width) (target + array_width) result))
  end.

(** The body of the loop over the partitions: to_numpy.cpp:53-93 *)
Definition copy_partition (no_data_value : option E) (array_shape : list Z) (q : placed (list E)) (result : list E) : outcome (list E) :=
  match array_shape, pl_offset q, pl_shape q with
  | [_; a1], [o0; o1], [s0; s1] => copy_rows no_data_value a1 s1 (pl_data q) (Z.to_nat s0) 0 (o0 * a1 + o1) result
  | _, _, _ => UB
  end.

(** to_numpy: to_numpy.cpp:19-97.  [junk]: the contents of the block that NumPy allocates. *)
Definition to_numpy (junk : Z -> E) (m : memory E) (arr : parray E) (no_data_value : option E) : outcome (memory E * ndarray) :=
  let shape := pa_shape arr in
  obind (fold_left (fun acc q => obind acc (copy_partition no_data_value shape q)) (pa_parts arr) (Ok (fresh junk (nr_elements shape)))) (fun result =>
  Ok (m ++ [result], NDArray (length m) 0 shape [nth 1 shape 0; 1])).
End Numpy.
