(** Model of the choice of chunks: data_model/hdf5/source/chunk.cpp, shape.cpp.  Doubles are binary64; std::pow is a parameter. *)
From Flocq Require Import BinarySingleNaN.
From Verif Require Import Common Float64 NumpyModel.

(** upper_chunk_size_limit: 22-30; lower_chunk_size_limit: 11-19 *)
Definition upper_limit : Z := 1048576.
Definition lower_limit : Z := 10240.

(** size_of_shape: shape.cpp:15-18.  Products of unsigned 64-bit integers *)
Definition size_of_shape (shape : list Z) (size_of_element : Z) : Z := fold_left (fun a e => to_size (a * e)) shape size_of_element.

(** static_cast of std::floor(x) to an unsigned 64-bit integer: undefined behaviour when the result does not fit *)
Definition to_count (x : b64) : outcome Z :=
  if is_finite x && (0 <=? b64_floor x) && (b64_floor x <? 18446744073709551616) then Ok (b64_floor x) else UB.

Section Chunk.
Context (pow : b64 -> b64 -> b64).

(** The loop over the dimensions, in the order of increasing extents: 99-117.  [result] does not contain the first dimension. *)
Fixpoint chunk_loop (per_dimension : b64) (tuples : list (Z * Z)) (result : list Z) : outcome (list Z) :=
  match tuples with
  | [] => Ok result
  | (extent, index) :: tuples' =>
      obind (to_count per_dimension) (fun n =>
      let count := Z.min n extent in
      match upd_z index count result with
      | None => UB
      | Some result' => chunk_loop (b64_mul per_dimension (b64_div per_dimension (b64_of_Z count))) tuples' result'
      end)
  end.

(** chunk_shape: 45-124.  [order]: the tuples of extents and indices (84-97).  The sort is not stable: tuples with the same extent are in any order. *)
Definition chunk_shape (order : list (Z * Z)) (value_shape : list Z) (size_of_element : Z) : outcome (list Z) :=
  let value_size := size_of_shape value_shape size_of_element in
  let nr_values := b64_div (b64_of_Z upper_limit) (b64_of_Z value_size) in
  match Bcompare nr_values (b64_of_Z 1) with
  | Some Lt | None =>
      let chunk_bytes := b64_mul (b64_of_Z value_size) nr_values in
      let bytes_per_dimension := pow chunk_bytes (b64_div (b64_of_Z 1) (b64_of_Z (Z.of_nat (length value_shape)))) in
      obind (chunk_loop (b64_div bytes_per_dimension (b64_of_Z size_of_element)) order (map (fun _ => 0) value_shape)) (fun result => Ok (1 :: result))
  | Some _ => obind (to_count nr_values) (fun n => Ok (n :: value_shape))
  end.
End Chunk.
