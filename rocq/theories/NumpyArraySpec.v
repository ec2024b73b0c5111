(** Specification vocabulary for the conversion between NumPy arrays and LUE arrays. *)
From Verif Require Import Common CoreSpec DecompSpec ArraySpec NumpyArrayModel GdalArrayModel GdalArraySpec.

(** The position of an element in the block of an array. *)
Fixpoint address (start : Z) (strides x : list Z) : Z :=
  match strides, x with
  | s :: strides', i :: x' => address (start + i * s) strides' x'
  | _, _ => start
  end.

(** In memory [m], NumPy array [a] has shape [n] and element [F x] at index [x]. *)
Definition numpy_holds {E} (m : memory E) (a : ndarray) (n : list Z) (F : list Z -> E) : Prop :=
  nd_shape a = n /\ length (nd_strides a) = length n /\
  exists block, nth_error m (nd_block a) = Some block /\
    forall x, in_shape n x -> 0 <= address (nd_start a) (nd_strides a) x /\ nth_error block (Z.to_nat (address (nd_start a) (nd_strides a) x)) = Some (F x).

(** Elements are in row-major order, next to each other. *)
Definition row_major (a : ndarray) : Prop :=
  forall x, in_shape (nd_shape a) x -> address (nd_start a) (nd_strides a) x = nd_start a + rowmaj (nd_shape a) x.

(** The blocks of [m] are the same in [m']: all that is created in between has a block of its own. *)
Definition unchanged {E} (m m' : memory E) : Prop := forall b block, nth_error m b = Some block -> nth_error m' b = Some block.

(** A value of a NumPy array stands for no-data: it is equal to the no-data value that is passed in. *)
Definition stands_for_no_data {E} (k : element_kind E) (no_data : option E) (v : E) : Prop := exists x, no_data = Some x /\ ek_equal k v x = true.

(** What LUE must make of a value of a NumPy array. *)
Definition taken_from {E} (k : element_kind E) (no_data : option E) (v w : E) : Prop :=
  (stands_for_no_data k no_data v -> w = ek_mark k) /\ (~ stands_for_no_data k no_data v -> w = v).

(** What NumPy must get for a value of an array. *)
Definition passed_to {E} (k : element_kind E) (no_data : option E) (v w : E) : Prop :=
  match no_data with
  | None => w = v
  | Some x => (missing_in_array k v -> w = x) /\ (~ missing_in_array k v -> w = v)
  end.

(** Every value is equal to itself, except for what LUE takes for no-data (a NaN); LUE takes its own mark for no-data. *)
Definition sane {E} (k : element_kind E) : Prop := one_mark k /\ missing_in_array k (ek_mark k) /\ forall v, ek_equal k v v = true \/ missing_in_array k v.
