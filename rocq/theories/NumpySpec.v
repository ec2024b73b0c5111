(** Specification vocabulary for indexing arrays the way Python and NumPy do. *)
From Verif Require Import Common CoreSpec ArraySpec NumpyModel.

(** What a bound of a slice means in a sequence of [n] elements (Python Language Reference, "Slicings", and the Library Reference, "Common Sequence
    Operations", notes 3-5): negative bounds count from the end, and bounds are reduced to the range [low, high]. *)
Definition bound (n low high v : Z) : Z := Z.max low (Z.min high (if v <? 0 then v + n else v)).

(** The positions that a slice with step [k] selects from [n] elements, in order.  k > 0: i, i + k, i + 2k, ..., as long as they are
    smaller than j.  k < 0: i, i + k, ..., as long as they are larger than j. *)
Definition forward (n : Z) (i j : option Z) (k : Z) : list Z :=
  let i := match i with None => 0 | Some v => bound n 0 n v end in
  let j := match j with None => n | Some v => bound n 0 n v end in
  filter (fun x => (x - i) mod k =? 0) (zseq i (j - i)).
Definition backward (n : Z) (i j : option Z) (k : Z) : list Z :=
  let i := match i with None => n - 1 | Some v => bound n (-1) (n - 1) v end in
  let j := match j with None => -1 | Some v => bound n (-1) (n - 1) v end in
  filter (fun x => (i - x) mod k =? 0) (rev (zseq (j + 1) (i - j))).
Definition chosen (n : Z) (start stop step : option Z) : list Z :=
  let k := match step with None => 1 | Some k => k end in
  if 0 <? k then forward n start stop k else backward n start stop (- k).

(** An index that Python accepts for a dimension with [n] elements. *)
Definition valid_index (n : Z) (ix : index) : Prop :=
  match ix with
  | Index i => - n <= i < n
  | Slice _ _ step => step <> Some 0
  | NotAnIndex => False
  end.
Fixpoint valid_indices (n : list Z) (ixs : list index) : Prop :=
  match n, ixs with
  | _, [] => True
  | e :: n', ix :: ixs' => valid_index e ix /\ valid_indices n' ixs'
  | [], _ :: _ => False
  end.

(** The shape of the result: an integer removes the dimension, a slice selects from it, and dimensions without an index are selected completely. *)
Fixpoint numpy_shape (n : list Z) (ixs : list index) : list Z :=
  match n, ixs with
  | e :: n', Index _ :: ixs' => numpy_shape n' ixs'
  | e :: n', Slice start stop step :: ixs' => Z.of_nat (length (chosen e start stop step)) :: numpy_shape n' ixs'
  | n, _ => n
  end.

(** The cell of the array of which the value ends up in cell [r] of the result. *)
Fixpoint numpy_cell (n : list Z) (ixs : list index) (r : list Z) : list Z :=
  match n, ixs, r with
  | e :: n', Index i :: ixs', r => (if i <? 0 then e + i else i) :: numpy_cell n' ixs' r
  | e :: n', Slice start stop step :: ixs', x :: r' => nth (Z.to_nat x) (chosen e start stop step) 0 :: numpy_cell n' ixs' r'
  | _, _, r => r
  end.

(** No slice selects more than one element backwards. *)
Fixpoint not_backward (n : list Z) (ixs : list index) : Prop :=
  match n, ixs with
  | e :: n', Slice start stop step :: ixs' => (match step with Some k => 0 < k | None => True end \/ (length (chosen e start stop step) <= 1)%nat) /\ not_backward n' ixs'
  | _ :: n', _ :: ixs' => not_backward n' ixs'
  | _, _ => True
  end.

(** A shape that an array in a file can have: it has dimensions, and extents fit in 64 bits, signed. *)
Definition file_shape (n : list Z) : Prop := n <> [] /\ Forall (fun e => 0 <= e <= 9223372036854775807) n.
(** Integers that fit in a long. *)
Definition fits_long (ix : index) : Prop := match ix with Index i => -9223372036854775808 <= i <= 9223372036854775807 | _ => True end.

(** The values of a NumPy array: cell [r] has value [V r]. *)
Definition nd_holds {E} (a : ndarray E) (shape : list Z) (V : list Z -> E) : Prop := nd_shape a = shape /\ block_holds shape (nd_values a) V.

(** String [i] in a NumPy array of strings: without the nulls at the end. *)
Fixpoint without_nulls (s : list Z) : list Z :=
  match s with
  | [] => []
  | c :: s' => match without_nulls s' with [] => if c =? 0 then [] else [c] | t => c :: t end
  end.
Definition string_at (a : strings) (i : Z) : list Z :=
  without_nulls (firstn (Z.to_nat (st_width a)) (skipn (Z.to_nat (i * st_width a)) (st_buffer a))).
(** The array is complete, and the strings have no nulls in them. *)
Definition strings_hold (a : strings) (l : list (list Z)) : Prop :=
  0 <= st_width a /\ st_count a = Z.of_nat (length l) /\ Z.of_nat (length (st_buffer a)) = st_count a * st_width a /\
  (forall s, In s l -> ~ In 0 s) /\
  forall i, 0 <= i < st_count a -> nth_error l (Z.to_nat i) = Some (string_at a i).
