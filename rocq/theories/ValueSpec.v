(** Specification vocabulary for the values of a dataset. *)
From Verif Require Import Common CoreSpec ArraySpec ArrayModel NumpyModel ValueModel.

(** Object array number [i] in a buffer with object arrays of [size] elements, one after the other. *)
Definition part {E} (size i : Z) (buffer : list E) : list E := firstn (Z.to_nat size) (skipn (Z.to_nat (i * size)) buffer).

(** ** Value arrays with the same shape for all objects.  Histories: the last operation comes first. *)

(** The number of object arrays for which there is room *)
Fixpoint room {E} (h : list (@value_op E)) : Z :=
  match h with
  | [] => 0
  | ExpandBy n :: h' => n + room h'
  | WriteRange _ _ _ :: h' => room h'
  end.

(** The values of object array [i]: what was written to it last (a write for which there is no room does not count), or the fill value *)
Fixpoint last_written {E} (size : Z) (fill : E) (h : list (@value_op E)) (i : Z) : list E :=
  match h with
  | [] => repeat fill (Z.to_nat size)
  | ExpandBy _ :: h' => last_written size fill h' i
  | WriteRange first last buffer :: h' =>
      if (first <=? i) && (i <? last) && (last <=? room h') then part size (i - first) buffer else last_written size fill h' i
  end.

(** What a program may do: numbers fit in 64 bits, ranges are not reversed and buffers are large enough *)
Definition proper {E} (size : Z) (op : @value_op E) : Prop :=
  match op with
  | ExpandBy n => 0 <= n
  | WriteRange first last buffer => 0 <= first <= last /\ last < 18446744073709551616 /\ (last - first) * size <= Z.of_nat (length buffer)
  end.

(** What the file contains as far as its users can see *)
Definition shows {E} (v : array E) (shape : list Z) (n : Z) (values : Z -> list E) : Prop :=
  nr_arrays v = n /\ array_shape v = shape /\
  (forall first last buffer, 0 <= first <= last -> last <= n -> Z.of_nat (length buffer) = (last - first) * volume shape ->
     read_range first last v buffer = Ok (concat (map values (zseq first (last - first))))) /\
  (forall first last buffer, 0 <= first < last -> n < last < 18446744073709551616 -> read_range first last v buffer = Throw).

(** ** Groups: an item per object, or per location in time.  Histories: the last operation comes first. *)

(** All items that have been created.  [made]: the names and descriptions of the items that an operation creates *)
Fixpoint created {Item Create Change} (made : Create -> list (Z * Item)) (h : list (group_op Create Change)) : list (Z * Item) :=
  match h with
  | [] => []
  | CreateItems _ c :: h' => created made h' ++ made c
  | _ :: h' => created made h'
  end.
(** The changes made to item [name] *)
Fixpoint changes {Create Change} (name : Z) (h : list (group_op Create Change)) : list Change :=
  match h with
  | [] => []
  | ChangeItem k c :: h' => if k =? name then c :: changes name h' else changes name h'
  | _ :: h' => changes name h'
  end.
Definition names {Item} (l : list (Z * Item)) : list Z := map fst l.
(** An item is only changed after it has been created *)
Fixpoint in_order {Item Create Change} (made : Create -> list (Z * Item)) (h : list (group_op Create Change)) : Prop :=
  match h with
  | [] => True
  | ChangeItem name _ :: h' => In name (names (created made h')) /\ in_order made h'
  | _ :: h' => in_order made h'
  end.
(** No item is created twice *)
Definition no_name_twice {Item Create Change} (made : Create -> list (Z * Item)) (h : list (group_op Create Change)) : Prop := NoDup (names (created made h)).
(** The number of times the value has been opened again *)
Fixpoint opened {Create Change} (h : list (group_op Create Change)) : nat :=
  match h with [] => 0%nat | Open _ :: h' => S (opened h') | _ :: h' => opened h' end.
(** A program that uses one instance of the value at a time: after opening the value again it uses the new instance *)
Fixpoint one_at_a_time {Create Change} (h : list (group_op Create Change)) : Prop :=
  match h with
  | [] => True
  | CreateItems i _ :: h' => i = opened h' /\ one_at_a_time h'
  | _ :: h' => one_at_a_time h'
  end.
(** The number of objects according to the instance in use is [n] *)
Definition instance_counts {V Create Change} (h : list (group_op Create Change)) (w : world V) (n : Z) : Prop :=
  length (wo_handles w) = S (opened h) /\ option_map ha_count (nth_error (wo_handles w) (opened h)) = Some n.
(** A program with a single instance of the value *)
Definition single_instance {Create Change} (op : group_op Create Change) : Prop :=
  match op with Open _ => False | CreateItems i _ => i = 0%nat | ChangeItem _ _ => True end.

(** The values of an array that is written as a whole: what was written last, or the fill value.  The last buffer comes first. *)
Definition last_buffer {E} (size : Z) (fill : E) (buffers : list (list E)) : list E :=
  match buffers with [] => repeat fill (Z.to_nat size) | b :: _ => firstn (Z.to_nat size) b end.

(** A shape of an object array: extents are not zero, and fit in 64 bits *)
Definition array_extents (shape : list Z) : Prop := Forall (fun e => 0 < e < 18446744073709551616) shape.
(** expand of different_shape::variable_shape creates a single location in time, with its objects *)
Definition made_time (c : Z * list (Z * list Z)) : list (Z * list (Z * list Z)) := [c].
