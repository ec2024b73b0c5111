(** Model of the data model's value arrays: data_model/cxx/source/array/{same_shape,different_shape}{,/constant_shape,/variable_shape}/value.cpp,
    on top of data_model/hdf5/source/{dataset,group}.cpp.  Values in memory and in the file have the same type (no conversions).
    Names of HDF5 objects are std::to_string of an object ID or an index: different numbers have different names, so numbers are used as names.
    Assertions of the standard library's assert are not modelled: the code is compiled with NDEBUG. *)
From Verif Require Import Common IndexModel DecompModel ArrayModel IOModel NumpyModel.

(** ** HDF5
    A dataset with the value that elements have until they are written (set_fill_value: same_shape/value.cpp:190-193; HDF5's default otherwise). *)
Record array (E : Type) : Type := Array { ar_data : dataset E; ar_fill : E }.
Arguments Array {E}. Arguments ar_data {E}. Arguments ar_fill {E}.

(** An HDF5 group with named objects and the attribute that counts them (nr_objects or nr_locations_in_time). *)
Record group (V : Type) : Type := Group { gr_items : list (Z * V); gr_count : Z }.
Arguments Group {V}. Arguments gr_items {V}. Arguments gr_count {V}.

Definition find_item {V} (name : Z) (items : list (Z * V)) : option V :=
  option_map snd (find (fun kv => fst kv =? name) items).
Definition store_item {V} (name : Z) (v : V) (items : list (Z * V)) : list (Z * V) :=
  map (fun kv => if fst kv =? name then (name, v) else kv) items.
(** H5Dcreate, H5Gcreate: an error when the name is used already: dataset.cpp:462-465, group.cpp:297-300 *)
Definition create_item {V} (name : Z) (v : V) (items : list (Z * V)) : outcome (list (Z * V)) :=
  match find_item name items with Some _ => Throw | None => Ok (items ++ [(name, v)]) end.

Section Values.
Context {E : Type}.

(** H5Dcreate: the contract of HDF5 *)
Definition create_array (shape : list Z) (fill : E) : array E :=
  Array (Dataset shape (repeat fill (Z.to_nat (prodZ shape)))) fill.

Fixpoint inside (x shape : list Z) : bool :=
  match x, shape with
  | [], [] => true
  | i :: x', n :: shape' => (i <? n) && inside x' shape'
  | _, _ => false
  end.
(** Dataset::resize: dataset.cpp:167-178.  H5Dset_extent, the contract of HDF5: elements that exist before and after keep their value, new ones
    have the fill value. *)
Definition resize (shape : list Z) (a : array E) : array E :=
  let old := ds_shape (ar_data a) in
  Array (Dataset shape (map (fun k =>
      let x := linear_idx_to_idxs k shape in
      if inside x old then nth (Z.to_nat (linear_idx x old)) (ds_cells (ar_data a)) (ar_fill a) else ar_fill a) (zseq 0 (prodZ shape))))
    (ar_fill a).

(** ** same_shape::Value and same_shape::constant_shape::Value: the object arrays of a number of objects (and locations in time), one after the other *)

(** create_value: same_shape/value.cpp:164-205, same_shape/constant_shape/value.cpp:177-209.  The shape of the chunks is modelled in ChunkModel. *)
Definition create_value (array_shape : list Z) (fill : E) : array E := create_array (0 :: array_shape) fill.
(** nr_arrays, array_shape: 58-79, 63-84 *)
Definition nr_arrays (v : array E) : Z := hd 0 (ds_shape (ar_data v)).
Definition array_shape (v : array E) : list Z := tl (ds_shape (ar_data v)).
(** expand: 44-53, 49-58.  hsize_t has 64 bits. *)
Definition expand (n : Z) (v : array E) : outcome (array E) :=
  match ds_shape (ar_data v) with
  | [] => UB
  | n0 :: rest => Ok (resize (to_size (n0 + n) :: rest) v)
  end.
(** hyperslab: 82-99, 93-110 *)
Definition range_slab (first last : Z) (v : array E) : hyperslab :=
  hyperslab_of (first :: map (fun _ => 0) (array_shape v)) (to_size (last - first) :: array_shape v).
(** read, write: 102-123, 113-134.  [buffer] is memory that is provided by the caller. *)
Definition read_range (first last : Z) (v : array E) (buffer : list E) : outcome (list E) :=
  read_strided (range_slab first last v) (ar_data v) buffer.
Definition write_range (first last : Z) (buffer : list E) (v : array E) : outcome (array E) :=
  obind (write_strided (range_slab first last v) (prodZ (hs_count (range_slab first last v))) buffer (ar_data v)) (fun d => Ok (Array d (ar_fill v))).
Definition read_index (i : Z) := read_range i (i + 1).
Definition write_index (i : Z) := write_range i (i + 1).
(** Array::read and write of everything: core/array.cpp:57-60, 89-92, dataset.cpp:198-201, 288-293 *)
Definition read_array (v : array E) (buffer : list E) : outcome (list E) := read_strided (hyperslab_of_shape (ds_shape (ar_data v))) (ar_data v) buffer.
Definition write_array (buffer : list E) (v : array E) : outcome (array E) :=
  obind (write_strided (hyperslab_of_shape (ds_shape (ar_data v))) (prodZ (ds_shape (ar_data v))) buffer (ar_data v)) (fun d => Ok (Array d (ar_fill v))).

(** ** different_shape::Value: an array per object *)

(** The objects are created one by one: when one of them cannot be created, those before it remain.
    expand_core: different_shape/value.cpp:106-128 *)
Fixpoint create_objects (zero : E) (objects : list (Z * list Z)) (items : list (Z * array E)) : outcome unit * list (Z * array E) :=
  match objects with
  | [] => (Ok tt, items)
  | (id, shape) :: objects' =>
      match create_item id (create_array shape zero) items with
      | Ok items' => create_objects zero objects' items'
      | Throw => (Throw, items)
      | UB => (UB, items)
      end
  end.

(** An instance of Value: it holds a copy of the number of objects, read when the group is opened (9-37) *)
Record handle : Type := Handle { ha_count : Z; ha_rank : Z }.
Definition open_value {V} (rank : Z) (g : group V) : handle := Handle (gr_count g) rank.

(** What remains after an operation: the result, the instance and the file *)
Definition effect (V : Type) : Type := (outcome unit * handle * group V)%type.

(** Updating the number of objects after they have been created: 54-56, 77-79, 93-95 *)
Definition counted {V} (n : Z) (h : handle) (g : group V) (created : outcome unit * list (Z * V)) : effect V :=
  match created with
  | (Ok _, items) => (Ok tt, Handle (ha_count h + n) (ha_rank h), Group items (ha_count h + n))
  | (o, items) => (o, h, Group items (gr_count g))
  end.

(** expand, with a shape per object: 46-57; with a single object: 87-96 *)
Definition expand_objects (zero : E) (objects : list (Z * list Z)) (h : handle) (g : group (array E)) : effect (array E) :=
  counted (Z.of_nat (length objects)) h g (create_objects zero objects (gr_items g)).

(** expand, with the extents of the shapes one after the other: 67-80.  Of each shape, two extents are used (74), whatever the rank is.
    Reading outside of the shapes is UB. *)
Fixpoint create_objects_flat (zero : E) (rank shape_idx : Z) (ids shapes : list Z) (items : list (Z * array E)) : outcome unit * list (Z * array E) :=
  match ids with
  | [] => (Ok tt, items)
  | id :: ids' =>
      match obind (at_z shapes shape_idx) (fun n0 => obind (at_z shapes (shape_idx + 1)) (fun n1 => create_item id (create_array [n0; n1] zero) items)) with
      | Ok items' => create_objects_flat zero rank (shape_idx + rank) ids' shapes items'
      | Throw => (Throw, items)
      | UB => (UB, items)
      end
  end.
Definition expand_flat (zero : E) (ids shapes : list Z) (h : handle) (g : group (array E)) : effect (array E) :=
  counted (Z.of_nat (length ids)) h g (create_objects_flat zero (ha_rank h) 0 ids shapes (gr_items g)).

(** expand in Python: data_model/python/source/different_shape/value.cpp:36-69.  [shapes]: the rows of a two-dimensional NumPy array with
    [width] columns. *)
Definition expand_python (zero : E) (ids : list Z) (width : Z) (shapes : list (list Z)) (h : handle) (g : group (array E)) : effect (array E) :=
  if negb (width =? ha_rank h) then (Throw, h, g)
  else if negb (Z.of_nat (length ids) =? Z.of_nat (length shapes)) then (Throw, h, g)
  else expand_flat zero ids (concat shapes) h g.

(** ** different_shape::constant_shape::Value: a same_shape::constant_shape::Value per object, and
       same_shape::variable_shape::Value: a same_shape::Value per location in time *)

(** expand_: different_shape/constant_shape/value.cpp:97-110; same_shape/variable_shape/value.cpp:54-58 *)
Definition new_value (zero : E) (shape : list Z) (n : Z) : outcome (array E) := expand n (create_value shape zero).
Fixpoint create_values (zero : E) (objects : list (Z * (list Z * Z))) (items : list (Z * array E)) : outcome unit * list (Z * array E) :=
  match objects with
  | [] => (Ok tt, items)
  | (id, (shape, n)) :: objects' =>
      match obind (new_value zero shape n) (fun v => create_item id v items) with
      | Ok items' => create_values zero objects' items'
      | Throw => (Throw, items)
      | UB => (UB, items)
      end
  end.
(** expand: different_shape/constant_shape/value.cpp:60-94; same_shape/variable_shape/value.cpp:51-62 (a single location in time) *)
Definition expand_values (zero : E) (objects : list (Z * (list Z * Z))) (h : handle) (g : group (array E)) : effect (array E) :=
  counted (Z.of_nat (length objects)) h g (create_values zero objects (gr_items g)).

(** ** different_shape::variable_shape::Value: a different_shape::Value per location in time *)

(** expand: different_shape/variable_shape/value.cpp:54-67.  The group for the location in time remains when its objects cannot be created. *)
Definition expand_time (zero : E) (idx : Z) (objects : list (Z * list Z)) (h : handle) (g : group (group (array E))) : effect (group (array E)) :=
  match create_item idx (Group [] 0) (gr_items g) with
  | Ok items =>
      let '(o, _, objects_group) := expand_objects zero objects (Handle 0 (ha_rank h)) (Group [] 0) in
      counted 1 h g (o, store_item idx objects_group items)
  | Throw => (Throw, h, g)
  | UB => (UB, h, g)
  end.

(** operator[]: different_shape/value.cpp:140-147, different_shape/constant_shape/value.cpp:113-118, same_shape/variable_shape/value.cpp:65-70,
    different_shape/variable_shape/value.cpp:70-75.  Opening an object that does not exist is an error. *)
Definition item {V} (name : Z) (g : group V) : outcome V := match find_item name (gr_items g) with Some v => Ok v | None => Throw end.
(** contains, exists: 131-137, 45-50 *)
Definition has_item {V} (name : Z) (g : group V) : bool := match find_item name (gr_items g) with Some _ => true | None => false end.
(** Changing an array through the result of operator[] *)
Definition update_item {V} (name : Z) (f : V -> outcome V) (g : group V) : outcome (group V) :=
  obind (item name g) (fun v => obind (f v) (fun v' => Ok (Group (store_item name v' (gr_items g)) (gr_count g)))).

(** create_value of the groups: the number of objects (or locations in time) is 0: 153-176, 124-147, 76-99, 81-104 *)
Definition create_group {V} : group V := Group [] 0.

(** ** Histories: sequences of operations by a program.  An operation that fails with an exception has no effect on the file, unless stated otherwise
    above; the program catches the exception and goes on. *)

(** Operations on a same_shape::Value or a same_shape::constant_shape::Value *)
Inductive value_op : Type :=
| ExpandBy (n : Z)
| WriteRange (first last : Z) (buffer : list E).
Definition value_step (op : value_op) (v : array E) : outcome (array E) :=
  match op with
  | ExpandBy n => expand n v
  | WriteRange first last buffer => write_range first last buffer v
  end.
Fixpoint value_run (ops : list value_op) (v : array E) : outcome (array E) :=
  match ops with
  | [] => Ok v
  | op :: ops' =>
      match value_step op v with
      | Ok v' => value_run ops' v'
      | Throw => value_run ops' v
      | UB => UB
      end
  end.

(** A file in which a group is stored, with the instances of Value that have been opened.  Each of them is used at will. *)
Record world (V : Type) : Type := World { wo_file : group V; wo_handles : list handle }.

(** Operations on a group: creating items through instance number [instance], and changing an item *)
Inductive group_op (Create Change : Type) : Type :=
| Open (rank : Z)
| CreateItems (instance : nat) (c : Create)
| ChangeItem (name : Z) (c : Change).
Definition group_step {V Create Change} (create : Create -> handle -> group V -> effect V) (change : Change -> V -> outcome V)
    (op : group_op Create Change) (w : world V) : outcome (world V) :=
  match op with
  | Open _ _ rank => Ok (World V (wo_file V w) (wo_handles V w ++ [open_value rank (wo_file V w)]))
  | CreateItems _ _ i c =>
      match nth_error (wo_handles V w) i with
      | None => UB
      | Some h =>
          let '(o, h', g') := create c h (wo_file V w) in
          match o, upd_nth i h' (wo_handles V w) with
          | UB, _ | _, None => UB
          | _, Some handles => Ok (World V g' handles)
          end
      end
  | ChangeItem _ _ name c =>
      match update_item name (change c) (wo_file V w) with
      | Ok g => Ok (World V g (wo_handles V w))
      | Throw => Ok w
      | UB => UB
      end
  end.
Fixpoint group_run {V Create Change} (create : Create -> handle -> group V -> effect V) (change : Change -> V -> outcome V)
    (ops : list (group_op Create Change)) (w : world V) : outcome (world V) :=
  match ops with
  | [] => Ok w
  | op :: ops' => obind (group_step create change op w) (group_run create change ops')
  end.

End Values.
Arguments World {V}. Arguments wo_file {V}. Arguments wo_handles {V}.
Arguments Open {Create Change}. Arguments CreateItems {Create Change}. Arguments ChangeItem {Create Change}.
