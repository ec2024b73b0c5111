(** Model of the data of array partitions: SharedBuffer and ArrayPartitionData (rank > 0).  Paths are relative to
    source/framework/partitioned_array/include/lue/framework/partitioned_array; Array: source/framework/core/include/lue/framework/core/array.hpp. *)
From Verif Require Import Common IndexModel.

Section Data.
Context {E : Type} (rank : nat).   (* element type and rank of the template *)

(** Array<Element, 1>, array.hpp:29-60: the number of elements and the block of memory that is owned; null: nullptr.
    _buffer_size and _shape equal the number of elements here, as reshape and remove are not modelled. *)
Record array := Array { ar_size : Z; ar_block : Z }.
Definition null : Z := -1.
(** The heap: arrays are owned by std::shared_ptr (SharedBuffer::_ptr), blocks by std::unique_ptr (Array::_elements).
    None: a block that is not allocated, or has been freed.  Arrays of which the last reference goes are not freed in the
    model: nothing can refer to them. *)
Record heap := Heap { h_next : Z; h_arrays : Z -> array; h_blocks : Z -> option (list E) }.
Definition put {T} (f : Z -> T) (i : Z) (v : T) : Z -> T := fun j => if j =? i then v else f j.

(** ArrayPartitionData: _shape, _elements (a SharedBuffer: the pointer to the array), _span (data handle and shape),
    array_partition_data.hpp:165-171 *)
Record data := Data { d_shape : list Z; d_ptr : Z; d_handle : Z; d_span : list Z }.

(** SharedBuffer::allocate, shared_buffer.hpp:285-297, and Array{shape}, array.hpp:66-76, followed by storing elements *)
Definition allocate (h : heap) (values : list E) : heap * Z :=
  match values with
  | [] => (Heap (h_next h + 1) (put (h_arrays h) (h_next h) (Array 0 null)) (h_blocks h), h_next h)
  | _ => (Heap (h_next h + 2) (put (h_arrays h) (h_next h) (Array (Z.of_nat (length values)) (h_next h + 1)))
            (put (h_blocks h) (h_next h + 1) (Some values)), h_next h)
  end.
(** Array::clear, array.hpp:295-306 *)
Definition clear (h : heap) (a : Z) : heap :=
  Heap (h_next h) (put (h_arrays h) a (Array 0 null)) (put (h_blocks h) (ar_block (h_arrays h a)) None).

(** lue_hpx_assert *)
Definition assertion (b : bool) : outcome unit := if b then Ok tt else UB.
(** ArrayPartitionData::assert_invariants, array_partition_data.hpp:529-536 *)
Definition assert_invariants (h : heap) (d : data) : outcome unit :=
  let a := h_arrays h (d_ptr d) in
  assertion ((nr_elements (d_shape d) =? ar_size a) && (nr_elements (d_span d) =? ar_size a) && (d_handle d =? ar_block a)).
(** Span{_elements.data(), _shape} *)
Definition with_span (h : heap) (shape : list Z) (ptr : Z) : data := Data shape ptr (ar_block (h_arrays h ptr)) shape.

Definition zeros : list Z := repeat 0 rank.

(** Constructors with a shape and elements, array_partition_data.hpp:204-266; without arguments, 180-194 *)
Definition construct (h : heap) (shape : list Z) (values : list E) : outcome (heap * data) :=
  obind (assertion (Z.of_nat (length values) =? nr_elements shape)) (fun _ =>
  let (h, ptr) := allocate h values in
  let this := with_span h shape ptr in
  obind (assert_invariants h this) (fun _ => Ok (h, this))).

(** The move constructors, array_partition_data.hpp:273-289, and shared_buffer.hpp:66-80: a new, empty, buffer is
    swapped with the one of the other instance. *)
Definition move_construct (h : heap) (other : data) : outcome (heap * data * data) :=
  let (h, ptr) := allocate h [] in
  let this := with_span h (d_shape other) (d_ptr other) in
  let other := with_span h zeros ptr in
  obind (assert_invariants h other) (fun _ =>
  obind (assertion (nr_elements (d_shape other) =? 0)) (fun _ =>
  obind (assert_invariants h this) (fun _ => Ok (h, this, other)))).

(** The move-assignments, array_partition_data.hpp:296-317, and shared_buffer.hpp:96-108: pointers are swapped, after
    which the array of the other instance is cleared.  this and other are different instances. *)
Definition move_assign (h : heap) (this other : data) : outcome (heap * data * data) :=
  let h := clear h (d_ptr this) in
  obind (assertion (ar_size (h_arrays h (d_ptr this)) =? 0)) (fun _ =>
  let this' := with_span h (d_shape other) (d_ptr other) in
  let other' := with_span h zeros (d_ptr this) in
  obind (assert_invariants h other') (fun _ =>
  obind (assertion (nr_elements (d_shape other') =? 0)) (fun _ =>
  obind (assert_invariants h this') (fun _ => Ok (h, this', other'))))).

(** Reading element i: operator(), by way of _span (array_partition_data.hpp:97-117; the row-major index is i), and
    operator[], by way of _elements (433-447).  Memory that is not allocated, or an index that is not valid: UB *)
Definition at_ (h : heap) (block i : Z) : outcome E :=
  match h_blocks h block with
  | Some l => if (0 <=? i) && (i <? Z.of_nat (length l)) then match nth_error l (Z.to_nat i) with Some e => Ok e | None => UB end else UB
  | None => UB
  end.
Definition read_span (h : heap) (d : data) (i : Z) : outcome E := at_ h (d_handle d) i.
Definition read_linear (h : heap) (d : data) (i : Z) : outcome E :=
  obind (assertion (i <? ar_size (h_arrays h (d_ptr d)))) (fun _ => at_ h (ar_block (h_arrays h (d_ptr d))) i).

(** Writing element i by way of operator() *)
Fixpoint replace (l : list E) (i : nat) (e : E) : list E :=
  match l, i with
  | [], _ => []
  | _ :: l, O => e :: l
  | x :: l, S i => x :: replace l i e
  end.
Definition write (h : heap) (d : data) (i : Z) (e : E) : outcome heap :=
  match h_blocks h (d_handle d) with
  | Some l => if (0 <=? i) && (i <? Z.of_nat (length l))
              then Ok (Heap (h_next h) (h_arrays h) (put (h_blocks h) (d_handle d) (Some (replace l (Z.to_nat i) e)))) else UB
  | None => UB
  end.
(** std::fill(begin(), end(), value), as in server/array_partition_impl.hpp:124-127 *)
Definition fill (h : heap) (d : data) (e : E) : outcome heap :=
  let a := h_arrays h (d_ptr d) in
  if ar_size a =? 0 then Ok h
  else match h_blocks h (ar_block a) with
       | Some l => if Z.of_nat (length l) =? ar_size a
                   then Ok (Heap (h_next h) (h_arrays h) (put (h_blocks h) (ar_block a) (Some (repeat e (length l))))) else UB
       | None => UB
       end.

(** Programs: instances are variables. *)
Inductive op :=
| Default (v : Z)
| New (v : Z) (shape : list Z) (values : list E)
| CopyConstruct (v w : Z)
| MoveConstruct (v w : Z)
| CopyAssign (v w : Z)
| MoveAssign (v w : Z)
| Destruct (v : Z)
| Write (v i : Z) (e : E)
| Fill (v : Z) (e : E).

Record state := State { st_heap : heap; st_vars : Z -> option data }.
Definition get (st : state) (v : Z) : outcome data := match st_vars st v with Some d => Ok d | None => UB end.
Definition fresh (st : state) (v : Z) : outcome unit := match st_vars st v with Some _ => UB | None => Ok tt end.

(** Copies are member-wise: ArrayPartitionData(ArrayPartitionData const&) = default and operator= = default,
    array_partition_data.hpp:61-67; shared_buffer.hpp:60, 90 *)
Definition step (o : op) (st : state) : outcome state :=
  let h := st_heap st in
  let s := st_vars st in
  match o with
  | Default v => obind (fresh st v) (fun _ => obind (construct h zeros []) (fun '(h, d) => Ok (State h (put s v (Some d)))))
  | New v shape values => obind (fresh st v) (fun _ => obind (construct h shape values) (fun '(h, d) => Ok (State h (put s v (Some d)))))
  | CopyConstruct v w => obind (fresh st v) (fun _ => obind (get st w) (fun d => Ok (State h (put s v (Some d)))))
  | MoveConstruct v w =>
      obind (fresh st v) (fun _ => obind (get st w) (fun d =>
      obind (move_construct h d) (fun '(h, this, other) => Ok (State h (put (put s w (Some other)) v (Some this))))))
  | CopyAssign v w => obind (get st v) (fun _ => obind (get st w) (fun d => Ok (State h (put s v (Some d)))))
  | MoveAssign v w =>
      obind (get st v) (fun this => obind (get st w) (fun other =>
      if v =? w then obind (assert_invariants h this) (fun _ => Ok st)
      else obind (move_assign h this other) (fun '(h, this, other) => Ok (State h (put (put s v (Some this)) w (Some other))))))
  | Destruct v => obind (get st v) (fun _ => Ok (State h (put s v None)))
  | Write v i e => obind (get st v) (fun d => obind (write h d i e) (fun h => Ok (State h s)))
  | Fill v e => obind (get st v) (fun d => obind (fill h d e) (fun h => Ok (State h s)))
  end.
Fixpoint exec (ops : list op) (st : state) : outcome state :=
  match ops with [] => Ok st | o :: ops => obind (step o st) (exec ops) end.
Definition start : state := State (Heap 0 (fun _ => Array 0 null) (fun _ => None)) (fun _ => None).
End Data.
Arguments op : clear implicits.
Arguments state : clear implicits.
Arguments heap : clear implicits.
