(** Model of core/partition_allocator.hpp: RecycleBin.  Line numbers are those of that file. *)
From Verif Require Import Common.

Definition address := Z.

(** [rb_cache]: the stacks of buffers, by number of elements (126).  [rb_heap]: the buffers that std::allocator gave and that were not released, with their
    sizes.  [rb_in_use]: the buffers that were handed out and not given back.  [rb_pending]: calls of allocate that found no buffer and did not call
    std::allocator yet, which they do without holding the mutex (74). *)
Record recycle_bin : Type := RecycleBin {
  rb_cache : list (Z * list address); rb_heap : list (address * Z); rb_in_use : list (address * Z); rb_pending : list Z }.

Definition rb_empty : recycle_bin := RecycleBin [] [] [] [].

(** _cache[n]: inserts an empty stack if there is none *)
Fixpoint stack_of (cache : list (Z * list address)) (n : Z) : list address :=
  match cache with [] => [] | (m, s) :: cache' => if m =? n then s else stack_of cache' n end.
Fixpoint set_stack (cache : list (Z * list address)) (n : Z) (stack : list address) : list (Z * list address) :=
  match cache with [] => [(n, stack)] | (m, s) :: cache' => if m =? n then (m, stack) :: cache' else (m, s) :: set_stack cache' n stack end.

Fixpoint remove_one {A} (dec : forall x y : A, {x = y} + {x <> y}) (x : A) (l : list A) : option (list A) :=
  match l with
  | [] => None
  | y :: l' => if dec x y then Some l' else match remove_one dec x l' with Some r => Some (y :: r) | None => None end
  end.
Definition buffer_dec (x y : address * Z) : {x = y} + {x <> y}.
Proof. decide equality; apply Z.eq_dec. Defined.

Inductive bin_event : Type :=
| Allocate (n : Z)                  (* the part of allocate that holds the mutex, 56-71 *)
| NewBuffer (n : Z) (b : address)   (* the call of std::allocator::allocate by allocate, 74, that returns [b] *)
| Deallocate (b : address) (n : Z). (* 82-90 *)

(** allocate, 39-78, and deallocate, 81-90.  The buffer that is handed out, if any.  [None]: not a possible event. std::allocator gives addresses
    that are not in use; callers give back buffers that they got, with their sizes. *)
Definition bin_step (e : bin_event) (s : recycle_bin) : option (recycle_bin * option (address * Z)) :=
  match e with
  | Allocate n =>
      match stack_of (rb_cache s) n with
      | b :: stack => Some (RecycleBin (set_stack (rb_cache s) n stack) (rb_heap s) ((b, n) :: rb_in_use s) (rb_pending s), Some (b, n))
      | [] => Some (RecycleBin (set_stack (rb_cache s) n []) (rb_heap s) (rb_in_use s) (n :: rb_pending s), None)
      end
  | NewBuffer n b =>
      if existsb (fun x => fst x =? b) (rb_heap s) then None
      else match remove_one Z.eq_dec n (rb_pending s) with
           | Some pending => Some (RecycleBin (rb_cache s) ((b, n) :: rb_heap s) ((b, n) :: rb_in_use s) pending, Some (b, n))
           | None => None
           end
  | Deallocate b n =>
      match remove_one buffer_dec (b, n) (rb_in_use s) with
      | Some in_use => Some (RecycleBin (set_stack (rb_cache s) n (b :: stack_of (rb_cache s) n)) (rb_heap s) in_use (rb_pending s), None)
      | None => None
      end
  end.

Fixpoint bin_run (es : list bin_event) (s : recycle_bin) : option recycle_bin :=
  match es with [] => Some s | e :: es' => match bin_step e s with Some (s', _) => bin_run es' s' | None => None end end.

(** ~RecycleBin, 20-36: releases the buffers in the stacks.  UB: a buffer is released that was not allocated, or with another size, or that was
    released already. *)
Definition release (heap : list (address * Z)) (b : address) (n : Z) : outcome (list (address * Z)) :=
  match remove_one buffer_dec (b, n) heap with Some heap' => Ok heap' | None => UB end.
Definition bin_destroy (s : recycle_bin) : outcome (list (address * Z)) :=
  fold_left (fun acc '(n, stack) => fold_left (fun acc b => obind acc (fun heap => release heap b n)) stack acc) (rb_cache s) (Ok (rb_heap s)).
