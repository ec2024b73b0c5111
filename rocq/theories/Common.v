(** Shared vocabulary: outcomes, integer ranges, list updates.  No LUE specific
    code is modelled here. *)
From Coq Require Export ZArith List Lia Bool Permutation Sorted.
From Coq Require Export ZifyBool ZifyNat.
Export ListNotations.
Open Scope Z_scope.

(** Outcome of a modelled C++ function: a value, a thrown exception, or
    undefined behaviour (failed lue_hpx_assert / out-of-bounds access). *)
Inductive outcome (A : Type) : Type :=
| Ok (a : A)
| Throw
| UB.
Arguments Ok {A} a.
Arguments Throw {A}.
Arguments UB {A}.

Definition obind {A B} (x : outcome A) (f : A -> outcome B) : outcome B :=
  match x with Ok a => f a | Throw => Throw | UB => UB end.

(** The indices visited by [for (Index i = s; i < s + n; ++i)]. *)
Definition zseq (s n : Z) : list Z :=
  map (fun k => s + Z.of_nat k) (seq 0 (Z.to_nat n)).

(** Replace the element at position [n]; [None] when out of bounds. *)
Fixpoint upd_nth {A} (n : nat) (a : A) (l : list A) : option (list A) :=
  match l, n with
  | [], _ => None
  | _ :: t, O => Some (a :: t)
  | h :: t, S n' => option_map (cons h) (upd_nth n' a t)
  end.

(** Same, for an arbitrary (possibly negative) C++ index. *)
Definition upd_z {A} (i : Z) (a : A) (l : list A) : option (list A) :=
  if i <? 0 then None else upd_nth (Z.to_nat i) a l.

Definition nth_z {A} (i : Z) (l : list A) : option A :=
  if i <? 0 then None else nth_error l (Z.to_nat i).

(** std::accumulate(begin, end, 1, std::multiplies) *)
Definition prodZ (l : list Z) : Z := fold_left Z.mul l 1.
