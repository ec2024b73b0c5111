(** Model of the identifiers of HDF5 objects: data_model/hdf5/source/identifier.cpp (paths are relative to source/). *)
From Verif Require Import Common.

(** The HDF5 library, as far as identifiers are concerned: identifiers that have been handed out are 0, 1, ..
    [lib_next] - 1 (identifiers are not reused); for each of them the number of references by the application, which is
    0 if the identifier is not valid (H5Iis_valid is false for identifiers without references by the application, like
    those of predefined data types); [lib_closed]: the number of times the object has been closed. *)
Record library := Library { lib_next : Z; lib_refs : Z -> Z; lib_closed : Z -> Z }.
Definition put (f : Z -> Z) (i v : Z) : Z -> Z := fun j => if j =? i then v else f j.

(** The close functions in use: H5Fclose, H5Gclose, .. decrement the number of references, and close the object if
    there are none left; the function without effect of Datatype::Datatype(hid_t), data_model/hdf5/source/datatype.cpp:140-146.
    Simplification: close functions do not fail. *)
Inductive closer := Closes | Nothing.

(** Identifier::_id and _close (nullptr: None), data_model/hdf5/include/lue/hdf5/identifier.hpp:78-82 *)
Record identifier := Identifier { id_ : Z; close_ : option closer }.
Definition nothing : identifier := Identifier (-1) None.

Definition call (k : closer) (L : library) (i : Z) : library :=
  match k with
  | Closes => Library (lib_next L) (put (lib_refs L) i (lib_refs L i - 1))
                (if lib_refs L i =? 1 then put (lib_closed L) i (lib_closed L i + 1) else lib_closed L)
  | Nothing => L
  end.

(** Identifier::is_valid, identifier.cpp:248-266 *)
Definition is_valid (L : library) (x : identifier) : bool := if 0 <=? id_ x then 0 <? lib_refs L (id_ x) else false.

(** Identifier::reference_count, identifier.cpp:181-191 *)
Definition reference_count (L : library) (x : identifier) : outcome Z :=
  if is_valid L x then Ok (lib_refs L (id_ x)) else Throw.

(** Identifier::increment_reference_count, identifier.cpp:195-207 *)
Definition increment_reference_count (L : library) (x : identifier) : outcome library :=
  if is_valid L x then Ok (Library (lib_next L) (put (lib_refs L) (id_ x) (lib_refs L (id_ x) + 1)) (lib_closed L)) else Throw.

Section Build.
Context (debug : bool).   (* whether assertions are tested *)
Definition assertion (b : bool) : outcome unit := if debug && negb b then UB else Ok tt.

(** Identifier::assert_invariant, identifier.cpp:237-241 *)
Definition assert_invariant (L : library) (x : identifier) : outcome unit :=
  assertion (negb (is_valid L x && match close_ x with None => true | _ => false end)).

(** Identifier::close_if_valid, identifier.cpp:217-233; calling a std::function without target is an exception. *)
Definition close_if_valid (L : library) (x : identifier) : outcome library :=
  if is_valid L x then
    obind (reference_count L x) (fun before =>
    obind (assertion (0 <? before)) (fun _ =>
    match close_ x with
    | None => Throw
    | Some k =>
        let L' := call k L (id_ x) in
        if debug && negb (before =? 1) then
          obind (reference_count L' x) (fun after => obind (assertion (after =? before - 1)) (fun _ => Ok L'))
        else Ok L'
    end))
  else Ok L.

(** Exceptions are caught in functions that are noexcept: identifier.cpp:77-86, 97-105, 154-173 *)
Definition noexcept {A} (otherwise : A) (o : outcome A) : outcome A :=
  match o with Throw => if debug then UB else Ok otherwise | _ => o end.

(** Copy constructor, identifier.cpp:46-59: the library, and the new instance *)
Definition copy_construct (L : library) (other : identifier) : outcome (library * identifier) :=
  let this := Identifier (id_ other) (close_ other) in
  obind (if is_valid L this then increment_reference_count L this else Ok L) (fun L =>
  obind (assert_invariant L this) (fun _ => Ok (L, this))).

(** Move constructor, identifier.cpp:68-88: the new instance, and the other one *)
Definition move_construct (L : library) (other : identifier) : outcome (identifier * identifier) :=
  let this := Identifier (id_ other) (close_ other) in
  let other := nothing in
  obind (assert_invariant L this) (fun _ =>
  obind (assertion (negb (is_valid L other))) (fun _ => Ok (this, other))).

(** Destructor, identifier.cpp:95-106 *)
Definition destruct_ (L : library) (this : identifier) : outcome library := noexcept L (close_if_valid L this).

(** Copy-assignment from another instance, identifier.cpp:115-138 *)
Definition copy_assign (L : library) (this other : identifier) : outcome (library * identifier) :=
  obind (close_if_valid L this) (fun L =>
  let this := Identifier (id_ other) (close_ this) in
  obind (if is_valid L this then increment_reference_count L this else Ok L) (fun L =>
  let this := Identifier (id_ this) (close_ other) in
  obind (assert_invariant L this) (fun _ => Ok (L, this)))).

(** Move-assignment from another instance, identifier.cpp:147-173: the library, the instance, and the other one *)
Definition move_assign (L : library) (this other : identifier) : outcome (library * identifier * identifier) :=
  noexcept (L, this, other) (
  obind (close_if_valid L this) (fun L =>
  let this := Identifier (id_ other) (close_ other) in
  let other := nothing in
  obind (assert_invariant L this) (fun _ =>
  obind (assertion (negb (is_valid L other))) (fun _ => Ok (L, this, other))))).
(** ... from the instance itself: assigning _id and _close of the other one changes the instance. *)
Definition move_assign_self (L : library) (this : identifier) : outcome (library * identifier) :=
  noexcept (L, this) (
  obind (close_if_valid L this) (fun L =>
  let this := nothing in
  obind (assert_invariant L this) (fun _ =>
  obind (assertion (negb (is_valid L this))) (fun _ => Ok (L, this))))).

(** Programs: instances are variables. *)
Definition store := list (Z * identifier).
Fixpoint lookup (s : store) (v : Z) : option identifier :=
  match s with [] => None | (w, x) :: s => if w =? v then Some x else lookup s v end.
Definition update (s : store) (v : Z) (x : identifier) : store := map (fun p => if fst p =? v then (v, x) else p) s.
Definition remove (s : store) (v : Z) : store := filter (fun p => negb (fst p =? v)) s.
Definition add (s : store) (v : Z) (x : identifier) : outcome store :=
  match lookup s v with None => Ok ((v, x) :: s) | Some _ => UB end.
Definition get (s : store) (v : Z) : outcome identifier := match lookup s v with Some x => Ok x | None => UB end.

Inductive op :=
| Default (v : Z)            (* Identifier v{}, identifier.cpp:17-25 *)
| Open (v : Z)               (* Identifier v{H5Gopen(..), H5Gclose}, 31-38, and the like: an object is opened or created *)
| Failed (v : Z)             (* ... opening the object has failed: the identifier is negative *)
| Borrow (v i : Z)           (* Datatype{i} *)
| CopyConstruct (v w : Z)    (* Identifier v{w} *)
| MoveConstruct (v w : Z)    (* Identifier v{std::move(w)} *)
| Destruct (v : Z)           (* v goes out of scope *)
| CopyAssign (v w : Z)       (* v = w *)
| MoveAssign (v w : Z)       (* v = std::move(w) *)
| Invalidate (i : Z).        (* the HDF5 library closes object i by itself, for example because the file it is part of is closed *)

Record state := State { st_lib : library; st_store : store }.

(** A step of a program.  Using a variable that does not exist, or defining one that does, is not possible in C++. *)
Definition step (o : op) (st : state) : outcome state :=
  let L := st_lib st in
  let s := st_store st in
  match o with
  | Default v => obind (add s v nothing) (fun s => Ok (State L s))
  | Open v =>
      let L := Library (lib_next L + 1) (put (lib_refs L) (lib_next L) 1) (lib_closed L) in
      let x := Identifier (lib_next L - 1) (Some Closes) in
      obind (assert_invariant L x) (fun _ => obind (add s v x) (fun s => Ok (State L s)))
  | Failed v => obind (add s v (Identifier (-1) (Some Closes))) (fun s => Ok (State L s))
  | Borrow v i => obind (add s v (Identifier i (Some Nothing))) (fun s => Ok (State L s))
  | CopyConstruct v w =>
      obind (get s w) (fun y =>
      obind (copy_construct L y) (fun '(L, x) =>
      obind (add s v x) (fun s => Ok (State L s))))
  | MoveConstruct v w =>
      obind (get s w) (fun y =>
      obind (move_construct L y) (fun '(x, y) =>
      obind (add (update s w y) v x) (fun s => Ok (State L s))))
  | Destruct v =>
      obind (get s v) (fun x => obind (destruct_ L x) (fun L => Ok (State L (remove s v))))
  | CopyAssign v w =>
      obind (get s v) (fun x => obind (get s w) (fun y =>
      if v =? w then Ok st
      else obind (copy_assign L x y) (fun '(L, x) => Ok (State L (update s v x)))))
  | MoveAssign v w =>
      obind (get s v) (fun x => obind (get s w) (fun y =>
      if v =? w then obind (move_assign_self L x) (fun '(L, x) => Ok (State L (update s v x)))
      else obind (move_assign L x y) (fun '(L, x, y) => Ok (State L (update (update s v x) w y)))))
  | Invalidate i =>
      Ok (State (if 0 <? lib_refs L i then Library (lib_next L) (put (lib_refs L) i 0) (put (lib_closed L) i (lib_closed L i + 1)) else L) s)
  end.

Fixpoint exec (ops : list op) (st : state) : outcome state :=
  match ops with [] => Ok st | o :: ops => obind (step o st) (exec ops) end.
End Build.

Definition start : state := State (Library 0 (fun _ => 0) (fun _ => 0)) [].
