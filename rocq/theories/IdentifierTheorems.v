(** C81: identifiers of HDF5 objects.  Vocabulary: IdentifierSpec. *)
From Verif Require Import Common CommonProofs IdentifierModel IdentifierSpec IdentifierProofs IdentifierProofs2.

(** C81: no operation on instances fails, in debug and release builds: no exception, no assertion that does not hold. *)
Theorem C81_no_failure : forall debug ops, accepted [] ops -> owning ops -> exists st, exec debug ops start = Ok st.
Proof. intros debug ops A O. destruct (exec_ok debug ops [] [] start start_inv A O) as [st [_ [_ [E _]]]]. eauto. Qed.
Print Assumptions C81_no_failure.

(** C81: the number of references to each object that has been opened is the number of instances that identify it, and
    the object has been closed, once, if there are none left - unless the HDF5 library has closed the object by itself. *)
Theorem C81_reference_counts : forall debug ops st i, accepted [] ops -> owning ops -> exec debug ops start = Ok st ->
  0 <= i < lib_next (st_lib st) -> ~ In (Invalidate i) ops ->
  lib_refs (st_lib st) i = holders (st_store st) i /\
  lib_closed (st_lib st) i = (if holders (st_store st) i =? 0 then 1 else 0).
Proof. intros debug ops st i A O E. now apply (counts debug ops A O st E). Qed.
Print Assumptions C81_reference_counts.

(** C81: reference_count returns the number of instances of the object. *)
Theorem C81_reference_count : forall debug ops st v x, accepted [] ops -> owning ops -> exec debug ops start = Ok st ->
  lookup (st_store st) v = Some x -> is_valid (st_lib st) x = true ->
  reference_count (st_lib st) x = Ok (holders (st_store st) (id_ x)).
Proof. intros debug ops st v x A O E. now apply (valid_count debug ops A O st E). Qed.
Print Assumptions C81_reference_count.

(** C81: an object is open as long as an instance identifies it. *)
Theorem C81_open_while_held : forall debug ops st v x, accepted [] ops -> owning ops -> exec debug ops start = Ok st ->
  lookup (st_store st) v = Some x -> 0 <= id_ x -> ~ In (Invalidate (id_ x)) ops ->
  is_valid (st_lib st) x = true /\ lib_closed (st_lib st) (id_ x) = 0.
Proof. intros debug ops st v x A O E. now apply (open_while_held debug ops A O st E). Qed.
Print Assumptions C81_open_while_held.

(** C81: no object is closed more than once, also if the HDF5 library closes objects by itself. *)
Theorem C81_closed_at_most_once : forall debug ops st i, accepted [] ops -> owning ops -> exec debug ops start = Ok st ->
  0 <= i -> 0 <= lib_closed (st_lib st) i <= 1.
Proof. intros debug ops st i A O E. now apply (closed_at_most_once debug ops A O st E). Qed.
Print Assumptions C81_closed_at_most_once.

(** C81: when all instances are gone, all objects have been closed. *)
Theorem C81_all_closed : forall debug ops st i, accepted [] ops -> owning ops -> exec debug ops start = Ok st ->
  st_store st = [] -> 0 <= i < lib_next (st_lib st) -> ~ In (Invalidate i) ops -> lib_closed (st_lib st) i = 1.
Proof. intros debug ops st i A O E H Hi N. destruct (counts debug ops A O st E i Hi N) as [_ C]. rewrite H in C. exact C. Qed.
Print Assumptions C81_all_closed.

(** C81: what each operation does to the instances that take part in it *)
Theorem C81_effects : forall debug ops st o st', accepted [] ops -> owning ops -> exec debug ops start = Ok st -> step debug o st = Ok st' ->
  match o with
  | Default v | Failed v => exists x, lookup (st_store st') v = Some x /\ is_valid (st_lib st') x = false
  | Open v => exists x, lookup (st_store st') v = Some x /\ is_valid (st_lib st') x = true /\ id_ x = lib_next (st_lib st) /\ holders (st_store st) (id_ x) = 0
  | CopyConstruct v w | CopyAssign v w => exists x y, lookup (st_store st) w = Some y /\ lookup (st_store st') v = Some x /\ id_ x = id_ y /\ lookup (st_store st') w = Some y
  | MoveConstruct v w => exists x y z, lookup (st_store st) w = Some y /\ lookup (st_store st') v = Some x /\ id_ x = id_ y /\ lookup (st_store st') w = Some z /\ is_valid (st_lib st') z = false
  | MoveAssign v w => v <> w -> exists x y z, lookup (st_store st) w = Some y /\ lookup (st_store st') v = Some x /\ id_ x = id_ y /\ lookup (st_store st') w = Some z /\ is_valid (st_lib st') z = false
  | Destruct v => lookup (st_store st') v = None
  | Invalidate _ => st_store st' = st_store st
  | Borrow _ _ => True
  end.
Proof. exact effects. Qed.
Print Assumptions C81_effects.

(** C81: ... and nothing to other instances. *)
Theorem C81_others : forall debug ops v x st st', exec debug ops st = Ok st' -> (forall o, In o ops -> leaves_alone v o) ->
  lookup (st_store st) v = Some x -> lookup (st_store st') v = Some x.
Proof. exact (fun debug ops v x st st' => exec_alone debug ops v x st st'). Qed.
Print Assumptions C81_others.

(** Three objects are opened; copies and moves; the second object is closed when instance 4, the only one, is assigned to. *)
Definition ex_ops : list op :=
  [Open 1; Open 2; CopyConstruct 3 1; MoveConstruct 4 2; CopyAssign 4 1; MoveAssign 3 4; Default 5; MoveAssign 5 3; Open 6; CopyAssign 5 6; Destruct 5].
Example C81_ex : accepted [] ex_ops /\ owning ex_ops /\
  exists st, exec true ex_ops start = Ok st /\ map (fun p => (fst p, id_ (snd p))) (st_store st) = [(6, 2); (4, -1); (3, -1); (2, -1); (1, 0)] /\
  map (lib_refs (st_lib st)) [0; 1; 2] = [1; 0; 1] /\ map (lib_closed (st_lib st)) [0; 1; 2] = [0; 1; 0].
Proof.
  split; [cbn; intuition discriminate|]. split; [intros v i H; cbn in H; intuition discriminate|]. eexists. split; [vm_compute; reflexivity|]. vm_compute. auto.
Qed.
Example C81_ex_end : accepted [] (ex_ops ++ [Destruct 1; Destruct 2; Destruct 6; Destruct 3; Destruct 4]) /\
  exists st, exec true (ex_ops ++ [Destruct 1; Destruct 2; Destruct 6; Destruct 3; Destruct 4]) start = Ok st /\ st_store st = [] /\
  map (lib_closed (st_lib st)) [0; 1; 2] = [1; 1; 1].
Proof. split; [cbn; intuition discriminate|]. eexists. split; [vm_compute; reflexivity|]. vm_compute. auto. Qed.

(** C81, false: moving an instance to itself leaves it as it is.  The instance does not identify the object anymore; if it
    was the only one, the object is closed. *)
Theorem C81_self_move_refuted : exists ops st, accepted [] ops /\ owning ops /\ exec true ops start = Ok st /\ exec false ops start = Ok st /\
  ops = [Open 1; MoveAssign 1 1] /\ lookup (st_store st) 1 = Some nothing /\ lib_closed (st_lib st) 0 = 1.
Proof.
  exists [Open 1; MoveAssign 1 1]. eexists. split; [cbn; intuition|]. split; [intros v i H; cbn in H; intuition discriminate|].
  split; [vm_compute; reflexivity|]. split; [vm_compute; reflexivity|]. auto.
Qed.
Print Assumptions C81_self_move_refuted.

(** C81, false: instances that do not close their object (Datatype{id}) leave the number of references as it is.  A data type
    is opened (1), wrapped (2), and the wrapper is copied (3).  In debug builds an assertion does not hold if the copy
    goes out of scope, in release builds the data type is not closed, although no instance is left. *)
Theorem C81_borrowed_refuted : exists ops,
  ops = [Open 1; Borrow 2 0; CopyConstruct 3 2; Destruct 3; Destruct 2; Destruct 1] /\ accepted [] ops /\
  exec true ops start = UB /\
  exists st, exec false ops start = Ok st /\ st_store st = [] /\ lib_refs (st_lib st) 0 = 1 /\ lib_closed (st_lib st) 0 = 0.
Proof.
  eexists. split; [reflexivity|]. split; [cbn; intuition discriminate|]. split; [vm_compute; reflexivity|]. eexists. split; [vm_compute; reflexivity|]. vm_compute. auto.
Qed.
Print Assumptions C81_borrowed_refuted.
