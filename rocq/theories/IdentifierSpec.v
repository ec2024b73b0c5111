(** Specification vocabulary for identifiers of HDF5 objects. *)
From Verif Require Import Common IdentifierModel.

(** The number of instances that identify object [i] *)
Definition holders (s : store) (i : Z) : Z := Z.of_nat (length (filter (fun p => id_ (snd p) =? i) s)).

(** Programs that C++ accepts: variables are defined once at a time, and used while they are defined. *)
Definition allowed (live : list Z) (o : op) : Prop :=
  match o with
  | Default v | Open v | Failed v | Borrow v _ => ~ In v live
  | CopyConstruct v w | MoveConstruct v w => ~ In v live /\ In w live
  | Destruct v => In v live
  | CopyAssign v w | MoveAssign v w => In v live /\ In w live
  | Invalidate _ => True
  end.
Definition live_after (live : list Z) (o : op) : list Z :=
  match o with
  | Default v | Open v | Failed v | Borrow v _ | CopyConstruct v _ | MoveConstruct v _ => v :: live
  | Destruct v => filter (fun w => negb (w =? v)) live
  | _ => live
  end.
Fixpoint accepted (live : list Z) (ops : list op) : Prop :=
  match ops with [] => True | o :: ops => allowed live o /\ accepted (live_after live o) ops end.

(** Instances are only given identifiers together with a function that closes these. *)
Definition owning (ops : list op) : Prop := forall v i, ~ In (Borrow v i) ops.
(** The program does not change instance [v]. *)
Definition leaves_alone (v : Z) (o : op) : Prop :=
  match o with
  | Destruct w | CopyAssign w _ => w <> v
  | MoveAssign w w' => w <> v /\ w' <> v
  | MoveConstruct _ w => w <> v
  | _ => True
  end.
