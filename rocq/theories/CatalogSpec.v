(** What names of items in a dataset mean, without files and groups *)
From Coq Require Import Ascii String.
From Verif Require Import Common FileNameModel CatalogModel.

(** A name that HDF5 takes as one name *)
Definition plain (s : text) : Prop := s <> [] /\ s <> ["."%char] /\ ~ In "/"%char s /\ ~ In Ascii.zero s.
Definition plain_option (s : option text) : Prop := match s with Some s => plain s | None => True end.
Definition plain_op (o : op) : Prop :=
  match o with
  | AddUniverse u => plain u
  | AddPhenomenon u p => plain_option u /\ plain p
  | AddPropertySet u p _ s => plain_option u /\ plain p /\ plain s
  | AddProperty u p _ s _ n => plain_option u /\ plain p /\ plain s /\ plain n
  | Reopen => True
  end.

(** What an item is part of *)
Definition part_of (o : op) : list op :=
  match o with
  | AddUniverse _ | AddPhenomenon None _ | Reopen => []
  | AddPhenomenon (Some u) _ => [AddUniverse u]
  | AddPropertySet u p _ _ => [AddPhenomenon u p]
  | AddProperty u p c s _ _ => [AddPropertySet u p c s]
  end.
(** Items that cannot both be there: a property-set has one property with some name, whatever the kind of the property *)
Definition clashes (a b : op) : Prop :=
  match a, b with
  | AddProperty u p c s _ n, AddProperty u' p' c' s' _ n' => (u, p, c, s, n) = (u', p', c', s', n')
  | _, _ => a = b
  end.
Definition can_be_added (present : list op) (o : op) : Prop :=
  (forall a, In a (part_of o) -> In a present) /\ (forall a, In a present -> ~ clashes o a).

(** The items that are present after a number of operations, and how each operation ended *)
Inductive history : list op -> list op -> list (outcome unit) -> list op -> Prop :=
| H_end : forall present, history [] present [] present
| H_reopen : forall ops present results after,
    history ops present results after -> history (Reopen :: ops) present (Ok tt :: results) after
| H_added : forall o ops present results after, o <> Reopen -> can_be_added present o ->
    history ops (o :: present) results after -> history (o :: ops) present (Ok tt :: results) after
| H_refused : forall o ops present results after, o <> Reopen -> ~ can_be_added present o ->
    history ops present results after -> history (o :: ops) present (Throw :: results) after.
