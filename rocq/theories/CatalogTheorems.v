(** C72: names of universes, phenomena, property-sets and properties *)
From Coq Require Import Ascii String.
From Verif Require Import Common FileNameModel CatalogModel CatalogSpec CatalogProofs5.

(** Starting with a new dataset, add items and open the dataset again, as often as you like.  Each time an item is added if, and only if, what it is part of is
    there and its name isn't taken; otherwise an exception is thrown and nothing changes.  The names that the opened dataset reports are those of the items that
    were added, each once, and opening the file again gives the same dataset. *)
Theorem C72_names_partial : forall ops results f m f0 m0,
  Forall plain_op ops -> create_dataset = Ok (f0, m0) -> run ops (f0, m0) = (results, (f, m)) ->
  exists present, history ops [] results present /\ open_dataset f = Ok m /\
    (NoDup (universe_names m) /\ forall u, In u (universe_names m) <-> In (AddUniverse u) present) /\
    (forall u, NoDup (phenomenon_names m u) /\ forall p, In p (phenomenon_names m u) <-> In (AddPhenomenon u p) present) /\
    (forall u p c, NoDup (property_set_names m u p c) /\ forall s, In s (property_set_names m u p c) <-> In (AddPropertySet u p c s) present) /\
    (forall u p c s k, NoDup (property_names m u p c s k) /\ forall n, In n (property_names m u p c s k) <-> In (AddProperty u p c s k n) present) /\
    (forall u p c s k k' n, In n (property_names m u p c s k) -> In n (property_names m u p c s k') -> k = k').
Proof.
  intros ops results f m f0 m0 P C R. rewrite created_dataset in C. injection C as <- <-. now apply (c72_names ops results).
Qed.
Print Assumptions C72_names_partial.

Local Notation "$ s" := (text_of s) (at level 0, s at level 0).
Open Scope string_scope.
Definition example_ops : list op :=
  [AddPhenomenon None $"p"; AddPropertySet None $"p" false $"s"; AddProperty None $"p" false $"s" SameShape $"n";
   AddProperty None $"p" false $"s" DifferentShape $"n"; Reopen; AddPhenomenon None $"p"; AddUniverse $"u"; AddPhenomenon (Some $"u") $"p";
   AddPropertySet (Some $"v") $"p" true $"s"; AddProperty None $"p" false $"s" DifferentShape $"a"].
Example C72_names_applies : Forall plain_op example_ops /\
  exists s, create_dataset = Ok s /\ fst (run example_ops s) = [Ok tt; Ok tt; Ok tt; Throw; Ok tt; Throw; Ok tt; Ok tt; Throw; Ok tt].
Proof.
  split.
  - repeat constructor; cbn; try discriminate; intuition discriminate.
  - eexists. split; [reflexivity|]. vm_compute. reflexivity.
Qed.

(** A name with a slash in it is not refused.  An item can be added whose name is not there anymore once the dataset is opened again; another such name results in
    a dataset that cannot be opened anymore. *)
Theorem C72_slash_refuted :
  (exists s ops f m m', create_dataset = Ok s /\ run ops s = (map (fun _ => Ok tt) ops, (f, m)) /\
    In $"s/t" (property_set_names m None $"p" false) /\ open_dataset f = Ok m' /\ ~ In $"s/t" (property_set_names m' None $"p" false)) /\
  (exists s ops f m, create_dataset = Ok s /\ run ops s = (map (fun _ => Ok tt) ops, (f, m)) /\ open_dataset f = Throw).
Proof.
  split.
  - do 1 eexists. exists [AddPhenomenon None $"p"; AddPropertySet None $"p" false $"s"; AddPropertySet None $"p" false $"s/t"].
    do 3 eexists. split; [reflexivity|]. split; [vm_compute; reflexivity|]. split; [vm_compute; tauto|]. split; [vm_compute; reflexivity|].
    vm_compute. intuition discriminate.
  - do 1 eexists. exists [AddPhenomenon None $"p"; AddPhenomenon None $"/lue_phenomena/p/lue_property_sets/x"]. do 2 eexists.
    split; [reflexivity|]. split; vm_compute; reflexivity.
Qed.
Print Assumptions C72_slash_refuted.

(** A dataset that was opened before another one added a property can add a property with the same name: then there are two of them *)
Theorem C72_two_datasets_refuted : exists s ops f m f1 m1 f2 m2 m',
  create_dataset = Ok s /\ run ops s = (map (fun _ => Ok tt) ops, (f, m)) /\ open_dataset f = Ok m /\
  step (AddProperty None $"p" false $"s" SameShape $"n") (f, m) = Ok (f1, m1) /\
  step (AddProperty None $"p" false $"s" DifferentShape $"n") (f1, m) = Ok (f2, m2) /\
  open_dataset f2 = Ok m' /\ property_names m' None $"p" false $"s" SameShape = [$"n"] /\ property_names m' None $"p" false $"s" DifferentShape = [$"n"].
Proof.
  do 1 eexists. exists [AddPhenomenon None $"p"; AddPropertySet None $"p" false $"s"]. do 7 eexists.
  split; [reflexivity|]. repeat (split; [vm_compute; reflexivity|]). vm_compute. reflexivity.
Qed.
Print Assumptions C72_two_datasets_refuted.

(** A name that is empty, ".", or that consists of slashes only, is refused, whatever is in the dataset; so is a name that starts with NUL. *)
Definition nameless (s : text) : Prop := s = [] \/ s = ["."%char] \/ Forall (fun c => c = "/"%char) s \/ hd_error s = Some Ascii.zero.
Definition name_of (o : op) : text := match o with AddUniverse u => u | AddPhenomenon _ p => p | AddPropertySet _ _ _ s => s | AddProperty _ _ _ _ _ n => n | Reopen => [] end.
Lemma nameless_components s : nameless s -> components s = [].
Proof.
  intros [-> |[-> |[F|Hz]]]; [reflexivity|reflexivity| |].
  - unfold components. assert (E : cstr s = s) by (induction F as [|c s -> F IH]; [reflexivity|]; cbn; now rewrite IH). rewrite E. clear E.
    induction F as [|c s -> F IH]; [reflexivity|]. exact IH.
  - destruct s as [|c s]; [discriminate|]. cbn in Hz. injection Hz as ->. reflexivity.
Qed.
Lemma nameless_add a : forall f c o i s f' o', nameless s -> add_item f c o a i s <> Ok (f', o').
Proof.
  induction a as [|[j key] a IH]; intros f c o i s f' o' Hs; cbn [add_item].
  - destruct (verify_does_not_exist c o s); [|discriminate]. destruct (nth_error (collections c) i) as [[t c']|]; [|discriminate]. destruct (nth_error (o_collections o) i); [|discriminate].
    unfold create_object, create_group. rewrite (nameless_components s Hs). discriminate.
  - destruct (nth_error (collections c) j) as [[t c']|]; [|discriminate]. destruct (nth_error (o_collections o) j) as [items|]; [|discriminate]. destruct (map_find key items) as [o1|]; [|discriminate].
    destruct (add_item f c' o1 a i s) as [[f1 o2]| |] eqn:E; try discriminate. exfalso. exact (IH _ _ _ _ _ _ _ Hs E).
Qed.
Theorem C72_nameless_refused : forall o s s', o <> Reopen -> nameless (name_of o) -> step o s <> Ok s'.
Proof.
  intros o [f m] [f' m'] R N. assert (E : step o (f, m) = add_at f m (address_of o)) by (destruct o; [reflexivity..|congruence]). rewrite E. unfold add_at.
  replace (snd (last (address_of o) (0%nat, []))) with (name_of o); [now apply nameless_add|].
  destruct o as [u|u p|u p c s|u p c s k n|]; try reflexivity; destruct u; reflexivity.
Qed.
Print Assumptions C72_nameless_refused.
Example C72_nameless_case : nameless $"" /\ nameless $"." /\ nameless $"//" /\ nameless (Ascii.zero :: $"p") /\
  exists s, create_dataset = Ok s /\ fst (run [AddPhenomenon None $""; AddPhenomenon None $"."; AddPhenomenon None $"//"; AddPhenomenon None (Ascii.zero :: $"p"); AddPhenomenon None $"p"] s) = [Throw; Throw; Throw; Throw; Ok tt].
Proof.
  split; [now left|]. split; [right; now left|]. split; [right; right; left; repeat constructor|]. split; [right; right; right; reflexivity|]. eexists. split; [reflexivity|]. vm_compute. reflexivity.
Qed.

(** The part of a name after NUL is lost when the dataset is opened again; until then, there are two names for one group. *)
Theorem C72_nul_refuted : exists s f m m',
  create_dataset = Ok s /\ run [AddPhenomenon None ($"p" ++ Ascii.zero :: $"q")%list; AddPhenomenon None $"p"] s = ([Ok tt; Throw], (f, m)) /\
  phenomenon_names m None = [($"p" ++ Ascii.zero :: $"q")%list] /\ open_dataset f = Ok m' /\ phenomenon_names m' None = [$"p"].
Proof. do 4 eexists. split; [reflexivity|]. repeat (split; [vm_compute; reflexivity|]). vm_compute. reflexivity. Qed.
Print Assumptions C72_nul_refuted.
