(** Proofs about the collections of named items: histories *)
From Coq Require Import Ascii String.
From Verif Require Import Common ArrayModel FileNameModel CatalogModel CatalogSpec CatalogProofs CatalogProofs2 CatalogProofs3.
Open Scope Z_scope.

Lemma find_item_app a : forall o b, find_item o (a ++ b) = match find_item o a with Some o1 => find_item o1 b | None => None end.
Proof.
  induction a as [|[j key] a IH]; intros o b; [reflexivity|]. cbn [app find_item].
  destruct (nth_error (o_collections o) j) as [items|]; [|reflexivity]. destruct (map_find key items); [apply IH|reflexivity].
Qed.
Lemma find_open address : forall d f c p o c1 r o1, (depth c <= d)%nat -> open_object d f c p = Ok o ->
  class_at c address = Some (c1, r) -> find_item o address = Some o1 -> open_object (depth c1) f c1 (p ++ r) = Ok o1.
Proof.
  induction address as [|[j key] rest IH]; intros d f c p o c1 r o1 D O K F.
  - injection K as <- <-. injection F as <-. rewrite app_nil_r, <- (open_depth d) by assumption. exact O.
  - cbn [class_at] in K. destruct (nth_error (collections c) j) as [(t' & c')|] eqn:J; [|discriminate].
    destruct (class_at c' rest) as [(c1' & r')|] eqn:K'; [|discriminate]. injection K as -> R.
    pose proof (nth_collections_depth _ _ _ _ J) as DC. destruct d as [|d]; [lia|].
    apply open_object_ok in O. destruct O as (PO & cs & -> & F2). cbn [o_collections find_item] in F.
    destruct (forall2_nth _ _ _ _ _ F2 J) as (items & N & OC). cbn [fst snd] in OC. rewrite N in F.
    destruct (map_find key items) as [o'|] eqn:M; [|discriminate].
    apply open_collection_ok in OC. destruct OC as (l & L1 & L2 & ->).
    assert (p ++ r = (((p ++ t') ++ [key]) ++ r')) as -> by (now rewrite <- R, <- !app_assoc).
    eapply (IH d f c'); [lia| |exact K'|exact F].
    apply map_find_in, build_in in M. rewrite Forall_forall in L2. exact (L2 _ M).
Qed.

(** ** Order of names *)

Definition sorted_keys {T} (m : list (text * T)) : Prop := StronglySorted (fun a b => text_less a b = true) (map fst m).
Lemma text_less_irrefl a : text_less a a = false.
Proof. induction a as [|c a IH]; [reflexivity|]. cbn. now rewrite Ascii.eqb_refl. Qed.
Lemma text_less_trans a : forall b c, text_less a b = true -> text_less b c = true -> text_less a c = true.
Proof.
  induction a as [|x a IH]; intros [|y b] [|z c]; cbn; try discriminate; try reflexivity.
  destruct (Ascii.eqb_spec x y) as [<-|XY].
  - intros A. destruct (Ascii.eqb_spec x z) as [<-|XZ]; [now apply IH|auto].
  - intros A. destruct (Ascii.eqb_spec y z) as [<-|YZ].
    + intros _. destruct (Ascii.eqb_spec x y) as [<-|]; [now elim XY|exact A].
    + intros B. apply N.ltb_lt in A. apply N.ltb_lt in B. destruct (Ascii.eqb_spec x z) as [<-|]; [exfalso; lia|]. apply N.ltb_lt. lia.
Qed.
Lemma text_less_total a : forall b, a <> b -> text_less a b = false -> text_less b a = true.
Proof.
  induction a as [|x a IH]; intros [|y b] N; cbn; try discriminate; try reflexivity; [congruence|].
  destruct (Ascii.eqb_spec x y) as [<-|XY].
  - rewrite Ascii.eqb_refl. intros H. apply IH; [congruence|exact H].
  - intros H. destruct (Ascii.eqb_spec y x) as [->|]; [congruence|]. apply N.ltb_ge in H. apply N.ltb_lt.
    assert (N_of_ascii x <> N_of_ascii y) by (intros E; apply XY; rewrite <- (ascii_N_embedding x), <- (ascii_N_embedding y); now f_equal). lia.
Qed.
Lemma insert_sorted {T} key (v : T) m : sorted_keys m -> sorted_keys (map_insert key v m).
Proof.
  unfold sorted_keys. induction m as [|[k w] m IH]; cbn [map_insert map fst]; intros H.
  - repeat constructor.
  - inversion H as [|? ? S F]; subst. destruct (same_text key k) eqn:E; [exact H|]. apply same_text_false in E.
    destruct (text_less key k) eqn:L; cbn [map fst].
    + constructor; [exact H|]. constructor; [exact L|]. eapply Forall_impl; [|exact F]. intros a. now apply text_less_trans.
    + constructor; [now apply IH|]. apply Forall_forall. intros a A. apply in_map_iff in A. destruct A as (i & <- & I).
      apply map_insert_in in I. destruct I as [->|I].
      * cbn. now apply text_less_total.
      * rewrite Forall_forall in F. apply F. now apply in_map.
Qed.
Lemma build_sorted l : sorted_keys (build l).
Proof. induction l as [|i l IH] using rev_ind; [constructor|]. rewrite build_snoc. now apply insert_sorted. Qed.
Lemma sorted_nodup (l : list text) : StronglySorted (fun a b => text_less a b = true) l -> NoDup l.
Proof.
  induction 1 as [|a l S IH F]; constructor; [|exact IH]. intros I. rewrite Forall_forall in F. apply F in I. now rewrite text_less_irrefl in I.
Qed.
Lemma map_find_names {T} key (m : list (text * T)) : map_find key m <> None <-> In key (map fst m).
Proof.
  rewrite in_map_iff. split.
  - destruct (map_find key m) as [v|] eqn:E; [|congruence]. intros _. exists (key, v). split; [reflexivity|now apply map_find_in].
  - intros ((k & v) & E & I) H. cbn in E. subst k. unfold map_find in H. destruct (find _ m) eqn:F; [discriminate|].
    apply find_none with (x := (key, v)) in F; [|exact I]. cbn in F. now rewrite same_text_refl in F.
Qed.

Lemma names_spec f m address i c1 r : open_dataset f = Ok m -> class_at Dataset address = Some (c1, r) ->
  StronglySorted (fun a b => text_less a b = true) (names m address i) /\ NoDup (names m address i) /\
  forall n, In n (names m address i) <-> found m (address ++ [(i, n)]).
Proof.
  intros O K. unfold names, found.
  assert (forall n, find_item m (address ++ [(i, n)]) = match find_item m address with Some o1 => find_item o1 [(i, n)] | None => None end) as A by (intros; apply find_item_app).
  destruct (find_item m address) as [o1|] eqn:F.
  - pose proof (find_open address (depth Dataset) f Dataset [] m c1 r o1 (le_n _) O K F) as O1.
    destruct (nth_error (o_collections o1) i) as [items|] eqn:N.
    + assert (sorted_keys items) as S.
      { destruct (depth c1) as [|d] eqn:D.
        - cbn [open_object] in O1. destruct (forallb _ _); [|discriminate]. injection O1 as <-. now destruct i.
        - apply open_object_ok in O1. destruct O1 as (_ & cs & -> & F2). cbn [o_collections] in N.
          clear - F2 N. revert i N. induction F2 as [|a b l cs X F2 IH]; intros [|i] N; try discriminate; cbn [nth_error] in N.
          + injection N as ->. apply open_collection_ok in X. destruct X as (l' & _ & _ & ->). apply build_sorted.
          + now apply (IH i). }
      split; [exact S|]. split; [now apply sorted_nodup|]. intros n. rewrite A. cbn [find_item]. rewrite N, <- map_find_names.
      destruct (map_find n items); intuition congruence.
    + split; [constructor|]. split; [constructor|]. intros n. rewrite A. cbn [find_item]. rewrite N. cbn. intuition.
  - split; [constructor|]. split; [constructor|]. intros n. rewrite A. cbn. intuition.
Qed.

(** ** What the operations add *)

Definition parent_address (o : op) : list (nat * text) := removelast (address_of o).
Definition new_index (o : op) : nat := fst (last (address_of o) (0%nat, [])).
Definition new_name (o : op) : text := snd (last (address_of o) (0%nat, [])).
Lemma address_split o : o <> Reopen -> address_of o = parent_address o ++ [(new_index o, new_name o)].
Proof. intros N. destruct o as [u|[u|] p|[u|] p c s|[u|] p c s k n|]; [reflexivity..|congruence]. Qed.
Lemma plain_new o : o <> Reopen -> plain_op o -> plain (new_name o).
Proof. intros N. destruct o as [u|[u|] p|[u|] p c s|[u|] p c s k n|]; cbn; try tauto. Qed.

Lemma address_inj a b : a <> Reopen -> b <> Reopen -> address_of a = address_of b -> a = b.
Proof.
  intros A B. destruct a as [u|[u|] p|[u|] p c s|[u|] p c s k n|], b as [u'|[u'|] p'|[u'|] p' c' s'|[u'|] p' c' s' k' n'|];
    cbn; try congruence; try (intros [=]; subst; reflexivity); unfold set_at.
  1, 2: destruct c, c'; intros [=]; subst; reflexivity.
  all: destruct c, c', k, k'; intros [=]; subst; reflexivity.
Qed.

Definition universes_tag : text := text_of "lue_universes".
(** The locations of datasets: phenomena's IDs, the object trackers, the values *)
Definition data_length (l : location) : Prop :=
  if same_text (hd [] l) universes_tag then In (length l) [5; 8; 10]%nat else In (length l) [3; 6; 8]%nat.
Definition tidy (f : file) : Prop := forall l, In (l, DatasetEntry) f -> data_length l.

(** Where an operation adds an item, and of which class *)
Lemma class_of_op o : o <> Reopen -> exists c1 r t c2,
  class_at Dataset (parent_address o) = Some (c1, r) /\ nth_error (collections c1) (new_index o) = Some (t, c2) /\
  ~ data_length (((([] ++ r) ++ t)) ++ [new_name o]) /\
  tidy (created (((([] ++ r) ++ t)) ++ [new_name o]) c2) /\
  (c1 = PropertySet <-> exists u p c s k n, o = AddProperty u p c s k n).
Proof.
  intros N. destruct o as [u|[u|] p|[u|] p [|] s|[u|] p [|] s [] n|]; [..|congruence]; do 4 eexists;
    (split; [reflexivity|]); (split; [reflexivity|]); (split; [vm_compute; intuition lia|]); (split; [|split; [try discriminate; intros _; eauto 7|intros (? & ? & ? & ? & ? & ? & [=]); reflexivity]]).
  all: intros l I; cbn in I; intuition; repeat match goal with H : (_, _) = (_, _) |- _ => injection H; clear H; intros; subst; try discriminate end; vm_compute; intuition.
Qed.
