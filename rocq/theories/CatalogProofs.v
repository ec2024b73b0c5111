(** Proofs about the collections of named items: files, and items in them *)
From Coq Require Import Ascii String.
From Verif Require Import Common ArrayModel FileNameModel FileNameProofs CatalogModel CatalogSpec.
Open Scope Z_scope.

(** ** Equality *)

Lemma same_text_true a b : same_text a b = true <-> a = b.
Proof. unfold same_text. destruct (list_eq_dec ascii_dec a b); intuition congruence. Qed.
Lemma same_text_refl a : same_text a a = true.
Proof. now apply same_text_true. Qed.
Lemma same_text_false a b : same_text a b = false <-> a <> b.
Proof. unfold same_text. destruct (list_eq_dec ascii_dec a b); intuition congruence. Qed.
Lemma same_location_true a b : same_location a b = true <-> a = b.
Proof. unfold same_location. destruct (list_eq_dec (list_eq_dec ascii_dec) a b); intuition congruence. Qed.
Lemma same_location_false a b : same_location a b = false <-> a <> b.
Proof. unfold same_location. destruct (list_eq_dec (list_eq_dec ascii_dec) a b); intuition congruence. Qed.
Lemma same_entry_true a b : same_entry a b = true <-> a = b.
Proof. destruct a, b; cbn; intuition congruence. Qed.

(** ** Names *)

Lemma plain_cstr s : ~ In Ascii.zero s -> cstr s = s.
Proof.
  induction s as [|c s IH]; intros H; cbn [cstr]; [reflexivity|].
  destruct (Ascii.eqb_spec c Ascii.zero) as [->|]; [elim H; now left|].
  f_equal. apply IH. intros K. apply H. now right.
Qed.
Lemma plain_split s : ~ In "/"%char s -> split s = [s].
Proof.
  induction s as [|c s IH]; intros H; cbn [split]; [reflexivity|].
  destruct (Ascii.eqb_spec c slash) as [->|]; [elim H; now left|].
  rewrite IH; [reflexivity|]. intros K. apply H. now right.
Qed.
Lemma plain_part s : s <> [] -> s <> ["."%char] -> is_part s = true.
Proof.
  intros A B. destruct s as [|c [|d s]]; [congruence| |reflexivity].
  cbn. destruct (Ascii.eqb_spec c dot) as [->|]; [now elim B|reflexivity].
Qed.
Lemma plain_components s : plain s -> components s = [s].
Proof.
  intros (A & B & C & D). unfold components. rewrite plain_cstr, plain_split by assumption.
  cbn [filter]. now rewrite plain_part.
Qed.
Lemma plain_resolve base s : plain s -> resolve base s = base ++ [s].
Proof.
  intros P. unfold resolve. rewrite plain_components by assumption.
  destruct P as (A & B & C & D). unfold is_absolute. rewrite plain_cstr by assumption.
  destruct s as [|c s]; [congruence|].
  destruct (Ascii.eqb_spec c slash) as [->|]; [elim C; now left|reflexivity].
Qed.

(** ** Locations *)

Definition under (q l : location) : Prop := exists r, l = q ++ r.
Lemma under_refl q : under q q.
Proof. exists []. now rewrite app_nil_r. Qed.
Lemma under_app q l r : under q l -> under q (l ++ r).
Proof. intros (s & ->). exists (s ++ r). now rewrite app_assoc. Qed.
Lemma under_trans p q l : under p q -> under q l -> under p l.
Proof. intros (r & ->) (s & ->). exists (r ++ s). now rewrite app_assoc. Qed.
(** Two locations above the same one *)
Lemma under_both p q l : under p l -> under q l -> under p q \/ under q p.
Proof.
  intros (r & ->) (s & E). revert q s E.
  induction p as [|a p IH]; intros [|b q] s E; cbn [app] in E.
  - left. apply under_refl.
  - left. now exists (b :: q).
  - right. now exists (a :: p).
  - injection E as -> E. destruct (IH _ _ E) as [(t & ->)|(t & ->)]; [left|right]; now exists t.
Qed.
Lemma removelast_snoc (p : location) (x : text) : removelast (p ++ [x]) = p.
Proof. apply removelast_last. Qed.
Lemma last_snoc (p : location) (x : text) : last (p ++ [x]) [] = x.
Proof. apply last_last. Qed.
Lemma snoc_of (q : location) : q <> [] -> q = removelast q ++ [last q []].
Proof. intros. now apply app_removelast_last. Qed.

(** ** Files *)

Lemma entry_at_nil f : entry_at f [] = Some GroupEntry.
Proof. reflexivity. Qed.
Lemma entry_at_app f g p :
  entry_at (f ++ g) p = match entry_at f p with Some e => Some e | None => entry_at g p end.
Proof.
  destruct p as [|a p]; [reflexivity|]. unfold entry_at.
  induction f as [|x f IH]; [reflexivity|]. cbn [app find]. destruct (same_location (fst x) (a :: p)); [reflexivity|apply IH].
Qed.
Lemma entry_at_none f p : p <> [] -> (entry_at f p = None <-> forall e, ~ In (p, e) f).
Proof.
  intros N. destruct p as [|a p]; [congruence|]. unfold entry_at. split.
  - intros H e I. destruct (find _ f) as [x|] eqn:F; [discriminate|].
    apply find_none with (x := ((a :: p), e)) in F; [|assumption]. cbn in F. now apply same_location_false in F.
  - intros H. destruct (find _ f) as [[l e]|] eqn:F; [|reflexivity].
    apply find_some in F. destruct F as (I & E). cbn in E. apply same_location_true in E. subst l. now elim (H e).
Qed.
Lemma entry_at_in f p e : p <> [] -> entry_at f p = Some e -> In (p, e) f.
Proof.
  intros N. destruct p as [|a p]; [congruence|]. unfold entry_at.
  destruct (find _ f) as [[l e']|] eqn:F; [|discriminate]. intros [= <-].
  apply find_some in F. destruct F as (I & E). cbn in E. apply same_location_true in E. now subst l.
Qed.
Lemma has_entry_app f g p e : has_entry f p e = true -> has_entry (f ++ g) p e = true.
Proof. unfold has_entry. rewrite entry_at_app. now destruct (entry_at f p). Qed.

(** Everything is in a group *)
Definition closed (f : file) : Prop := forall l e, In (l, e) f -> l <> [] /\ has_entry f (removelast l) GroupEntry = true.

Lemma has_entry_in f p e : p <> [] -> has_entry f p e = true -> In (p, e) f.
Proof.
  intros N. unfold has_entry. destruct (entry_at f p) as [x|] eqn:E; [|discriminate].
  intros H. apply same_entry_true in H. subst x. now apply entry_at_in.
Qed.
Lemma nothing_under f q : closed f -> q <> [] -> entry_at f q = None -> forall l e, In (l, e) f -> ~ under q l.
Proof.
  intros C N Q l e I (r & ->). revert e I.
  induction r as [|a r IH] using rev_ind; intros e I.
  - rewrite app_nil_r in I. now elim (proj1 (entry_at_none f q N) Q e).
  - destruct (C _ _ I) as (_ & G). rewrite app_assoc, removelast_snoc in G.
    apply has_entry_in in G.
    + now apply (IH GroupEntry).
    + destruct q; [congruence|discriminate].
Qed.

Lemma children_app f g p : children (f ++ g) p = children f p ++ children g p.
Proof. unfold children. now rewrite map_app, concat_app. Qed.
Lemma children_in f p n : In n (children f p) <-> In (p ++ [n], GroupEntry) f.
Proof.
  unfold children. rewrite in_concat. split.
  - intros (l & L & I). apply in_map_iff in L. destruct L as ([q e] & <- & J). cbn [fst snd] in I.
    destruct q as [|a q]; [contradiction|]. destruct e; [|contradiction].
    destruct (same_location (removelast (a :: q)) p) eqn:E; [|contradiction].
    apply same_location_true in E. destruct I as [<-|[]]. rewrite <- E.
    rewrite <- snoc_of by discriminate. assumption.
  - intros I. exists [n]. split; [|now left]. apply in_map_iff. exists (p ++ [n], GroupEntry). split; [|assumption].
    cbn [fst snd]. destruct (p ++ [n]) as [|a q] eqn:E; [now destruct p|].
    rewrite <- E, removelast_snoc, last_snoc.
    now replace (same_location p p) with true by (symmetry; now apply same_location_true).
Qed.
(** No entry here *)
Lemma children_nil g p : (forall l e, In (l, e) g -> l <> [] -> removelast l <> p) -> children g p = [].
Proof.
  intros H. destruct (children g p) as [|n ns] eqn:E; [reflexivity|].
  assert (In n (children g p)) as I by (rewrite E; now left).
  apply children_in in I. elim (H _ _ I); [now destruct p|apply removelast_snoc].
Qed.

Lemma forallb_same {A} (p q : A -> bool) l : (forall x, p x = q x) -> forallb p l = forallb q l.
Proof. intros H. induction l as [|a l IH]; cbn; [reflexivity|]. now rewrite H, IH. Qed.

(** ** What opening looks at *)

Lemma frame d : forall f g q c p,
  (forall l e, In (l, e) g -> under q l) -> ~ under p q -> ~ under q p -> p <> [] ->
  open_object d (f ++ g) c p = open_object d f c p.
Proof.
  induction d as [|d IH]; intros f g q c p G A B N; cbn [open_object].
  all: assert (forall r e, has_entry (f ++ g) (p ++ r) e = has_entry f (p ++ r) e) as HE.
  1,3: intros r e; unfold has_entry; rewrite entry_at_app;
    destruct (entry_at f (p ++ r)) as [x|] eqn:E; [reflexivity|];
    replace (entry_at g (p ++ r)) with (@None entry); [reflexivity|];
    symmetry; apply entry_at_none; [destruct p; [congruence|discriminate]|];
    intros e' I; apply G in I; destruct (under_both p q (p ++ r)) as [K|K]; auto; apply under_app, under_refl.
  all: rewrite (forallb_same (fun q0 => has_entry (f ++ g) (p ++ fst q0) (snd q0)) (fun q0 => has_entry f (p ++ fst q0) (snd q0))) by (intros x; apply HE).
  - reflexivity.
  - match goal with |- context [forallb ?x (parts c)] => destruct (forallb x (parts c)) end; [|reflexivity].
    f_equal. f_equal. apply map_ext. intros [t c']. cbn [fst snd]. unfold open_collection.
    replace (children (f ++ g) (p ++ t)) with (children f (p ++ t)).
    + f_equal. f_equal. apply map_ext. intros n. rewrite (IH f g q c'); [reflexivity|assumption| | |].
      * intros K. apply A. eapply under_trans; [|eassumption]. rewrite <- app_assoc. apply under_app, under_refl.
      * intros K. destruct (under_both p q ((p ++ t) ++ [n])) as [L|L]; auto. rewrite <- app_assoc. apply under_app, under_refl.
      * now destruct p.
    + rewrite children_app, (children_nil g), app_nil_r; [reflexivity|].
      intros l e I NL E. apply G in I. rewrite (snoc_of l NL), E in I.
      destruct (under_both p q ((p ++ t) ++ [last l []])) as [L|L]; auto. rewrite <- app_assoc. apply under_app, under_refl.
Qed.

(** ** Opened items *)

Ltac on_parts c := match goal with |- context [forallb ?x (parts c)] => let E := fresh "PE" in destruct (forallb x (parts c)) eqn:E end.


Lemma sequence_ok {A} (l : list (outcome A)) r : sequence l = Ok r <-> Forall2 (fun x a => x = Ok a) l r.
Proof.
  revert r. induction l as [|x l IH]; intros r; cbn [sequence].
  - split; [intros [= <-]; constructor|intros H; now inversion H].
  - split.
    + destruct x as [a| |]; cbn [obind]; try discriminate.
      destruct (sequence l) as [r'| |]; cbn [obind]; try discriminate. intros [= <-]. constructor; [reflexivity|now apply IH].
    + intros H. inversion H as [|? a ? r' X F]; subst. cbn [obind]. apply IH in F. now rewrite F.
Qed.

Definition build (l : list (text * object)) : list (text * object) := fold_left (fun m i => map_insert (fst i) (snd i) m) l [].

Lemma open_collection_ok op f p items :
  open_collection op f p = Ok items <->
  exists l, map fst l = children f p /\ Forall (fun i => op (p ++ [fst i]) = Ok (snd i)) l /\ items = build l.
Proof.
  unfold open_collection. split.
  - destruct (sequence _) as [l| |] eqn:E; cbn [obind]; try discriminate. intros [= <-]. exists l. apply sequence_ok in E.
    assert (map fst l = children f p /\ Forall (fun i => op (p ++ [fst i]) = Ok (snd i)) l) as (A & B); [|now repeat split].
    revert l E. induction (children f p) as [|n ns IH]; intros l E; inversion E as [|? i ? l' X F]; subst; [now split|].
    destruct (op (p ++ [n])) as [o| |] eqn:O; cbn [obind] in X; try discriminate. injection X as <-.
    destruct (IH _ F) as (A & B). split; [cbn; now rewrite A|]. constructor; [exact O|exact B].
  - intros (l & A & B & ->). rewrite <- A. clear A.
    assert (sequence (map (fun name => obind (op (p ++ [name])) (fun o => Ok (name, o))) (map fst l)) = Ok l) as ->; [|reflexivity].
    apply sequence_ok. induction B as [|i l X F IH]; [constructor|]. cbn [map]. constructor; [|exact IH].
    rewrite X. cbn [obind]. now destruct i.
Qed.

Lemma open_object_ok d f c p o :
  open_object (S d) f c p = Ok o <->
  forallb (fun q => has_entry f (p ++ fst q) (snd q)) (parts c) = true /\
  exists cs, o = Object p cs /\ Forall2 (fun co items => open_collection (open_object d f (snd co)) f (p ++ fst co) = Ok items) (collections c) cs.
Proof.
  cbn [open_object]. on_parts c; [|split; [discriminate|intros (H & _); congruence]]. split.
  - destruct (sequence _) as [cs| |] eqn:S; cbn [obind]; try discriminate. intros [= <-]. split; [reflexivity|]. exists cs. split; [reflexivity|].
    apply sequence_ok in S. revert cs S. induction (collections c) as [|co l IH]; intros cs S; inversion S as [|? a ? r' X F]; subst; constructor; [exact X|now apply IH].
  - intros (_ & cs & -> & F).
    assert (sequence (map (fun co => open_collection (open_object d f (snd co)) f (p ++ fst co)) (collections c)) = Ok cs) as ->; [|reflexivity].
    apply sequence_ok. induction F as [|co items l cs X F IH]; constructor; assumption.
Qed.

Lemma open_parts d f c p o : open_object d f c p = Ok o -> forallb (fun q => has_entry f (p ++ fst q) (snd q)) (parts c) = true.
Proof. destruct d; cbn [open_object]; on_parts c; congruence. Qed.
Lemma open_location d f c p o : open_object d f c p = Ok o -> o_location o = p.
Proof.
  destruct d; cbn [open_object]; on_parts c; try discriminate.
  - now intros [= <-].
  - destruct (sequence _); cbn [obind]; try discriminate. now intros [= <-].
Qed.

(** What the classes are made of *)
Definition tag_length (c : class) : nat := match c with PropertySet => 2 | _ => 1 end.
Lemma collections_length c t c' : In (t, c') (collections c) -> length t = tag_length c.
Proof. destruct c; cbn; intuition; match goal with H : (_, _) = (_, _) |- _ => injection H; intros; subst; reflexivity end. Qed.
Lemma collections_nodup c : NoDup (map fst (collections c)).
Proof.
  destruct c; cbn [collections map fst kinds]; repeat constructor; cbn; intuition;
    match goal with H : _ = _ |- _ => revert H; vm_compute; discriminate end.
Qed.
Lemma collections_depth c t c' : In (t, c') (collections c) -> (depth c' < depth c)%nat.
Proof. destruct c; cbn; intuition; match goal with H : (_, _) = (_, _) |- _ => injection H; intros; subst; cbn; lia end. Qed.
Lemma collections_same c i j t a b : nth_error (collections c) i = Some (t, a) -> nth_error (collections c) j = Some (t, b) -> i = j.
Proof.
  intros I J. pose proof (collections_nodup c) as N. rewrite NoDup_nth_error in N. apply N.
  - apply nth_error_Some. rewrite (map_nth_error fst _ _ I). discriminate.
  - now rewrite (map_nth_error fst _ _ I), (map_nth_error fst _ _ J).
Qed.
Lemma collections_zero c : depth c = O -> collections c = [].
Proof. destruct c; cbn; congruence. Qed.

Lemma open_more d : forall f c p, (depth c <= d)%nat -> open_object (S d) f c p = open_object d f c p.
Proof.
  induction d as [|d IH]; intros f c p D.
  - cbn [open_object]. now rewrite collections_zero by lia.
  - remember (S d) as e eqn:E. cbn [open_object]. subst e. cbn [open_object].
    on_parts c; [|reflexivity]. f_equal. f_equal. apply map_ext_in. intros [t c'] I. cbn [fst snd].
    apply collections_depth in I. unfold open_collection. f_equal. f_equal. apply map_ext. intros n.
    change (if forallb (fun q => has_entry f (((p ++ t) ++ [n]) ++ fst q) (snd q)) (parts c') then _ else _) with (open_object (S d) f c' ((p ++ t) ++ [n])).
    now rewrite IH by lia.
Qed.
Lemma open_depth d f c p : (depth c <= d)%nat -> open_object d f c p = open_object (depth c) f c p.
Proof.
  induction d as [|d IH]; intros D.
  - now replace (depth c) with O by lia.
  - destruct (Nat.eq_dec (depth c) (S d)) as [->|]; [reflexivity|].
    rewrite open_more by lia. apply IH. lia.
Qed.
