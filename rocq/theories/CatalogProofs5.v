(** Proofs about the collections of named items: the theorem about histories *)
From Coq Require Import Ascii String.
From Verif Require Import Common ArrayModel FileNameModel CatalogModel CatalogSpec CatalogProofs CatalogProofs2 CatalogProofs3 CatalogProofs4.
Open Scope Z_scope.

Definition consistent (f : file) (m : object) (present : list op) : Prop :=
  closed f /\ tidy f /\ open_dataset f = Ok m /\ ~ In Reopen present /\ forall o, o <> Reopen -> (found m (address_of o) <-> In o present).

Lemma parent_present f m present o : consistent f m present -> o <> Reopen ->
  (found m (parent_address o) <-> forall a, In a (part_of o) -> In a present).
Proof.
  intros (_ & _ & _ & _ & H) N.
  assert (part_of o = [] /\ parent_address o = [] \/ exists a, part_of o = [a] /\ a <> Reopen /\ parent_address o = address_of a) as [(-> & ->)|(a & -> & A & ->)].
  { destruct o as [u|[u|] p|[u|] p c s|[u|] p c s k n|]; [..|congruence]; cbn; try (now left); right; eexists; (split; [reflexivity|]); (split; [discriminate|reflexivity]). }
  - unfold found. cbn. intuition. discriminate.
  - rewrite H by exact A. cbn [In]. split; [intros I b [<-|[]]; exact I|]. auto.
Qed.

Lemma found_parent m a j n : found m (a ++ [(j, n)]) -> found m a.
Proof. unfold found. rewrite find_item_app. destruct (find_item m a); congruence. Qed.

Lemma kind_of_index j : (j < 6)%nat -> exists k, kind_index k = j.
Proof.
  intros H. destruct j as [|[|[|[|[|[|j]]]]]]; [exists SameShape|exists SameConstant|exists SameVariable|exists DifferentShape|exists DifferentConstant|exists DifferentVariable|lia]; reflexivity.
Qed.

Lemma existsb_found o1 n : existsb (map_contains n) (o_collections o1) = true <-> exists j, found o1 [(j, n)].
Proof.
  rewrite existsb_exists. unfold found. cbn [find_item]. split.
  - intros (items & I & C). apply In_nth_error in I. destruct I as (j & J). exists j. rewrite J.
    rewrite map_contains_find in C. destruct (map_find n items); [discriminate|congruence].
  - intros (j & J). destruct (nth_error (o_collections o1) j) as [items|] eqn:E; [|congruence]. exists items.
    split; [eapply nth_error_In; exact E|]. rewrite map_contains_find. destruct (map_find n items); congruence.
Qed.

Lemma clash_found f m present o o1 c1 r : consistent f m present -> o <> Reopen ->
  class_at Dataset (parent_address o) = Some (c1, r) -> find_item m (parent_address o) = Some o1 ->
  (c1 = PropertySet <-> exists u p c s k n, o = AddProperty u p c s k n) ->
  ((exists a, In a present /\ clashes o a) <->
   verify_does_not_exist c1 o1 (new_name o) = false \/ found m (parent_address o ++ [(new_index o, new_name o)])).
Proof.
  intros C N K F PS. pose proof C as (_ & _ & O & NR & H). rewrite <- address_split by exact N. rewrite H by exact N.
  pose proof (find_open (parent_address o) (depth Dataset) f Dataset [] m c1 r o1 (le_n _) O K F) as O1.
  assert ((exists u p c s k n, o = AddProperty u p c s k n) \/ (forall a, clashes o a <-> o = a) /\ c1 <> PropertySet) as [(u & p & c & s & k & n & ->)|(CL & NP)].
  { destruct o as [u|u p|u p c s|u p c s k n|]; [right; split; [cbn; tauto|rewrite PS; intros (? & ? & ? & ? & ? & ? & ?); discriminate]..|left; eauto 8|congruence]. }
  - assert (c1 = PropertySet) as -> by (apply PS; eauto 8). cbn [verify_does_not_exist].
    assert (length (o_collections o1) = 6%nat) as L.
    { cbn [depth] in O1. apply open_object_ok in O1. destruct O1 as (_ & cs & -> & F2). clear - F2. cbn [collections kinds map] in F2. do 6 (let a := fresh in let b := fresh in inversion F2 as [|? ? ? ? a b]; subst; clear F2 a; rename b into F2). inversion F2. reflexivity. }
    assert (forall k', found m (address_of (AddProperty u p c s k' n)) <-> found o1 [(kind_index k', n)]) as FK.
    { intros k'. rewrite address_split by discriminate. unfold found. rewrite find_item_app.
      replace (parent_address (AddProperty u p c s k' n)) with (parent_address (AddProperty u p c s k n)) by (now destruct u).
      rewrite F. replace (new_index (AddProperty u p c s k' n)) with (kind_index k') by (now destruct u).
      replace (new_name (AddProperty u p c s k' n)) with n by (now destruct u). reflexivity. }
    replace (new_name (AddProperty u p c s k n)) with n by (now destruct u).
    rewrite negb_false_iff, existsb_found. split.
    + intros (a & I & CL). left. destruct a as [u'|u' p'|u' p' c' s'|u' p' c' s' k' n'|]; try discriminate CL. cbn in CL. injection CL as -> -> -> -> ->.
      apply H in I; [|discriminate]. apply FK in I. eauto.
    + intros [(j & J)|I]; [|exists (AddProperty u p c s k n); split; [exact I|reflexivity]].
      assert (j < 6)%nat as JL.
      { rewrite <- L. apply nth_error_Some. intros E. apply J. cbn [find_item]. now rewrite E. }
      destruct (kind_of_index j JL) as (k' & <-). exists (AddProperty u p c s k' n). split; [|reflexivity].
      apply H; [discriminate|]. now apply FK.
  - replace (verify_does_not_exist c1 o1 (new_name o)) with true by (now destruct c1).
    split; [intros (a & I & CA); right; apply CL in CA; now subst a|]. intros [|I]; [discriminate|]. exists o. split; [exact I|now apply CL].
Qed.

Lemma step_spec f m present o : consistent f m present -> plain_op o -> o <> Reopen ->
  (can_be_added present o /\ exists f' m', step o (f, m) = Ok (f', m') /\ consistent f' m' (o :: present)) \/
  (~ can_be_added present o /\ step o (f, m) = Throw).
Proof.
  intros C P N. pose proof C as (CL & T & O & NR & H).
  destruct (class_of_op o N) as (c1 & r & t & c2 & K & I & ND & TC & PS).
  pose proof (plain_new o N P) as PN.
  assert (step o (f, m) = add_item f Dataset m (parent_address o) (new_index o) (new_name o)) as -> by (now destruct o).
  pose proof (add_item_spec (parent_address o) (depth Dataset) f Dataset [] m (new_index o) (new_name o) c1 r t c2 CL (le_n _) O K I PN) as A.
  pose proof (parent_present f m present o C N) as PP.
  destruct (find_item m (parent_address o)) as [o1|] eqn:F.
  - destruct A as (items & N1 & HE & FN & A1 & A2 & A3). set (q := (([] ++ r) ++ t) ++ [new_name o]) in *.
    assert (q <> []) as QN by (unfold q; now destruct (([] ++ r) ++ t)).
    pose proof (clash_found f m present o o1 c1 r C N K F PS) as CF.
    assert (found m (parent_address o ++ [(new_index o, new_name o)]) <-> In (q, GroupEntry) f) as FQ.
    { unfold found. rewrite find_item_app, F. cbn [find_item]. rewrite N1.
      destruct (map_find (new_name o) items) as [x|] eqn:M.
      - split; [|discriminate]. intros _. destruct (entry_at f q) as [e|] eqn:E.
        + apply entry_at_in in E; [|exact QN]. destruct e; [exact E|]. elim ND. now apply T.
        + exfalso. assert (Some x = None) as X; [|discriminate]. apply FN. intros J. now elim (proj1 (entry_at_none f q QN) E GroupEntry).
      - split; [congruence|]. intros J. now elim (proj1 FN eq_refl). }
    destruct (verify_does_not_exist c1 o1 (new_name o)) eqn:V.
    + destruct (entry_at f q) as [e|] eqn:E.
      * right. split; [|now apply (A2 e)]. intros (_ & X).
        assert (In (q, GroupEntry) f) as J by (apply entry_at_in in E; [|exact QN]; destruct e; [exact E|elim ND; now apply T]).
        destruct (proj2 CF (or_intror (proj2 FQ J))) as (a & B1 & B2). now elim (X a).
      * left. destruct (A3 eq_refl eq_refl) as (m' & B1 & B2 & B3). split.
        -- split; [apply PP; unfold found; rewrite F; discriminate|]. intros a B D.
           destruct (proj1 CF (ex_intro _ a (conj B D))) as [X|X]; [discriminate|].
           apply FQ in X. now elim (proj1 (entry_at_none f q QN) E GroupEntry).
        -- exists (f ++ created q c2), m'. split; [exact B1|]. split; [|split; [|split; [|split]]].
           ++ apply created_closed; try assumption. unfold q. rewrite removelast_snoc. exact HE.
           ++ intros l J. apply in_app_or in J. destruct J as [J|J]; [now apply T|now apply TC].
           ++ exact B2.
           ++ intros [J|J]; [congruence|now apply NR].
           ++ intros o' N'. rewrite B3, <- address_split by exact N. rewrite H by exact N'. cbn [In]. split.
              ** intros [J|J]; [now right|left; symmetry; now apply address_inj].
              ** intros [->|J]; [now right|now left].
    + right. split; [|now apply A1]. intros (_ & X). destruct (proj2 CF (or_introl eq_refl)) as (a & B1 & B2). now elim (X a).
  - right. split; [|exact A]. intros (X & _). apply PP in X. unfold found in X. congruence.
Qed.

Lemma run_spec ops : forall f m present, consistent f m present -> Forall plain_op ops ->
  exists after, history ops present (fst (run ops (f, m))) after /\ consistent (fst (snd (run ops (f, m)))) (snd (snd (run ops (f, m)))) after.
Proof.
  induction ops as [|o ops IH]; intros f m present C P.
  - exists present. split; [constructor|exact C].
  - inversion P as [|? ? P1 P2]; subst. cbn [run].
    assert (o = Reopen \/ o <> Reopen) as [->|N] by (destruct o; [right; discriminate..|now left]).
    + pose proof C as (_ & _ & O & _). cbn [step fst snd]. rewrite O. cbn [obind].
      destruct (IH f m present C P2) as (after & A & B). exists after.
      destruct (run ops (f, m)) as [results s'']. cbn [fst snd] in *. split; [now constructor|exact B].
    + destruct (step_spec f m present o C P1 N) as [(A & f' & m' & S & C')|(A & S)]; rewrite S.
      * destruct (IH f' m' (o :: present) C' P2) as (after & B1 & B2). exists after.
        destruct (run ops (f', m')) as [results s'']. cbn [fst snd] in *. split; [now constructor|exact B2].
      * destruct (IH f m present C P2) as (after & B1 & B2). exists after.
        destruct (run ops (f, m)) as [results s'']. cbn [fst snd] in *. split; [now apply H_refused|exact B2].
Qed.

Definition new_object : object := Object [] [[]; []].
Lemma created_dataset : create_dataset = Ok (new_file, new_object).
Proof. reflexivity. Qed.
Lemma new_consistent : consistent new_file new_object [].
Proof.
  split; [|split; [|split; [|split]]].
  - intros l e [[= <- <-]|[[= <- <-]|[]]]; (split; [discriminate|reflexivity]).
  - intros l [[=]|[[=]|[]]].
  - reflexivity.
  - intros [].
  - intros o N. split; [|intros []]. intros K. elim K.
    destruct o as [u|[u|] p|[u|] p [|] s|[u|] p [|] s k n|]; try reflexivity. congruence.
Qed.

Lemma contains_found m o : contains m o = true <-> found m (address_of o).
Proof. unfold contains, found. destruct (find_item m (address_of o)); intuition congruence. Qed.

Lemma c72_history ops results f m : Forall plain_op ops -> run ops (new_file, new_object) = (results, (f, m)) ->
  exists present, history ops [] results present /\ (forall o, o <> Reopen -> (contains m o = true <-> In o present)) /\ open_dataset f = Ok m.
Proof.
  intros P R. destruct (run_spec ops new_file new_object [] new_consistent P) as (after & A & B). rewrite R in *. cbn [fst snd] in *.
  exists after. destruct B as (_ & _ & O & _ & H). split; [exact A|]. split; [|exact O]. intros o N. now rewrite contains_found, H.
Qed.

(** ** Names *)

Lemma names_present f m present o : consistent f m present -> o <> Reopen ->
  NoDup (names m (parent_address o) (new_index o)) /\
  (In (new_name o) (names m (parent_address o) (new_index o)) <-> In o present).
Proof.
  intros (_ & _ & O & _ & H) N. destruct (class_of_op o N) as (c1 & r & t & c2 & K & _).
  destruct (names_spec f m (parent_address o) (new_index o) c1 r O K) as (_ & A & B).
  split; [exact A|]. now rewrite B, <- address_split, H by exact N.
Qed.

Lemma clash_sym a b : clashes a b -> clashes b a.
Proof. destruct a, b; cbn; congruence. Qed.
Lemma no_clashes ops before results after : history ops before results after ->
  (forall a b, In a before -> In b before -> clashes a b -> a = b) -> forall a b, In a after -> In b after -> clashes a b -> a = b.
Proof.
  induction 1 as [| |o ops present results after N (_ & C) _ IH|]; auto. intros H. apply IH. intros a b [<-|A] [<-|B] K; auto.
  - now elim (C b).
  - apply clash_sym in K. now elim (C a).
Qed.

Lemma c72_names ops results f m : Forall plain_op ops -> run ops (new_file, new_object) = (results, (f, m)) ->
  exists present, history ops [] results present /\ open_dataset f = Ok m /\
    (NoDup (universe_names m) /\ forall u, In u (universe_names m) <-> In (AddUniverse u) present) /\
    (forall u, NoDup (phenomenon_names m u) /\ forall p, In p (phenomenon_names m u) <-> In (AddPhenomenon u p) present) /\
    (forall u p c, NoDup (property_set_names m u p c) /\ forall s, In s (property_set_names m u p c) <-> In (AddPropertySet u p c s) present) /\
    (forall u p c s k, NoDup (property_names m u p c s k) /\ forall n, In n (property_names m u p c s k) <-> In (AddProperty u p c s k n) present) /\
    (forall u p c s k k' n, In n (property_names m u p c s k) -> In n (property_names m u p c s k') -> k = k').
Proof.
  intros P R. destruct (run_spec ops new_file new_object [] new_consistent P) as (after & A & B). rewrite R in *. cbn [fst snd] in *.
  exists after. split; [exact A|]. split; [apply B|].
  assert (forall u p c s k n, In n (property_names m u p c s k) <-> In (AddProperty u p c s k n) after) as PN.
  { intros u p c s k n. destruct (names_present f m after (AddProperty u p c s k n) B) as (_ & X); [discriminate|]. now destruct u. }
  split; [|split; [|split; [|split]]].
  - split; [apply (names_present f m after (AddUniverse []) B); discriminate|]. intros u. now apply (names_present f m after (AddUniverse u) B).
  - intros u. split.
    + destruct (names_present f m after (AddPhenomenon u []) B) as (X & _); [discriminate|]. now destruct u.
    + intros p. destruct (names_present f m after (AddPhenomenon u p) B) as (_ & X); [discriminate|]. now destruct u.
  - intros u p c. split.
    + destruct (names_present f m after (AddPropertySet u p c []) B) as (X & _); [discriminate|]. now destruct u.
    + intros s. destruct (names_present f m after (AddPropertySet u p c s) B) as (_ & X); [discriminate|]. now destruct u.
  - intros u p c s k. split; [|apply PN].
    destruct (names_present f m after (AddProperty u p c s k []) B) as (X & _); [discriminate|]. now destruct u.
  - intros u p c s k k' n I J. apply PN in I. apply PN in J.
    assert (AddProperty u p c s k n = AddProperty u p c s k' n) as E; [|now injection E].
    apply (no_clashes ops [] results after A); [intros ? ? []|exact I|exact J|reflexivity].
Qed.
