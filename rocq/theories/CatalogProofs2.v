(** Proofs about the collections of named items: adding an item *)
From Coq Require Import Ascii String.
From Verif Require Import Common ArrayModel FileNameModel CatalogModel CatalogSpec CatalogProofs.
Open Scope Z_scope.

(** ** Maps *)

Section Maps.
Context {T : Type}.
Implicit Types (m : list (text * T)).

Lemma map_insert_in key (v : T) m x : In x (map_insert key v m) -> x = (key, v) \/ In x m.
Proof.
  induction m as [|[k w] m IH]; cbn [map_insert]; [cbn; intuition|].
  destruct (same_text key k); [now right|]. destruct (text_less key k); cbn; intuition.
Qed.
Lemma map_find_in key m (v : T) : map_find key m = Some v -> In (key, v) m.
Proof.
  unfold map_find. destruct (find _ m) as [[k w]|] eqn:F; [|discriminate]. intros [= <-].
  apply find_some in F. destruct F as (I & E). cbn in E. apply same_text_true in E. now subst k.
Qed.
Lemma map_update_insert key key' (v w : T) m :
  map_update key w (map_insert key' v m) = map_insert key' (if same_text key' key then w else v) (map_update key w m).
Proof.
  induction m as [|[k u] m IH]; cbn [map_insert map_update map fst].
  - cbn. now destruct (same_text key' key).
  - destruct (same_text key' k) eqn:E.
    + cbn [map fst]. destruct (same_text k key); cbn [map_insert]; now rewrite E.
    + destruct (text_less key' k) eqn:L.
      * cbn [map fst]. destruct (same_text key' key), (same_text k key); cbn [map_insert]; now rewrite E, L.
      * cbn [map fst]. destruct (same_text k key); cbn [map_insert]; rewrite E, L; f_equal; exact IH.
Qed.
Lemma map_update_keys key (w : T) m : map fst (map_update key w m) = map fst m.
Proof. unfold map_update. rewrite map_map. apply map_ext. intros [k u]. cbn. now destruct (same_text k key). Qed.
Lemma map_contains_find key m : map_contains key m = match map_find key m with Some _ => true | None => false end.
Proof.
  unfold map_contains, map_find. induction m as [|[k u] m IH]; [reflexivity|]. cbn [existsb find fst].
  now destruct (same_text k key).
Qed.
Lemma map_find_insert key key' (v : T) m : map_find key' m = None ->
  map_find key (map_insert key' v m) = if same_text key' key then Some v else map_find key m.
Proof.
  unfold map_find. induction m as [|[k u] m IH]; cbn [map_insert find fst snd].
  - intros _. now destruct (same_text key' key).
  - destruct (same_text k key') eqn:E; [discriminate|]. intros H.
    replace (same_text key' k) with false by (symmetry; apply same_text_false; apply same_text_false in E; congruence).
    destruct (text_less key' k); cbn [find fst snd].
    + now destruct (same_text key' key).
    + destruct (same_text k key) eqn:F; [|now apply IH].
      apply same_text_true in F. subst k. replace (same_text key' key) with false; [reflexivity|].
      symmetry. apply same_text_false. apply same_text_false in E. congruence.
Qed.
Lemma map_find_update key key' (v : T) m :
  map_find key (map_update key' v m) = if same_text key' key then match map_find key m with Some _ => Some v | None => None end else map_find key m.
Proof.
  unfold map_find, map_update. induction m as [|[k u] m IH]; cbn [map find fst snd].
  - now destruct (same_text key' key).
  - destruct (same_text k key') eqn:E; cbn [fst find].
    + apply same_text_true in E. subst k. destruct (same_text key' key) eqn:F; [reflexivity|exact IH].
    + destruct (same_text k key) eqn:F; [|exact IH].
      apply same_text_true in F. subst k. apply same_text_false in E.
      replace (same_text key' key) with false; [reflexivity|]. symmetry. apply same_text_false. congruence.
Qed.
End Maps.

Lemma build_snoc l i : build (l ++ [i]) = map_insert (fst i) (snd i) (build l).
Proof. unfold build. now rewrite fold_left_app. Qed.
Lemma build_in l x : In x (build l) -> In x l.
Proof.
  induction l as [|i l IH] using rev_ind; [intros []|]. rewrite build_snoc. intros I. apply in_or_app.
  apply map_insert_in in I. destruct I as [->|I]; [right; left; now destruct i|left; now apply IH].
Qed.
Lemma build_update key w l : build (map_update key w l) = map_update key w (build l).
Proof.
  induction l as [|i l IH] using rev_ind; [reflexivity|]. rewrite build_snoc, map_update_insert, <- IH.
  unfold map_update at 1. rewrite map_app. cbn [map]. rewrite build_snoc. fold (map_update key w l).
  now destruct (same_text (fst i) key).
Qed.
Lemma build_find_none l key : map_find key (build l) = None <-> ~ In key (map fst l).
Proof.
  induction l as [|i l IH] using rev_ind; [cbn; intuition|].
  rewrite build_snoc, map_app, in_app_iff. cbn [map In].
  destruct (map_find (fst i) (build l)) as [w|] eqn:E.
  - assert (map_insert (fst i) (snd i) (build l) = map_insert (fst i) (snd i) (build l)) by reflexivity.
    assert (In (fst i) (map fst l)) as I by (apply map_find_in, build_in in E; apply in_map_iff; now exists (fst i, w)).
    assert (forall m : list (text * object), map_contains (fst i) m = true -> map_find key (map_insert (fst i) (snd i) m) = None <-> map_find key m = None) as K.
    { clear. intros m C. unfold map_find, map_contains in *. induction m as [|[k u] m IH]; [discriminate|].
      cbn [map_insert find fst existsb] in *. destruct (same_text (fst i) k) eqn:F; [reflexivity|].
      replace (same_text k (fst i)) with false in C by (symmetry; apply same_text_false; apply same_text_false in F; congruence).
      cbn [orb] in C. destruct (text_less (fst i) k).
      - cbn [find fst]. destruct (same_text (fst i) key) eqn:G; [|reflexivity].
        apply same_text_true in G. subst key. split; [discriminate|].
        replace (same_text k (fst i)) with false by (symmetry; apply same_text_false; apply same_text_false in F; congruence).
        intros N. exfalso. apply existsb_exists in C. destruct C as (x & X & Y).
        destruct (find (fun i0 => same_text (fst i0) (fst i)) m) eqn:Z; [discriminate|].
        apply find_none with (x := x) in Z; [|assumption]. congruence.
      - cbn [find fst]. destruct (same_text k key); [split; discriminate|]. now apply IH. }
    rewrite K by (rewrite map_contains_find, E; reflexivity). rewrite IH. intuition congruence.
  - rewrite map_find_insert by exact E. destruct (same_text (fst i) key) eqn:F.
    + apply same_text_true in F. split; [discriminate|]. intuition.
    + apply same_text_false in F. rewrite IH. intuition.
Qed.

(** ** Lists *)

Lemma upd_nth_ok {A} i (v : A) l a : nth_error l i = Some a -> exists l', upd_nth i v l = Some l'.
Proof.
  revert l. induction i as [|i IH]; intros [|x l] H; try discriminate; cbn [upd_nth].
  - now exists (v :: l).
  - destruct (IH _ H) as (l' & ->). now exists (x :: l').
Qed.
Lemma upd_nth_error {A} i (v : A) l l' j : upd_nth i v l = Some l' -> nth_error l' j = if Nat.eqb i j then Some v else nth_error l j.
Proof.
  revert l l' j. induction i as [|i IH]; intros [|x l] l' j H; try discriminate; cbn [upd_nth] in H.
  - injection H as <-. now destruct j.
  - destruct (upd_nth i v l) as [l''|] eqn:E; [|discriminate]. injection H as <-.
    destruct j as [|j]; [reflexivity|]. cbn [nth_error Nat.eqb]. now apply IH.
Qed.
Lemma forall2_upd {A B} (P Q : A -> B -> Prop) i v l cs cs' a :
  Forall2 P l cs -> upd_nth i v cs = Some cs' -> nth_error l i = Some a -> Q a v ->
  (forall j x y, j <> i -> nth_error l j = Some x -> P x y -> Q x y) -> Forall2 Q l cs'.
Proof.
  intros F. revert i cs'. induction F as [|x y l cs X F IH]; intros [|i] cs' U N V H; try discriminate; cbn [upd_nth nth_error] in *.
  - injection U as <-. injection N as ->. constructor; [exact V|].
    assert (forall j z w, nth_error l j = Some z -> P z w -> Q z w) as K by (intros j z w J; apply (H (S j)); [discriminate|exact J]).
    clear - F K. induction F as [|z w l cs X F IH]; constructor; [apply (K O); [reflexivity|exact X]|].
    apply IH. intros j. apply (K (S j)).
  - destruct (upd_nth i v cs) as [cs''|] eqn:E; [|discriminate]. injection U as <-. constructor.
    + apply (H O); [discriminate|reflexivity|exact X].
    + apply (IH i); try assumption. intros j z w J. apply (H (S j)). congruence.
Qed.
Lemma forall2_nth {A B} (P : A -> B -> Prop) l cs i a : Forall2 P l cs -> nth_error l i = Some a -> exists b, nth_error cs i = Some b /\ P a b.
Proof.
  intros F. revert i. induction F as [|x y l cs X F IH]; intros [|i] H; try discriminate; cbn [nth_error] in *.
  - injection H as ->. eauto.
  - now apply IH.
Qed.
Lemma under_same_length p q : under p q -> length p = length q -> p = q.
Proof.
  intros (r & ->) H. rewrite app_length in H. destruct r; [now rewrite app_nil_r|cbn in H; lia].
Qed.
Lemma under_length p q : under p q -> (length p <= length q)%nat.
Proof. intros (r & ->). rewrite app_length. lia. Qed.

(** ** The location of an item *)

Lemma located c p t c' n : In (t, c') (collections c) -> length ((p ++ t) ++ [n]) = (length p + tag_length c + 1)%nat.
Proof. intros I. rewrite !app_length, (collections_length _ _ _ I). cbn. lia. Qed.

(** Items that are not on the way to what was added stay as they are *)
Lemma other_items d f g q c p y t c' n :
  (forall l e, In (l, e) g -> under q l) -> under y q -> length y = (length p + tag_length c + 1)%nat ->
  In (t, c') (collections c) -> (p ++ t) ++ [n] <> y ->
  open_object d (f ++ g) c' ((p ++ t) ++ [n]) = open_object d f c' ((p ++ t) ++ [n]).
Proof.
  intros G Y L I N. pose proof (located c p t c' n I) as K. apply (frame d f g q).
  - exact G.
  - intros U. apply N. destruct (under_both _ _ _ U Y) as [V|V]; [apply under_same_length; [exact V|congruence]|].
    symmetry. apply under_same_length; [exact V|congruence].
  - intros U. apply N. symmetry. apply under_same_length; [|congruence]. eapply under_trans; eassumption.
  - now destruct p, t.
Qed.
(** A longer location adds no children here *)
Lemma same_children f g q c p t c' :
  (forall l e, In (l, e) g -> under q l) -> (length p + tag_length c + 1 < length q)%nat -> In (t, c') (collections c) ->
  children (f ++ g) (p ++ t) = children f (p ++ t).
Proof.
  intros G L I. rewrite children_app, (children_nil g), app_nil_r; [reflexivity|].
  intros l e J N E. apply G, under_length in J. rewrite (snoc_of l N), E, (located c p t c') in J by assumption. lia.
Qed.
Definition created (q : location) (c : class) : file := (q, GroupEntry) :: map (fun r => (q ++ fst r, snd r)) (parts c).
Lemma more_children f c1 p t q c :
  In (t, c) (collections c1) -> q <> [] ->
  forall t' c' n, In (t', c') (collections c1) -> q = (p ++ t) ++ [n] ->
  children (f ++ created q c) (p ++ t') = children f (p ++ t') ++ if same_location t t' then [n] else [].
Proof.
  intros I N t' c' n I' E. rewrite children_app. f_equal. unfold created.
  assert (children (map (fun r => (q ++ fst r, snd r)) (parts c)) (p ++ t') = []) as P.
  { apply children_nil. intros l e J NL R. apply in_map_iff in J. destruct J as ((r & x) & [= <- <-] & J). cbn [fst] in *.
    assert (length ((q ++ r)) = length ((p ++ t') ++ [last (q ++ r) []])) as K by (rewrite <- R, <- snoc_of by assumption; reflexivity).
    rewrite (located c1 p t' c') in K by assumption.
    rewrite app_length, E, (located c1 p t c) in K by assumption.
    assert (r <> []) as RN by (clear - J; destruct c; cbn in J; intuition; match goal with H : (_, _) = (_, _) |- _ => injection H; intros; subst; discriminate end).
    destruct r; [congruence|]. cbn in K. lia. }
  change ((q, GroupEntry) :: map (fun r => (q ++ fst r, snd r)) (parts c)) with ([(q, GroupEntry)] ++ map (fun r => (q ++ fst r, snd r)) (parts c)).
  rewrite children_app, P, app_nil_r. unfold children. cbn [map concat fst snd]. rewrite app_nil_r.
  destruct q as [|a q]; [congruence|]. rewrite E, removelast_snoc, last_snoc.
  destruct (same_location t t') eqn:S.
  - apply same_location_true in S. subst t'. now replace (same_location (p ++ t) (p ++ t)) with true by (symmetry; now apply same_location_true).
  - replace (same_location (p ++ t) (p ++ t')) with false; [reflexivity|].
    symmetry. apply same_location_false. apply same_location_false in S. intros K. apply S. now apply app_inv_head in K.
Qed.

(** ** A new item *)

Lemma created_under q c l e : In (l, e) (created q c) -> under q l.
Proof.
  intros [[= <- <-]|I]; [apply under_refl|]. apply in_map_iff in I. destruct I as (r & [= <- <-] & _). apply under_app, under_refl.
Qed.

Lemma entry_at_parts q rs r : q <> [] -> r <> [] ->
  entry_at (map (fun x : location * entry => (q ++ fst x, snd x)) rs) (q ++ r) = entry_at rs r.
Proof.
  intros N R. destruct r as [|a r]; [congruence|]. destruct (q ++ a :: r) as [|b z] eqn:E; [now destruct q|].
  unfold entry_at. induction rs as [|[l e] rs IH]; [reflexivity|]. cbn [map find fst snd]. rewrite <- E in *.
  replace (same_location (q ++ l) (q ++ a :: r)) with (same_location l (a :: r)); [destruct (same_location l (a :: r)); [reflexivity|exact IH]|].
  destruct (same_location l (a :: r)) eqn:S; symmetry.
  - apply same_location_true in S. subst l. now apply same_location_true.
  - apply same_location_false. apply same_location_false in S. intros K. apply S. now apply app_inv_head in K.
Qed.
Lemma parts_nonempty c r e : In (r, e) (parts c) -> r <> [].
Proof. destruct c; cbn; intuition; match goal with H : (_, _) = (_, _) |- _ => injection H; intros; subst; discriminate end. Qed.
Lemma parts_found c r e : In (r, e) (parts c) -> entry_at (parts c) r = Some e.
Proof. destruct c as [| | | |[]]; cbn [parts kinds map app In]; intuition; match goal with H : (_, _) = (_, _) |- _ => injection H; intros; subst; vm_compute; reflexivity end. Qed.

Lemma fresh_parts f q c : closed f -> q <> [] -> entry_at f q = None ->
  forallb (fun r => has_entry (f ++ created q c) (q ++ fst r) (snd r)) (parts c) = true.
Proof.
  intros C N E. apply forallb_forall. intros (r & e) I. cbn [fst snd].
  unfold has_entry. rewrite entry_at_app.
  replace (entry_at f (q ++ r)) with (@None entry).
  - unfold created. change ((q, GroupEntry) :: ?x) with ([(q, GroupEntry)] ++ x). rewrite entry_at_app.
    pose proof (parts_nonempty _ _ _ I) as R.
    replace (entry_at [(q, GroupEntry)] (q ++ r)) with (@None entry).
    + rewrite entry_at_parts, (parts_found _ _ _ I) by assumption. now apply same_entry_true.
    + symmetry. apply entry_at_none; [now destruct q|]. intros x [[= K _]|[]].
      apply R. apply (app_inv_head q). now rewrite app_nil_r, <- K.
  - symmetry. apply entry_at_none; [now destruct q|]. intros x J. refine (nothing_under f q C N E _ x J _). apply under_app, under_refl.
Qed.
Lemma fresh_children f q c t c' : closed f -> q <> [] -> entry_at f q = None -> In (t, c') (collections c) ->
  children (f ++ created q c) (q ++ t) = [].
Proof.
  intros C N E I. apply children_nil. intros l e J NL R. apply in_app_or in J. destruct J as [J|[[= <- <-]|J]].
  - refine (nothing_under f q C N E l e J _). rewrite (snoc_of l NL), R, <- app_assoc. apply under_app, under_refl.
  - apply (f_equal (@length _)) in R. rewrite app_length in R. rewrite (snoc_of q N), removelast_snoc, app_length in R. cbn in R. lia.
  - apply in_map_iff in J. destruct J as ((r & x) & [= <- <-] & J). cbn [fst snd] in *.
    pose proof (parts_nonempty _ _ _ J) as RN. rewrite removelast_app in R by assumption. apply app_inv_head in R.
    revert J I R. clear. destruct c as [| | | |[]]; cbn [parts collections kinds map app In]; intuition;
      repeat match goal with H : (_, _) = (_, _) |- _ => injection H; clear H; intros; subst end;
      match goal with H : _ = _ |- _ => revert H; vm_compute; discriminate end.
Qed.
Lemma fresh_open f q c : closed f -> q <> [] -> entry_at f q = None ->
  open_object (depth c) (f ++ created q c) c q = Ok (Object q (map (fun _ => []) (collections c))).
Proof.
  intros C N E. destruct (depth c) as [|d] eqn:D.
  - cbn [open_object]. rewrite fresh_parts by assumption. now rewrite collections_zero.
  - apply open_object_ok. split; [now apply fresh_parts|]. eexists. split; [reflexivity|].
    assert (forall co, In co (collections c) -> open_collection (open_object d (f ++ created q c) (snd co)) (f ++ created q c) (q ++ fst co) = Ok []) as K.
    { intros (t & c') I. unfold open_collection. cbn [fst snd]. now rewrite (fresh_children f q c t c'). }
    clear - K. induction (collections c) as [|co l IH]; constructor; [apply K; now left|]. apply IH. intros x I. apply K. now right.
Qed.

Lemma create_ok f base c name : closed f -> plain name -> has_entry f base GroupEntry = true -> entry_at f (base ++ [name]) = None ->
  create_object f base c name = Ok (f ++ created (base ++ [name]) c, Object (base ++ [name]) (map (fun _ => []) (collections c))).
Proof.
  intros C P B E. unfold create_object, create_group. rewrite plain_components, plain_resolve, E, removelast_snoc, B by assumption.
  cbn [obind fst snd].
  match goal with |- obind (open_object _ ?ff _ _) _ = _ => replace ff with (f ++ created (base ++ [name]) c) by (unfold created; now rewrite <- app_assoc) end.
  rewrite fresh_open; [reflexivity|assumption|now destruct base|assumption].
Qed.
Lemma create_exists f base c name e : plain name -> entry_at f (base ++ [name]) = Some e -> create_object f base c name = Throw.
Proof. intros P E. unfold create_object, create_group. now rewrite plain_components, plain_resolve, E by assumption. Qed.

Lemma created_closed f q c : closed f -> q <> [] -> has_entry f (removelast q) GroupEntry = true -> entry_at f q = None -> closed (f ++ created q c).
Proof.
  intros C N G E l e I. apply in_app_or in I. destruct I as [I|[[= <- <-]|I]].
  - destruct (C _ _ I) as (A & B). split; [exact A|now apply has_entry_app].
  - split; [exact N|now apply has_entry_app].
  - apply in_map_iff in I. destruct I as ((r & x) & [= <- <-] & J). cbn [fst snd] in *.
    pose proof (parts_nonempty _ _ _ J) as RN. split; [now destruct q|]. rewrite removelast_app by assumption.
    assert (removelast r = [] \/ In (removelast r, GroupEntry) (parts c)) as [K|K].
    { clear - J. destruct c as [| | | |[]]; cbn [parts kinds map app In] in *; intuition;
        match goal with H : (_, _) = (_, _) |- _ => injection H; intros; subst end; vm_compute; tauto. }
    + rewrite K, app_nil_r. unfold has_entry. rewrite entry_at_app, E.
      unfold created. change ((q, GroupEntry) :: ?x) with ([(q, GroupEntry)] ++ x). rewrite entry_at_app.
      replace (entry_at [(q, GroupEntry)] q) with (Some GroupEntry); [reflexivity|].
      unfold entry_at. destruct q as [|b q]; [congruence|]. cbn [find fst]. now replace (same_location (b :: q) (b :: q)) with true by (symmetry; now apply same_location_true).
    + pose proof (fresh_parts f q c C N E) as F. rewrite forallb_forall in F. exact (F _ K).
Qed.
