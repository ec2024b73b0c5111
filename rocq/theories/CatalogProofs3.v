(** Proofs about the collections of named items: the file and the opened dataset after adding an item *)
From Coq Require Import Ascii String.
From Verif Require Import Common ArrayModel FileNameModel CatalogModel CatalogSpec CatalogProofs CatalogProofs2.
Open Scope Z_scope.

(** The class of an item, and its location in the item that it is in *)
Fixpoint class_at (c : class) (address : list (nat * text)) : option (class * location) :=
  match address with
  | [] => Some (c, [])
  | (j, key) :: rest =>
      match nth_error (collections c) j with
      | Some (t, c') => match class_at c' rest with Some (c1, r) => Some (c1, t ++ [key] ++ r) | None => None end
      | None => None
      end
  end.
Definition found (o : object) (a : list (nat * text)) : Prop := find_item o a <> None.

Lemma collections_parts c t c' : In (t, c') (collections c) -> In (t, GroupEntry) (parts c).
Proof. destruct c; cbn; intuition; match goal with H : (_, _) = (_, _) |- _ => injection H; intros; subst; tauto end. Qed.
Lemma nth_collections_depth c i t c' : nth_error (collections c) i = Some (t, c') -> (depth c' < depth c)%nat.
Proof. intros H. eapply collections_depth, nth_error_In, H. Qed.

Lemma found_empty p c a : found (Object p (map (fun _ : location * class => []) (collections c))) a -> a = [].
Proof.
  unfold found. destruct a as [|[j key] rest]; [reflexivity|]. cbn [find_item o_collections]. intros H. elim H. clear H.
  destruct (nth_error (map _ (collections c)) j) as [items|] eqn:E; [|reflexivity].
  apply nth_error_In, in_map_iff in E. now destruct E as (? & <- & _).
Qed.
Lemma found_cons p cs j key rest : found (Object p cs) ((j, key) :: rest) <->
  exists items o, nth_error cs j = Some items /\ map_find key items = Some o /\ found o rest.
Proof.
  unfold found. cbn [find_item o_collections]. split.
  - destruct (nth_error cs j) as [items|]; [|congruence]. destruct (map_find key items) as [o|] eqn:E; [|congruence]. intros H. now exists items, o.
  - intros (items & o & -> & -> & H). exact H.
Qed.

Lemma add_item_spec address : forall d f c p o i name c1 r t c2,
  closed f -> (depth c <= d)%nat -> open_object d f c p = Ok o -> class_at c address = Some (c1, r) ->
  nth_error (collections c1) i = Some (t, c2) -> plain name ->
  match find_item o address with
  | None => add_item f c o address i name = Throw
  | Some o1 =>
      exists items, nth_error (o_collections o1) i = Some items /\
      has_entry f ((p ++ r) ++ t) GroupEntry = true /\
      (map_find name items = None <-> ~ In (((p ++ r) ++ t) ++ [name], GroupEntry) f) /\
      (verify_does_not_exist c1 o1 name = false -> add_item f c o address i name = Throw) /\
      (forall e, entry_at f (((p ++ r) ++ t) ++ [name]) = Some e -> add_item f c o address i name = Throw) /\
      (verify_does_not_exist c1 o1 name = true -> entry_at f (((p ++ r) ++ t) ++ [name]) = None ->
       exists o', add_item f c o address i name = Ok (f ++ created (((p ++ r) ++ t) ++ [name]) c2, o') /\
         open_object d (f ++ created (((p ++ r) ++ t) ++ [name]) c2) c p = Ok o' /\
         forall a, found o' a <-> found o a \/ a = address ++ [(i, name)])
  end.
Proof.
  induction address as [|[j key] rest IH]; intros d f c p o i name c1 r t c2 C D O K I P.
  - injection K as <- <-. cbn [find_item]. rewrite app_nil_r.
    pose proof (nth_collections_depth _ _ _ _ I) as DC. destruct d as [|d]; [lia|].
    pose proof (nth_error_In _ _ I) as IC.
    apply open_object_ok in O. destruct O as (PO & cs & -> & F). cbn [o_collections].
    destruct (forall2_nth _ _ _ _ _ F I) as (items & N & OC). cbn [fst snd] in OC.
    exists items. split; [exact N|].
    assert (has_entry f (p ++ t) GroupEntry = true) as HE.
    { rewrite forallb_forall in PO. exact (PO _ (collections_parts _ _ _ IC)). }
    split; [exact HE|].
    pose proof OC as OC'. apply open_collection_ok in OC'. destruct OC' as (l & L1 & L2 & ->).
    assert (map_find name (build l) = None <-> ~ In ((p ++ t) ++ [name], GroupEntry) f) as FN by (now rewrite build_find_none, L1, children_in).
    split; [exact FN|]. cbn [add_item o_collections o_location]. rewrite I, N. split; [|split].
    + now intros ->.
    + intros e E. rewrite (create_exists f (p ++ t) c2 name e P E). now destruct (verify_does_not_exist c (Object p cs) name).
    + intros V E. rewrite V. rewrite create_ok by assumption. cbn [obind fst snd].
      set (q := (p ++ t) ++ [name]) in *. set (new := Object q _).
      destruct (upd_nth_ok i (map_insert name new (build l)) cs _ N) as (cs' & U). rewrite U. eexists. split; [reflexivity|].
      assert (q <> []) as QN by (unfold q; now destruct (p ++ t)).
      assert (map_find name (build l) = None) as FN'.
      { apply FN. pose proof (proj1 (entry_at_none f q QN) E GroupEntry). assumption. }
      split.
      * apply open_object_ok. split.
        -- apply forallb_forall. intros x X. rewrite forallb_forall in PO. now apply has_entry_app, PO.
        -- exists cs'. split; [reflexivity|].
           eapply forall2_upd; [exact F|exact U|exact I| |].
           ++ cbn [fst snd]. apply open_collection_ok. exists (l ++ [(name, new)]). split; [|split].
              ** rewrite (more_children f c p t q c2 IC QN t c2 name IC eq_refl).
                 replace (same_location t t) with true by (symmetry; now apply same_location_true). rewrite map_app, L1. reflexivity.
              ** apply Forall_app. split.
                 --- apply Forall_forall. intros (n & x) X. cbn [fst snd].
                     rewrite (other_items d f (created q c2) q c p q t c2 n).
                     +++ rewrite Forall_forall in L2. exact (L2 _ X).
                     +++ apply created_under.
                     +++ apply under_refl.
                     +++ unfold q. now apply (located c p t c2).
                     +++ exact IC.
                     +++ unfold q. intros K. apply app_inj_tail in K. destruct K as (_ & ->).
                         apply (proj1 (entry_at_none f q QN) E GroupEntry). apply children_in. rewrite <- L1. apply in_map_iff. now exists (name, x).
                 --- constructor; [|constructor]. cbn [fst snd]. rewrite open_depth by lia. now apply fresh_open.
              ** now rewrite build_snoc.
           ++ intros j (t' & c') y J N' Y. cbn [fst snd] in *. pose proof (nth_error_In _ _ N') as I'.
              apply open_collection_ok in Y. destruct Y as (l' & A & B & ->). apply open_collection_ok. exists l'. split; [|split; [|reflexivity]].
              ** rewrite (more_children f c p t q c2 IC QN t' c' name I' eq_refl).
                 replace (same_location t t') with false; [now rewrite app_nil_r|]. symmetry. apply same_location_false. intros ->.
                 apply J. eapply collections_same; eassumption.
              ** apply Forall_forall. intros (n & x) X. cbn [fst snd].
                 rewrite (other_items d f (created q c2) q c p q t' c' n).
                 --- rewrite Forall_forall in B. exact (B _ X).
                 --- apply created_under.
                 --- apply under_refl.
                 --- unfold q. now apply (located c p t c2).
                 --- exact I'.
                 --- unfold q. intros K. apply app_inj_tail in K. destruct K as (K & _). apply app_inv_head in K. subst t'.
                     apply J. eapply collections_same; eassumption.
      * intros [|[j k] rest]; [split; [now left|intros _; unfold found; cbn; discriminate]|].
        rewrite !found_cons. split.
        -- intros (items & x & A & B & Z). rewrite (upd_nth_error _ _ _ _ _ U) in A. destruct (Nat.eqb_spec i j) as [<-|].
           ++ injection A as <-. rewrite map_find_insert in B by exact FN'. destruct (same_text name k) eqn:S.
              ** injection B as <-. apply same_text_true in S. subst k. apply found_empty in Z. subst rest. now right.
              ** left. now exists (build l), x.
           ++ left. now exists items, x.
        -- intros [(items & x & A & B & Z)|[= -> -> ->]].
           ++ destruct (Nat.eqb_spec i j) as [<-|IJ].
              ** rewrite N in A. injection A as <-. exists (map_insert name new (build l)), x. split; [|split; [|exact Z]].
                 --- rewrite (upd_nth_error _ _ _ _ _ U). now rewrite Nat.eqb_refl.
                 --- rewrite map_find_insert by exact FN'. destruct (same_text name k) eqn:S; [|exact B]. apply same_text_true in S. subst k. congruence.
              ** exists items, x. split; [|split; assumption]. rewrite (upd_nth_error _ _ _ _ _ U). now destruct (Nat.eqb_spec i j).
           ++ exists (map_insert name new (build l)), new. split; [|split].
              ** rewrite (upd_nth_error _ _ _ _ _ U). now rewrite Nat.eqb_refl.
              ** rewrite map_find_insert by exact FN'. now rewrite same_text_refl.
              ** unfold found. cbn. discriminate.
  - cbn [class_at] in K. destruct (nth_error (collections c) j) as [(t' & c')|] eqn:J; [|discriminate].
    destruct (class_at c' rest) as [(c1' & r')|] eqn:K'; [|discriminate]. injection K as -> R.
    pose proof (nth_collections_depth _ _ _ _ J) as DC. destruct d as [|d]; [lia|].
    pose proof (nth_error_In _ _ J) as JC.
    apply open_object_ok in O. destruct O as (PO & cs & -> & F). cbn [o_collections find_item].
    destruct (forall2_nth _ _ _ _ _ F J) as (items & N & OC). cbn [fst snd] in OC. rewrite N. cbn [add_item o_collections o_location]. rewrite J, N.
    destruct (map_find key items) as [o'|] eqn:M; [|reflexivity].
    pose proof OC as OC'. apply open_collection_ok in OC'. destruct OC' as (l & L1 & L2 & ->).
    assert (open_object d f c' ((p ++ t') ++ [key]) = Ok o') as O'.
    { apply map_find_in, build_in in M. rewrite Forall_forall in L2. exact (L2 _ M). }
    assert (p ++ r = (((p ++ t') ++ [key]) ++ r')) as AP by (now rewrite <- R, <- !app_assoc).
    rewrite AP. specialize (IH d f c' ((p ++ t') ++ [key]) o' i name c1 r' t c2 C ltac:(lia) O' K' I P).
    destruct (find_item o' rest) as [o1|]; [|now rewrite IH].
    destruct IH as (items1 & A1 & A2 & A3 & A4 & A5 & A6). exists items1. split; [exact A1|]. split; [exact A2|]. split; [exact A3|].
    split; [intros V; now rewrite (A4 V)|]. split; [intros e E; now rewrite (A5 e E)|].
    intros V E. destruct (A6 V E) as (o'' & B1 & B2 & B3). rewrite B1. cbn [obind fst snd]. clear A4 A5 A6.
    destruct (upd_nth_ok j (map_update key o'' (build l)) cs _ N) as (cs' & U). rewrite U. eexists. split; [reflexivity|].
    set (y := (p ++ t') ++ [key]) in *. set (q := (((y ++ r') ++ t) ++ [name])) in *.
    assert (under y q) as YQ by (unfold q; rewrite <- !app_assoc; apply under_app, under_refl).
    assert (length y < length q)%nat as YL by (unfold q; rewrite !app_length; cbn [length]; lia).
    assert (length y = (length p + tag_length c + 1)%nat) as YE by (now apply (located c p t' c')).
    split.
    + apply open_object_ok. split.
      * apply forallb_forall. intros x X. rewrite forallb_forall in PO. now apply has_entry_app, PO.
      * exists cs'. split; [reflexivity|].
        eapply forall2_upd; [exact F|exact U|exact J| |].
        -- cbn [fst snd]. apply open_collection_ok. exists (map_update key o'' l). split; [|split].
           ++ rewrite map_update_keys, L1. symmetry. apply (same_children f _ q c p t' c'); [apply created_under|lia|exact JC].
           ++ apply Forall_forall. intros (n & x) X. cbn [fst snd]. apply in_map_iff in X. destruct X as ((n' & x') & X & Y). cbn [fst] in X.
              destruct (same_text n' key) eqn:S; injection X as -> ->.
              ** apply same_text_true in S. subst n. exact B2.
              ** rewrite (other_items d f (created q c2) q c p y t' c' n); try assumption.
                 --- rewrite Forall_forall in L2. exact (L2 _ Y).
                 --- apply created_under.
                 --- unfold y. intros K. apply app_inj_tail in K. destruct K as (_ & ->). now rewrite same_text_refl in S.
           ++ now rewrite build_update.
        -- intros j' (t'' & c'') z J' N' Z. cbn [fst snd] in *. pose proof (nth_error_In _ _ N') as I'.
           apply open_collection_ok in Z. destruct Z as (l' & A & B & ->). apply open_collection_ok. exists l'. split; [|split; [|reflexivity]].
           ++ rewrite A. symmetry. apply (same_children f _ q c p t'' c''); [apply created_under|lia|exact I'].
           ++ apply Forall_forall. intros (n & x) X. cbn [fst snd].
              rewrite (other_items d f (created q c2) q c p y t'' c'' n); try assumption.
              ** rewrite Forall_forall in B. exact (B _ X).
              ** apply created_under.
              ** unfold y. intros K. apply app_inj_tail in K. destruct K as (K & _). apply app_inv_head in K. subst t''.
                 apply J'. eapply collections_same; eassumption.
    + intros [|[j' k] rest']; [split; [now left|intros _; unfold found; cbn; discriminate]|].
      rewrite !found_cons. split.
      * intros (items & x & A & B & Z). rewrite (upd_nth_error _ _ _ _ _ U) in A. destruct (Nat.eqb_spec j j') as [<-|].
        -- injection A as <-. rewrite map_find_update in B. destruct (same_text key k) eqn:S.
           ++ apply same_text_true in S. subst k. rewrite M in B. injection B as <-. apply B3 in Z. destruct Z as [Z| ->].
              ** left. now exists (build l), o'.
              ** now right.
           ++ left. now exists (build l), x.
        -- left. now exists items, x.
      * intros [(items & x & A & B & Z)|[= -> -> ->]].
        -- destruct (Nat.eqb_spec j j') as [<-|JJ].
           ++ rewrite N in A. injection A as <-. destruct (same_text key k) eqn:S.
              ** apply same_text_true in S. subst k. rewrite M in B. injection B as <-. exists (map_update key o'' (build l)), o''. split; [|split].
                 --- rewrite (upd_nth_error _ _ _ _ _ U). now rewrite Nat.eqb_refl.
                 --- rewrite map_find_update, same_text_refl, M. reflexivity.
                 --- apply B3. now left.
              ** exists (map_update key o'' (build l)), x. split; [|split; [|exact Z]].
                 --- rewrite (upd_nth_error _ _ _ _ _ U). now rewrite Nat.eqb_refl.
                 --- now rewrite map_find_update, S.
           ++ exists items, x. split; [|split; assumption]. rewrite (upd_nth_error _ _ _ _ _ U). now destruct (Nat.eqb_spec j j').
        -- exists (map_update key o'' (build l)), o''. split; [|split].
           ++ rewrite (upd_nth_error _ _ _ _ _ U). now rewrite Nat.eqb_refl.
           ++ rewrite map_find_update, same_text_refl, M. reflexivity.
           ++ apply B3. now right.
Qed.
