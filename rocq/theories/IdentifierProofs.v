(** Proofs about identifiers of HDF5 objects. *)
From Verif Require Import Common CommonProofs IdentifierModel IdentifierSpec.

Definition here (x : identifier) (i : Z) : Z := if id_ x =? i then 1 else 0.

Lemma holders_cons v x s i : holders ((v, x) :: s) i = here x i + holders s i.
Proof. unfold holders, here. cbn [filter snd]. destruct (id_ x =? i); cbn [length]; lia. Qed.
Lemma holders_nonneg s i : 0 <= holders s i. Proof. unfold holders. lia. Qed.
Lemma lookup_in s v x : lookup s v = Some x -> In (v, x) s.
Proof. induction s as [|[w y] s IH]; cbn [lookup]; [discriminate|]. destruct (Z.eqb_spec w v) as [->|N]; [intros [= ->]; now left|right; auto]. Qed.
Lemma lookup_none s v : lookup s v = None <-> ~ In v (map fst s).
Proof.
  induction s as [|[w y] s IH]; cbn [lookup map fst In]; [tauto|]. destruct (Z.eqb_spec w v) as [->|N]; [split; [discriminate|intros H; exfalso; tauto]|]. rewrite IH. tauto.
Qed.
Lemma lookup_live s v : In v (map fst s) -> exists x, lookup s v = Some x.
Proof. intros H. destruct (lookup s v) eqn:E; [eauto|]. now apply lookup_none in E. Qed.
Lemma holders_lookup s v x : lookup s v = Some x -> 1 <= holders s (id_ x).
Proof.
  induction s as [|[w y] s IH]; cbn [lookup]; [discriminate|]. rewrite holders_cons. pose proof (holders_nonneg s (id_ x)). destruct (Z.eqb_spec w v).
  - intros [= ->]. unfold here. rewrite Z.eqb_refl. lia.
  - intros H1. specialize (IH H1). unfold here. destruct (_ =? _); lia.
Qed.
Lemma keys_update s v x : map fst (update s v x) = map fst s.
Proof. unfold update. rewrite map_map. apply map_ext. intros [w y]. cbn [fst]. destruct (Z.eqb_spec w v) as [->|]; reflexivity. Qed.
Lemma update_absent s v x : ~ In v (map fst s) -> update s v x = s.
Proof.
  induction s as [|[w y] s IH]; [reflexivity|]. cbn [map fst In]. intros H. unfold update. cbn [map fst]. destruct (Z.eqb_spec w v); [exfalso; tauto|]. f_equal. apply IH. tauto.
Qed.
Lemma holders_update s v x y i : NoDup (map fst s) -> lookup s v = Some y -> holders (update s v x) i = holders s i + here x i - here y i.
Proof.
  induction s as [|[w z] s IH]; cbn [lookup map fst]; intros N; [discriminate|]. inversion N as [|? ? N1 N2]; subst.
  change (update ((w, z) :: s) v x) with ((if w =? v then (v, x) else (w, z)) :: update s v x). destruct (Z.eqb_spec w v) as [->|D].
  - intros [= ->]. rewrite update_absent by exact N1. rewrite !holders_cons. lia.
  - intros H. rewrite !holders_cons, IH by assumption. lia.
Qed.
Lemma remove_absent s v : ~ In v (map fst s) -> remove s v = s.
Proof.
  induction s as [|[w y] s IH]; [reflexivity|]. cbn [map fst In]. intros H. unfold remove. cbn [filter fst]. destruct (Z.eqb_spec w v); [exfalso; tauto|]. cbn [negb]. f_equal. apply IH. tauto.
Qed.
Lemma holders_remove s v y i : NoDup (map fst s) -> lookup s v = Some y -> holders (remove s v) i = holders s i - here y i.
Proof.
  induction s as [|[w z] s IH]; cbn [lookup map fst]; intros N; [discriminate|]. inversion N as [|? ? N1 N2]; subst.
  change (remove ((w, z) :: s) v) with (if negb (w =? v) then (w, z) :: remove s v else remove s v). destruct (Z.eqb_spec w v) as [->|D]; cbn [negb].
  - intros [= ->]. rewrite remove_absent by exact N1. rewrite !holders_cons. lia.
  - intros H. rewrite !holders_cons, IH by assumption. lia.
Qed.
Lemma keys_remove s v : map fst (remove s v) = filter (fun w => negb (w =? v)) (map fst s).
Proof. induction s as [|[w y] s IH]; [reflexivity|]. unfold remove in *. cbn [filter map fst]. destruct (w =? v); cbn [negb map fst]; [exact IH|now rewrite IH]. Qed.
Lemma in_update s v x w y : In (w, y) (update s v x) -> In (w, y) s \/ y = x.
Proof. unfold update. rewrite in_map_iff. intros [[u z] [E I]]. cbn [fst] in E. destruct (u =? v); injection E as <- <-; auto. Qed.
Lemma lookup_update s v x w : lookup (update s v x) w = if w =? v then match lookup s v with Some _ => Some x | None => None end else lookup s w.
Proof.
  induction s as [|[u z] s IH]; [cbn; now destruct (w =? v)|].
  change (update ((u, z) :: s) v x) with ((if u =? v then (v, x) else (u, z)) :: update s v x). cbn [lookup].
  destruct (Z.eqb_spec u v) as [->|N]; cbn [lookup].
  - destruct (Z.eqb_spec v w) as [->|N]; [now rewrite Z.eqb_refl|]. rewrite IH. destruct (Z.eqb_spec w v); [congruence|reflexivity].
  - destruct (Z.eqb_spec u w) as [->|N']; [destruct (Z.eqb_spec w v); [congruence|reflexivity]|exact IH].
Qed.
Lemma lookup_remove s v w : w <> v -> lookup (remove s v) w = lookup s w.
Proof.
  intros N. induction s as [|[u z] s IH]; [reflexivity|]. change (remove ((u, z) :: s) v) with (if negb (u =? v) then (u, z) :: remove s v else remove s v).
  cbn [lookup]. destruct (Z.eqb_spec u v) as [->|D]; cbn [negb lookup]; [rewrite IH; destruct (Z.eqb_spec v w); [congruence|reflexivity]|]. now rewrite IH.
Qed.

(** The library, with [h i] instances that identify object [i]; [D]: objects that have been closed by HDF5 itself *)
Definition lib_ok (D : list Z) (L : library) (h : Z -> Z) : Prop :=
  0 <= lib_next L /\ forall i, 0 <= i ->
    (lib_refs L i = h i \/ (lib_refs L i = 0 /\ In i D)) /\ (i < lib_next L -> lib_closed L i = if lib_refs L i =? 0 then 1 else 0) /\
    (lib_next L <= i -> lib_refs L i = 0 /\ lib_closed L i = 0 /\ h i = 0).
Definition ident_ok (L : library) (x : identifier) : Prop := id_ x = -1 \/ (0 <= id_ x < lib_next L /\ close_ x = Some Closes).

Lemma lib_ok_ext D L h h' : (forall i, 0 <= i -> h' i = h i) -> lib_ok D L h -> lib_ok D L h'.
Proof. intros E [N H]. split; [exact N|]. intros i Hi. rewrite E by exact Hi. now apply H. Qed.

Lemma release_ok debug D L h x : lib_ok D L h -> ident_ok L x -> (0 <= id_ x -> 1 <= h (id_ x)) ->
  exists L', close_if_valid debug L x = Ok L' /\ lib_next L' = lib_next L /\ lib_ok D L' (fun i => h i - here x i).
Proof.
  intros [N H] HX Hh. unfold close_if_valid. destruct (is_valid L x) eqn:V.
  - unfold is_valid in V. destruct (Z.leb_spec 0 (id_ x)) as [P|P]; [|discriminate V]. apply Z.ltb_lt in V. destruct HX as [HX|[HX EC]]; [lia|]. specialize (Hh P).
    destruct (H (id_ x) P) as [[R|[R _]] _]; [|lia].
    assert (VV : is_valid L x = true) by (unfold is_valid; rewrite (proj2 (Z.leb_le _ _) P); now apply Z.ltb_lt).
    unfold reference_count at 1. rewrite VV. cbn [obind]. unfold assertion at 1. rewrite (proj2 (Z.ltb_lt _ _) V). cbn [negb]. rewrite andb_false_r. cbn [obind]. rewrite EC.
    exists (call Closes L (id_ x)). split; [|split; [reflexivity|]].
    + destruct (Z.eqb_spec (lib_refs L (id_ x)) 1) as [E1|E1]; cbn [negb]; [now rewrite andb_false_r|]. destruct debug; cbn [andb]; [|reflexivity].
      unfold reference_count, is_valid. cbn [call lib_refs]. unfold put at 1. rewrite Z.eqb_refl, (proj2 (Z.leb_le _ _) P), (proj2 (Z.ltb_lt 0 (lib_refs L (id_ x) - 1))) by lia.
      cbn [obind]. unfold put, assertion. now rewrite !Z.eqb_refl.
    + split; [exact N|]. intros i Hi. cbn [call lib_next lib_refs lib_closed]. destruct (H i Hi) as [A [B C]]. unfold here, put. rewrite (Z.eqb_sym (id_ x) i). destruct (Z.eqb_spec i (id_ x)) as [->|NE].
      * split; [left; lia|]. split; [|lia]. intros _. specialize (B ltac:(lia)). destruct (Z.eqb_spec (lib_refs L (id_ x)) 1) as [E1|E1].
        -- rewrite Z.eqb_refl, E1 in *. cbn in *. lia.
        -- destruct (Z.eqb_spec (lib_refs L (id_ x)) 0); [lia|]. destruct (Z.eqb_spec (lib_refs L (id_ x) - 1) 0); [lia|]. exact B.
      * rewrite Z.sub_0_r. split; [exact A|]. split; [intros Hn; specialize (B Hn)|intros Hn; specialize (C Hn)]; (destruct (Z.eqb_spec (lib_refs L (id_ x)) 1); [destruct (Z.eqb_spec i (id_ x)); [contradiction|]|]; assumption).
  - exists L. split; [reflexivity|]. split; [reflexivity|]. split; [exact N|]. intros i Hi. destruct (H i Hi) as [A [B C]]. unfold here. destruct (Z.eqb_spec (id_ x) i) as [E|E]; [|rewrite Z.sub_0_r; auto].
    subst i. unfold is_valid in V. rewrite (proj2 (Z.leb_le _ _) Hi) in V. apply Z.ltb_ge in V. specialize (Hh Hi).
    split; [|split; [exact B|]].
    + destruct A as [A|A]; [lia|now right].
    + intros Hn. specialize (C Hn). lia.
Qed.

Lemma acquire_ok debug D L h x : lib_ok D L h -> ident_ok L x -> (0 <= id_ x -> 1 <= h (id_ x)) ->
  exists L', (if is_valid L x then increment_reference_count L x else Ok L) = Ok L' /\ lib_next L' = lib_next L /\ lib_ok D L' (fun i => h i + here x i) /\
    (forall y, ident_ok L y -> assert_invariant debug L' y = Ok tt).
Proof.
  intros [N H] HX Hh.
  assert (AI : forall L' y, lib_next L' = lib_next L -> ident_ok L y -> assert_invariant debug L' y = Ok tt).
  { intros L' y EN [HY|[_ HY]]; unfold assert_invariant, assertion, is_valid; rewrite HY; [cbn; now rewrite andb_false_r|]. rewrite andb_false_r. cbn [negb]. now rewrite andb_false_r. }
  destruct (is_valid L x) eqn:V.
  - unfold increment_reference_count. rewrite V. eexists. split; [reflexivity|]. split; [reflexivity|]. split; [|intros y Hy; now apply AI].
    unfold is_valid in V. destruct (Z.leb_spec 0 (id_ x)) as [P|P]; [|discriminate V]. apply Z.ltb_lt in V. specialize (Hh P). destruct HX as [HX|[HX EC]]; [lia|].
    split; [exact N|]. intros i Hi. cbn [lib_next lib_refs lib_closed]. destruct (H i Hi) as [A [B C]]. unfold here, put. rewrite (Z.eqb_sym (id_ x) i). destruct (Z.eqb_spec i (id_ x)) as [->|NE].
    + split; [left; lia|]. split; [|lia]. intros _. specialize (B ltac:(lia)). rewrite (proj2 (Z.eqb_neq _ _)) in B by lia. rewrite (proj2 (Z.eqb_neq _ _)) by lia. exact B.
    + rewrite Z.add_0_r. auto.
  - exists L. split; [reflexivity|]. split; [reflexivity|]. split; [|intros y Hy; now apply AI]. split; [exact N|]. intros i Hi. destruct (H i Hi) as [A [B C]]. unfold here. destruct (Z.eqb_spec (id_ x) i) as [E|E]; [|rewrite Z.add_0_r; auto].
    subst i. unfold is_valid in V. rewrite (proj2 (Z.leb_le _ _) Hi) in V. apply Z.ltb_ge in V. specialize (Hh Hi).
    split; [|split; [exact B|]].
    + destruct A as [A|A]; [lia|now right].
    + intros Hn. specialize (C Hn). lia.
Qed.

Definition inv (D : list Z) (live : list Z) (st : state) : Prop :=
  NoDup (map fst (st_store st)) /\ (forall v, In v (map fst (st_store st)) <-> In v live) /\
  (forall v x, In (v, x) (st_store st) -> ident_ok (st_lib st) x) /\ lib_ok D (st_lib st) (holders (st_store st)).

Definition closes_itself (o : op) : list Z := match o with Invalidate i => [i] | _ => [] end.

Lemma get_ok s v live : (forall v, In v (map fst s) <-> In v live) -> In v live -> exists x, lookup s v = Some x /\ get s v = Ok x.
Proof. intros H I. destruct (lookup_live s v) as [x E]; [now apply H|]. exists x. split; [exact E|]. unfold get. now rewrite E. Qed.
Lemma add_ok s v x live : (forall v, In v (map fst s) <-> In v live) -> ~ In v live -> add s v x = Ok ((v, x) :: s).
Proof. intros H I. unfold add. destruct (lookup s v) eqn:E; [|reflexivity]. exfalso. apply I, H. apply lookup_in in E. apply in_map_iff. now exists (v, i). Qed.
Lemma nothing_assert debug L : assert_invariant debug L nothing = Ok tt /\ assertion debug (negb (is_valid L nothing)) = Ok tt.
Proof. unfold assert_invariant, assertion, is_valid. cbn. now rewrite andb_false_r. Qed.
Lemma here_nothing i : 0 <= i -> here nothing i = 0.
Proof. intros H. unfold here, nothing. cbn [id_]. destruct (Z.eqb_spec (-1) i); lia. Qed.

Lemma inv_new D live L L' s v x : NoDup (map fst s) -> (forall v, In v (map fst s) <-> In v live) -> (forall v x, In (v, x) s -> ident_ok L x) -> ~ In v live ->
  lib_next L <= lib_next L' -> ident_ok L' x -> lib_ok D L' (fun i => holders s i + here x i) -> inv D (v :: live) (State L' ((v, x) :: s)).
Proof.
  intros ND K OK F EN OX LK. split; [|split; [|split]]; cbn [st_store st_lib].
  - cbn [map fst]. constructor; [rewrite K; exact F|exact ND].
  - intros w. cbn [map fst In]. rewrite K. tauto.
  - intros w y [E|I]; [injection E as <- <-; exact OX|]. destruct (OK w y I) as [A|[A B]]; [now left|right; split; [lia|exact B]].
  - eapply lib_ok_ext; [|exact LK]. intros i Hi. rewrite holders_cons. lia.
Qed.

Lemma step_ok debug D live st o : inv D live st -> allowed live o -> (forall v i, o <> Borrow v i) ->
  exists st', step debug o st = Ok st' /\ inv (closes_itself o ++ D) (live_after live o) st'.
Proof.
  destruct st as [L s]. intros [ND [K [OK LK]]] A NB. cbn [st_store st_lib] in *.
  destruct o as [v|v|v|v i|v w|v w|v|v w|v w|i]; cbn [allowed live_after closes_itself app step st_lib st_store] in *.
  - rewrite (add_ok s v _ live K A). cbn [obind]. eexists. split; [reflexivity|]. apply (inv_new D live L L); try assumption; [lia|now left|].
    eapply lib_ok_ext; [|exact LK]. intros i Hi. rewrite here_nothing by exact Hi. lia.
  - unfold assert_invariant at 1, assertion at 1. cbn [close_ andb]. rewrite andb_false_r. cbn [negb]. rewrite andb_false_r. cbn [obind]. rewrite (add_ok s v _ live K A). cbn [obind]. eexists. split; [reflexivity|].
    apply (inv_new D live L); try assumption; cbn [lib_next]; [lia|right; cbn; destruct LK; split; [lia|reflexivity]|].
    destruct LK as [N H]. split; cbn [lib_next lib_refs lib_closed]; [lia|]. intros i Hi. destruct (H i Hi) as [B [C E]]. unfold here, put. cbn [id_].
    replace (lib_next L + 1 - 1) with (lib_next L) by lia. rewrite (Z.eqb_sym (lib_next L) i). destruct (Z.eqb_spec i (lib_next L)) as [->|NE].
    + specialize (E ltac:(lia)). split; [left; lia|]. split; [intros _; cbn; lia|lia].
    + rewrite Z.add_0_r. split; [exact B|]. split; [intros; apply C; lia|intros; apply E; lia].
  - rewrite (add_ok s v _ live K A). cbn [obind]. eexists. split; [reflexivity|]. apply (inv_new D live L L); try assumption; [lia|now left|].
    eapply lib_ok_ext; [|exact LK]. intros i Hi. unfold here. cbn [id_]. destruct (Z.eqb_spec (-1) i); lia.
  - exfalso. now apply (NB v i).
  - destruct A as [A1 A2]. destruct (get_ok s w live K A2) as [y [E1 E2]]. rewrite E2. cbn [obind]. unfold copy_construct.
    pose proof (OK _ _ (lookup_in _ _ _ E1)) as OY. replace (Identifier (id_ y) (close_ y)) with y by now destruct y.
    destruct (acquire_ok debug D L _ y LK OY) as [L' [E3 [EN [LK' AI]]]]; [intros _; now apply (holders_lookup s w)|].
    rewrite E3. cbn [obind]. rewrite (AI y OY). cbn [obind]. rewrite (add_ok s v _ live K A1). cbn [obind]. eexists. split; [reflexivity|].
    apply (inv_new D live L); try assumption; [lia|]. destruct OY as [Q|Q]; [now left|right; now rewrite EN].
  - destruct A as [A1 A2]. destruct (get_ok s w live K A2) as [y [E1 E2]]. rewrite E2. cbn [obind]. unfold move_construct.
    pose proof (OK _ _ (lookup_in _ _ _ E1)) as OY. replace (Identifier (id_ y) (close_ y)) with y by now destruct y.
    assert (AI : assert_invariant debug L y = Ok tt).
    { destruct OY as [HY|[_ HY]]; unfold assert_invariant, assertion, is_valid; rewrite HY; [cbn; now rewrite andb_false_r|]. rewrite andb_false_r. cbn [negb]. now rewrite andb_false_r. }
    rewrite AI. cbn [obind]. rewrite (proj2 (nothing_assert debug L)). cbn [obind].
    assert (K' : forall u, In u (map fst (update s w nothing)) <-> In u live) by (intros u; rewrite keys_update; apply K).
    rewrite (add_ok _ v _ live K' A1). cbn [obind]. eexists. split; [reflexivity|]. apply (inv_new D live L L); try assumption; [now rewrite keys_update| |lia|].
    + intros u z I. apply in_update in I. destruct I as [I| ->]; [now apply (OK u)|now left].
    + eapply lib_ok_ext; [|exact LK]. intros i Hi. rewrite (holders_update _ _ _ y) by assumption. rewrite here_nothing by exact Hi. lia.
  - destruct (get_ok s v live K A) as [y [E1 E2]]. rewrite E2. cbn [obind]. pose proof (OK _ _ (lookup_in _ _ _ E1)) as OY.
    destruct (release_ok debug D L _ y LK OY) as [L' [E3 [EN LK']]]; [intros _; now apply (holders_lookup s v)|]. unfold destruct_. rewrite E3. cbn [noexcept obind]. eexists. split; [reflexivity|].
    split; [|split; [|split]]; cbn [st_store st_lib].
    + rewrite keys_remove. now apply NoDup_filter.
    + intros u. rewrite keys_remove, !filter_In, K. tauto.
    + intros u z I. apply filter_In in I. destruct I as [I _]. destruct (OK u z I) as [Q|Q]; [now left|right; now rewrite EN].
    + eapply lib_ok_ext; [|exact LK']. intros i Hi. now rewrite (holders_remove s v y).
  - destruct A as [A1 A2]. destruct (get_ok s v live K A1) as [x [E1 E2]]. destruct (get_ok s w live K A2) as [y [E3 E4]]. rewrite E2, E4. cbn [obind].
    destruct (Z.eqb_spec v w) as [->|NE]; [eexists; split; [reflexivity|]; split; [exact ND|]; split; [exact K|]; split; assumption|].
    pose proof (OK _ _ (lookup_in _ _ _ E1)) as OX. pose proof (OK _ _ (lookup_in _ _ _ E3)) as OY. unfold copy_assign.
    destruct (release_ok debug D L _ x LK OX) as [L1 [F1 [EN1 LK1]]]; [intros _; now apply (holders_lookup s v)|]. rewrite F1. cbn [obind].
    assert (V1 : is_valid L1 (Identifier (id_ y) (close_ x)) = is_valid L1 y) by reflexivity. rewrite V1.
    assert (I1 : increment_reference_count L1 (Identifier (id_ y) (close_ x)) = increment_reference_count L1 y) by reflexivity. rewrite I1.
    assert (OY1 : ident_ok L1 y) by (destruct OY as [Q|Q]; [now left|right; now rewrite EN1]).
    assert (HU : forall i, holders (update s v y) i = holders s i + here y i - here x i) by (intros i; now apply holders_update).
    destruct (acquire_ok debug D L1 _ y LK1 OY1) as [L2 [F2 [EN2 [LK2 AI]]]].
    { intros P. pose proof (holders_lookup s w y E3) as Q1. assert (LW : lookup (remove s v) w = Some y) by (rewrite lookup_remove by congruence; exact E3).
      pose proof (holders_lookup _ _ _ LW) as Q2. rewrite (holders_remove s v x) in Q2 by assumption. exact Q2. }
    rewrite F2. cbn [obind id_ close_]. replace (Identifier (id_ y) (close_ y)) with y by now destruct y. rewrite (AI y OY1). cbn [obind]. eexists. split; [reflexivity|].
    split; [|split; [|split]]; cbn [st_store st_lib].
    + now rewrite keys_update.
    + intros u. rewrite keys_update. apply K.
    + intros u z I. apply in_update in I. destruct I as [I| ->]; [destruct (OK u z I) as [Q|Q]; [now left|right; now rewrite EN2, EN1]|]. destruct OY as [Q|Q]; [now left|right; now rewrite EN2, EN1].
    + eapply lib_ok_ext; [|exact LK2]. intros i Hi. rewrite HU. lia.
  - destruct A as [A1 A2]. destruct (get_ok s v live K A1) as [x [E1 E2]]. destruct (get_ok s w live K A2) as [y [E3 E4]]. rewrite E2, E4. cbn [obind].
    pose proof (OK _ _ (lookup_in _ _ _ E1)) as OX. pose proof (OK _ _ (lookup_in _ _ _ E3)) as OY.
    destruct (release_ok debug D L _ x LK OX) as [L1 [F1 [EN1 LK1]]]; [intros _; now apply (holders_lookup s v)|].
    destruct (Z.eqb_spec v w) as [->|NE].
    + unfold move_assign_self. rewrite F1. cbn [obind]. rewrite (proj1 (nothing_assert debug L1)). cbn [obind]. rewrite (proj2 (nothing_assert debug L1)). cbn [obind noexcept]. eexists. split; [reflexivity|].
      split; [|split; [|split]]; cbn [st_store st_lib].
      * now rewrite keys_update.
      * intros u. rewrite keys_update. apply K.
      * intros u z I. apply in_update in I. destruct I as [I| ->]; [destruct (OK u z I) as [Q|Q]; [now left|right; now rewrite EN1]|now left].
      * eapply lib_ok_ext; [|exact LK1]. intros i Hi. rewrite (holders_update _ _ _ x) by assumption. rewrite here_nothing by exact Hi. lia.
    + unfold move_assign. rewrite F1. cbn [obind]. replace (Identifier (id_ y) (close_ y)) with y by now destruct y.
      assert (AI : assert_invariant debug L1 y = Ok tt).
      { destruct OY as [HY|[_ HY]]; unfold assert_invariant, assertion, is_valid; rewrite HY; [cbn; now rewrite andb_false_r|]. rewrite andb_false_r. cbn [negb]. now rewrite andb_false_r. }
      rewrite AI. cbn [obind]. rewrite (proj2 (nothing_assert debug L1)). cbn [obind noexcept]. eexists. split; [reflexivity|].
      split; [|split; [|split]]; cbn [st_store st_lib].
      * now rewrite !keys_update.
      * intros u. rewrite !keys_update. apply K.
      * intros u z I. apply in_update in I. destruct I as [I| ->]; [|now left]. apply in_update in I. destruct I as [I| ->]; [destruct (OK u z I) as [Q|Q]; [now left|right; now rewrite EN1]|]. destruct OY as [Q|Q]; [now left|right; now rewrite EN1].
      * eapply lib_ok_ext; [|exact LK1]. intros i Hi. rewrite (holders_update _ w nothing y).
        -- rewrite (holders_update _ v y x) by assumption. rewrite here_nothing by exact Hi. lia.
        -- now rewrite keys_update.
        -- rewrite lookup_update. destruct (Z.eqb_spec w v); [congruence|exact E3].
  - eexists. split; [reflexivity|]. split; [exact ND|]. split; [exact K|]. cbn [st_store st_lib]. destruct LK as [N H]. destruct (Z.ltb_spec 0 (lib_refs L i)) as [P|P].
    + split; [intros u z I; destruct (OK u z I) as [Q|Q]; [now left|now right]|]. split; [exact N|]. intros j Hj. destruct (H j Hj) as [B [C E]]. cbn [lib_refs lib_closed lib_next]. unfold put. destruct (Z.eqb_spec j i) as [->|NE].
      * split; [right; split; [reflexivity|now left]|]. split; [|intros Hn; specialize (E Hn); lia]. intros Hn. specialize (C Hn). rewrite (proj2 (Z.eqb_neq _ _)) in C by lia. cbn. lia.
      * split; [destruct B as [B|[B1 B2]]; [now left|right; split; [exact B1|now right]]|]. auto.
    + split; [exact OK|]. split; [exact N|]. intros j Hj. destruct (H j Hj) as [B [C E]]. split; [|auto]. destruct B as [B|[B1 B2]]; [now left|right; split; [exact B1|now right]].
Qed.

Lemma exec_ok debug ops : forall D live st, inv D live st -> accepted live ops -> owning ops ->
  exists st' D' live', exec debug ops st = Ok st' /\ inv D' live' st' /\ (forall i, In i D' -> In i D \/ In (Invalidate i) ops).
Proof.
  induction ops as [|o ops IH]; intros D live st I A O; [exists st, D, live; cbn; auto|]. destruct A as [A1 A2].
  destruct (step_ok debug D live st o I A1) as [st1 [E I1]]; [intros v i ->; apply (O v i); now left|].
  destruct (IH _ _ _ I1 A2) as [st' [D' [live' [E' [I' H]]]]]; [intros v i Hi; apply (O v i); now right|].
  exists st', D', live'. cbn [exec]. rewrite E. cbn [obind]. split; [exact E'|]. split; [exact I'|]. intros i Hi. destruct (H i Hi) as [Q|Q]; [|right; now right].
  apply in_app_or in Q. destruct Q as [Q|Q]; [|now left]. right. left. destruct o; cbn in Q; try contradiction. destruct Q as [->|[]]. reflexivity.
Qed.
Lemma start_inv : inv [] [] start.
Proof. split; [constructor|]. split; [cbn; tauto|]. split; [intros v x []|]. split; [cbn; lia|]. intros i Hi. cbn. repeat split; auto; lia. Qed.
