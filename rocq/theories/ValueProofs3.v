From Verif Require Import Common CoreSpec DecompSpec ArraySpec IndexModel DecompModel ArrayModel IOModel IOSpec NumpyModel NumpySpec ValueModel ValueSpec.
From Verif Require Import CommonProofs IndexProofs DecompProofs ArrayProofs AggregateProofs IOProofs IOProofs3 NumpyProofs ValueProofs ValueProofs2.

Section Runs.
Context {V Change : Type} (change : Change -> V -> outcome V).
(** A sequence of changes: one that fails has no effect *)
Fixpoint run_changes (cs : list Change) (v : V) : outcome V :=
  match cs with
  | [] => Ok v
  | c :: cs' => match change c v with Ok v' => run_changes cs' v' | Throw => run_changes cs' v | UB => UB end
  end.
Lemma run_changes_app a b v : run_changes (a ++ b) v = obind (run_changes a v) (run_changes b).
Proof. revert v. induction a as [|c a IH]; intros v; [reflexivity|]. cbn [app run_changes]. destruct (change c v); [apply IH|apply IH|reflexivity]. Qed.
End Runs.

Lemma find_item_app {V} k (a b : list (Z * V)) : find_item k (a ++ b) = match find_item k a with Some v => Some v | None => find_item k b end.
Proof. unfold find_item. induction a as [|[j v] a IH]; [reflexivity|]. cbn [app find fst]. destruct (j =? k); [reflexivity|exact IH]. Qed.

Lemma find_item_none {V} k (l : list (Z * V)) : ~ In k (map fst l) -> find_item k l = None.
Proof.
  unfold find_item. induction l as [|[j v] l IH]; intros H; [reflexivity|]. cbn [find fst map] in *. destruct (Z.eqb_spec j k) as [->|N]; [exfalso; apply H; now left|].
  apply IH. intros Hin. apply H. now right.
Qed.

Lemma find_item_some {V} k v (l : list (Z * V)) : NoDup (map fst l) -> In (k, v) l -> find_item k l = Some v.
Proof.
  unfold find_item. induction l as [|[j w] l IH]; intros HN HI; [destruct HI|]. cbn [find fst map] in *. apply NoDup_cons_iff in HN. destruct HN as [HN HN'].
  destruct HI as [HI|HI].
  - injection HI as -> ->. rewrite Z.eqb_refl. reflexivity.
  - destruct (Z.eqb_spec j k) as [->|N]; [|now apply IH]. exfalso. apply HN. apply in_map_iff. now exists (k, v).
Qed.

Lemma find_item_in {V} k v (l : list (Z * V)) : find_item k l = Some v -> In (k, v) l.
Proof.
  unfold find_item. intros H. destruct (find (fun kv => fst kv =? k) l) as [[j w]|] eqn:E; [|discriminate]. cbn in H. injection H as ->.
  apply find_some in E. destruct E as [E1 E2]. cbn in E2. apply Z.eqb_eq in E2. now subst.
Qed.

Lemma store_item_names {V} k v (l : list (Z * V)) : map fst (store_item k v l) = map fst l.
Proof. unfold store_item. rewrite map_map. apply map_ext. intros [j w]. cbn. destruct (Z.eqb_spec j k); cbn; congruence. Qed.

Lemma store_item_other {V} k j v (l : list (Z * V)) : j <> k -> find_item j (store_item k v l) = find_item j l.
Proof.
  intros N. unfold find_item, store_item. induction l as [|[i w] l IH]; [reflexivity|]. cbn [map find fst]. destruct (Z.eqb_spec i k) as [->|M].
  - cbn [fst]. replace (k =? j) with false by lia. exact IH.
  - cbn [fst]. destruct (i =? j); [reflexivity|exact IH].
Qed.

Lemma store_item_same {V} k v (l : list (Z * V)) : In k (map fst l) -> find_item k (store_item k v l) = Some v.
Proof.
  unfold find_item, store_item. induction l as [|[i w] l IH]; intros H; [destruct H|]. cbn [map find fst] in *. destruct (Z.eqb_spec i k) as [->|M].
  - cbn [fst]. rewrite Z.eqb_refl. reflexivity.
  - cbn [fst]. replace (i =? k) with false by lia. apply IH. destruct H; [contradiction|assumption].
Qed.

Lemma Forall2_nth_error {A B} (P : A -> B -> Prop) l l' n a b : Forall2 P l l' -> nth_error l n = Some a -> nth_error l' n = Some b -> P a b.
Proof. intros F. revert n. induction F as [|x y l l' HP F IH]; intros [|n] Ha Hb; cbn in *; try discriminate; [congruence|eauto]. Qed.

Section Groups.
Context {V Item Create Change : Type} (create : Create -> handle -> group V -> effect V) (change : Change -> V -> outcome V).
Context (made : Create -> list (Z * Item)) (mk : Item -> V) (fine : Create -> Prop).
(** Creating items with names that are not in use *)
Context (creates : forall c h g, fine c -> NoDup (map fst (gr_items g) ++ names (made c)) ->
  create c h g = (Ok tt, Handle (ha_count h + Z.of_nat (length (made c))) (ha_rank h),
    Group (gr_items g ++ map (fun kv => (fst kv, mk (snd kv))) (made c)) (ha_count h + Z.of_nat (length (made c))))).
Notation op := (group_op Create Change).

Definition item_ok (h : list op) (ki : Z * Item) (kv : Z * V) : Prop :=
  fst kv = fst ki /\ run_changes change (rev (changes (fst ki) h)) (mk (snd ki)) = Ok (snd kv).

Definition good (h : list op) (w : world V) : Prop :=
  Forall2 (item_ok h) (created made h) (gr_items (wo_file w)) /\
  gr_count (wo_file w) = Z.of_nat (length (created made h)) /\
  exists old rank, wo_handles w = old ++ [Handle (Z.of_nat (length (created made h))) rank] /\ length old = opened h.

Lemma items_names h items : Forall2 (item_ok h) (created made h) items -> map fst items = names (created made h).
Proof. intros H. unfold names. induction H as [|ki kv l l' [E1 _] H IH]; [reflexivity|]. cbn. now f_equal. Qed.

Lemma Forall2_impl_in {A B} (P Q : A -> B -> Prop) l l' : (forall a b, In a l -> In b l' -> P a b -> Q a b) -> Forall2 P l l' -> Forall2 Q l l'.
Proof.
  intros H F. induction F as [|a b l l' HP F IH]; [constructor|]. constructor; [apply H; [now left|now left|assumption]|].
  apply IH. intros a' b' Ha Hb. apply H; now right.
Qed.

Lemma changes_none (h : list op) name : in_order made h -> ~ In name (names (created made h)) -> changes name h = [].
Proof.
  induction h as [|o h IH]; intros HO HN; [reflexivity|]. destruct o as [r|i c|k c]; cbn [in_order created changes] in *.
  - now apply IH.
  - apply IH; [assumption|]. intros Hin. apply HN. unfold names in *. rewrite map_app. apply in_or_app. now left.
  - destruct HO as [HK HO]. destruct (Z.eqb_spec k name) as [->|N]; [contradiction|]. now apply IH.
Qed.

Lemma group_run_app a b w : group_run create change (a ++ b) w = obind (group_run create change a w) (group_run create change b).
Proof. revert w. induction a as [|o a IH]; intros w; [reflexivity|]. cbn [app group_run]. destruct (group_step create change o w); [apply IH|reflexivity|reflexivity]. Qed.

Lemma upd_last {T} (l : list T) x y : upd_nth (length l) y (l ++ [x]) = Some (l ++ [y]).
Proof. induction l as [|z l IH]; [reflexivity|]. cbn. now rewrite IH. Qed.
Lemma nth_last {T} (l : list T) x : nth_error (l ++ [x]) (length l) = Some x.
Proof. rewrite nth_error_app2 by lia. now rewrite Nat.sub_diag. Qed.

Lemma group_good (h : list op) rank : one_at_a_time h -> in_order made h -> no_name_twice made h -> (forall i c, In (CreateItems i c) h -> fine c) ->
  (forall k i, In (k, i) (created made h) -> exists v, run_changes change (rev (changes k h)) (mk i) = Ok v) ->
  exists w, group_run create change (rev h) (World create_group [Handle 0 rank]) = Ok w /\ good h w.
Proof.
  induction h as [|o h IH]; intros HS HO HN HC HR.
  - eexists. split; [reflexivity|]. split; [constructor|]. split; [reflexivity|]. exists [], rank. split; reflexivity.
  - cbn [rev]. rewrite group_run_app.
    destruct o as [r|i c|k c]; cbn [one_at_a_time] in HS.
    + destruct IH as [w [E1 [G1 [G2 [old [rk [G3 G4]]]]]]]; [assumption|exact HO|exact HN|intros; eapply HC; right; eassumption|exact HR|].
      rewrite E1. cbn [obind group_run group_step]. eexists. split; [reflexivity|]. unfold good. cbn [created wo_file wo_handles opened]. split; [exact G1|]. split; [exact G2|].
      exists (wo_handles w), r. unfold open_value. rewrite G2. split; [reflexivity|]. rewrite G3, app_length. cbn [length]. lia.
    + destruct HS as [So HS]. subst i. unfold no_name_twice in HN. cbn [created in_order] in *. assert (HN0 := HN). unfold names in HN. rewrite map_app in HN. destruct (NoDup_app_parts _ _ HN) as [N1 [N2 N3]].
      destruct IH as [w [E1 [G1 [G2 [old [rk [G3 G4]]]]]]]; [assumption|assumption|exact N1|intros; eapply HC; right; eassumption| |].
      { intros k i Hin. apply (HR k i). apply in_or_app. now left. }
      rewrite E1. cbn [obind group_run group_step]. rewrite G3, <- G4, nth_last. rewrite creates.
      2: { eapply HC. now left. }
      2: { rewrite (items_names _ _ G1). exact HN. }
      rewrite upd_last. cbn [obind]. eexists. split; [reflexivity|]. unfold good. cbn [created wo_file wo_handles gr_items gr_count ha_count ha_rank].
      split; [|split].
      * apply Forall2_app.
        -- exact G1.
        -- assert (HCC : forall l, (forall ki, In ki l -> In ki (made c)) -> Forall2 (item_ok (CreateItems (length old) c :: h)) l (map (fun kv => (fst kv, mk (snd kv))) l)).
           { induction l as [|ki l IHl]; intros Hl; [constructor|]. cbn [map]. constructor; [|apply IHl; intros; apply Hl; now right].
             split; [reflexivity|]. cbn [fst snd changes]. rewrite changes_none; [reflexivity|assumption|]. intros Hin. apply (N3 (fst ki)); [exact Hin|].
             apply in_map. apply Hl. now left. }
           apply HCC. tauto.
      * rewrite app_length. lia.
      * exists old, rk. rewrite app_length. split; [|exact G4]. do 3 f_equal. lia.
    + unfold no_name_twice in *. cbn [created in_order] in *. destruct HO as [HK HO].
      destruct IH as [w [E1 [G1 [G2 [old [rk [G3 G4]]]]]]]; [assumption|assumption|assumption|intros; eapply HC; right; eassumption| |].
      { intros j i Hin. destruct (HR j i Hin) as [v Hv]. cbn [changes] in Hv. destruct (k =? j); [|now exists v].
        cbn [rev] in Hv. rewrite run_changes_app in Hv. destruct (run_changes change (rev (changes j h)) (mk i)) as [u| |]; [now exists u|discriminate|discriminate]. }
      rewrite E1. cbn [obind group_run group_step]. pose proof (items_names _ _ G1) as EN.
      apply in_map_iff in HK. destruct HK as [[k' i] [Ek Hi]]. cbn in Ek. subst k'.
      assert (exists v, find_item k (gr_items (wo_file w)) = Some v /\ run_changes change (rev (changes k h)) (mk i) = Ok v) as [v [Ev Rv]].
      { destruct (In_nth_error _ _ Hi) as [m Hm].
        destruct (nth_error (gr_items (wo_file w)) m) as [[k' v]|] eqn:EV.
        2: { apply nth_error_None in EV. pose proof (Forall2_len _ _ _ G1) as HLen. assert (m < length (created made h))%nat by (apply nth_error_Some; congruence). lia. }
        destruct (Forall2_nth_error _ _ _ _ _ _ G1 Hm EV) as [A1 A2]. cbn in A1, A2. subst k'. exists v. split; [|assumption].
        apply find_item_some; [rewrite EN; assumption|]. eapply nth_error_In. exact EV. }
      unfold update_item, item. rewrite Ev. cbn [obind].
      destruct (HR k i Hi) as [v' Hv']. cbn [changes] in Hv'. rewrite Z.eqb_refl in Hv'. cbn [rev] in Hv'. rewrite run_changes_app, Rv in Hv'. cbn [obind run_changes] in Hv'.
      destruct (change c v) as [u| |] eqn:EC; [| |discriminate].
      * injection Hv' as ->. cbn [obind]. eexists. split; [reflexivity|]. unfold good. cbn [created wo_file wo_handles gr_items gr_count opened]. split; [|split; [assumption|exists old, rk; split; assumption]].
        assert (HCC : forall l l', (forall ki, In ki l -> In ki (created made h)) -> Forall2 (item_ok h) l l' -> Forall2 (item_ok (ChangeItem k c :: h)) l (store_item k v' l')).
        { induction l as [|ki l IHl]; intros l' Hl F; inversion F as [|? kv ? l'' [A1 A2] F']; subst; [constructor|]. cbn [store_item map]. constructor.
          - unfold item_ok. cbn [changes]. rewrite A1. destruct (Z.eqb_spec (fst ki) k) as [Eq|Ne].
            + cbn [fst snd]. split; [now rewrite Eq|]. rewrite Eq, Z.eqb_refl. cbn [rev]. rewrite run_changes_app. rewrite Eq in A2. rewrite A2. cbn [obind run_changes].
              assert (EK : snd ki = i).
              { assert (In (k, snd ki) (created made h)). { rewrite <- Eq. replace (fst ki, snd ki) with ki by (destruct ki; reflexivity). apply Hl. now left. }
                pose proof (find_item_some _ _ _ HN H) as P1. pose proof (find_item_some _ _ _ HN Hi) as P2. congruence. }
              rewrite EK in A2. rewrite A2 in Rv. injection Rv as ->. rewrite EC. reflexivity.
            + replace (k =? fst ki) with false by lia. split; assumption.
          - apply IHl; [|assumption]. intros. apply Hl. now right. }
        apply HCC; [tauto|assumption].
      * cbn [obind]. eexists. split; [reflexivity|]. split; [|split; [assumption|exists old, rk; split; assumption]].
        eapply Forall2_impl_in; [|exact G1]. intros ki kv Hki Hkv [A1 A2]. split; [assumption|]. cbn [changes]. destruct (Z.eqb_spec k (fst ki)) as [Eq|Ne]; [|assumption].
        cbn [rev]. rewrite run_changes_app, A2. cbn [obind run_changes].
        assert (EK : snd ki = i).
        { assert (In (k, snd ki) (created made h)). { rewrite Eq. replace (fst ki, snd ki) with ki by (destruct ki; reflexivity). assumption. }
          pose proof (find_item_some _ _ _ HN H) as P1. pose proof (find_item_some _ _ _ HN Hi) as P2. congruence. }
        rewrite EK, <- Eq in A2. rewrite A2 in Rv. injection Rv as ->. rewrite EC. reflexivity.
Qed.

Lemma good_item (h : list op) w k i : no_name_twice made h -> good h w -> In (k, i) (created made h) ->
  exists v, item k (wo_file w) = Ok v /\ run_changes change (rev (changes k h)) (mk i) = Ok v.
Proof.
  intros HN [G1 _] Hi. destruct (In_nth_error _ _ Hi) as [m Hm].
  destruct (nth_error (gr_items (wo_file w)) m) as [[k' v]|] eqn:EV.
  2: { apply nth_error_None in EV. pose proof (Forall2_len _ _ _ G1) as HLen. assert (m < length (created made h))%nat by (apply nth_error_Some; congruence). lia. }
  destruct (Forall2_nth_error _ _ _ _ _ _ G1 Hm EV) as [A1 A2]. cbn in A1, A2. subst k'. exists v. split; [|assumption].
  unfold item. rewrite (find_item_some k v); [reflexivity| |].
  - rewrite (items_names _ _ G1). exact HN.
  - eapply nth_error_In. exact EV.
Qed.

Lemma good_no_item (h : list op) w k : good h w -> ~ In k (names (created made h)) -> item k (wo_file w) = Throw /\ has_item k (wo_file w) = false.
Proof. intros [G1 _] HN. unfold item, has_item. rewrite find_item_none; [split; reflexivity|]. now rewrite (items_names _ _ G1). Qed.
Lemma good_counts (h : list op) w : good h w -> instance_counts h w (gr_count (wo_file w)).
Proof. intros [_ [G2 [old [rk [G3 G4]]]]]. unfold instance_counts. rewrite G3, G2, <- G4. split; [rewrite app_length; cbn [length]; lia|]. rewrite nth_last. reflexivity. Qed.
End Groups.
