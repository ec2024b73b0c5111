(** Proofs about clump (C28): one border and one corner. *)
From Verif Require Import Common CommonProofs IndexModel DecompModel ArrayModel ArrayProofs GridModel GridProofs UniqueModel UniqueSpec UniqueProofs ClumpSpec ClumpModel ClumpProofs ClumpProofs2 ClumpProofs3.

Lemma nth_z_map_zseq {A} (h : Z -> A) len i : 0 <= i < len -> nth_z i (map h (zseq 0 len)) = Some (h i).
Proof. intros H. unfold nth_z. destruct (Z.ltb_spec i 0); [lia|]. rewrite nth_error_map, nth_error_zseq by lia. cbn [option_map]. f_equal. f_equal. lia. Qed.
Lemma find_position_ok : forall v (h : Z -> Z) len, 0 <= len -> let p := find_position v (map h (zseq 0 len)) in
  p = len /\ (forall t, 0 <= t < len -> h t <> v) \/ 0 <= p < len /\ h p = v /\ forall t, 0 <= t < p -> h t <> v.
Proof.
  intros v h len Hlen.
  assert (G : forall (m : nat) s (p := find_position v (map h (zseq s (Z.of_nat m)))), p = Z.of_nat m /\ (forall t, s <= t < s + Z.of_nat m -> h t <> v) \/ 0 <= p < Z.of_nat m /\ h (s + p) = v /\ forall t, s <= t < s + p -> h t <> v).
  { induction m as [|m IH]; intros s; cbv zeta.
    - left. split; [reflexivity|]. intros t Ht. lia.
    - rewrite zseq_cons by lia. cbn [map find_position]. replace (Z.of_nat (S m) - 1) with (Z.of_nat m) by lia. destruct (Z.eqb_spec (h s) v) as [E|N].
      + right. split; [lia|]. rewrite Z.add_0_r. split; [exact E|]. intros t Ht. lia.
      + specialize (IH (s + 1)). cbv zeta in IH. set (p := find_position v (map h (zseq (s + 1) (Z.of_nat m)))) in *. destruct IH as [[IH1 IH2]|(IH1 & IH2 & IH3)].
        * left. split; [lia|]. intros t Ht. destruct (Z.eq_dec t s) as [->|]; [exact N|]. apply IH2. lia.
        * right. split; [lia|]. replace (s + (1 + p)) with (s + 1 + p) by lia. split; [exact IH2|]. intros t Ht. destruct (Z.eq_dec t s) as [->|]; [exact N|]. apply IH3. lia. }
  specialize (G (Z.to_nat len) 0). cbv zeta in G |- *. rewrite Z2Nat.id in G by lia. rewrite !Z.add_0_l in G. exact G.
Qed.

Lemma side_clumps_ok : forall znd (h ids : Z -> Z) len b start, 0 <= start <= len -> znd b = false ->
  exists l, side_clumps znd (map h (zseq 0 len)) (map ids (zseq 0 len)) b start = Ok l /\ forall id, In id l <-> exists t, start <= t < len /\ h t = b /\ id = ids t.
Proof.
  intros znd h ids len b start Hs Hb. unfold side_clumps. rewrite map_length, zseq_length. replace (Z.of_nat (Z.to_nat len) - start) with (len - start) by lia.
  rewrite (sequence_map_ok _ (fun i => (h i, ids i))).
  2:{ intros t Ht. apply in_zseq in Ht. rewrite (nth_z_at _ _ _ (nth_z_map_zseq h len t ltac:(lia))), (nth_z_at _ _ _ (nth_z_map_zseq ids len t ltac:(lia))). reflexivity. }
  cbn [obind]. eexists. split; [reflexivity|]. intros id. rewrite in_map_iff. split.
  - intros [[b' i] [<- H]]. apply filter_In in H. destruct H as [H1 H2]. apply in_map_iff in H1. destruct H1 as [t [E Ht]]. injection E as <- <-. apply in_zseq in Ht. exists t. split; [lia|]. split; [lia|reflexivity].
  - intros [t (Ht & Eh & ->)]. exists (h t, ids t). split; [reflexivity|]. apply filter_In. split; [apply in_map_iff; exists t; split; [reflexivity|apply in_zseq; lia]|]. rewrite Eh, Hb, Z.eqb_refl. reflexivity.
Qed.

Section Border.
Context (R : Z -> Z -> Prop) (vk : clump_key -> Prop) (gid : clump_key -> Z).
Hypothesis R_sym : forall x y, R x y -> R y x.
Hypothesis R_trans : forall x y w, R x y -> R y w -> R x w.
Hypothesis gid_inj : forall k k', vk k -> vk k' -> gid k = gid k' -> k = k'.
Context (znd cnd : Z -> bool) (mark V : Z).
Hypothesis Hmark : cnd mark = true.
Hypothesis Hzmark : znd mark = true.
Hypothesis Hids : forall id, 0 <= id < V -> cnd id = false.
Hypothesis Hzids : forall id, 0 <= id < V -> znd id = false.

Section One.
Context (how : connectivity) (len np sp : Z) (nl sl : local_result) (nz sz ni si : Z -> Z).
Hypothesis Hlen : 0 < len.
Hypothesis HV : 2 * len <= V.
Hypothesis Hps : np <> sp.
Definition two_rows (a t : Z) : Z := if a =? 0 then nz t else sz t.
Local Notation J := (joined how (rectangle 0 2 0 len) znd (fun x => two_rows (fst x) (snd x))).
Definition row_key (a t : Z) : clump_key := if a =? 0 then (np, ni t) else (sp, si t).
Hypothesis Hn : forall t, 0 <= t < len -> znd (nz t) = false -> vk (np, ni t) /\ global_clump_id nl (ni t) = Ok (gid (np, ni t)).
Hypothesis Hs : forall t, 0 <= t < len -> znd (sz t) = false -> vk (sp, si t) /\ global_clump_id sl (si t) = Ok (gid (sp, si t)).
Hypothesis HR : forall a t a' t', J (a, t) (a', t') -> R (gid (row_key a t)) (gid (row_key a' t')).

Lemma border_ok : forall ms, inv R vk gid ms ->
  exists ms', obind (fill_cells znd cnd mark how (Grid 2 len (map nz (zseq 0 len) ++ map sz (zseq 0 len))) (cells2 0 1 0 len)) (fun '(boundary, _) =>
    merge_border znd (np, nl) (sp, sl) (map ni (zseq 0 len)) (map si (zseq 0 len)) (firstn (length (map nz (zseq 0 len))) (gl boundary)) (skipn (length (map nz (zseq 0 len))) (gl boundary)) ms) = Ok ms' /\
    inv R vk gid ms' /\ grows ms ms' /\ (forall t t', J (0, t) (1, t') -> together gid ms' (np, ni t) (sp, si t')).
Proof.
  intros ms0 Hinv0.
  assert (Etwo : forall h : Z -> Z -> Z, gl (gmake 2 len h) = map (h 0) (zseq 0 len) ++ map (h 1) (zseq 0 len)).
  { intros h. unfold gmake, cells2. change (zseq 0 2) with [0; 1]. cbn [flat_map gl]. rewrite app_nil_r, map_app, !map_map. reflexivity. }
  assert (Eg : Grid 2 len (map nz (zseq 0 len) ++ map sz (zseq 0 len)) = gmake 2 len two_rows).
  { change (gmake 2 len two_rows) with (Grid 2 len (gl (gmake 2 len two_rows))). rewrite Etwo. reflexivity. }
  rewrite Eg. destruct (fill_cells_ok znd cnd mark V how 2 len two_rows ltac:(lia) Hlen ltac:(lia) Hmark Hids 1 ltac:(lia)) as [gb [nb [Ef L]]]. rewrite Ef. cbn [obind]. clear Ef Eg.
  rewrite Etwo. rewrite map_length. rewrite firstn_app, skipn_app. rewrite map_length, Nat.sub_diag, firstn_all2, skipn_all2 by (rewrite map_length; lia). cbn [firstn skipn app]. rewrite app_nil_r.
  destruct L as (L1 & L2 & L3 & _). rewrite cells2_length in L1 by lia.
  set (seen := seen_joined znd how 2 len two_rows (cells2 0 1 0 len)) in *.
  assert (Hin : forall t, 0 <= t < len -> rectangle 0 2 0 len (0, t) /\ rectangle 0 2 0 len (1, t)) by (intros t Ht; unfold rectangle; cbn [fst snd]; lia).
  (* the cells in the north row *)
  assert (Hnorth : forall t, 0 <= t < len -> gb 0 t = mark /\ znd (nz t) = true \/ 0 <= gb 0 t < V /\ znd (nz t) = false /\ seen (0, t)).
  { intros t Ht. destruct (L2 (0, t)) as [[E N]|[E S]]; [apply Hin; exact Ht| |].
    - left. cbn [fst snd] in E. split; [exact E|]. destruct (znd (nz t)) eqn:Ez; [reflexivity|]. exfalso. apply N. exists (0, t). split; [apply in_cells2; lia|]. apply joined_refl; [apply Hin; exact Ht|exact Ez].
    - right. cbn [fst snd] in E. split; [lia|]. split; [|exact S]. destruct S as [y [_ S]]. pose proof (joined_valid _ _ _ _ _ _ S) as Hv. pose proof (joined_value _ _ _ _ _ _ S) as Hx. cbn [fst snd] in Hv, Hx. rewrite <- Hx in Hv. exact Hv. }
  assert (Hsouth : forall t, 0 <= t < len -> gb 1 t = mark \/ 0 <= gb 1 t < V /\ znd (sz t) = false /\ seen (1, t)).
  { intros t Ht. destruct (L2 (1, t)) as [[E N]|[E S]]; [apply Hin; exact Ht|left; exact E|]. right. cbn [fst snd] in E. split; [lia|]. split; [|exact S].
    destruct S as [y [_ S]]. pose proof (joined_valid _ _ _ _ _ _ S) as Hv. pose proof (joined_value _ _ _ _ _ _ S) as Hx. cbn [fst snd] in Hv, Hx. rewrite <- Hx in Hv. exact Hv. }
  assert (Hequal : forall a t a' t' b, (a = 0 \/ a = 1) -> (a' = 0 \/ a' = 1) -> 0 <= t < len -> 0 <= t' < len -> znd b = false -> gb a t = b -> gb a' t' = b -> J (a, t) (a', t')).
  { assert (Hseen : forall a t b, (a = 0 \/ a = 1) -> 0 <= t < len -> znd b = false -> gb a t = b -> seen (a, t)).
    { intros a t b [->| ->] Ht Hb E; [destruct (Hnorth t Ht) as [[E' _]|(_ & _ & S)]|destruct (Hsouth t Ht) as [E'|(_ & _ & S)]]; try exact S; congruence. }
    intros a t a' t' b Ha Ha' Ht Ht' Hb E E'. apply (L3 (a, t) (a', t')); [eapply Hseen; eauto|eapply Hseen; eauto|]. cbn [fst snd]. congruence. }
  unfold merge_border. rewrite map_length, zseq_length. replace (Z.of_nat (Z.to_nat len)) with len by lia.
  set (step := fun (acc : outcome (list Z * merge_state)) north_idx => obind acc _).
  assert (G : forall (k : nat) m handled ms, m + Z.of_nat k = len -> 0 <= m -> inv R vk gid ms -> grows ms0 ms ->
    (forall b, In b handled -> exists t, 0 <= t < m /\ gb 0 t = b) -> (forall t, 0 <= t < m -> znd (gb 0 t) = false -> In (gb 0 t) handled) ->
    (forall b t t', In b handled -> 0 <= t < len -> 0 <= t' < len -> gb 0 t = b -> gb 1 t' = b -> together gid ms (np, ni t) (sp, si t')) ->
    exists handled' ms', fold_left step (zseq m (Z.of_nat k)) (Ok (handled, ms)) = Ok (handled', ms') /\ inv R vk gid ms' /\ grows ms0 ms' /\
      (forall t t', 0 <= t < len -> 0 <= t' < len -> znd (gb 0 t) = false -> gb 1 t' = gb 0 t -> together gid ms' (np, ni t) (sp, si t'))).
  { induction k as [|k IH]; intros m handled ms Hm Hm0 Hinv Hg H1 H2 H3.
    - exists handled, ms. split; [reflexivity|]. split; [exact Hinv|]. split; [exact Hg|]. intros t t' Ht Ht' Hz E. apply (H3 (gb 0 t) t t'); auto. apply H2; [lia|exact Hz].
    - rewrite zseq_cons by lia. cbn [fold_left]. unfold step at 2. cbn [obind]. rewrite (nth_z_at _ _ _ (nth_z_map_zseq (gb 0) len m ltac:(lia))). cbn [obind]. replace (Z.of_nat (S k) - 1) with (Z.of_nat k) by lia.
      destruct (znd (gb 0 m)) eqn:Ez; cbn [negb andb].
      { apply IH; auto; try lia.
        - intros b Hb. destruct (H1 b Hb) as [t [Ht E]]. exists t. split; [lia|exact E].
        - intros t Ht Hz. destruct (Z.eq_dec t m) as [->|]; [congruence|]. apply H2; [lia|exact Hz]. }
      destruct (existsb (Z.eqb (gb 0 m)) handled) eqn:Eh; cbn [negb].
      { assert (Hh : In (gb 0 m) handled) by (apply existsb_exists in Eh; destruct Eh as [x [I E]]; replace (gb 0 m) with x by lia; exact I).
        apply IH; auto; try lia.
        - intros b Hb. destruct (H1 b Hb) as [t [Ht E]]. exists t. split; [lia|exact E].
        - intros t Ht Hz. destruct (Z.eq_dec t m) as [->|]; [exact Hh|]. apply H2; [lia|exact Hz]. }
      assert (Nh : ~ In (gb 0 m) handled). { intros Hh. assert (existsb (Z.eqb (gb 0 m)) handled = true) by (apply existsb_exists; eexists; split; [exact Hh|lia]). congruence. }
      assert (Hfirst : forall t, 0 <= t < len -> gb 0 t = gb 0 m -> m <= t). { intros t Ht E. destruct (Z.le_gt_cases m t); [assumption|]. exfalso. apply Nh. rewrite <- E. apply H2; [lia|congruence]. }
      pose proof (find_position_ok (gb 0 m) (gb 1) len ltac:(lia)) as Hp. cbv zeta in Hp. set (p := find_position (gb 0 m) (map (gb 1) (zseq 0 len))) in *.
      destruct Hp as [[Ep Hp]|(Ep & Hp1 & Hp2)].
      + rewrite Ep, Z.eqb_refl. cbn [negb obind]. apply IH; auto; try lia.
        * intros b [<-|Hb]; [exists m; split; [lia|reflexivity]|]. destruct (H1 b Hb) as [t [Ht E]]. exists t. split; [lia|exact E].
        * intros t Ht Hz. destruct (Z.eq_dec t m) as [->|]; [left; reflexivity|]. right. apply H2; [lia|exact Hz].
        * intros b t t' [<-|Hb] Ht Ht' E E'; [|apply (H3 b); auto]. exfalso. exact (Hp t' Ht' E').
      + destruct (Z.eqb_spec p len) as [|_]; [lia|]. cbn [negb].
        destruct (side_clumps_ok znd (gb 0) ni len (gb 0 m) m ltac:(lia) Ez) as [ns [Ens Hns]]. rewrite Ens. cbn [obind].
        destruct (side_clumps_ok znd (gb 1) si len (gb 0 m) p ltac:(lia) Ez) as [ss [Ess Hss]]. rewrite Ess. cbn [obind].
        assert (In_n : forall t, 0 <= t < len -> gb 0 t = gb 0 m -> In (ni t) ns) by (intros t Ht E; apply Hns; exists t; split; [split; [auto|lia]|auto]).
        assert (In_s : forall t, 0 <= t < len -> gb 1 t = gb 0 m -> In (si t) ss).
        { intros t Ht E. apply Hss. exists t. split; [|auto]. split; [|lia]. destruct (Z.le_gt_cases p t); [assumption|]. exfalso. exact (Hp2 t ltac:(lia) E). }
        destruct (merge_clump_ok R vk gid R_sym R_trans gid_inj (gid (np, ni m)) (np, nl) ns (sp, sl) ss ms Hinv) as [ms' (Em & I' & G' & T')].
        * intros id Hid. apply Hns in Hid. destruct Hid as [t (Ht & E & ->)]. cbn [fst snd]. destruct (Hn t ltac:(lia)) as [V1 V2].
          { destruct (Hnorth t ltac:(lia)) as [[E' _]|(_ & E' & _)]; [congruence|exact E']. }
          split; [exact V1|]. split; [|exact V2]. apply (HR 0 t 0 m). apply (Hequal 0 t 0 m (gb 0 m)); auto; lia.
        * intros id Hid. apply Hss in Hid. destruct Hid as [t (Ht & E & ->)]. cbn [fst snd]. destruct (Hs t ltac:(lia)) as [V1 V2].
          { destruct (Hsouth t ltac:(lia)) as [E'|(_ & E' & _)]; [congruence|exact E']. }
          split; [exact V1|]. split; [|exact V2]. apply (HR 1 t 0 m). apply (Hequal 1 t 0 m (gb 0 m)); auto; lia.
        * intros E. specialize (In_n m ltac:(lia) eq_refl). rewrite E in In_n. destruct In_n.
        * intros E. specialize (In_s p ltac:(lia) Hp1). rewrite E in In_s. destruct In_s.
        * exact Hps.
        * rewrite Em. cbn [obind]. apply IH; auto; try lia.
          -- eapply grows_trans; eassumption.
          -- intros b [<-|Hb]; [exists m; split; [lia|reflexivity]|]. destruct (H1 b Hb) as [t [Ht E]]. exists t. split; [lia|exact E].
          -- intros t Ht Hz. destruct (Z.eq_dec t m) as [->|]; [left; reflexivity|]. right. apply H2; [lia|exact Hz].
          -- intros b t t' [<-|Hb] Ht Ht' E E'; [|eapply together_grows; [exact G'|]; apply (H3 b); auto].
             apply T'; cbn [fst]; [left; exists (ni t); auto|right; exists (si t'); auto]. }
  destruct (G (Z.to_nat len) 0 [] ms0) as [handled [ms (E & I' & G' & T')]]; auto; try lia.
  - apply grows_refl.
  - intros b [].
  - intros b t t' [].
  - rewrite Z2Nat.id in E by lia. rewrite E. cbn [obind]. exists ms. split; [reflexivity|]. split; [exact I'|]. split; [exact G'|].
    intros t t' H. pose proof (joined_left _ _ _ _ _ _ H) as [_ B1]. pose proof (joined_right _ _ _ _ _ _ H) as [_ B2]. cbn [fst snd] in B1, B2.
    assert (S0 : seen (0, t)) by (exists (0, t); split; [apply in_cells2; lia|exact (joined_left_refl _ _ _ _ _ _ H)]).
    assert (S1 : seen (1, t')) by (exists (0, t); split; [apply in_cells2; lia|exact H]).
    apply T'; [lia|lia| |].
    + destruct (Hnorth t ltac:(lia)) as [[_ E']|(E' & _ & _)]; [|apply Hzids; lia]. pose proof (joined_valid _ _ _ _ _ _ H) as Hv. cbn [fst snd] in Hv. unfold two_rows in Hv. rewrite Z.eqb_refl in Hv. congruence.
    + symmetry. apply (L3 (0, t) (1, t')); assumption.
Qed.
End One.
End Border.
