(** What a walk does to the classes of a partition. *)
From Verif Require Import Common CommonProofs CoreSpec DecompSpec ArraySpec IndexModel DecompModel ArrayModel ArrayRep GridModel GridProofs FlowSpec AccuSpec FlowModel RouterModel
  FlowProofs FlowProofs2 FlowProofs3 FlowProofs4 RouterProofs RouterProofs2 AccuInfoModel AccuInfoSpec.

Definition setv {B} (h : cell -> B) (x : cell) (v : B) : cell -> B := fun y => if cell_eqb y x then v else h y.
Lemma setv_same {B} (h : cell -> B) x v : setv h x v x = v.
Proof. unfold setv. now rewrite cell_eqb_refl. Qed.
Lemma setv_other {B} (h : cell -> B) x v y : y <> x -> setv h x v y = h y.
Proof. intros N. unfold setv. destruct (cell_eqb y x) eqn:E; [apply cell_eqb_spec in E; contradiction|reflexivity]. Qed.

Section Local.
Context (n0 n1 : Z) (lf : Z -> Z -> Z).

Definition gm {B} (h : cell -> B) : grid B := gmake n0 n1 (fun i j => h (i, j)).
Lemma gm_get {B} (h : cell -> B) t : inside n0 n1 t -> gget (gm h) (fst t) (snd t) = Ok (h t).
Proof. intros H. unfold gm. rewrite grid_get by exact H. now rewrite <- surjective_pairing. Qed.
Lemma gm_set {B} (h : cell -> B) t v : inside n0 n1 t -> gset (gm h) (fst t) (snd t) v = Ok (gm (setv h t v)).
Proof.
  intros H. unfold gm. apply grid_point; [exact H| |].
  - intros i j _ N. now apply setv_other.
  - rewrite <- surjective_pairing. apply setv_same.
Qed.

(** The class of a cell at which a walk of class [w] passes or ends *)
Definition finish (w : Z) (t : cell) : Z :=
  if cell_eqb (dest lf t) t then sink_cell else if insideb n0 n1 (dest lf t) then w else partition_output_cell.

Lemma leave_cell_ok (h : cell -> Z) t u : inside n0 n1 t -> inside n0 n1 u -> h t <> no_class -> h u <> no_class ->
  leave_cell (gm h) (fst t) (snd t) (fst u) (snd u) = Ok (gm (setv h u (h t))).
Proof.
  intros Ht Hu N1 N2. unfold leave_cell. rewrite gm_get, obind_Ok, gm_get, obind_Ok by assumption.
  replace (h u =? no_class) with false by lia. replace (h t =? no_class) with false by lia. cbn [negb]. now apply gm_set.
Qed.

Lemma stop_keeps hn s a b r c dr dc s' : stop_at_partition_output_cell no_material hn s a b r c dr dc = Ok s' ->
  ps_flow s' = ps_flow s /\ ps_count s' = ps_count s /\ ps_todo s' = ps_todo s /\ ps_inputs s' = ps_inputs s /\ ps_original s' = ps_original s.
Proof.
  unfold stop_at_partition_output_cell. destruct (destination_cell a b r c dr dc) as [[d idx]| |]; cbn [obind]; try discriminate.
  destruct (erase_first _ _); cbn [obind]; try discriminate. destruct (hn d).
  - destruct (gget _ _ _); cbn [obind]; try discriminate. unfold send. destruct (ch_closed _); cbn [obind]; [discriminate|].
    intros E. injection E as <-. destruct (filter _ _); repeat split; reflexivity.
  - intros E. injection E as <-. repeat split; reflexivity.
Qed.

(** Bookkeeping has no results. *)
Lemma update_unit (s : bookkeeping) r c body s' : update_result s r c body = Ok s' -> s' = s.
Proof.
  unfold update_result. destruct (gget (ps_result s) r c) as [[]| |] eqn:E; cbn [obind]; try discriminate.
  destruct (body tt) as [[]| |]; cbn [obind]; try discriminate.
  assert (G : gset (ps_result s) r c tt = Ok (ps_result s)).
  { unfold gget, gset in *. destruct (in_grid _ r c); [|discriminate]. destruct (ps_result s) as [m0 m1 l]; cbn [gl g0 g1] in *.
    assert (L : forall (l : list unit) i u, at_z l i = Ok u -> upd_z i tt l = Some l).
    { clear. intros l i u. unfold at_z, nth_z, upd_z. destruct (i <? 0); [discriminate|]. generalize (Z.to_nat i). clear i. induction l as [|[] l IH]; intros [|n]; cbn; try discriminate; [reflexivity|].
      intros H. now rewrite IH. }
    now rewrite (L _ _ _ E). }
  rewrite G. cbn [obind]. intros H. injection H as <-. destruct s; reflexivity.
Qed.

(** A walk of class [w] that starts in [t] *)
Lemma walk_ok hn w : w <> no_class -> forall fuel (s s' : bookkeeping) k h t, inside n0 n1 t ->
  ps_flow s = gmake n0 n1 lf -> ps_count s = gm k -> h t = w -> (forall u, inside n0 n1 u -> 0 < k u -> h u <> no_class) ->
  accumulate no_material fuel hn s (fst t) (snd t) = Ok s' ->
  exists k' h', info_accumulate fuel hn s (gm h) (fst t) (snd t) = Ok (s', gm h') /\
    ps_flow s' = ps_flow s /\ ps_original s' = ps_original s /\ ps_count s' = gm k' /\ ps_todo s' = ps_todo s /\ ps_inputs s' = ps_inputs s /\
    k t = 0 /\ h' t = finish w t /\
    (forall u, inside n0 n1 u -> k u <= 0 -> k' u = k u /\ (u <> t -> h' u = h u)) /\
    (forall u, inside n0 n1 u -> 0 < k u -> 0 <= k' u /\ (0 < k' u -> h' u <> no_class) /\
       (k' u = 0 -> h' u = finish w u /\ exists v, inside n0 n1 v /\ dest lf v = u /\ v <> u /\ (v = t \/ 0 < k v /\ k' v = 0))).
Proof.
  intros Hw. induction fuel as [|fuel IH]; intros s s' k h t Ht Ef Ek Eh Hc; cbn [accumulate info_accumulate]; [discriminate|].
  rewrite Ek, (gm_get k t Ht), !obind_Ok. destruct (Z.eqb_spec (k t) 0) as [Kt|Kt]; cbn [negb]; [|discriminate].
  destruct (gget (ps_args s) (fst t) (snd t)) as [a| |]; cbn [obind]; try discriminate.
  destruct (update_result s (fst t) (snd t) _) as [s1| |] eqn:E1; cbn [obind]; try discriminate. apply update_unit in E1. subst s1.
  rewrite Ef. change (g0 (gmake n0 n1 lf)) with n0. change (g1 (gmake n0 n1 lf)) with n1.
  rewrite downstream_within_ok by apply Ht. rewrite !obind_Ok, <- surjective_pairing.
  destruct (keypad (lf (fst t) (snd t))) as [dr dc] eqn:EK.
  assert (ED : dest lf t = (fst t + dr, snd t + dc)) by (unfold dest; now rewrite EK).
  destruct ((dr =? 0) && (dc =? 0)) eqn:E0.
  - assert (E : dest lf t = t) by (rewrite ED, (surjective_pairing t); cbn [fst snd]; f_equal; lia).
    intros H. injection H as <-. rewrite gm_set by exact Ht. rewrite obind_Ok. exists k, (setv h t sink_cell). repeat split; try assumption; try reflexivity.
    + rewrite setv_same. unfold finish. now rewrite E, cell_eqb_refl.
    + intros N. now rewrite setv_other.
    + lia.
    + intros _. rewrite setv_other by (intros ->; lia). now apply Hc.
    + lia.
    + lia.
  - assert (Ne : dest lf t <> t) by (rewrite ED; destruct t; cbn [fst snd]; intros E; injection E; lia).
    destruct (insideb n0 n1 (dest lf t)) eqn:Ei; cbn [negb].
    2:{ intros H. destruct (stop_keeps _ _ _ _ _ _ _ _ _ H) as [K1 [K2 [K3 [K4 K5]]]]. rewrite gm_set by exact Ht. rewrite obind_Ok, H, obind_Ok.
        exists k, (setv h t partition_output_cell). repeat split; try assumption; try congruence.
        all: try lia.
        + rewrite setv_same. unfold finish. rewrite Ei. destruct (cell_eqb (dest lf t) t) eqn:E; [apply cell_eqb_spec in E; contradiction|reflexivity].
        + intros N. now rewrite setv_other.
        + intros _. rewrite setv_other by (intros ->; lia). now apply Hc. }
    assert (Iu : inside n0 n1 (dest lf t)) by now apply insideb_spec.
    set (u := dest lf t) in *. assert (U0 : fst t + dr = fst u) by now rewrite ED. assert (U1 : snd t + dc = snd u) by now rewrite ED. rewrite !U0, !U1.
    destruct (gget (ps_result s) (fst t) (snd t)) as [x| |]; cbn [obind]; try discriminate.
    destruct (update_result s (fst u) (snd u) _) as [s1| |] eqn:E1; cbn [obind]; try discriminate. apply update_unit in E1. subst s1.
    rewrite Ek, (gm_get k u Iu), !obind_Ok. destruct (Z.leb_spec 1 (k u)) as [Ku|Ku]; cbn [negb]; [|discriminate].
    rewrite (gm_set k u (k u - 1) Iu), obind_Ok. rewrite leave_cell_ok; [|assumption|assumption|congruence|apply Hc; [assumption|lia]]. rewrite !obind_Ok, Eh. replace (1 <=? k u) with true by lia. cbn [negb].
    rewrite ?(gm_set k u (k u - 1) Iu), ?obind_Ok.
    assert (FT : finish w t = w).
    { unfold finish. fold u. rewrite Ei. destruct (cell_eqb u t) eqn:E; [apply cell_eqb_spec in E; contradiction|reflexivity]. }
    assert (Ntu : t <> u) by congruence.
    destruct (Z.ltb_spec 0 (k u - 1)) as [Kp|Kp].
    + intros H. injection H as <-. rewrite gm_set by exact Iu. rewrite obind_Ok. exists (setv k u (k u - 1)), (setv (setv h u w) u confluence_cell).
      repeat split; try assumption; try reflexivity.
      * rewrite !setv_other by assumption. congruence.
      * rewrite setv_other; [reflexivity|]. intros ->. lia.
      * intros N. rewrite !setv_other; [reflexivity| |]; intros ->; lia.
      * destruct (cell_dec u0 u) as [->|N]; [rewrite setv_same; lia|rewrite setv_other by exact N; lia].
      * intros _. destruct (cell_dec u0 u) as [->|N]; [rewrite setv_same; discriminate|rewrite !setv_other by exact N; now apply Hc].
      * destruct (cell_dec u0 u) as [->|N]; [rewrite setv_same in *; lia|rewrite !setv_other in * by exact N; lia].
      * destruct (cell_dec u0 u) as [->|N]; [rewrite setv_same in *; lia|rewrite !setv_other in * by exact N; lia].
    + assert (Ku1 : k u = 1) by lia. intros H.
      destruct (IH (set_count s (gm (setv k u (k u - 1)))) s' (setv k u (k u - 1)) (setv h u w) u) as [k' [h' [R1 [R2 [R3 [R4 [R5 [R6 [R7 [R8 [R9 R10]]]]]]]]]]]; try assumption; try reflexivity.
      * apply setv_same.
      * intros v Iv Kv. destruct (cell_dec v u) as [->|N]; [now rewrite setv_same|rewrite setv_other in * by exact N; now apply Hc].
      * exists k', h'. split; [exact R1|]. split; [rewrite R2; exact Ef|]. split; [exact R3|]. split; [exact R4|]. split; [exact R5|]. split; [exact R6|]. split; [exact Kt|].
        assert (Ku' : k' u = 0).
        { destruct (R9 u Iu) as [Q _]; rewrite setv_same in *; lia. }
        split; [|split].
        -- destruct (R9 t Ht) as [_ Q]; [rewrite setv_other by exact Ntu; lia|]. rewrite Q by exact Ntu. rewrite setv_other by exact Ntu. congruence.
        -- intros v Iv Kv. assert (N : v <> u) by (intros ->; lia). destruct (R9 v Iv) as [Q1 Q2]; [rewrite setv_other by exact N; lia|]. rewrite setv_other in Q1 by exact N.
           split; [exact Q1|]. intros _. rewrite Q2 by exact N. now apply setv_other.
        -- intros v Iv Kv. destruct (cell_dec v u) as [->|N].
           { split; [lia|]. split; [lia|]. intros _. split; [exact R8|]. exists t. auto. }
           destruct (R10 v Iv) as [Q1 [Q2 Q3]]; [rewrite setv_other by exact N; lia|]. split; [exact Q1|]. split; [exact Q2|].
           intros Z. destruct (Q3 Z) as [F [v' [V1 [V2 [V3 V4]]]]]. split; [exact F|]. exists v'. repeat split; try assumption; try apply V1.
           destruct V4 as [->|[V4 V5]]; [right; lia|]. destruct (cell_dec v' u) as [->|N']; [rewrite setv_same in V4; lia|]. rewrite setv_other in V4 by exact N'. right. auto.
Qed.
End Local.
