(** Proofs about clump (C28): labelling the cells of one grid. *)
From Verif Require Import Common CommonProofs IndexModel DecompModel ArrayModel ArrayProofs GridModel GridProofs ClumpSpec ClumpModel ClumpProofs.

Section Joined.
Context (how : connectivity) (inside : Z * Z -> Prop) (nd : Z -> bool) (f : Z * Z -> Z).
Local Notation J := (joined how inside nd f).

Lemma neighbours_sym : forall x y, neighbours how x y -> neighbours how y x.
Proof. intros [r c] [r' c']. unfold neighbours. cbn [fst snd]. destruct how; lia. Qed.
Lemma joined_value : forall x y, J x y -> f y = f x.
Proof. intros x y H. induction H; [reflexivity|congruence]. Qed.
Lemma joined_valid : forall x y, J x y -> nd (f x) = false.
Proof. intros x y H. induction H; assumption. Qed.
Lemma joined_left : forall x y, J x y -> inside x.
Proof. intros x y H. induction H; assumption. Qed.
Lemma joined_right : forall x y, J x y -> inside y.
Proof. intros x y H. induction H; assumption. Qed.
Lemma joined_trans : forall x y w, J x y -> J y w -> J x w.
Proof. intros x y w H1 H2. induction H2; [assumption|]. eapply joined_step; [apply IHjoined; exact H1|..]; eassumption. Qed.
Lemma joined_one : forall x y, inside x -> nd (f x) = false -> inside y -> neighbours how x y -> f y = f x -> J x y.
Proof. intros x y H1 H2 H3 H4 H5. eapply joined_step; [apply joined_refl; eassumption|..]; assumption. Qed.
Lemma joined_sym : forall x y, J x y -> J y x.
Proof.
  intros x y H. induction H as [x I V|x y w H IH I N E]; [now apply joined_refl|].
  apply (joined_trans w y x); [|exact IH]. apply joined_one; [exact I| |now apply (joined_right x)|now apply neighbours_sym|congruence].
  rewrite E, (joined_value _ _ H). now apply (joined_valid x y).
Qed.
Lemma joined_left_refl : forall x y, J x y -> J x x.
Proof. intros x y H. apply joined_refl; [now apply (joined_left x y)|now apply (joined_valid x y)]. Qed.
End Joined.

Lemma joined_inside : forall how (i i' : Z * Z -> Prop) nd f x y, (forall w, i w -> i' w) -> joined how i nd f x y -> joined how i' nd f x y.
Proof. intros how i i' nd f x y H J. induction J; [apply joined_refl; auto|eapply joined_step; eauto]. Qed.

(** Moving the grid *)
Lemma joined_map : forall how how' (i i' : Z * Z -> Prop) nd f f' (m : Z * Z -> Z * Z) x y, (forall w, i w -> i' (m w)) -> (forall w, i w -> f' (m w) = f w) ->
  (forall v w, neighbours how v w -> neighbours how' (m v) (m w)) -> joined how i nd f x y -> joined how' i' nd f' (m x) (m y).
Proof.
  intros how how' i i' nd f f' m x y H1 H2 H3 J. induction J as [x I V|x y w J IH I N E].
  - apply joined_refl; [auto|]. now rewrite H2.
  - eapply joined_step; [exact IH|auto|auto|]. rewrite !H2; auto. now apply (joined_right _ _ _ _ x y J).
Qed.

Section Label.
Context (znd cnd : Z -> bool) (mark V : Z) (how : connectivity) (nr nc : Z) (z : Z -> Z -> Z).
Hypothesis Hnr : 0 < nr.
Hypothesis Hnc : 0 < nc.
Hypothesis HV : nr * nc <= V.
Hypothesis Hmark : cnd mark = true.
Hypothesis Hids : forall id, 0 <= id < V -> cnd id = false.
Local Notation ins := (rectangle 0 nr 0 nc).
Local Notation J := (joined how ins znd (fun x => z (fst x) (snd x))).
Local Notation zones := (gmake nr nc z).

Lemma flood_ok : forall r0 c0 f0 k, 0 <= k < V -> J (r0, c0) (r0, c0) -> (forall r c, inb nr nc r c -> f0 r c <> k) ->
  (forall r c, J (r0, c0) (r, c) -> cnd (f0 r c) = true) -> (forall r c, J (r0, c0) (r, c) -> r0 <= r) ->
  exists f', flood_fill znd cnd how zones r0 c0 (gmake nr nc f0) k = Ok (gmake nr nc f') /\
  (forall r c, J (r0, c0) (r, c) -> f' r c = k) /\ (forall r c, inb nr nc r c -> (f' r c = f0 r c /\ ~ J (r0, c0) (r, c)) \/ (f' r c = k /\ J (r0, c0) (r, c))).
Proof.
  intros r0 c0 f0 k Hk H0 Hf0 Hfr Hfirst.
  assert (Hconn : forall r c, J (r0, c0) (r, c) -> conn znd nr nc z (z r0 c0) r c).
  { intros r c H. pose proof (joined_right _ _ _ _ _ _ H) as [H1 H2]. pose proof (joined_value _ _ _ _ _ _ H) as H3. pose proof (joined_valid _ _ _ _ _ _ H) as H4.
    cbn [fst snd] in *. split; [split; lia|]. unfold cn. rewrite H3, H4, Z.eqb_refl. reflexivity. }
  assert (Hstep : forall r c r' c', J (r0, c0) (r, c) -> conn znd nr nc z (z r0 c0) r' c' -> neighbours how (r, c) (r', c') -> J (r0, c0) (r', c')).
  { intros r c r' c' H [[H1 H2] H3] H4. eapply joined_step; [exact H|split; cbn [fst snd]; lia|exact H4|]. cbn [fst snd]. unfold cn in H3. pose proof (joined_value _ _ _ _ _ _ H) as H5. cbn [fst snd] in H5. lia. }
  apply (flood_fill_ok znd cnd how nr nc z (z r0 c0) k Hnr Hnc (Hids k Hk) (fun r c => J (r0, c0) (r, c)) f0); auto.
  - intros r c c' H C Hc. apply (Hstep r c); auto. unfold neighbours. cbn [fst snd]. destruct how; lia.
  - intros r c r' c' H C Hr Hc. apply (Hstep r c); auto. unfold neighbours, delta in *. cbn [fst snd]. destruct how; lia.
  - intros P P0 P1 P2 r c H.
    assert (G : forall x y, J x y -> x = (r0, c0) -> P (fst y) (snd y)); [|exact (G _ _ H eq_refl)]. clear r c H. intros x y H.
    induction H as [x Ii Vx|x [r1 c1] [r c] H IH Ii N E]; intros ->; [exact P0|]. cbn [fst snd]. specialize (IH eq_refl). cbn [fst snd] in IH.
    assert (C : conn znd nr nc z (z r0 c0) r c) by (apply Hconn; eapply joined_step; eassumption).
    destruct (Z.eq_dec r r1) as [->|Nr].
    + apply (P1 r1 c1); auto. unfold neighbours in N. cbn [fst snd] in N. destruct how; lia.
    + apply (P2 r1 c1); auto; unfold neighbours, delta in *; cbn [fst snd] in N; destruct how; lia.
Qed.

(** The labels after the cells in [seen] were looked at *)
Definition seen_joined (seen : list (Z * Z)) (x : Z * Z) : Prop := exists y, In y seen /\ J y x.
Definition labelled (seen : list (Z * Z)) (g : Z -> Z -> Z) (n : Z) : Prop :=
  0 <= n <= Z.of_nat (length seen) /\
  (forall x, ins x -> (g (fst x) (snd x) = mark /\ ~ seen_joined seen x) \/ (0 <= g (fst x) (snd x) < n /\ seen_joined seen x)) /\
  (forall x y, seen_joined seen x -> seen_joined seen y -> (g (fst x) (snd x) = g (fst y) (snd y) <-> J x y)) /\
  (forall id, 0 <= id < n -> exists x, seen_joined seen x /\ g (fst x) (snd x) = id).

Lemma prefix_rows : forall m seen r c rest, 0 <= m <= nr -> seen ++ (r, c) :: rest = cells2 0 m 0 nc -> forall r' c', 0 <= r' < r -> 0 <= c' < nc -> In (r', c') seen.
Proof.
  intros m seen r c rest Hm E r' c' Hr Hc.
  assert (Hin : In (r, c) (cells2 0 m 0 nc)) by (rewrite <- E; apply in_or_app; right; left; reflexivity). apply in_cells2 in Hin.
  pose proof (nth_cells2 0 m 0 nc r c ltac:(lia) ltac:(lia)) as E1. rewrite !Z.add_0_l in E1.
  assert (E2 : nth_error (cells2 0 m 0 nc) (length seen) = Some (r, c)). { rewrite <- E, nth_error_app2 by lia. rewrite Nat.sub_diag. reflexivity. }
  assert (EL : length seen = Z.to_nat (r * nc + c)).
  { pose proof (cells2_NoDup 0 m 0 nc) as ND. rewrite NoDup_nth_error in ND. apply ND; [apply nth_error_Some; rewrite E2; discriminate|congruence]. }
  pose proof (nth_cells2 0 m 0 nc r' c' ltac:(lia) ltac:(lia)) as E3. rewrite !Z.add_0_l in E3.
  rewrite <- E, nth_error_app1 in E3 by nia. apply nth_error_In in E3. exact E3.
Qed.

Lemma seen_step : forall seen x y, seen_joined (seen ++ [x]) y <-> seen_joined seen y \/ J x y.
Proof.
  intros seen x y. unfold seen_joined. split.
  - intros [w [I H]]. apply in_app_or in I. destruct I as [I|[<-|[]]]; [left; eauto|right; exact H].
  - intros [[w [I H]]|H]; [exists w; split; [apply in_or_app; left; exact I|exact H]|exists x; split; [apply in_or_app; right; left; reflexivity|exact H]].
Qed.
Lemma seen_trans : forall seen x y, seen_joined seen x -> J x y -> seen_joined seen y.
Proof. intros seen x y [w [I H]] Hxy. exists w. split; [exact I|]. now apply (joined_trans _ _ _ _ w x y). Qed.

Definition fill_step_of := fun (acc : outcome (grid Z * Z)) (rc : Z * Z) => let '(row, col) := rc in obind acc (fun '(clumps, clump_id) =>
      obind (gget zones row col) (fun zone => obind (gget clumps row col) (fun clump =>
      if negb (znd zone) && cnd clump then obind (flood_fill znd cnd how zones row col clumps clump_id) (fun clumps => Ok (clumps, clump_id + 1))
      else Ok (clumps, clump_id)))).

Lemma label_step : forall m seen r c rest g n, 0 <= m <= nr -> seen ++ (r, c) :: rest = cells2 0 m 0 nc -> labelled seen g n ->
  exists g' n', fill_step_of (Ok (gmake nr nc g, n)) (r, c) = Ok (gmake nr nc g', n') /\ labelled (seen ++ [(r, c)]) g' n'.
Proof.
  intros m seen r c rest g n Hm E (L1 & L2 & L3 & L4).
  assert (Hin : In (r, c) (cells2 0 m 0 nc)) by (rewrite <- E; apply in_or_app; right; left; reflexivity). apply in_cells2 in Hin.
  assert (Hlen : Z.of_nat (length seen) < nr * nc).
  { assert (length (cells2 0 m 0 nc) = (length seen + S (length rest))%nat) by (rewrite <- E, app_length; reflexivity). rewrite cells2_length in H by lia. nia. }
  assert (Ii : ins (r, c)) by (split; cbn [fst snd]; lia).
  unfold fill_step_of. cbn [obind]. rewrite !gget_make by lia. cbn [obind].
  destruct (negb (znd (z r c)) && cnd (g r c)) eqn:Et.
  - apply andb_prop in Et. destruct Et as [Ez Eg]. assert (Hv : znd (z r c) = false) by (destruct (znd (z r c)); [discriminate|reflexivity]).
    assert (HJ : J (r, c) (r, c)) by (apply joined_refl; assumption).
    assert (Hns : ~ seen_joined seen (r, c)). { destruct (L2 (r, c) Ii) as [[_ H]|[H _]]; [exact H|]. cbn [fst snd] in H. rewrite Hids in Eg by lia. discriminate. }
    destruct (flood_ok r c g n) as [g' (E1 & G1 & G2)].
    + lia.
    + exact HJ.
    + intros r' c' [I1 I2] En. destruct (L2 (r', c')) as [[H _]|[H _]]; [split; cbn [fst snd]; lia| |]; cbn [fst snd] in H; [|lia].
      rewrite En in H. rewrite <- H, Hids in Hmark by lia. discriminate.
    + intros r' c' H. destruct (L2 (r', c')) as [[H1 _]|[_ H1]]; [apply (joined_right _ _ _ _ _ _ H)|cbn [fst snd] in H1; rewrite H1; exact Hmark|].
      exfalso. apply Hns. apply (seen_trans seen (r', c')); [exact H1|now apply joined_sym].
    + intros r' c' H. pose proof (joined_right _ _ _ _ _ _ H) as [H1 H2]. cbn [fst snd] in *. destruct (Z.le_gt_cases r r'); [assumption|]. exfalso. apply Hns.
      exists (r', c'). split; [|now apply joined_sym]. apply (prefix_rows m seen r c rest); auto; lia.
    + rewrite E1. cbn [obind]. exists g', (n + 1). split; [reflexivity|].
      assert (Hdec : forall x, ins x -> J (r, c) x \/ ~ J (r, c) x) by (intros [r' c'] [I1 I2]; cbn [fst snd] in *; destruct (G2 r' c') as [[_ H]|[_ H]]; [split; lia|right; exact H|left; exact H]).
      assert (Hold : forall x, ins x -> ~ J (r, c) x -> g' (fst x) (snd x) = g (fst x) (snd x)) by (intros [r' c'] [I1 I2] N; cbn [fst snd] in *; destruct (G2 r' c') as [[H _]|[_ H]]; [split; lia|exact H|contradiction]).
      assert (Hnew : forall x, J (r, c) x -> g' (fst x) (snd x) = n) by (intros [r' c'] H; apply G1; exact H).
      assert (Hdis : forall x, seen_joined seen x -> ~ J (r, c) x). { intros x Hs H. apply Hns. apply (seen_trans seen x); [exact Hs|now apply joined_sym]. }
      assert (Hsi : forall x, seen_joined seen x -> ins x) by (intros x [y [_ H]]; exact (joined_right _ _ _ _ _ _ H)).
      assert (Hsg : forall x, seen_joined seen x -> 0 <= g (fst x) (snd x) < n). { intros x Hs. destruct (L2 x (Hsi x Hs)) as [[_ N]|[H _]]; [contradiction|exact H]. }
      split; [rewrite app_length; cbn [length]; lia|]. split; [|split].
      * intros x Hi. destruct (Hdec x Hi) as [H|H].
        -- right. rewrite (Hnew x H). split; [lia|]. apply seen_step. right. exact H.
        -- rewrite (Hold x Hi H). destruct (L2 x Hi) as [[H1 H2]|[H1 H2]]; [left|right].
           ++ split; [exact H1|]. rewrite seen_step. tauto.
           ++ split; [lia|]. apply seen_step. left. exact H2.
      * intros x y Hx Hy. apply seen_step in Hx, Hy. destruct Hx as [Hx|Hx], Hy as [Hy|Hy].
        -- rewrite !Hold by auto. apply L3; assumption.
        -- rewrite (Hold x) by auto. rewrite (Hnew y Hy). split; [intros; specialize (Hsg x Hx); lia|]. intros H. exfalso. apply (Hdis x Hx). apply (joined_trans _ _ _ _ _ y); [exact Hy|now apply joined_sym].
        -- rewrite (Hold y) by auto. rewrite (Hnew x Hx). split; [intros; specialize (Hsg y Hy); lia|]. intros H. exfalso. apply (Hdis y Hy). apply (joined_trans _ _ _ _ _ x); assumption.
        -- rewrite (Hnew x Hx), (Hnew y Hy). split; [intros _|reflexivity]. apply (joined_trans _ _ _ _ _ (r, c)); [now apply joined_sym|exact Hy].
      * intros id Hid. destruct (Z.eq_dec id n) as [->|].
        -- exists (r, c). split; [apply seen_step; right; exact HJ|apply (Hnew (r, c)); exact HJ].
        -- destruct (L4 id ltac:(lia)) as [x [Hx Ex]]. exists x. split; [apply seen_step; left; exact Hx|]. rewrite Hold by auto. exact Ex.
  - exists g, n. split; [reflexivity|].
    assert (Hsame : forall y, seen_joined (seen ++ [(r, c)]) y <-> seen_joined seen y).
    { intros y. rewrite seen_step. split; [|auto]. intros [H|H]; [exact H|]. pose proof (joined_valid _ _ _ _ _ _ H) as Hv. cbn [fst snd] in Hv. rewrite Hv in Et. cbn [negb andb] in Et.
      destruct (L2 (r, c) Ii) as [[H1 _]|[_ H1]]; [cbn [fst snd] in H1; congruence|]. now apply (seen_trans seen (r, c)). }
    split; [rewrite app_length; cbn [length]; lia|]. split; [|split].
    + intros x Hi. rewrite Hsame. apply L2. exact Hi.
    + intros x y. rewrite !Hsame. apply L3.
    + intros id Hid. destruct (L4 id Hid) as [x [Hx Ex]]. exists x. rewrite Hsame. auto.
Qed.

Lemma fill_cells_ok : forall m, 0 <= m <= nr -> exists g n, fill_cells znd cnd mark how zones (cells2 0 m 0 nc) = Ok (gmake nr nc g, n) /\ labelled (cells2 0 m 0 nc) g n.
Proof.
  intros m Hm.
  assert (G : forall rest seen g n, seen ++ rest = cells2 0 m 0 nc -> labelled seen g n ->
    exists g' n', fold_left fill_step_of rest (Ok (gmake nr nc g, n)) = Ok (gmake nr nc g', n') /\ labelled (cells2 0 m 0 nc) g' n').
  { induction rest as [|[r c] rest IH]; intros seen g n E L.
    - rewrite app_nil_r in E. subst seen. exists g, n. split; [reflexivity|exact L].
    - destruct (label_step m seen r c rest g n Hm E L) as [g1 [n1 [E1 L1]]]. cbn [fold_left]. rewrite E1. apply (IH (seen ++ [(r, c)])); [rewrite <- app_assoc; exact E|exact L1]. }
  destruct (G (cells2 0 m 0 nc) [] (fun _ _ => mark) 0 eq_refl) as [g [n [E L]]].
  - split; [cbn [length]; lia|]. split; [|split].
    + intros x _. left. split; [reflexivity|]. intros [y [[] _]].
    + intros x y [w [[] _]].
    + intros id Hid. lia.
  - exists g, n. split; [exact E|exact L].
Qed.
End Label.
