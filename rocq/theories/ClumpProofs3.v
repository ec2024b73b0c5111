(** Proofs about clump (C28): the sets of clumps that are to be merged. *)
From Verif Require Import Common CommonProofs IndexModel DecompModel ArrayModel ArrayProofs GridModel GridProofs UniqueModel UniqueProofs ClumpSpec ClumpModel.

Lemma nth_z_range {A} (l : list A) i x : nth_z i l = Some x -> 0 <= i < Z.of_nat (length l).
Proof. unfold nth_z. destruct (Z.ltb_spec i 0); [discriminate|]. intros H'. assert (Z.to_nat i < length l)%nat by (apply nth_error_Some; rewrite H'; discriminate). lia. Qed.
Lemma nth_z_some {A} (l : list A) i : 0 <= i < Z.of_nat (length l) -> exists x, nth_z i l = Some x.
Proof. intros H. unfold nth_z. destruct (Z.ltb_spec i 0); [lia|]. destruct (nth_error l (Z.to_nat i)) eqn:E; [eauto|]. apply nth_error_None in E. lia. Qed.
Lemma nth_z_at {A} (l : list A) i x : nth_z i l = Some x -> at_z l i = Ok x.
Proof. unfold at_z. intros ->. reflexivity. Qed.
Lemma upd_z_ok {A} (l : list A) i x v : nth_z i l = Some x -> exists l', upd_z i v l = Some l' /\ length l' = length l /\ nth_z i l' = Some v /\ (forall j, j <> i -> nth_z j l' = nth_z j l).
Proof.
  intros H. pose proof (nth_z_range _ _ _ H) as R. unfold upd_z. destruct (Z.ltb_spec i 0); [lia|]. destruct (upd_nth_Some (Z.to_nat i) v l) as [l' E]; [lia|]. exists l'. split; [exact E|]. split; [eapply upd_nth_length; exact E|]. split.
  - unfold nth_z. destruct (Z.ltb_spec i 0); [lia|]. eapply upd_nth_same; exact E.
  - intros j Hj. unfold nth_z. destruct (Z.ltb_spec j 0); [reflexivity|]. apply (upd_nth_other _ _ _ _ _ E). lia.
Qed.
Lemma nth_z_snoc {A} (l : list A) x : nth_z (Z.of_nat (length l)) (l ++ [x]) = Some x.
Proof. unfold nth_z. destruct (Z.ltb_spec (Z.of_nat (length l)) 0); [lia|]. rewrite Nat2Z.id, nth_error_app2, Nat.sub_diag by lia. reflexivity. Qed.
Lemma nth_z_app1 {A} (l l' : list A) i x : nth_z i l = Some x -> nth_z i (l ++ l') = Some x.
Proof. intros H. pose proof (nth_z_range _ _ _ H). unfold nth_z in *. destruct (Z.ltb_spec i 0); [lia|]. rewrite nth_error_app1 by lia. exact H. Qed.
Lemma nth_z_snoc_inv {A} (l : list A) v i x : nth_z i (l ++ [v]) = Some x -> nth_z i l = Some x \/ i = Z.of_nat (length l) /\ x = v.
Proof.
  intros H. pose proof (nth_z_range _ _ _ H) as R. rewrite app_length in R. cbn [length] in R. destruct (Z.eq_dec i (Z.of_nat (length l))) as [->|N].
  - right. rewrite nth_z_snoc in H. injection H as <-. auto.
  - left. unfold nth_z in *. destruct (Z.ltb_spec i 0); [lia|]. rewrite nth_error_app1 in H by lia. exact H.
Qed.

Lemma insert_ok : forall sets i s id, nth_z i sets = Some s ->
  exists sets', insert_into sets i id = Ok sets' /\ length sets' = length sets /\ nth_z i sets' = Some (set_insert id s) /\ (forall j, j <> i -> nth_z j sets' = nth_z j sets).
Proof.
  intros sets i s id H. unfold insert_into. rewrite (nth_z_at _ _ _ H). cbn [obind]. destruct (upd_z_ok sets i s (set_insert id s) H) as [l' [E H']]. rewrite E. exists l'. auto.
Qed.

Lemma find_key_in : forall m k i, find_key m k = Some i -> In (k, i) m.
Proof.
  induction m as [|[k' j] m IH]; intros k i H; cbn [find_key] in H; [discriminate|]. unfold key_eqb in H. destruct k as [a b], k' as [a' b']. cbn [fst snd] in H.
  destruct (Z.eqb_spec a a'), (Z.eqb_spec b b'); cbn [andb] in H; try (right; apply IH; exact H). injection H as <-. subst. left. reflexivity.
Qed.
Lemma find_key_none : forall m k i, find_key m k = None -> ~ In (k, i) m.
Proof.
  induction m as [|[k' j] m IH]; intros k i H; cbn [find_key] in H; [intros []|]. unfold key_eqb in H. destruct k as [a b], k' as [a' b']. cbn [fst snd] in H.
  destruct (Z.eqb_spec a a'), (Z.eqb_spec b b'); cbn [andb] in H; try discriminate; (intros [E|I]; [congruence|exact (IH _ _ H I)]).
Qed.
Lemma add_key_in : forall m k i k' j, In (k', j) (add_key m k i) -> In (k', j) m \/ (k', j) = (k, i).
Proof. intros m k i k' j H. unfold add_key in H. destruct (find_key m k); [left; exact H|]. apply in_app_or in H. destruct H as [|[<-|[]]]; auto. Qed.
Lemma add_key_incl : forall m k i, incl m (add_key m k i).
Proof. intros m k i x H. unfold add_key. destruct (find_key m k); [exact H|]. apply in_or_app. left. exact H. Qed.
Lemma add_key_there : forall m k i, exists j, In (k, j) (add_key m k i).
Proof. intros m k i. unfold add_key. destruct (find_key m k) as [j|] eqn:E; [exists j; now apply find_key_in|]. exists i. apply in_or_app. right. left. reflexivity. Qed.
Lemma first_index_in : forall m p ids i, first_index m p ids = Some i -> exists id, In id ids /\ In ((p, id), i) m.
Proof.
  intros m p ids. induction ids as [|id ids IH]; intros i H; cbn [first_index] in H; [discriminate|]. destruct (find_key m (p, id)) as [j|] eqn:E.
  - injection H as <-. exists id. split; [left; reflexivity|]. now apply find_key_in.
  - destruct (IH i H) as [id' [I1 I2]]. exists id'. split; [right; exact I1|exact I2].
Qed.

Section Merge.
Context (R : Z -> Z -> Prop) (vk : clump_key -> Prop) (gid : clump_key -> Z).
Hypothesis R_sym : forall x y, R x y -> R y x.
Hypothesis R_trans : forall x y w, R x y -> R y w -> R x w.
Hypothesis gid_inj : forall k k', vk k -> vk k' -> gid k = gid k' -> k = k'.

Definition two (s : list Z) : Prop := exists x y, In x s /\ In y s /\ x <> y.
Definition pinv (ms : merge_state) : Prop :=
  (forall i s, nth_z i (ms_sets ms) = Some s -> (forall x y, In x s -> In y s -> R x y) /\ StronglySorted Z.lt s) /\
  (forall k i, In (k, i) (ms_index ms) -> vk k /\ exists s, nth_z i (ms_sets ms) = Some s /\ In (gid k) s).
Definition twos (ms : merge_state) : Prop := forall i s, nth_z i (ms_sets ms) = Some s -> two s.
Definition inv (ms : merge_state) : Prop := pinv ms /\ twos ms.
(** Nothing is lost *)
Definition grows (ms ms' : merge_state) : Prop :=
  incl (ms_index ms) (ms_index ms') /\ forall i s, nth_z i (ms_sets ms) = Some s -> exists s', nth_z i (ms_sets ms') = Some s' /\ incl s s'.
Definition together (ms : merge_state) (k k' : clump_key) : Prop :=
  (exists i, In (k, i) (ms_index ms)) /\ (exists i, In (k', i) (ms_index ms)) /\ exists i s, nth_z i (ms_sets ms) = Some s /\ In (gid k) s /\ In (gid k') s.

Lemma grows_refl : forall ms, grows ms ms.
Proof. intros ms. split; [apply incl_refl|]. intros i s H. exists s. split; [exact H|apply incl_refl]. Qed.
Lemma grows_trans : forall a b c, grows a b -> grows b c -> grows a c.
Proof.
  intros a b c [A1 A2] [B1 B2]. split; [eapply incl_tran; eassumption|]. intros i s H. destruct (A2 i s H) as [s1 [H1 I1]]. destruct (B2 i s1 H1) as [s2 [H2 I2]].
  exists s2. split; [exact H2|eapply incl_tran; eassumption].
Qed.
Lemma together_grows : forall a b k k', grows a b -> together a k k' -> together b k k'.
Proof.
  intros a b k k' [G1 G2] ([i1 H1] & [i2 H2] & i & s & H & I1 & I2). destruct (G2 i s H) as [s' [H' I]]. split; [eauto|]. split; [eauto|]. exists i, s'. auto.
Qed.

(** One key *)
Lemma merge_one : forall lr c0 i s p id ms, pinv ms -> nth_z i (ms_sets ms) = Some s -> (forall x, In x s -> R x c0) -> vk (p, id) -> R (gid (p, id)) c0 -> global_clump_id lr id = Ok (gid (p, id)) ->
  exists ms', obind (global_clump_id lr id) (fun g => obind (insert_into (ms_sets ms) i g) (fun sets => Ok (MergeState (add_key (ms_index ms) (p, id) i) sets))) = Ok ms' /\ pinv ms' /\ grows ms ms' /\
    nth_z i (ms_sets ms') = Some (set_insert (gid (p, id)) s) /\ (forall j, j <> i -> nth_z j (ms_sets ms') = nth_z j (ms_sets ms)) /\ (exists j, In ((p, id), j) (ms_index ms')).
Proof.
  intros lr c0 i s p id ms [P1 P2] Hi Hs Hk Hr Hg. rewrite Hg. cbn [obind]. destruct (insert_ok (ms_sets ms) i s (gid (p, id)) Hi) as [sets' (E & L & N1 & N2)]. rewrite E. cbn [obind].
  eexists. split; [reflexivity|]. cbn [ms_sets ms_index].
  assert (G : grows ms (MergeState (add_key (ms_index ms) (p, id) i) sets')).
  { split; cbn [ms_sets ms_index]; [apply add_key_incl|]. intros j t Hj. destruct (Z.eq_dec j i) as [->|N].
    - rewrite Hi in Hj. injection Hj as <-. eexists. split; [exact N1|]. intros x Hx. apply set_insert_in. right. exact Hx.
    - exists t. rewrite N2 by assumption. split; [exact Hj|apply incl_refl]. }
  split; [|split; [exact G|split; [exact N1|split; [exact N2|apply add_key_there]]]].
  split; cbn [ms_sets ms_index].
  - intros j t Hj. destruct (Z.eq_dec j i) as [->|N].
    + rewrite N1 in Hj. injection Hj as <-. destruct (P1 i s Hi) as [Q1 Q2]. split; [|now apply set_insert_sorted].
      intros x y Hx Hy. apply set_insert_in in Hx, Hy. assert (Rx : R x c0) by (destruct Hx as [->|]; auto). assert (Ry : R y c0) by (destruct Hy as [->|]; auto). eauto.
    + rewrite N2 in Hj by assumption. now apply P1 with (1 := Hj).
  - intros k j Hj. apply add_key_in in Hj. destruct Hj as [Hj|Hj].
    + destruct (P2 k j Hj) as [V [t [T1 T2]]]. split; [exact V|]. destruct G as [_ G]. destruct (G j t T1) as [t' [T3 T4]]. exists t'. cbn [ms_sets] in T3. auto.
    + injection Hj as -> ->. split; [exact Hk|]. eexists. split; [exact N1|]. apply set_insert_in. left. reflexivity.
Qed.

Lemma merge_side_ok : forall lr c0 p ids i ms s, pinv ms -> nth_z i (ms_sets ms) = Some s -> (forall x, In x s -> R x c0) ->
  (forall id, In id ids -> vk (p, id) /\ R (gid (p, id)) c0 /\ global_clump_id lr id = Ok (gid (p, id))) ->
  exists ms' s', merge_side p lr ids i ms = Ok ms' /\ pinv ms' /\ grows ms ms' /\ nth_z i (ms_sets ms') = Some s' /\ (forall x, In x s' -> R x c0) /\
    (forall j, j <> i -> nth_z j (ms_sets ms') = nth_z j (ms_sets ms)) /\
    (forall id, In id ids -> In (gid (p, id)) s' /\ exists j, In ((p, id), j) (ms_index ms')).
Proof.
  intros lr c0 p ids. induction ids as [|id ids IH]; intros i ms s HP Hi Hs Hids; unfold merge_side; cbn [fold_left obind].
  - exists ms, s. split; [reflexivity|]. split; [exact HP|]. split; [apply grows_refl|]. split; [exact Hi|]. split; [exact Hs|]. split; [reflexivity|]. intros id [].
  - destruct (Hids id (or_introl eq_refl)) as (V & Hr & Hg). destruct (merge_one lr c0 i s p id ms HP Hi Hs V Hr Hg) as [ms1 (E1 & P1 & G1 & N1 & O1 & K1)].
    rewrite E1. destruct (IH i ms1 _ P1 N1) as [ms2 [s2 (E2 & P2 & G2 & N2 & S2 & O2 & K2)]].
    { intros x Hx. apply set_insert_in in Hx. destruct Hx as [->|]; auto. }
    { intros id' H'. apply Hids. right. exact H'. }
    exists ms2, s2. split; [exact E2|]. split; [exact P2|]. split; [eapply grows_trans; eassumption|]. split; [exact N2|]. split; [exact S2|]. split; [intros j Hj; rewrite O2, O1 by assumption; reflexivity|].
    intros id' [->|H']; [|apply K2; exact H']. destruct G2 as [GI GS]. destruct (GS i _ N1) as [s3 [N3 I3]]. rewrite N2 in N3. injection N3 as <-. split; [apply I3, set_insert_in; left; reflexivity|].
    destruct K1 as [j Kj]. exists j. apply GI. exact Kj.
Qed.

(** merge_clump *)
Lemma merge_clump_ok : forall c0 north ns south ss ms, inv ms ->
  (forall id, In id ns -> vk (fst north, id) /\ R (gid (fst north, id)) c0 /\ global_clump_id (snd north) id = Ok (gid (fst north, id))) ->
  (forall id, In id ss -> vk (fst south, id) /\ R (gid (fst south, id)) c0 /\ global_clump_id (snd south) id = Ok (gid (fst south, id))) ->
  ns <> [] -> ss <> [] -> fst north <> fst south ->
  exists ms', merge_clump north ns south ss ms = Ok ms' /\ inv ms' /\ grows ms ms' /\
    (forall k k', (exists id, In id ns /\ k = (fst north, id)) \/ (exists id, In id ss /\ k = (fst south, id)) -> (exists id, In id ns /\ k' = (fst north, id)) \/ (exists id, In id ss /\ k' = (fst south, id)) -> together ms' k k').
Proof.
  intros c0 [np nl] ns [sp sl] ss ms [HP HT] Hn Hs Nn Ns Nps. cbn [fst snd] in *.
  assert (Hstart : exists i sets s, (match first_index (ms_index ms) np ns with Some i => (i, ms_sets ms) | None => match first_index (ms_index ms) sp ss with Some i => (i, ms_sets ms) | None => (Z.of_nat (length (ms_sets ms)), ms_sets ms ++ [[]]) end end) = (i, sets) /\
    pinv (MergeState (ms_index ms) sets) /\ grows ms (MergeState (ms_index ms) sets) /\ nth_z i sets = Some s /\ (forall x, In x s -> R x c0) /\ (forall j t, j <> i -> nth_z j sets = Some t -> two t)).
  { assert (Hfound : forall i k, In (k, i) (ms_index ms) -> R (gid k) c0 -> exists s, nth_z i (ms_sets ms) = Some s /\ forall x, In x s -> R x c0).
    { intros i k H Hr. destruct HP as [P1 P2]. destruct (P2 k i H) as [_ [s [S1 S2]]]. exists s. split; [exact S1|]. intros x Hx. destruct (P1 i s S1) as [Q _]. eauto. }
    assert (Hms : MergeState (ms_index ms) (ms_sets ms) = ms) by (destruct ms; reflexivity).
    destruct (first_index (ms_index ms) np ns) as [i|] eqn:E1.
    - apply first_index_in in E1. destruct E1 as [id [I1 I2]]. destruct (Hfound _ _ I2) as [s [S1 S2]]; [apply Hn; exact I1|]. exists i, (ms_sets ms), s. rewrite Hms. split; [reflexivity|]. split; [exact HP|]. split; [apply grows_refl|]. split; [exact S1|]. split; [exact S2|]. intros j t _ Hj. exact (HT j t Hj).
    - destruct (first_index (ms_index ms) sp ss) as [i|] eqn:E2.
      + apply first_index_in in E2. destruct E2 as [id [I1 I2]]. destruct (Hfound _ _ I2) as [s [S1 S2]]; [apply Hs; exact I1|]. exists i, (ms_sets ms), s. rewrite Hms. split; [reflexivity|]. split; [exact HP|]. split; [apply grows_refl|]. split; [exact S1|]. split; [exact S2|]. intros j t _ Hj. exact (HT j t Hj).
      + exists (Z.of_nat (length (ms_sets ms))), (ms_sets ms ++ [[]]), []. split; [reflexivity|]. destruct HP as [P1 P2]. split; [|split; [|split; [apply nth_z_snoc|split; [intros x []|]]]].
        * split; cbn [ms_sets ms_index].
          -- intros i s H. apply nth_z_snoc_inv in H. destruct H as [H|[_ ->]]; [now apply P1 with (1 := H)|]. split; [intros x y []|constructor].
          -- intros k i H. destruct (P2 k i H) as [V [s [S1 S2]]]. split; [exact V|]. exists s. split; [now apply nth_z_app1|exact S2].
        * split; cbn [ms_sets ms_index]; [apply incl_refl|]. intros i s H. exists s. split; [now apply nth_z_app1|apply incl_refl].
        * intros j t Hj H. apply nth_z_snoc_inv in H. destruct H as [H|[? _]]; [exact (HT j t H)|contradiction]. }
  destruct Hstart as [i [sets [s (E & HP1 & G1 & Hi & HR & HT1)]]]. unfold merge_clump. cbn [fst snd]. rewrite E. clear E.
  destruct (merge_side_ok nl c0 np ns i (MergeState (ms_index ms) sets) s HP1 Hi HR Hn) as [ms2 [s2 (E2 & P2 & G2 & N2 & R2 & O2 & K2)]]. rewrite E2. cbn [obind].
  destruct (merge_side_ok sl c0 sp ss i ms2 s2 P2 N2 R2 Hs) as [ms3 [s3 (E3 & P3 & G3 & N3 & R3 & O3 & K3)]]. rewrite E3. exists ms3. split; [reflexivity|].
  assert (Hin : forall id, In id ns -> In (gid (np, id)) s3 /\ exists j, In ((np, id), j) (ms_index ms3)).
  { intros id Hid. destruct (K2 id Hid) as [A [j B]]. destruct G3 as [GI GS]. destruct (GS i s2 N2) as [s3' [X Y]]. rewrite N3 in X. injection X as <-. split; [apply Y; exact A|]. exists j. apply GI. exact B. }
  split; [split; [exact P3|]|split].
  - intros j t Hj. destruct (Z.eq_dec j i) as [->|N].
    + rewrite N3 in Hj. injection Hj as <-. destruct ns as [|n0 ns]; [contradiction|]. destruct ss as [|s0 ss]; [contradiction|].
      exists (gid (np, n0)), (gid (sp, s0)). split; [apply Hin; left; reflexivity|]. split; [apply K3; left; reflexivity|]. intros Eg. apply gid_inj in Eg; [congruence|apply Hn; left; reflexivity|apply Hs; left; reflexivity].
    + rewrite O3, O2 in Hj by assumption. exact (HT1 j t N Hj).
  - eapply grows_trans; [exact G1|]. eapply grows_trans; eassumption.
  - assert (Hall : forall k, (exists id, In id ns /\ k = (np, id)) \/ (exists id, In id ss /\ k = (sp, id)) -> In (gid k) s3 /\ exists j, In (k, j) (ms_index ms3)).
    { intros k [[id [Hid ->]]|[id [Hid ->]]]; [apply Hin|apply K3]; exact Hid. }
    intros k k' Hk Hk'. destruct (Hall k Hk) as [A1 A2], (Hall k' Hk') as [B1 B2]. split; [exact A2|]. split; [exact B2|]. exists i, s3. auto.
Qed.

(** merge_diagonal *)
Definition psets (sets : list (list Z)) : Prop := forall i s, nth_z i sets = Some s -> (forall x y, In x s -> In y s -> R x y) /\ StronglySorted Z.lt s.
(** The sets grew with elements in the class of [c0] *)
Definition grown (c0 : Z) (sets sets' : list (list Z)) : Prop :=
  length sets' = length sets /\ forall i s, nth_z i sets = Some s -> exists s', nth_z i sets' = Some s' /\ incl s s' /\ ((forall x, In x s -> R x c0) -> forall x, In x s' -> R x c0).
Lemma grown_trans : forall c0 a b c, grown c0 a b -> grown c0 b c -> grown c0 a c.
Proof.
  intros c0 a b c [A1 A2] [B1 B2]. split; [congruence|]. intros i s H. destruct (A2 i s H) as [s1 (H1 & I1 & R1)]. destruct (B2 i s1 H1) as [s2 (H2 & I2 & R2)].
  exists s2. split; [exact H2|]. split; [eapply incl_tran; eassumption|auto].
Qed.
Lemma ins_ok : forall c0 sets i s v, psets sets -> nth_z i sets = Some s -> (forall x, In x s -> R x c0) -> R v c0 ->
  exists sets' s', insert_into sets i v = Ok sets' /\ psets sets' /\ grown c0 sets sets' /\ nth_z i sets' = Some s' /\ In v s' /\ incl s s' /\ (forall x, In x s' -> R x c0).
Proof.
  intros c0 sets i s v HP Hi Hs Hv. destruct (insert_ok sets i s v Hi) as [sets' (E & L & N1 & N2)]. exists sets', (set_insert v s). split; [exact E|].
  assert (Hr : forall x, In x (set_insert v s) -> R x c0) by (intros x Hx; apply set_insert_in in Hx; destruct Hx as [->|]; auto).
  assert (Hi' : incl s (set_insert v s)) by (intros x Hx; apply set_insert_in; right; exact Hx).
  split; [|split; [|split; [exact N1|split; [apply set_insert_in; left; reflexivity|split; [exact Hi'|exact Hr]]]]].
  - intros j t Hj. destruct (Z.eq_dec j i) as [->|N].
    + rewrite N1 in Hj. injection Hj as <-. destruct (HP i s Hi) as [Q1 Q2]. split; [|now apply set_insert_sorted]. intros x y Hx Hy. pose proof (Hr x Hx). pose proof (Hr y Hy). eauto.
    + rewrite N2 in Hj by assumption. now apply HP with (1 := Hj).
  - split; [exact L|]. intros j t Hj. destruct (Z.eq_dec j i) as [->|N].
    + rewrite Hi in Hj. injection Hj as <-. exists (set_insert v s). auto.
    + exists t. rewrite N2 by assumption. auto using incl_refl.
Qed.

Lemma merge_diagonal_ok : forall px lx xid py ly yid ms, inv ms -> vk (px, xid) -> vk (py, yid) -> R (gid (px, xid)) (gid (py, yid)) -> px <> py ->
  global_clump_id lx xid = Ok (gid (px, xid)) -> global_clump_id ly yid = Ok (gid (py, yid)) ->
  exists ms', merge_diagonal (px, lx) xid (py, ly) yid ms = Ok ms' /\ inv ms' /\ grows ms ms' /\ together ms' (px, xid) (py, yid).
Proof.
  intros px lx xid py ly yid ms [[P1 P2] HT] Vx Vy Hxy Np Gx Gy. unfold merge_diagonal. cbv zeta. cbn [fst snd]. rewrite Gx, Gy.
  set (kx := (px, xid)) in *. set (ky := (py, yid)) in *. pose (c0 := gid kx).
  assert (Rx : R (gid kx) c0) by (unfold c0; eauto). assert (Ry : R (gid ky) c0) by (unfold c0; eauto).
  assert (Ng : gid kx <> gid ky) by (intros E; apply gid_inj in E; auto; unfold kx, ky in E; congruence).
  assert (Hfound : forall i k, In (k, i) (ms_index ms) -> R (gid k) c0 -> exists s, nth_z i (ms_sets ms) = Some s /\ forall x, In x s -> R x c0).
  { intros i k H Hr. destruct (P2 k i H) as [_ [s [S1 S2]]]. exists s. split; [exact S1|]. intros x Hx. destruct (P1 i s S1) as [Q _]. eauto. }
  assert (Hstart : exists xi yi index sets sx sy,
    match find_key (ms_index ms) kx, find_key (ms_index ms) ky with
    | Some xi, Some yi => (xi, yi, ms_index ms, ms_sets ms)
    | Some xi, None => (xi, xi, add_key (ms_index ms) ky xi, ms_sets ms)
    | None, Some yi => (yi, yi, add_key (ms_index ms) kx yi, ms_sets ms)
    | None, None => (Z.of_nat (length (ms_sets ms)), Z.of_nat (length (ms_sets ms)), add_key (add_key (ms_index ms) kx (Z.of_nat (length (ms_sets ms)))) ky (Z.of_nat (length (ms_sets ms))), ms_sets ms ++ [[]])
    end = (xi, yi, index, sets) /\ nth_z xi sets = Some sx /\ nth_z yi sets = Some sy /\ (forall x, In x sx -> R x c0) /\ (forall x, In x sy -> R x c0) /\ psets sets /\
    incl (ms_index ms) index /\ (exists i, In (kx, i) index) /\ (exists i, In (ky, i) index) /\
    (forall k i, In (k, i) index -> In (k, i) (ms_index ms) \/ (k = kx \/ k = ky) /\ (i = xi \/ i = yi)) /\
    (forall i s, nth_z i (ms_sets ms) = Some s -> nth_z i sets = Some s) /\ (forall i s, nth_z i sets = Some s -> two s \/ i = xi)).
  { destruct (find_key (ms_index ms) kx) as [xi|] eqn:Ex, (find_key (ms_index ms) ky) as [yi|] eqn:Ey.
    - apply find_key_in in Ex, Ey. destruct (Hfound xi kx Ex Rx) as [sx [X1 X2]]. destruct (Hfound yi ky Ey Ry) as [sy [Y1 Y2]].
      exists xi, yi, (ms_index ms), (ms_sets ms), sx, sy. repeat (split; [solve [auto using incl_refl|eauto]|]). intros i s H. left. exact (HT i s H).
    - apply find_key_in in Ex. destruct (Hfound xi kx Ex Rx) as [sx [X1 X2]].
      exists xi, xi, (add_key (ms_index ms) ky xi), (ms_sets ms), sx, sx. repeat (split; [solve [auto using incl_refl, add_key_incl, add_key_there|exists xi; apply add_key_incl; exact Ex]|]). split; [|split; [auto|intros i s H; left; exact (HT i s H)]].
      intros k i H. apply add_key_in in H. destruct H as [H|H]; [auto|]. injection H as -> ->. auto.
    - apply find_key_in in Ey. destruct (Hfound yi ky Ey Ry) as [sy [Y1 Y2]].
      exists yi, yi, (add_key (ms_index ms) kx yi), (ms_sets ms), sy, sy. repeat (split; [solve [auto using incl_refl, add_key_incl, add_key_there|exists yi; apply add_key_incl; exact Ey]|]). split; [|split; [auto|intros i s H; left; exact (HT i s H)]].
      intros k i H. apply add_key_in in H. destruct H as [H|H]; [auto|]. injection H as -> ->. auto.
    - set (i := Z.of_nat (length (ms_sets ms))). exists i, i, (add_key (add_key (ms_index ms) kx i) ky i), (ms_sets ms ++ [[]]), [], [].
      split; [reflexivity|]. split; [apply nth_z_snoc|]. split; [apply nth_z_snoc|]. split; [intros x []|]. split; [intros x []|]. split.
      { intros j s H. apply nth_z_snoc_inv in H. destruct H as [H|[_ ->]]; [now apply P1 with (1 := H)|]. split; [intros x y []|constructor]. }
      split; [eapply incl_tran; [|apply add_key_incl]; apply add_key_incl|]. split.
      { destruct (add_key_there (ms_index ms) kx i) as [j Hj]. exists j. apply add_key_incl. exact Hj. }
      split; [apply add_key_there|]. split; [|split].
      + intros k j H. apply add_key_in in H. destruct H as [H|H]; [|injection H as -> ->; auto]. apply add_key_in in H. destruct H as [H|H]; [auto|]. injection H as -> ->. auto.
      + intros j s H. now apply nth_z_app1.
      + intros j s H. apply nth_z_snoc_inv in H. destruct H as [H|[-> _]]; [left; exact (HT j s H)|right; reflexivity]. }
  destruct Hstart as [xi [yi [index [sets [sx [sy (E & X1 & Y1 & X2 & Y2 & HP & I1 & I2 & I3 & I4 & Sg & St)]]]]]]. rewrite E. clear E. cbn [obind].
  destruct (ins_ok c0 sets xi sx (gid kx) HP X1 X2 Rx) as [sets1 [s1 (E1 & HP1 & G1 & N1 & V1 & _ & R1)]]. rewrite E1. cbn [obind].
  destruct (ins_ok c0 sets1 xi s1 (gid ky) HP1 N1 R1 Ry) as [sets2 [s2 (E2 & HP2 & G2 & N2 & V2 & J2 & R2)]]. rewrite E2. cbn [obind].
  assert (G12 : grown c0 sets sets2) by (eapply grown_trans; eassumption). destruct (proj2 G12 yi sy Y1) as [t2 (T2 & _ & T3)]. specialize (T3 Y2).
  destruct (ins_ok c0 sets2 yi t2 (gid kx) HP2 T2 T3 Rx) as [sets3 [s3 (E3 & HP3 & G3 & N3 & V3 & _ & R3)]]. rewrite E3. cbn [obind].
  destruct (ins_ok c0 sets3 yi s3 (gid ky) HP3 N3 R3 Ry) as [sets4 [s4 (E4 & HP4 & G4 & N4 & V4 & J4 & R4)]]. rewrite E4. cbn [obind].
  eexists. split; [reflexivity|].
  assert (G24 : grown c0 sets2 sets4) by (eapply grown_trans; eassumption). assert (G : grown c0 sets sets4) by (eapply grown_trans; eassumption).
  destruct (proj2 G24 xi s2 N2) as [u (U1 & U2 & _)].
  assert (Ux : In (gid kx) u /\ In (gid ky) u) by (split; apply U2; auto).
  assert (Uy : In (gid kx) s4 /\ In (gid ky) s4) by (split; [apply J4; exact V3|exact V4]).
  split; [split; [split|]|split]; cbn [ms_sets ms_index].
  - exact HP4.
  - intros k i Hk. destruct (I4 k i Hk) as [Hold|[Hkk Hii]].
    + destruct (P2 k i Hold) as [V [s [S1 S2]]]. split; [exact V|]. destruct (proj2 G i s (Sg i s S1)) as [s' (A1 & A2 & _)]. exists s'. auto.
    + split; [destruct Hkk as [->| ->]; assumption|]. destruct Hii as [->| ->]; [exists u|exists s4]; (split; [assumption|]); destruct Hkk as [->| ->]; tauto.
  - intros i s Hi. cbn [ms_sets] in Hi. pose proof (nth_z_range _ _ _ Hi) as Hr. rewrite (proj1 G) in Hr. destruct (nth_z_some sets i Hr) as [s0 Hs0]. destruct (proj2 G i s0 Hs0) as [s' (A1 & A2 & _)]. rewrite Hi in A1. injection A1 as <-.
    destruct (St i s0 Hs0) as [(a & b & Ha & Hb & Hn)|Eqi]; [exists a, b; auto|]. subst i. rewrite U1 in Hi. injection Hi as <-. exists (gid kx), (gid ky). tauto.
  - split; cbn [ms_sets ms_index]; [exact I1|]. intros i s Hi. destruct (proj2 G i s (Sg i s Hi)) as [s' (A1 & A2 & _)]. exists s'. auto.
  - split; [exact I2|]. split; [exact I3|]. cbn [ms_sets]. exists xi, u. tauto.
Qed.

End Merge.

(** share_element *)
Lemma lower_bound_incl : forall v l, incl (lower_bound v l) l.
Proof. intros v l. induction l as [|x l IH]; cbn [lower_bound]; [apply incl_refl|]. destruct (x <? v); [apply incl_tl; exact IH|apply incl_refl]. Qed.
Lemma lower_bound_length : forall v l, (length (lower_bound v l) <= length l)%nat.
Proof. intros v l. induction l as [|x l IH]; cbn [lower_bound length]; [lia|]. destruct (x <? v); cbn [length]; lia. Qed.
Lemma lower_bound_keeps : forall v l w, In w l -> v <= w -> In w (lower_bound v l).
Proof. intros v l w. induction l as [|x l IH]; cbn [lower_bound]; [intros []|]. intros H Hw. destruct (Z.ltb_spec x v); [|exact H]. destruct H as [->|H]; [lia|auto]. Qed.
Lemma lower_bound_sorted : forall v l, StronglySorted Z.lt l -> StronglySorted Z.lt (lower_bound v l).
Proof. intros v l H. induction H as [|x l Hl IH Hx]; cbn [lower_bound]; [constructor|]. destruct (x <? v); [exact IH|constructor; assumption]. Qed.

Lemma share_loop_ok : forall fuel l r, (length l + length r <= fuel)%nat -> exists b, share_loop fuel l r = Ok b /\ (b = true -> exists x, In x l /\ In x r) /\
  (StronglySorted Z.lt l -> StronglySorted Z.lt r -> b = false -> forall x, In x l -> ~ In x r).
Proof.
  induction fuel as [|fuel IH]; intros [|x l] [|y r] Hf; cbn [length] in Hf; cbn [share_loop]; try lia;
    try (exists false; split; [reflexivity|]; split; [discriminate|]; intros _ _ _ w Hw Hw'; solve [destruct Hw|destruct Hw']).
  destruct (Z.ltb_spec x y) as [Hxy|Hxy].
  - destruct (IH (lower_bound y (x :: l)) (y :: r)) as [b (E & B1 & B2)].
    { cbn [lower_bound]. destruct (Z.ltb_spec x y); [|lia]. pose proof (lower_bound_length y l). cbn [length]. lia. }
    exists b. split; [exact E|]. split.
    + intros Hb. destruct (B1 Hb) as [w [W1 W2]]. exists w. split; [now apply lower_bound_incl in W1|exact W2].
    + intros Sl Sr Hb w W1 W2. apply (B2 (lower_bound_sorted _ _ Sl) Sr Hb w); [|exact W2]. apply lower_bound_keeps; [exact W1|]. inversion Sr as [|? ? _ F]; subst. destruct W2 as [->|W2]; [lia|]. rewrite Forall_forall in F. specialize (F w W2). lia.
  - destruct (Z.ltb_spec y x) as [Hyx|Hyx].
    + destruct (IH (x :: l) (lower_bound x (y :: r))) as [b (E & B1 & B2)].
      { cbn [lower_bound]. destruct (Z.ltb_spec y x); [|lia]. pose proof (lower_bound_length x r). cbn [length]. lia. }
      exists b. split; [exact E|]. split.
      * intros Hb. destruct (B1 Hb) as [w [W1 W2]]. exists w. split; [exact W1|now apply lower_bound_incl in W2].
      * intros Sl Sr Hb w W1 W2. apply (B2 Sl (lower_bound_sorted _ _ Sr) Hb w); [exact W1|]. apply lower_bound_keeps; [exact W2|]. inversion Sl as [|? ? _ F]; subst. destruct W1 as [->|W1]; [lia|]. rewrite Forall_forall in F. specialize (F w W1). lia.
    + exists true. split; [reflexivity|]. split; [|discriminate]. intros _. exists x. split; [left; reflexivity|]. left. lia.
Qed.
Lemma existsb_share : forall l r, existsb (fun x => existsb (Z.eqb x) r) l = true <-> exists x, In x l /\ In x r.
Proof.
  intros l r. rewrite existsb_exists. split.
  - intros [x [H1 H2]]. apply existsb_exists in H2. destruct H2 as [y [H2 H3]]. exists x. split; [exact H1|]. replace x with y by lia. exact H2.
  - intros [x [H1 H2]]. exists x. split; [exact H1|]. apply existsb_exists. exists x. split; [exact H2|lia].
Qed.
Lemma share_element_ok : forall l r, exists b, share_element l r = Ok b /\ (b = true -> exists x, In x l /\ In x r) /\
  (StronglySorted Z.lt l -> StronglySorted Z.lt r -> b = false -> forall x, In x l -> ~ In x r).
Proof.
  intros l r. unfold share_element. destruct l as [|x0 l0]; [exists false; split; [reflexivity|]; split; [discriminate|intros _ _ _ w []]|].
  destruct r as [|y0 r0]; [exists false; split; [reflexivity|]; split; [discriminate|intros _ _ _ w _ []]|].
  set (l := x0 :: l0). set (r := y0 :: r0). destruct (_ <? _).
  - eexists. split; [reflexivity|]. split; [apply existsb_share|]. intros _ _ Hb w W1 W2. assert (existsb (fun x => existsb (Z.eqb x) r) l = true) by (apply existsb_share; eauto). congruence.
  - destruct (_ <? _).
    + eexists. split; [reflexivity|]. split; [intros H; apply existsb_share in H; destruct H as [w [A B]]; eauto|]. intros _ _ Hb w W1 W2. assert (existsb (fun x => existsb (Z.eqb x) l) r = true) by (apply existsb_share; eauto). congruence.
    + apply share_loop_ok. lia.
Qed.
