(** The classes of all partitions: an invariant of the steps. *)
From Verif Require Import Common CommonProofs CoreSpec DecompSpec ArraySpec IndexModel DecompModel ArrayModel ArrayRep GridModel GridProofs FlowSpec AccuSpec FlowModel RouterModel
  FlowProofs FlowProofs2 FlowProofs3 FlowProofs4 RouterProofs RouterProofs2 RouterProofs3 RouterProofs4 RouterProofs5 AccuInfoModel AccuInfoSpec AccuInfoProofs.

Lemma no_material_pure : pure_accumulator no_material (fun _ _ => tt) (fun _ _ => tt) (fun _ => True) (fun _ => True).
Proof. constructor; auto; intros; now split. Qed.

Section Global.
Context (a0 a1 p0 p1 : Z) (nd : Z -> bool) (f : cell -> Z).
Context (P0 : 2 <= p0 <= a0) (P1 : 2 <= p1 <= a1).
Context (V : valid_network a0 a1 nd f) (AC : acyclic a0 a1 nd f).

Notation glob := (glob p0 p1). Notation e0 := (e0 a0 p0). Notation e1 := (e1 a1 p1).
Notation M0 := (M0 a0 p0). Notation M1 := (M1 a1 p1). Notation part_ok := (part_ok a0 a1 p0 p1).
Notation lf := (lf p0 p1 f). Notation srcs := (srcs a0 a1 p0 p1 nd f). Notation input_of := (input_of a0 a1 p0 p1 f).
Notation prow := (prow a0 p0). Notation pcol := (pcol a1 p1). Notation loc := (loc a0 a1 p0 p1).
Notation up := (upstream a0 a1 nd f). Notation valid := (valid a0 a1 nd f).
Notation cnt := (cnt a0 a1 nd f).
Notation Inv := (Inv a0 a1 p0 p1 nd f no_material (fun _ _ => tt) (fun _ _ => tt) (fun _ => tt)).
Notation part_rep := (part_rep a0 a1 p0 p1 nd f no_material (fun _ _ => tt) (fun _ _ => tt) (fun _ => tt)).
Notation state := (@router_state unit unit unit).
Notation drains := (drains a0 a1 nd f). Notation path := (path a0 a1 nd f). Notation together := (together a0 a1 p0 p1).
Notation leaves := (leaves a0 a1 p0 p1 f). Notation ends := (ends f). Notation foreign := (foreign a0 a1 p0 p1 nd f).
Notation receives := (receives a0 a1 p0 p1 nd f). Notation may_be_last := (may_be_last a0 a1 p0 p1 nd f).
Notation finish r c := (finish (e0 r) (e1 c) (lf r c)).
Notation gm r c := (gm (e0 r) (e1 c)).

Lemma together_spec x y : together x y <-> prow x = prow y /\ pcol x = pcol y.
Proof. reflexivity. Qed.

Definition outside_class (r c : Z) (t : cell) : Z := if finish r c inter_partition_stream_cell t =? partition_output_cell then partition_input_output_cell else partition_input_cell.

(** The class of a cell with upstream neighbours, all of which have been visited *)
Definition good (r c : Z) (t : cell) (k : Z) : Prop :=
  let x := glob r c t in
  (~ foreign x /\ k = finish r c intra_partition_stream_cell t) \/
  (foreign x /\ k = finish r c inter_partition_stream_cell t /\ (receives x -> may_be_last x)) \/
  (receives x /\ k = outside_class r c t).

Definition Cls (r c : Z) (s : bookkeeping) (g : grid Z) : Prop :=
  exists k h, ps_count s = gm r c k /\ g = gm r c h /\
    (ps_todo s <> [] -> forall d, 0 <= d < 8 -> length (ps_inputs s d) = length (srcs r c d)) /\
    forall t, inside (e0 r) (e1 c) t ->
      (nd (f (glob r c t)) = true -> ~ In t (ps_todo s) -> h t = no_class) /\
      (nd (f (glob r c t)) = false -> up (glob r c t) = [] -> ~ In t (ps_todo s) -> h t = ridge_cell) /\
      (up (glob r c t) <> [] -> k t = 0 -> good r c t (h t)) /\
      (0 < k t -> h t <> no_class).

Definition info_inv (st : info_state) : Prop :=
  (exists dn ar, Inv dn ar (fst st)) /\ forall r c, part_ok r c -> Cls r c (fst st r c) (snd st r c).

(** Facts about the bookkeeping *)
Lemma up_nd x : inside a0 a1 x -> up x <> [] -> nd (f x) = false.
Proof.
  intros I H. destruct (up x) as [|y l] eqn:E; [contradiction|]. assert (H' : In y (up x)) by (rewrite E; now left).
  apply in_upstream in H'. exact (V _ _ H' I).
Qed.

Lemma gm_inj {B} n0 n1 (k k' : cell -> B) t : AccuInfoProofs.gm n0 n1 k = AccuInfoProofs.gm n0 n1 k' -> inside n0 n1 t -> k t = k' t.
Proof. intros E I. pose proof (gm_get n0 n1 k t I) as H. rewrite E, (gm_get n0 n1 k' t I) in H. now injection H. Qed.

Lemma count_is dn ar r c (s : bookkeeping) k t : part_rep dn ar r c s -> ps_count s = gm r c k -> inside (e0 r) (e1 c) t -> k t = cnt ar (glob r c t).
Proof.
  intros PR E I. pose proof (pr_count _ _ _ _ _ _ _ _ _ _ _ _ _ _ _ PR) as H. rewrite E in H.
  apply (gm_inj (e0 r) (e1 c) k (fun t => cnt ar (glob r c t)) t); assumption.
Qed.
Lemma cnt_up_nil ar x : up x = [] -> cnt ar x = 0.
Proof. intros E. unfold RouterProofs2.cnt. now rewrite E. Qed.

(** Nothing has been received from other partitions. *)
Lemma none_received dn ar r c (s : bookkeeping) : part_rep dn ar r c s -> (forall d, 0 <= d < 8 -> length (ps_inputs s d) = length (srcs r c d)) ->
  forall d y, 0 <= d < 8 -> In y (srcs r c d) -> ar y = false.
Proof.
  intros PR HL d y Hd Hy. pose proof (pr_inputs _ _ _ _ _ _ _ _ _ _ _ _ _ _ _ PR d Hd) as PI. apply Permutation_length in PI. rewrite map_length, (HL d Hd) in PI.
  destruct (ar y) eqn:E; [|reflexivity]. exfalso. revert PI Hy. generalize (srcs r c d). clear -E.
  intros L. assert (F : forall L, (length (filter (fun y => negb (ar y)) L) <= length L)%nat).
  { intros L'. induction L' as [|z L' IH]; [reflexivity|]. cbn. destruct (negb (ar z)); cbn; lia. }
  induction L as [|z L IH]; intros PI Hy; [destruct Hy|]. cbn in PI. destruct Hy as [->|Hy].
  - rewrite E in PI. cbn in PI. specialize (F L). lia.
  - destruct (negb (ar z)); cbn in PI; [apply IH; [lia|exact Hy]|]. specialize (F L). lia.
Qed.

Lemma source_in r c y x : part_ok r c -> drains y x -> inside a0 a1 x -> prow x = r -> pcol x = c -> ~ (prow y = r /\ pcol y = c) ->
  exists d, 0 <= d < 8 /\ In y (srcs r c d).
Proof.
  intros HP D Ix E0 E1 N. destruct (loc_inside a0 a1 p0 p1 P0 P1 x Ix) as [_ [HL G]]. rewrite E0, E1 in *.
  assert (Hy : In y (up (glob r c (loc x)))) by (rewrite G; now apply in_upstream).
  apply (Permutation_in _ (Permutation_sym (feeding_ok a0 a1 p0 p1 nd f P0 P1 r c (loc x) HP HL))) in Hy. apply in_app_iff in Hy. destruct Hy as [Hy|Hy].
  - exfalso. apply (in_feeding_in a0 a1 p0 p1 nd f P0 P1) in Hy; try assumption. destruct Hy as [_ [Q0 Q1]]. auto.
  - apply in_flat_map in Hy. destruct Hy as [d [Hd Hy]]. apply in_directions in Hd. apply filter_In in Hy. exists d. tauto.
Qed.

(** Cells that have been visited before anything was received *)
Lemma not_foreign dn ar (st : state) r c : Inv dn ar st -> part_ok r c -> (forall d y, 0 <= d < 8 -> In y (srcs r c d) -> ar y = false) ->
  forall y x, path y x -> valid x -> prow x = r -> pcol x = c -> dn x = true -> prow y = r /\ pcol y = c /\ dn y = true.
Proof.
  intros [_ [G _]] HP HS y x HPth. induction HPth as [x Ix Nx|y z x D Pzx IH]; intros Hv E0 E1 Hd; [auto|].
  destruct (IH Hv E0 E1 Hd) as [Z0 [Z1 Zd]].
  assert (Vz : valid z) by (eapply path_start; exact Pzx).
  assert (Ay : ar y = true) by (apply (g_ups _ _ _ _ _ _ _ _ _ _ G z Vz Zd); now apply in_upstream).
  assert (Q : (prow y = r /\ pcol y = c) \/ ~ (prow y = r /\ pcol y = c)) by (destruct (Z.eq_dec (prow y) r), (Z.eq_dec (pcol y) c); tauto).
  destruct Q as [[Q0 Q1]|Q]; [split; [exact Q0|split; [exact Q1|]]; exact (g_done _ _ _ _ _ _ _ _ _ _ G y Ay)|].
  exfalso. destruct (source_in r c y z HP D (proj1 Vz) Z0 Z1 Q) as [d [Hd' Hy]]. rewrite (HS d y Hd' Hy) in Ay. discriminate.
Qed.

(** Cells that have not been visited once all sources have been *)
Lemma is_foreign dn ar (st : state) : Inv dn ar st ->
  forall x, valid x -> ps_todo (st (prow x) (pcol x)) = [] -> dn x = false -> foreign x.
Proof.
  intros [_ [G _]]. apply (upstream_ind a0 a1 nd f AC V (fun x => ps_todo (st (prow x) (pcol x)) = [] -> dn x = false -> foreign x)). intros x Hv IH HT Ed.
  destruct (loc_inside a0 a1 p0 p1 P0 P1 x (proj1 Hv)) as [HP [HL Gx]].
  destruct (filter (fun y => negb (ar y)) (up x)) as [|y l] eqn:EF.
  - exfalso. assert (HA : forall y, In y (up x) -> ar y = true).
    { intros y Hy. destruct (ar y) eqn:E; [reflexivity|]. exfalso. assert (In y (filter (fun y => negb (ar y)) (up x))) as H by (apply filter_In; now rewrite E). rewrite EF in H. destruct H. }
    destruct (up x) as [|z u] eqn:EU.
    + assert (dn x = true); [|congruence]. rewrite <- Gx. apply (g_todo _ _ _ _ _ _ _ _ _ _ G); try assumption; [tauto|right; now rewrite Gx|]. rewrite HT. intros [].
    + rewrite <- EU in HA. rewrite (g_ready _ _ _ _ _ _ _ _ _ _ G x Hv) in Ed; [discriminate|tauto|rewrite EU; discriminate|exact HA].
  - assert (Hy : In y (up x) /\ ar y = false).
    { assert (In y (filter (fun y => negb (ar y)) (up x))) as H by (rewrite EF; now left). apply filter_In in H. destruct H as [H1 H2]. now rewrite negb_true_iff in H2. }
    destruct Hy as [Hy Ea]. pose proof (proj1 (in_upstream _ _ _ _ _ _) Hy) as D. assert (D' := D). destruct D' as [D1 [D2 [D3 D4]]].
    assert (Q : (prow y = prow x /\ pcol y = pcol x) \/ ~ (prow y = prow x /\ pcol y = pcol x)) by (destruct (Z.eq_dec (prow y) (prow x)), (Z.eq_dec (pcol y) (pcol x)); tauto).
    destruct Q as [[Q0 Q1]|Q].
    + assert (Edy : dn y = false).
      { destruct (dn y) eqn:E; [|reflexivity]. rewrite (g_same _ _ _ _ _ _ _ _ _ _ G y) in Ea; try discriminate; try assumption; try (rewrite <- D3); auto; [now split|apply Hv]. }
      destruct (IH y D) as [z [Pz Nz]]; [rewrite Q0, Q1; exact HT|exact Edy|].
      exists z. split.
      * clear -Pz D Hv. induction Pz as [z Iz Nz|z w y D' P' IH]; [|eapply path_step; [exact D'|now apply IH]].
        eapply path_step; [exact D|]. apply path_here; apply Hv.
      * rewrite together_spec in *. rewrite Q0, Q1 in Nz. exact Nz.
    + exists y. split; [eapply path_step; [exact D|apply path_here; apply Hv]|]. exact Q.
Qed.

Lemma receives_foreign x : valid x -> receives x -> foreign x.
Proof. intros Hv [y [D N]]. exists y. split; [eapply path_step; [exact D|apply path_here; apply Hv]|exact N]. Qed.

Lemma finish_leaves r c t w : part_ok r c -> inside (e0 r) (e1 c) t -> w <> partition_output_cell -> (finish r c w t = partition_output_cell <-> leaves (glob r c t)).
Proof.
  intros HP It Hw. unfold AccuInfoProofs.finish, AccuInfoSpec.leaves. rewrite together_spec.
  destruct (glob_inside a0 a1 p0 p1 P0 P1 r c t HP It) as [_ [G0 G1]]. rewrite G0, G1, <- glob_dest.
  pose proof (inside_glob a0 a1 p0 p1 P0 P1 r c (dest (lf r c) t) HP) as IG.
  destruct (cell_eqb (dest (lf r c) t) t) eqn:E.
  - apply cell_eqb_spec in E. rewrite E. split; [discriminate|]. intros [H _]. contradiction.
  - assert (N : dest (lf r c) t <> t) by (intros H; rewrite H, cell_eqb_refl in E; discriminate).
    assert (N' : glob r c (dest (lf r c) t) <> glob r c t) by (intros H; apply glob_inj in H; contradiction).
    destruct (insideb (e0 r) (e1 c) (dest (lf r c) t)) eqn:Ei.
    + apply insideb_spec in Ei. apply IG in Ei. split; [contradiction|]. intros [_ H]. exfalso. apply H. destruct Ei as [I1 [I2 I3]]. split; [exact I1|]. now split.
    + apply insideb_false in Ei. split; [|reflexivity]. intros _. split; [exact N'|]. intros [H1 [H2 H3]]. apply Ei. apply IG. auto.
Qed.

(** The loops over all cells *)
Lemma intra_cls dn ar dn' ar' (st st' : state) r c t todo (s' : bookkeeping) g : Inv dn ar st -> part_ok r c -> ps_todo (st r c) = t :: todo ->
  Inv dn' ar' st' -> st' r c = s' -> Cls r c (st r c) g ->
  intra no_material nd (has_neighbour M0 M1 r c) (set_todo (st r c) todo) (fst t) (snd t) = Ok s' ->
  exists g', info_intra nd (has_neighbour M0 M1 r c) (set_todo (st r c) todo) g (fst t) (snd t) = Ok (s', g') /\ Cls r c s' g'.
Proof.
  intros I HP ET I' Es' [k [h [Ek [-> [HI HC]]]]]. assert (I0 := I). destruct I0 as [I1 [I2 I3]]. pose proof (I1 r c HP) as PR.
  assert (It : inside (e0 r) (e1 c) t) by (apply (I3 r c t HP); rewrite ET; now left).
  assert (HT : ps_todo (st r c) <> []) by (rewrite ET; discriminate). specialize (HI HT). rewrite ET in HC.
  destruct (glob_inside a0 a1 p0 p1 P0 P1 r c t HP It) as [Gi [G0 G1]].
  unfold intra, info_intra. cbn [set_todo ps_flow ps_original].
  rewrite (pr_flow _ _ _ _ _ _ _ _ _ _ _ _ _ _ _ PR), grid_get by exact It. rewrite !obind_Ok.
  change (lf r c (fst t) (snd t)) with (f (glob r c t)).
  assert (NU : forall u, inside (e0 r) (e1 c) u -> nd (f (glob r c u)) = true -> up (glob r c u) = []).
  { intros u Iu Hn. destruct (up (glob r c u)) eqn:E; [reflexivity|]. exfalso. rewrite up_nd in Hn; [discriminate| |rewrite E; discriminate].
    now apply (glob_inside a0 a1 p0 p1 P0 P1 r c u HP). }
  assert (KU : forall u, inside (e0 r) (e1 c) u -> up (glob r c u) = [] -> k u = 0).
  { intros u Iu E. rewrite (count_is dn ar r c (st r c) k u PR Ek Iu). now apply cnt_up_nil. }
  destruct (nd (f (glob r c t))) eqn:En.
  - intros H. apply update_unit in H. rewrite H. rewrite gm_set by exact It. rewrite obind_Ok. eexists. split; [reflexivity|].
    exists k, (setv h t no_class). split; [exact Ek|]. split; [reflexivity|]. split; [intros _; exact HI|]. intros u Iu. cbn [set_todo ps_todo]. destruct (HC u Iu) as [C1 [C2 [C3 C4]]].
    destruct (cell_dec u t) as [->|N].
    + rewrite setv_same. split; [reflexivity|]. split; [congruence|]. split; [intros Hne; exfalso; apply Hne; now apply NU|]. rewrite (KU t It) by now apply NU. lia.
    + rewrite setv_other by exact N. split; [intros Hn Hi; apply C1; [exact Hn|]; intros [E|E]; [congruence|contradiction]|].
      split; [intros Hn Hu Hi; apply C2; try assumption; intros [E|E]; [congruence|contradiction]|]. split; assumption.
  - rewrite (pr_original _ _ _ _ _ _ _ _ _ _ _ _ _ _ _ PR), grid_get by exact It. rewrite !obind_Ok, <- surjective_pairing.
    destruct (Z.eqb_spec (cnt (fun _ => false) (glob r c t)) 0) as [E0|E0].
    + assert (EU : up (glob r c t) = []).
      { unfold RouterProofs2.cnt in E0. rewrite filter_all in E0 by reflexivity. destruct (up (glob r c t)); [reflexivity|cbn [length] in E0; lia]. }
      intros H. rewrite gm_set by exact It. rewrite obind_Ok.
      assert (H255 : forall u, inside (e0 r) (e1 c) u -> 0 < k u -> setv h t intra_partition_stream_cell u <> no_class).
      { intros u Iu Ku. destruct (cell_dec u t) as [->|N]; [now rewrite setv_same|rewrite setv_other by exact N; now apply HC]. }
      destruct (walk_ok (e0 r) (e1 c) (lf r c) (has_neighbour M0 M1 r c) intra_partition_stream_cell ltac:(discriminate) (iterations (set_todo (st r c) todo)) (set_todo (st r c) todo) s' k (setv h t intra_partition_stream_cell) t It
        (pr_flow _ _ _ _ _ _ _ _ _ _ _ _ _ _ _ PR) Ek (setv_same _ _ _) H255 H)
        as [k' [h' [W1 [W2 [W3 [W4 [W5 [W6 [W7 [W8 [W9 W10]]]]]]]]]]].
      rewrite W1, obind_Ok, gm_set by exact It. rewrite obind_Ok. eexists. split; [reflexivity|]. cbn [set_todo ps_todo ps_inputs] in W5, W6.
      assert (I0 := I'). destruct I0 as [J1 [J2 J3]]. pose proof (J1 r c HP) as PR'. rewrite Es' in PR'.
      exists k', (setv h' t ridge_cell). split; [exact W4|]. split; [reflexivity|]. split; [intros _; rewrite W6; exact HI|]. rewrite W5.
      intros u Iu. destruct (HC u Iu) as [C1 [C2 [C3 C4]]].
      destruct (cell_dec u t) as [->|N].
      * rewrite setv_same. split; [congruence|]. split; [reflexivity|]. split; [intros Hne; contradiction|discriminate].
      * rewrite setv_other by exact N. assert (KEEP : k u = 0 -> h' u = h u).
        { intros Ku. destruct (W9 u Iu ltac:(lia)) as [_ Q]. rewrite Q by exact N. now apply setv_other. }
        split; [intros Hn Hi; rewrite KEEP by (apply KU; auto); apply C1; [exact Hn|]; intros [E|E]; [congruence|contradiction]|].
        split; [intros Hn Hu Hi; rewrite KEEP by (apply KU; auto); apply C2; try assumption; intros [E|E]; [congruence|contradiction]|].
        destruct (Z.eq_dec (k u) 0) as [Ku|Ku].
        { rewrite (KEEP Ku). destruct (W9 u Iu ltac:(lia)) as [Q _]. rewrite Q. split; assumption. }
        assert (Kp : 0 < k u). { rewrite (count_is dn ar r c (st r c) k u PR Ek Iu) in *. unfold RouterProofs2.cnt in *. lia. }
        destruct (W10 u Iu Kp) as [_ [Q1 Q2]]. split; [|exact Q1]. intros Hne Z. destruct (Q2 Z) as [Q3 _]. left. split; [|exact Q3].
        destruct (glob_inside a0 a1 p0 p1 P0 P1 r c u HP Iu) as [Iu' [U0 U1]].
        assert (Vu : valid (glob r c u)) by (split; [exact Iu'|now apply up_nd]).
        assert (Du : dn' (glob r c u) = true).
        { apply (g_ready _ _ _ _ _ _ _ _ _ _ J2); try assumption; [tauto|]. apply cnt_zero. rewrite <- (count_is dn' ar' r c s' k' u PR' W4 Iu). exact Z. }
        intros [y [Py Ny]]. apply Ny. rewrite together_spec, U0, U1.
        assert (HS : forall d y, 0 <= d < 8 -> In y (srcs r c d) -> ar' y = false) by (apply (none_received dn' ar' r c s' PR'); rewrite W6; exact HI).
        destruct (not_foreign dn' ar' st' r c I' HP HS y _ Py Vu U0 U1 Du) as [Y0 [Y1 _]]. auto.
    + intros H. injection H as H. rewrite <- H. eexists. split; [reflexivity|]. exists k, h. split; [exact Ek|]. split; [reflexivity|]. split; [intros _; exact HI|].
      intros u Iu. destruct (HC u Iu) as [C1 [C2 [C3 C4]]]. cbn [set_todo ps_todo]. destruct (cell_dec u t) as [->|N].
      * split; [congruence|]. split; [intros _ EU; exfalso; apply E0; now apply cnt_up_nil|]. split; assumption.
      * split; [intros Hn Hi; apply C1; [exact Hn|]; intros [E|E]; [congruence|contradiction]|].
        split; [intros Hn Hu Hi; apply C2; try assumption; intros [E|E]; [congruence|contradiction]|]. split; assumption.
Qed.

(** Messages *)
Lemma inter_cls dn ar (st : state) r c d u inputs (s' : bookkeeping) g v : Inv dn ar st -> part_ok r c -> ps_todo (st r c) = [] -> 0 <= d < 8 ->
  In u (ps_inputs (st r c) d) -> Cls r c (st r c) g ->
  inter no_material (has_neighbour M0 M1 r c) (set_input (st r c) d inputs) (fst u) (snd u) v = Ok s' ->
  exists g', info_inter (has_neighbour M0 M1 r c) (set_input (st r c) d inputs) g (fst u) (snd u) = Ok (s', g') /\ Cls r c s' g'.
Proof.
  intros I HP ET Hd Hu [k [h [Ek [-> [_ HC]]]]]. assert (I0 := I). destruct I0 as [I1 [I2 I3]]. pose proof (I1 r c HP) as PR.
  rewrite ET in HC.
  apply (Permutation_in _ (pr_inputs _ _ _ _ _ _ _ _ _ _ _ _ _ _ _ PR d Hd)) in Hu. apply in_map_iff in Hu. destruct Hu as [y [Ey Hy]]. apply filter_In in Hy. destruct Hy as [Hy _].
  destruct (srcs_spec a0 a1 p0 p1 nd f P0 P1 r c d HP Hd) as [_ SS]. apply SS in Hy. destruct Hy as [Y1 [Y2 [Y3 [Y4 [Y5 [Y6 Y7]]]]]].
  destruct (loc_inside a0 a1 p0 p1 P0 P1 _ Y5) as [_ [Iu Gu]]. rewrite Y6, Y7 in Iu, Gu. change (loc (towards f y)) with (input_of y) in Iu, Gu. rewrite Ey in Iu, Gu.
  assert (NT : ~ (prow y = r /\ pcol y = c)) by (destruct (off_ok d Hd) as [[_ [_ Z]] _]; lia).
  assert (D : drains y (glob r c u)).
  { rewrite Gu. repeat split; try apply Y1; try assumption. intros E. apply NT. rewrite <- E. auto. }
  assert (Vu : valid (glob r c u)) by (split; [rewrite Gu; exact Y5|apply (V _ _ D); rewrite Gu; exact Y5]).
  destruct (glob_inside a0 a1 p0 p1 P0 P1 r c u HP Iu) as [_ [U0 U1]].
  assert (RU : receives (glob r c u)) by (exists y; split; [exact D|]; rewrite together_spec, U0, U1; exact NT).
  assert (FU : foreign (glob r c u)) by (apply receives_foreign; assumption).
  (* cells that have not been visited *)
  assert (POS : forall v, inside (e0 r) (e1 c) v -> 0 < k v -> valid (glob r c v) /\ foreign (glob r c v)).
  { intros w Iw Kw. destruct (glob_inside a0 a1 p0 p1 P0 P1 r c w HP Iw) as [Iw' [W0 W1]].
    rewrite (count_is dn ar r c (st r c) k w PR Ek Iw) in Kw.
    assert (Vw : valid (glob r c w)).
    { split; [exact Iw'|]. apply up_nd; [exact Iw'|]. intros E. rewrite cnt_up_nil in Kw by exact E. lia. }
    split; [exact Vw|]. apply (is_foreign dn ar st I _ Vw); [now rewrite W0, W1|].
    destruct (dn (glob r c w)) eqn:E; [|reflexivity]. exfalso. assert (C0 : cnt ar (glob r c w) = 0) by (apply cnt_zero; apply (g_ups _ _ _ _ _ _ _ _ _ _ I2); assumption). lia. }
  assert (KU : forall w, inside (e0 r) (e1 c) w -> up (glob r c w) = [] -> k w = 0).
  { intros w Iw E. rewrite (count_is dn ar r c (st r c) k w PR Ek Iw). now apply cnt_up_nil. }
  assert (NU : forall w, inside (e0 r) (e1 c) w -> nd (f (glob r c w)) = true -> k w = 0).
  { intros w Iw Hn. apply KU; [exact Iw|]. destruct (up (glob r c w)) eqn:E; [reflexivity|]. exfalso. rewrite up_nd in Hn; [discriminate| |rewrite E; discriminate].
    now apply (glob_inside a0 a1 p0 p1 P0 P1 r c w HP). }
  unfold inter, info_inter. cbn [set_input ps_count]. rewrite Ek, (gm_get _ _ k u Iu), !obind_Ok.
  destruct (Z.leb_spec 1 (k u)) as [Ku|Ku]; cbn [negb]; [|discriminate].
  destruct (update_result (set_input (st r c) d inputs) (fst u) (snd u) _) as [s1| |] eqn:E1; cbn [obind]; try discriminate. apply update_unit in E1. subst s1.
  cbn [set_input ps_count]. rewrite Ek, !(gm_set _ _ _ u) by exact Iu. rewrite !obind_Ok.
  set (s2 := set_count _ _).
  destruct (Z.eqb_spec (k u - 1) 0) as [K1|K1].
  - intros H.
    assert (H255 : forall w, inside (e0 r) (e1 c) w -> 0 < setv k u (k u - 1) w -> setv h u inter_partition_stream_cell w <> no_class).
    { intros w Iw Kw. destruct (cell_dec w u) as [->|N]; [now rewrite setv_same|rewrite setv_other in * by exact N; now apply HC]. }
    destruct (walk_ok (e0 r) (e1 c) (lf r c) (has_neighbour M0 M1 r c) inter_partition_stream_cell ltac:(discriminate) (iterations (set_input (st r c) d inputs)) s2 s' (setv k u (k u - 1))
      (setv h u inter_partition_stream_cell) u Iu (pr_flow _ _ _ _ _ _ _ _ _ _ _ _ _ _ _ PR) eq_refl (setv_same _ _ _) H255 H)
      as [k' [h' [W1 [W2 [W3 [W4 [W5 [W6 [W7 [W8 [W9 W10]]]]]]]]]]].
    rewrite W1, obind_Ok. unfold leave_inter_partition_stream. rewrite (gm_get _ _ h' u Iu), obind_Ok, W8.
    exists (gm r c (setv h' u (outside_class r c u))). split.
    { unfold outside_class. destruct (finish r c inter_partition_stream_cell u =? partition_output_cell); cbn [negb]; rewrite gm_set by exact Iu; reflexivity. }
    assert (T' : ps_todo s' = []) by (rewrite W5; exact ET).
    exists k', (setv h' u (outside_class r c u)). split; [exact W4|]. split; [reflexivity|]. split; [rewrite T'; congruence|]. rewrite T'.
    intros w Iw. destruct (HC w Iw) as [C1 [C2 [C3 C4]]]. destruct (cell_dec w u) as [->|N].
    + rewrite setv_same. split; [intros Hn; rewrite NU in Ku by assumption; lia|]. split; [intros _ E; rewrite KU in Ku by assumption; lia|].
      split; [intros _ _; right; right; auto|]. intros _. unfold outside_class. destruct (_ =? _); discriminate.
    + rewrite setv_other by exact N.
      assert (KEEP : k w = 0 -> k' w = 0 /\ h' w = h w).
      { intros Kw. destruct (W9 w Iw) as [Q1 Q2]; [rewrite setv_other by exact N; lia|]. rewrite setv_other in Q1 by exact N. split; [lia|]. rewrite Q2 by exact N. now apply setv_other. }
      split; [intros Hn; destruct (KEEP (NU w Iw Hn)) as [_ ->]; now apply C1|]. split; [intros Hn E; destruct (KEEP (KU w Iw E)) as [_ ->]; now apply C2|].
      destruct (Z.eq_dec (k w) 0) as [Kw|Kw].
      { destruct (KEEP Kw) as [-> ->]. split; [intros Hne _; now apply C3|lia]. }
      assert (Kp : 0 < k w). { rewrite (count_is dn ar r c (st r c) k w PR Ek Iw) in *. unfold RouterProofs2.cnt in *. lia. }
      destruct (W10 w Iw) as [_ [Q1 Q2]]; [rewrite setv_other by exact N; exact Kp|]. split; [|exact Q1]. intros Hne Z. destruct (Q2 Z) as [Q3 [w' [Iw' [Dw [Nw Q4]]]]].
      right. left. split; [now apply POS|]. split; [exact Q3|]. intros _.
      assert (FW : valid (glob r c w') /\ foreign (glob r c w')).
      { destruct Q4 as [->|[Q4 _]]; [now split|]. destruct (cell_dec w' u) as [->|N']; [now split|]. rewrite setv_other in Q4 by exact N'. now apply POS. }
      destruct FW as [VW FW]. exists (glob r c w'). split; [|split; [|exact FW]].
      * repeat split; try apply VW; [rewrite <- Dw; apply glob_dest|]. intros E. apply glob_inj in E. congruence.
      * rewrite together_spec. destruct (glob_inside a0 a1 p0 p1 P0 P1 r c w' HP Iw') as [_ [-> ->]], (glob_inside a0 a1 p0 p1 P0 P1 r c w HP Iw) as [_ [-> ->]]. auto.
  - intros H. injection H as <-. eexists. split; [reflexivity|]. exists (setv k u (k u - 1)), (setv h u inter_partition_stream_cell). split; [reflexivity|]. split; [reflexivity|].
    change (ps_todo s2) with (ps_todo (st r c)). rewrite ET. split; [congruence|]. intros w Iw. destruct (HC w Iw) as [C1 [C2 [C3 C4]]]. destruct (cell_dec w u) as [->|N].
    + rewrite !setv_same. split; [intros Hn; rewrite NU in Ku by assumption; lia|]. split; [intros _ E; rewrite KU in Ku by assumption; lia|]. split; [lia|discriminate].
    + rewrite !setv_other by exact N. auto.
Qed.

Lemma Cls_send r c (s : bookkeeping) d ch g : Cls r c s g -> Cls r c (set_send s d ch) g.
Proof. intros H. exact H. Qed.
Lemma upd_cl_same cl r c g : upd_classes cl r c g r c = g.
Proof. unfold upd_classes. now rewrite !Z.eqb_refl. Qed.
Lemma upd_cl_other cl r c g r' c' : ~ (r' = r /\ c' = c) -> upd_classes cl r c g r' c' = cl r' c'.
Proof. intros N. unfold upd_classes. destruct (Z.eqb_spec r' r), (Z.eqb_spec c' c); cbn; try reflexivity; tauto. Qed.

Lemma info_step_none l st cl : info_step nd M0 M1 l (st, cl) = None <-> step no_material nd M0 M1 l st = None.
Proof.
  destruct l as [r c|r c d]; cbn [info_step step].
  - destruct (in_parts M0 M1 r c); [|tauto]. destruct (ps_todo (st r c)) as [|[i j] todo]; [tauto|]. split; discriminate.
  - destruct (in_parts M0 M1 r c && (0 <=? d) && (d <? 8)); [|tauto]. destruct (ps_todo (st r c)); [|tauto]. destruct (ps_inputs (st r c) d); [tauto|].
    destruct (has_neighbour M0 M1 r c d); [|split; discriminate]. destruct (neighbour_idxs d r c) as [rn cn]. destruct (ch_queue _) as [|[idx v] q].
    + destruct (ch_closed _); [split; discriminate|tauto].
    + cbv zeta. destruct (idx_to_idxs _ _ _ _) as [i j]. split; discriminate.
Qed.

Notation weight := (weight a0 a1 p0 p1).
Lemma info_step_ok st cl l o : info_inv (st, cl) -> info_step nd M0 M1 l (st, cl) = Some o ->
  exists st' cl', o = Ok (st', cl') /\ info_inv (st', cl') /\ weight st = S (weight st').
Proof.
  intros [[dn [ar I]] HC] HS. cbn [fst snd] in *.
  destruct (step no_material nd M0 M1 l st) as [o'|] eqn:ES; [|apply (info_step_none l st cl) in ES; congruence].
  destruct (step_ok a0 a1 p0 p1 nd f P0 P1 V AC no_material _ _ _ _ (fun _ => tt) no_material_pure dn ar st l o' I ES) as [st' [dn' [ar' [-> [I' W]]]]].
  exists st'. destruct l as [r c|r c d]; cbn [info_step step] in HS, ES.
  - destruct (in_parts M0 M1 r c) eqn:EP; [|discriminate]. apply (in_parts_ok a0 a1 p0 p1) in EP.
    destruct (ps_todo (st r c)) as [|[i j] todo] eqn:ET; [discriminate|]. injection HS as <-. injection ES as ES.
    destruct (intra no_material nd (has_neighbour M0 M1 r c) (set_todo (st r c) todo) i j) as [s'| |] eqn:E; cbn [obind] in ES; try discriminate. injection ES as ES.
    assert (Es' : st' r c = s') by (rewrite <- ES; apply upd_same).
    destruct (intra_cls dn ar dn' ar' st st' r c (i, j) todo s' (cl r c) I EP ET I' Es' (HC r c EP) E) as [g' [Eg Cg]]. cbn [fst snd] in Eg. rewrite Eg, obind_Ok.
    exists (upd_classes cl r c g'). split; [now rewrite ES|]. split; [|exact W]. split; [now exists dn', ar'|]. cbn [fst snd]. intros r' c' HP'.
    destruct (parts_dec r c r' c') as [[-> ->]|N]; [now rewrite Es', upd_cl_same|]. rewrite upd_cl_other by exact N. rewrite <- ES, upd_other by exact N. now apply HC.
  - destruct (in_parts M0 M1 r c && (0 <=? d) && (d <? 8)) eqn:EP; [|discriminate].
    assert (HP : part_ok r c) by (apply (in_parts_ok a0 a1 p0 p1); destruct (in_parts M0 M1 r c); [reflexivity|discriminate]).
    assert (Hd : 0 <= d < 8) by (destruct (in_parts M0 M1 r c); [lia|discriminate]). clear EP.
    destruct (ps_todo (st r c)) as [|? ?] eqn:ET; [|discriminate]. destruct (ps_inputs (st r c) d) as [|i0 il] eqn:EI; [discriminate|].
    destruct (has_neighbour M0 M1 r c d) eqn:HN; [|discriminate]. rewrite neighbour_off in HS, ES.
    set (rn := r + off0 d) in *. set (cn := c + off1 d) in *. 
    assert (Hne : ~ (r = rn /\ c = cn)) by (destruct (off_ok d Hd) as [[_ [_ Z]] _]; unfold rn, cn; lia).
    destruct (ch_queue (ps_sends (st rn cn) (sender_direction d))) as [|[idx v] q]; [destruct (ch_closed _); discriminate|]. cbv zeta in HS, ES.
    set (stn := upd_part st rn cn _) in *. assert (En : stn r c = st r c) by (unfold stn; now rewrite upd_other). rewrite En in HS, ES.
    destruct (idx_to_idxs d (g0 (ps_flow (st r c))) (g1 (ps_flow (st r c))) idx) as [i j]. injection HS as <-. injection ES as ES.
    destruct (erase_first (fun rc => (fst rc =? i) && (snd rc =? j)) (ps_inputs (st r c) d)) as [inputs| |] eqn:EE; cbn [obind] in ES; try discriminate.
    rewrite obind_Ok.
    assert (Hu : In (i, j) (ps_inputs (st r c) d)).
    { clear -EE. revert inputs EE. induction (ps_inputs (st r c) d) as [|[a b] L IH]; intros inputs; cbn [erase_first]; [discriminate|]. cbn [fst snd].
      destruct ((a =? i) && (b =? j)) eqn:E; [left; f_equal; lia|]. destruct (erase_first _ L) as [L'| |]; cbn [obind]; try discriminate. intros _. right. now apply (IH L'). }
    destruct (inter no_material (has_neighbour M0 M1 r c) (set_input (st r c) d inputs) i j v) as [s'| |] eqn:E; cbn [obind] in ES; try discriminate. injection ES as ES.
    destruct (inter_cls dn ar st r c d (i, j) inputs s' (cl r c) v I HP ET Hd Hu (HC r c HP) E) as [g' [Eg Cg]]. cbn [fst snd] in Eg. rewrite Eg, obind_Ok.
    exists (upd_classes cl r c g'). split; [now rewrite ES|]. split; [|exact W]. split; [now exists dn', ar'|]. cbn [fst snd]. intros r' c' HP'.
    destruct (parts_dec r c r' c') as [[-> ->]|N]; [now rewrite <- ES, upd_same, upd_cl_same|]. rewrite upd_cl_other by exact N. rewrite <- ES, upd_other by exact N.
    unfold stn. destruct (parts_dec rn cn r' c') as [[-> ->]|N']; [rewrite upd_same; apply Cls_send; now apply HC|rewrite upd_other by exact N'; now apply HC].
Qed.

Lemma info_run_ok st ls st' : info_run nd M0 M1 st ls st' -> info_inv st -> info_inv st' /\ weight (fst st) = (length ls + weight (fst st'))%nat.
Proof.
  induction 1 as [st|[st cl] l st1 ls st2 E R IH]; intros I; [auto|].
  destruct (info_step_ok st cl l _ I E) as [st' [cl' [E' [I' W]]]]. injection E' as ->. destruct (IH I') as [I2 W2]. split; [exact I2|]. cbn [fst length] in *. lia.
Qed.
End Global.
