(** The steps of the router keep the invariant. *)
From Verif Require Import Common CommonProofs GridModel GridProofs GridRaster FlowSpec FlowModel RouterModel FlowProofs FlowProofs2 FlowProofs3 FlowProofs4
  RouterProofs RouterProofs2.

Section Steps.
Context (a0 a1 p0 p1 : Z) (nd : Z -> bool) (f : cell -> Z).
Context (P0 : 2 <= p0 <= a0) (P1 : 2 <= p1 <= a1).
Context (V : valid_network a0 a1 nd f) (AC : acyclic a0 a1 nd f).
Context {A X M : Type} (ac : accumulator A X M) (enter : A -> X -> X) (add : X -> M -> X) (pre post : X -> Prop) (arg : cell -> A).
Context (PA : pure_accumulator ac enter add pre post).

Notation glob := (glob p0 p1). Notation e0 := (e0 a0 p0). Notation e1 := (e1 a1 p1).
Notation M0 := (M0 a0 p0). Notation M1 := (M1 a1 p1). Notation part_ok := (part_ok a0 a1 p0 p1).
Notation lf := (lf p0 p1 f). Notation srcs := (srcs a0 a1 p0 p1 nd f). Notation input_of := (input_of a0 a1 p0 p1 f).
Notation prow := (prow a0 p0). Notation pcol := (pcol a1 p1). Notation loc := (loc a0 a1 p0 p1).
Notation outs := (outs a0 a1 p0 p1 nd f). Notation outc := (outc a0 a1 p0 p1 f). Notation odir := (odir a0 a1 p0 p1 f).
Notation up := (upstream a0 a1 nd f). Notation valid := (valid a0 a1 nd f).
Notation pstate := (@partition_state A X M).
Notation F := (F a0 a1 nd f ac enter add arg). Notation acc := (acc a0 a1 nd f ac enter add arg).
Notation val := (val a0 a1 nd f ac enter add arg). Notation cnt := (cnt a0 a1 nd f).
Notation msg := (msg a0 a1 p0 p1 nd f ac enter add arg). Notation didx := (didx a0 a1 p0 p1 f).
Notation part_rep := (part_rep a0 a1 p0 p1 nd f ac enter add arg).
Notation ghost_ok := (ghost_ok a0 a1 p0 p1 nd f). Notation changes := (changes a0 a1 p0 p1 f).
Notation undone := (undone a0 a1 p0 p1).

(** The same partition state, seen with other ghosts *)
Lemma part_rep_agree dn ar dn' ar' r c s : part_ok r c -> part_rep dn ar r c s ->
  (forall y, valid y -> inside a0 a1 (towards f y) -> prow (towards f y) = r -> pcol (towards f y) = c -> ar' y = ar y) ->
  (forall t, inside (e0 r) (e1 c) t -> dn' (glob r c t) = dn (glob r c t)) ->
  (forall t, In t (outs r c) -> ar' (glob r c t) = ar (glob r c t)) -> part_rep dn' ar' r c s.
Proof.
  intros HP PR H1 H2 H3. destruct (outs_spec a0 a1 p0 p1 nd f P0 P1 r c HP) as [_ I].
  assert (HU : forall i j, 0 <= i < e0 r -> 0 <= j < e1 c -> forall y, In y (up (glob r c (i, j))) -> ar' y = ar y).
  { intros i j Hi Hj y Hy. pose proof (up_in_part _ _ _ _ _ _ Hy) as E. apply in_upstream in Hy. destruct Hy as [Y1 [Y2 _]].
    destruct (glob_inside a0 a1 p0 p1 P0 P1 r c (i, j) HP) as [G [G0 G1]]; [split; assumption|]. apply H1; rewrite <- ?E; try assumption. now split. }
  destruct PR. constructor; try assumption.
  - rewrite pr_count. apply gmake_ext. intros i j Hi Hj. unfold RouterProofs2.cnt. do 2 f_equal. apply filter_ext_in. intros y Hy. now rewrite (HU i j Hi Hj).
  - rewrite pr_result. apply gmake_ext. intros i j Hi Hj. unfold RouterProofs2.val. rewrite H2 by (split; assumption).
    replace (filter ar' (up (glob r c (i, j)))) with (filter ar (up (glob r c (i, j)))); [reflexivity|].
    apply filter_ext_in. intros y Hy. now rewrite (HU i j Hi Hj).
  - rewrite pr_outputs. f_equal. apply filter_ext_in. intros t Ht. now rewrite H2 by now apply I.
  - intros d Hd. rewrite (pr_inputs d Hd). erewrite filter_ext_in; [apply Permutation_refl|]. intros y Hy. cbn beta. f_equal. symmetry.
    destruct (srcs_spec a0 a1 p0 p1 nd f P0 P1 r c d HP Hd) as [_ IS]. apply IS in Hy. destruct Hy as [Y1 [Y2 [_ [_ [Y3 [Y4 Y5]]]]]]. apply H1; try assumption. now split.
  - intros d Hd. destruct (pr_sends d Hd) as [C [q [E [N Q]]]]. split.
    + intros H t Ht Et. rewrite H2 by now apply I. now apply C.
    + exists q. split; [exact E|]. split; [exact N|]. intros t. rewrite Q. split; intros [Q1 [Q2 [Q3 [Q4 Q5]]]]; rewrite H2, H3 in * by (try assumption; now apply I); auto.
Qed.
Lemma part_rep_other dn ar dn' ar' r c r' c' s : part_ok r' c' -> changes r c dn ar dn' ar' -> ~ (r' = r /\ c' = c) ->
  part_rep dn ar r' c' s -> part_rep dn' ar' r' c' s.
Proof.
  intros HP CH N PR. apply (part_rep_agree dn ar); try assumption.
  - intros y _ _ E0 E1. destruct (bool_dec (ar' y) (ar y)) as [E|E]; [exact E|]. exfalso. apply N. destruct (CH y) as [_ C]. specialize (C E). lia.
  - intros t Ht. destruct (bool_dec (dn' (glob r' c' t)) (dn (glob r' c' t))) as [E|E]; [exact E|]. exfalso. apply N.
    destruct (CH (glob r' c' t)) as [C _]. specialize (C E). destruct (glob_inside a0 a1 p0 p1 P0 P1 r' c' t HP Ht) as [_ [G0 G1]]. lia.
  - intros t Ht. destruct (outs_spec a0 a1 p0 p1 nd f P0 P1 r' c' HP) as [_ I]. apply I in Ht. destruct Ht as [Ht _].
    destruct (bool_dec (ar' (glob r' c' t)) (ar (glob r' c' t))) as [E|E]; [exact E|]. exfalso. apply N.
    destruct (CH (glob r' c' t)) as [_ C]. specialize (C E). destruct (glob_inside a0 a1 p0 p1 P0 P1 r' c' t HP Ht) as [_ [G0 G1]]. lia.
Qed.

Lemma ghost_ext todo todo' dn ar exc : (forall r c, part_ok r c -> todo' r c = todo r c) -> ghost_ok todo dn ar exc -> ghost_ok todo' dn ar exc.
Proof.
  intros E G. destruct G. constructor; try assumption.
  - intros r c t HP. rewrite E by exact HP. now apply g_todo.
  - intros r c HP. rewrite E by exact HP. now apply g_nodup.
Qed.

Definition upd_todo (todo : Z -> Z -> list cell) (r c : Z) (l : list cell) : Z -> Z -> list cell :=
  fun r' c' => if (r' =? r) && (c' =? c) then l else todo r' c'.

(** The state of a partition without the cells it still has to visit is what matters. *)
Lemma part_rep_todo dn ar r c s l : part_rep dn ar r c s -> part_rep dn ar r c (set_todo s l).
Proof. intros H. destruct H. constructor; assumption. Qed.

Lemma glob_same r c t r' c' t' : part_ok r c -> part_ok r' c' -> inside (e0 r) (e1 c) t -> inside (e0 r') (e1 c') t' ->
  glob r c t = glob r' c' t' -> r = r' /\ c = c' /\ t = t'.
Proof.
  intros HP HP' Ht Ht' E. destruct (glob_inside a0 a1 p0 p1 P0 P1 r c t HP Ht) as [_ [G0 G1]]. destruct (glob_inside a0 a1 p0 p1 P0 P1 r' c' t' HP' Ht') as [_ [G2 G3]].
  rewrite E in G0, G1. assert (Er : r = r') by congruence. assert (Ec : c = c') by congruence. clear G0 G1 G2 G3. rewrite Er, Ec in E. apply glob_inj in E. auto.
Qed.

Lemma ghost_visit todo dn ar exc r c t l : part_ok r c -> inside (e0 r) (e1 c) t -> todo r c = t :: l -> (forall x, ~ exc x) -> ghost_ok todo dn ar exc ->
  ghost_ok (upd_todo todo r c l) dn ar (eq (glob r c t)).
Proof.
  intros HP Ht E Hex G. destruct G. constructor; try assumption.
  - intros x Hx _. now apply g_ready.
  - intros r' c' t' HP' Ht' Hne Hor. unfold upd_todo. destruct ((r' =? r) && (c' =? c)) eqn:Eb; [|now apply g_todo].
    assert (r' = r) by lia. assert (c' = c) by lia. subst. rewrite (g_todo r c t' HP Ht' (Hex _) Hor), E. cbn [In].
    assert (t <> t') by (intros ->; now apply Hne). tauto.
  - intros r' c' HP'. unfold upd_todo. destruct ((r' =? r) && (c' =? c)) eqn:Eb; [|now apply g_nodup].
    specialize (g_nodup r c HP). rewrite E in g_nodup. now inversion g_nodup.
Qed.

Definition Inv (dn ar : cell -> bool) (st : router_state) : Prop :=
  (forall r c, part_ok r c -> part_rep dn ar r c (st r c)) /\
  ghost_ok (fun r c => ps_todo (st r c)) dn ar (fun _ => False) /\
  (forall r c t, part_ok r c -> In t (ps_todo (st r c)) -> inside (e0 r) (e1 c) t).

Lemma undone_le dn r c : part_ok r c -> (undone dn r c <= Z.to_nat (e0 r * e1 c))%nat.
Proof.
  intros HP. destruct (ext_big a0 a1 p0 p1 P0 P1 r c HP). unfold RouterProofs2.undone. rewrite <- (cells2_length 0 (e0 r) 0 (e1 c)) by lia.
  set (h := fun t => negb (dn (glob r c t))). induction (cells2 0 (e0 r) 0 (e1 c)) as [|t l IH]; [reflexivity|]. cbn. destruct (h t); cbn; lia.
Qed.

Lemma intra_ok dn ar r c s t l todo : part_ok r c -> inside (e0 r) (e1 c) t -> todo r c = t :: l ->
  part_rep dn ar r c s -> ghost_ok todo dn ar (fun _ => False) ->
  exists s' dn' ar', intra ac nd (has_neighbour M0 M1 r c) s (fst t) (snd t) = Ok s' /\
    part_rep dn' ar' r c s' /\ ghost_ok (upd_todo todo r c l) dn' ar' (fun _ => False) /\ changes r c dn ar dn' ar' /\
    ps_todo s' = ps_todo s /\ ps_inputs s' = ps_inputs s.
Proof.
  intros HP Ht ET PR G. assert (G1 := ghost_visit todo dn ar _ r c t l HP Ht ET (fun _ H => H) G).
  assert (NT : ~ In t l) by (pose proof (g_nodup _ _ _ _ _ _ _ _ _ _ G r c HP) as N; rewrite ET in N; now inversion N).
  assert (UT : upd_todo todo r c l r c = l) by (unfold upd_todo; now rewrite !Z.eqb_refl).
  destruct (glob_inside a0 a1 p0 p1 P0 P1 r c t HP Ht) as [Gi [Gr Gc]].
  unfold intra. rewrite (pr_flow _ _ _ _ _ _ _ _ _ _ _ _ _ _ _ PR), grid_get by exact Ht. rewrite obind_Ok.
  change (lf r c (fst t) (snd t)) with (f (glob r c t)). destruct (nd (f (glob r c t))) eqn:Hn.
  - assert (Hdn : dn (glob r c t) = false).
    { destruct (dn (glob r c t)) eqn:E; [|reflexivity]. exfalso. apply (g_todo _ _ _ _ _ _ _ _ _ _ G r c t HP Ht (fun H => H) (or_introl Hn)) in E. apply E. rewrite ET. now left. }
    unfold update_result. rewrite (pr_result _ _ _ _ _ _ _ _ _ _ _ _ _ _ _ PR), grid_get by exact Ht. rewrite !obind_Ok.
    rewrite (grid_point _ _ _ (fun i j => val (setb dn (glob r c t)) ar (glob r c (i, j)))); [|exact Ht| |].
    + rewrite obind_Ok. eexists _, (setb dn (glob r c t)), ar. split; [reflexivity|]. split; [|split; [|split; [|split; reflexivity]]].
      * destruct (outs_spec a0 a1 p0 p1 nd f P0 P1 r c HP) as [_ I].
        assert (NI : forall u, In u (outs r c) -> setb dn (glob r c t) (glob r c u) = dn (glob r c u)).
        { intros u Hu. apply setb_other. intros E. apply glob_inj in E. subst u. apply I in Hu. destruct Hu as [_ [Hu _]]. congruence. }
        destruct PR. constructor; cbn; try assumption; try reflexivity.
        -- rewrite pr_outputs. f_equal. apply filter_ext_in. intros u Hu. now rewrite NI.
        -- intros d Hd. destruct (pr_sends d Hd) as [C [q [E [N Q]]]]. split.
           ++ intros H u Hu. rewrite NI by exact Hu. now apply C.
           ++ exists q. split; [exact E|]. split; [exact N|]. intros u. rewrite Q. split; intros [H1 [H2 H3]]; rewrite NI in *; tauto.
      * assert (NV : forall x, valid x -> setb dn (glob r c t) x = dn x).
        { intros x [_ Hx]. apply setb_other. intros ->. congruence. }
        destruct G1. constructor; try assumption.
        -- intros y Hy. apply setb_true. right. now apply g_done.
        -- intros x Hx. rewrite NV by exact Hx. now apply g_ups.
        -- intros x Hx _. rewrite NV by exact Hx. apply g_ready; [exact Hx|]. intros <-. destruct Hx as [_ Hx]. congruence.
        -- intros r' c' t' HP' Ht' _ Hor. destruct (cell_dec (glob r' c' t') (glob r c t)) as [E|N].
           ++ destruct (glob_same r' c' t' r c t HP' HP Ht' Ht E) as [-> [-> ->]]. rewrite setb_same, UT. tauto.
           ++ rewrite setb_other by exact N. apply g_todo; auto.
        -- intros y Hy H1 H2 H3 H4 H5. rewrite NV in H5 by exact Hy. now apply g_same.
      * intros y. split; [|congruence]. intros Hy. unfold setb in Hy. destruct (cell_eqb y (glob r c t)) eqn:Ey; [|congruence].
        apply cell_eqb_spec in Ey. subst y. auto.
    + intros i j Hij Hne. unfold RouterProofs2.val. rewrite setb_other; [reflexivity|]. intros E. apply glob_inj in E. contradiction.
    + rewrite <- surjective_pairing. unfold RouterProofs2.val. now rewrite Hn, setb_same.
  - rewrite (pr_original _ _ _ _ _ _ _ _ _ _ _ _ _ _ _ PR), grid_get by exact Ht. rewrite obind_Ok, <- surjective_pairing.
    destruct (Z.eqb_spec (cnt (fun _ => false) (glob r c t)) 0) as [E|E].
    + assert (EU : up (glob r c t) = []).
      { pose proof (proj1 (cnt_zero _ _ _ _ (fun _ => false) (glob r c t)) E) as H. destruct (up (glob r c t)) as [|y u]; [reflexivity|]. specialize (H y (or_introl eq_refl)). discriminate. }
      assert (Hdn : dn (glob r c t) = false).
      { destruct (dn (glob r c t)) eqn:Ed; [|reflexivity]. exfalso. apply (g_todo _ _ _ _ _ _ _ _ _ _ G r c t HP Ht (fun H => H) (or_intror EU)) in Ed. apply Ed. rewrite ET. now left. }
      apply (accumulate_ok a0 a1 p0 p1 nd f P0 P1 V AC ac enter add pre post arg PA); try assumption.
      * intros y Hy. rewrite EU in Hy. destruct Hy.
      * intros _. now rewrite UT.
      * unfold iterations. rewrite (pr_flow _ _ _ _ _ _ _ _ _ _ _ _ _ _ _ PR). change (g0 (gmake (e0 r) (e1 c) (lf r c))) with (e0 r). change (g1 (gmake (e0 r) (e1 c) (lf r c))) with (e1 c).
        pose proof (undone_le dn r c HP). lia.
    + exists s, dn, ar. split; [reflexivity|]. split; [exact PR|]. split; [|split; [intros y; split; congruence|split; reflexivity]].
      destruct G1. destruct G as [_ _ g_ready' _ _ _]. constructor; try assumption.
      intros r' c' t' HP' Ht' _ Hor. apply g_todo; try assumption. intros E'. destruct (glob_same r c t r' c' t' HP HP' Ht Ht' E') as [<- [<- <-]].
      destruct Hor as [Hor|Hor]; [congruence|]. apply E. unfold RouterProofs2.cnt. rewrite Hor. reflexivity.
Qed.

(** Receiving *)
Lemma erase_first_perm (p : Z * Z -> bool) (u : cell) l : (forall v, p v = cell_eqb v u) -> In u l ->
  exists l', erase_first p l = Ok l' /\ Permutation (u :: l') l.
Proof.
  intros Hp. induction l as [|v l IH]; intros I; [destruct I|]. cbn [erase_first]. rewrite Hp. destruct (cell_eqb v u) eqn:E.
  - apply cell_eqb_spec in E. subst v. exists l. split; reflexivity.
  - destruct I as [->|I]; [rewrite cell_eqb_refl in E; discriminate|]. destruct (IH I) as [l' [E' P]]. exists (v :: l'). rewrite E'. split; [reflexivity|].
    etransitivity; [apply perm_swap|]. now apply perm_skip.
Qed.

Lemma filter_negb_set (ar : cell -> bool) y L : NoDup L -> In y L -> ar y = false ->
  Permutation (filter (fun z => negb (ar z)) L) (y :: filter (fun z => negb (setb ar y z)) L).
Proof.
  induction L as [|z L IH]; intros N I H; [destruct I|]. inversion N as [|? ? N1 N2]; subst. destruct I as [->|I].
  - cbn. rewrite H, setb_same. cbn. apply perm_skip. erewrite filter_ext_in; [apply Permutation_refl|]. intros w Hw. cbn beta. f_equal. symmetry. apply setb_other. intros ->. contradiction.
  - cbn. rewrite setb_other by (intros ->; contradiction). destruct (ar z); cbn [negb]; [now apply IH|].
    etransitivity; [apply perm_skip, IH; assumption|]. apply perm_swap.
Qed.

Section Receive.
Context (dn ar : cell -> bool) (r c d : Z) (HP : part_ok r c) (Hd : 0 <= d < 8) (y : cell).
Context (IY : In y (srcs r c d)) (Dy : dn y = true) (Ay : ar y = false).
Context (s : pstate) (PR : part_rep dn ar r c s) (todo : Z -> Z -> list cell) (G : ghost_ok todo dn ar (fun _ => False)).
Notation x := (towards f y).
Notation u := (input_of y).

Lemma y_facts : valid y /\ prow y = r + off0 d /\ pcol y = c + off1 d /\ inside a0 a1 x /\ prow x = r /\ pcol x = c /\
  inside (e0 r) (e1 c) u /\ glob r c u = x /\ In y (up x) /\ valid x /\ dn x = false.
Proof.
  destruct (srcs_spec a0 a1 p0 p1 nd f P0 P1 r c d HP Hd) as [_ IS]. apply IS in IY. destruct IY as [Y1 [Y2 [Y3 [Y4 [Y5 [Y6 Y7]]]]]].
  destruct (loc_inside a0 a1 p0 p1 P0 P1 x Y5) as [_ [L E]]. rewrite Y6, Y7 in L, E.
  assert (Hxy : x <> y) by (intros Exy; destruct (off_ok d Hd) as [[_ [_ Z]] _]; apply Z; rewrite Exy in Y6, Y7; lia).
  assert (IU : In y (up x)) by (apply in_upstream; repeat split; try apply Y1; assumption).
  assert (Hvx : valid x) by (split; [exact Y5|]; apply in_upstream in IU; exact (V _ _ IU Y5)).
  assert (dn x = false) by (eapply not_up_dn; eassumption).
  repeat split; try assumption; try apply Y1; try apply Y5; try apply L; apply Hvx.
Qed.

Lemma receive_ok inputs : Permutation (u :: inputs) (ps_inputs s d) ->
  exists s' dn' ar', inter ac (has_neighbour M0 M1 r c) (set_input s d inputs) (fst u) (snd u) (ac_outflow ac (F y)) = Ok s' /\
    part_rep dn' ar' r c s' /\ ghost_ok todo dn' ar' (fun _ => False) /\ changes r c dn (setb ar y) dn' ar' /\
    ps_todo s' = ps_todo s /\ ps_inputs s' = upd_z_fun (ps_inputs s) d inputs.
Proof.
  intros HI. destruct y_facts as [Hvy [Y0 [Y1 [Hi [X0 [X1 [Hu [Eu [IU [Hvx Hdx]]]]]]]]]].
  unfold inter. cbn [ps_count set_input]. rewrite (pr_count _ _ _ _ _ _ _ _ _ _ _ _ _ _ _ PR), grid_get by exact Hu. rewrite obind_Ok, <- surjective_pairing, Eu.
  pose proof (cnt_pos a0 a1 nd f ar _ _ IU Ay) as KP. replace (1 <=? cnt ar x) with true by lia. cbn [negb].
  unfold update_result. cbn [ps_result set_input]. rewrite (pr_result _ _ _ _ _ _ _ _ _ _ _ _ _ _ _ PR), grid_get by exact Hu. rewrite obind_Ok, <- surjective_pairing, Eu.
  assert (EV : val dn ar x = acc (filter ar (up x))) by (unfold RouterProofs2.val; now rewrite (proj2 Hvx), Hdx).
  rewrite EV. rewrite (pa_inter _ _ _ _ _ PA); [|apply (F_post a0 a1 nd f V AC ac enter add pre post arg PA); exact Hvy|
    apply (acc_pre a0 a1 nd f V AC ac enter add pre post arg PA); intros z Hz; apply filter_In in Hz; now apply (up_valid _ _ _ _ x)].
  rewrite obind_Ok.
  assert (NU : forall i j, (i, j) <> u -> ~ In y (up (glob r c (i, j)))).
  { intros i j Hne I. apply up_in_part in I. rewrite <- Eu in I. apply glob_inj in I. contradiction. }
  rewrite (grid_point _ _ _ (fun i j => val dn (setb ar y) (glob r c (i, j)))); [|exact Hu| |].
  2:{ intros i j Hij Hne. unfold RouterProofs2.val. now rewrite acc_other by now apply NU. }
  2:{ rewrite <- surjective_pairing, Eu. unfold RouterProofs2.val. rewrite (proj2 Hvx), Hdx.
      now apply (acc_set a0 a1 nd f V AC ac enter add pre post arg PA). }
  rewrite !obind_Ok. cbn [ps_count set_result set_input]. rewrite (pr_count _ _ _ _ _ _ _ _ _ _ _ _ _ _ _ PR).
  rewrite (grid_point _ _ _ (fun i j => cnt (setb ar y) (glob r c (i, j)))); [|exact Hu| |].
  2:{ intros i j Hij Hne. apply cnt_other. now apply NU. }
  2:{ rewrite <- surjective_pairing, Eu. now apply cnt_set. }
  rewrite obind_Ok.
  set (s2 := set_count _ _).
  assert (NO : forall t, inside (e0 r) (e1 c) t -> setb ar y (glob r c t) = ar (glob r c t)).
  { intros t Ht. apply setb_other. intros E. destruct (glob_inside a0 a1 p0 p1 P0 P1 r c t HP Ht) as [_ [G0 G1]]. rewrite E in G0, G1.
    destruct (off_ok d Hd) as [[_ [_ Z]] _]. apply Z. lia. }
  assert (PR2 : part_rep dn (setb ar y) r c s2).
  { destruct (outs_spec a0 a1 p0 p1 nd f P0 P1 r c HP) as [_ I]. destruct PR.
    constructor; cbn [s2 ps_flow ps_args ps_original ps_count ps_result ps_outputs ps_inputs ps_sends set_count set_result set_input]; try assumption; try reflexivity.
    - intros d' Hd'. unfold upd_z_fun. destruct (Z.eqb_spec d' d) as [->|Nd].
      + apply (Permutation_cons_inv (a := u)). rewrite HI, (pr_inputs d Hd).
        change (u :: map input_of (filter (fun z => negb (setb ar y z)) (srcs r c d))) with (map input_of (y :: filter (fun z => negb (setb ar y z)) (srcs r c d))).
        apply Permutation_map. apply filter_negb_set; [|exact IY|exact Ay]. now apply (srcs_spec a0 a1 p0 p1 nd f P0 P1 r c d HP Hd).
      + rewrite (pr_inputs d' Hd'). erewrite filter_ext_in; [apply Permutation_refl|]. intros z Hz. cbn beta. f_equal. symmetry. apply setb_other. intros ->.
        destruct (srcs_spec a0 a1 p0 p1 nd f P0 P1 r c d' HP Hd') as [_ IS]. apply IS in Hz. destruct (off_ok d Hd) as [_ E], (off_ok d' Hd') as [_ E'].
        apply Nd. transitivity (direction_of (off0 d') (off1 d')); [symmetry; exact E'|]. etransitivity; [|exact E]. f_equal; lia.
    - intros d' Hd'. destruct (pr_sends d' Hd') as [C [q [E [N Q]]]]. split; [exact C|]. exists q. split; [exact E|]. split; [exact N|].
      intros t. rewrite Q. split; intros [H1 [H2 H3]]; rewrite NO in *; try assumption; try (now apply I); tauto. }
  assert (G2 : ghost_ok todo dn (setb ar y) (eq x)).
  { destruct G. constructor; try assumption.
    - intros z Hz. apply setb_true in Hz. destruct Hz as [->|Hz]; [exact Dy|now apply g_done].
    - intros z Hz Ez w Hw. apply setb_true. right. now apply (g_ups z).
    - intros z Hz Hne Hnz H. apply g_ready; try assumption; [tauto|]. intros w Hw. specialize (H w Hw). apply setb_true in H. destruct H as [->|H]; [|exact H].
      exfalso. apply Hne. now apply up_in_part in Hw.
    - intros r' c' t' HP' Ht' _. apply g_todo; tauto.
    - intros z Hz H1 H2 H3 H4 H5. apply setb_true. right. now apply g_same. }
  assert (CS : cnt (setb ar y) x = cnt ar x - 1) by now apply cnt_set.
  assert (NE : up x <> []) by (intros E; rewrite E in IU; destruct IU).
  destruct (Z.eqb_spec (cnt ar x - 1) 0) as [E|E].
  - assert (H := accumulate_ok a0 a1 p0 p1 nd f P0 P1 V AC ac enter add pre post arg PA todo (iterations (set_result (set_input s d inputs) (gmake (e0 r) (e1 c) (fun i j => val dn (setb ar y) (glob r c (i, j)))))) r c dn (setb ar y) s2 u HP Hu).
    rewrite Eu in H. destruct H as [s' [dn' [ar' [H1 [H2 [H3 [H4 [H5 H6]]]]]]]]; try assumption.
    + apply Hvx.
    + apply cnt_zero. lia.
    + intros E'. contradiction.
    + unfold iterations. cbn [ps_flow set_result set_input]. rewrite (pr_flow _ _ _ _ _ _ _ _ _ _ _ _ _ _ _ PR).
      change (g0 (gmake (e0 r) (e1 c) (lf r c))) with (e0 r). change (g1 (gmake (e0 r) (e1 c) (lf r c))) with (e1 c). pose proof (undone_le dn r c HP). lia.
    + exists s', dn', ar'. split; [exact H1|]. split; [exact H2|]. split; [exact H3|]. split; [exact H4|]. split; [exact H5|exact H6].
  - exists s2, dn, (setb ar y). split; [reflexivity|]. split; [exact PR2|]. split; [|split; [intros z; split; congruence|split; reflexivity]].
    apply ghost_not_ready with (x := x); [exact G2|exact NE| |apply Hvx].
    destruct (filter (fun z => negb (setb ar y z)) (up x)) as [|z l] eqn:Ez.
    { unfold RouterProofs2.cnt in CS at 1. rewrite Ez in CS. cbn in CS. lia. }
    assert (Hz : In z (filter (fun z => negb (setb ar y z)) (up x))) by (rewrite Ez; now left).
    apply filter_In in Hz. destruct Hz as [Hz1 Hz2]. exists z. split; [exact Hz1|]. now apply negb_true_iff.
Qed.
End Receive.
End Steps.
