(** Every step of the router succeeds, keeps the invariant and brings the end nearer. *)
From Verif Require Import Common CommonProofs GridModel GridProofs GridRaster FlowSpec FlowModel RouterModel FlowProofs FlowProofs2 FlowProofs3 FlowProofs4
  RouterProofs RouterProofs2 RouterProofs3.

Fixpoint sumn {T} (h : T -> nat) (L : list T) : nat := match L with [] => O | x :: L' => (h x + sumn h L')%nat end.
Lemma sumn_ext {T} (h h' : T -> nat) L : (forall x, In x L -> h x = h' x) -> sumn h L = sumn h' L.
Proof. induction L as [|x L IH]; intros H; [reflexivity|]. cbn. rewrite H by now left. f_equal. apply IH. intros. apply H. now right. Qed.
Lemma sumn_pred {T} (h h' : T -> nat) L x : NoDup L -> In x L -> h x = S (h' x) -> (forall y, In y L -> y <> x -> h' y = h y) -> sumn h L = S (sumn h' L).
Proof.
  induction L as [|y L IH]; intros N I E H; [destruct I|]. inversion N as [|? ? N1 N2]; subst. destruct I as [->|I].
  - cbn. rewrite E. cbn. do 2 f_equal. apply sumn_ext. intros y Hy. symmetry. apply H; [now right|]. intros ->. contradiction.
  - cbn. rewrite (IH N2 I E) by (intros; apply H; [now right|assumption]). rewrite (H y) by ((now left) || (intros ->; contradiction)). lia.
Qed.

Section Steps4.
Context (a0 a1 p0 p1 : Z) (nd : Z -> bool) (f : cell -> Z).
Context (P0 : 2 <= p0 <= a0) (P1 : 2 <= p1 <= a1).
Context (V : valid_network a0 a1 nd f) (AC : acyclic a0 a1 nd f).
Context {A X M : Type} (ac : accumulator A X M) (enter : A -> X -> X) (add : X -> M -> X) (pre post : X -> Prop) (arg : cell -> A).
Context (PA : pure_accumulator ac enter add pre post).

Notation glob := (glob p0 p1). Notation e0 := (e0 a0 p0). Notation e1 := (e1 a1 p1).
Notation M0 := (M0 a0 p0). Notation M1 := (M1 a1 p1). Notation part_ok := (part_ok a0 a1 p0 p1).
Notation lf := (lf p0 p1 f). Notation srcs := (srcs a0 a1 p0 p1 nd f). Notation input_of := (input_of a0 a1 p0 p1 f).
Notation prow := (prow a0 p0). Notation pcol := (pcol a1 p1). Notation loc := (loc a0 a1 p0 p1).
Notation outs := (outs a0 a1 p0 p1 nd f). Notation outc := (outc a0 a1 p0 p1 f). Notation odir := (odir a0 a1 p0 p1 f).
Notation up := (upstream a0 a1 nd f). Notation valid := (valid a0 a1 nd f).
Notation pstate := (@partition_state A X M).
Notation F := (F a0 a1 nd f ac enter add arg). Notation acc := (acc a0 a1 nd f ac enter add arg).
Notation val := (val a0 a1 nd f ac enter add arg). Notation cnt := (cnt a0 a1 nd f).
Notation msg := (msg a0 a1 p0 p1 nd f ac enter add arg). Notation didx := (didx a0 a1 p0 p1 f).
Notation part_rep := (part_rep a0 a1 p0 p1 nd f ac enter add arg).
Notation ghost_ok := (ghost_ok a0 a1 p0 p1 nd f). Notation changes := (changes a0 a1 p0 p1 f).
Notation Inv := (Inv a0 a1 p0 p1 nd f ac enter add arg).
Notation state := (@router_state A X M).
Notation pr_inputs := (pr_inputs _ _ _ _ _ _ _ _ _ _ _ _ _ _ _).
Notation pr_sends := (pr_sends _ _ _ _ _ _ _ _ _ _ _ _ _ _ _).
Notation pr_flow := (pr_flow _ _ _ _ _ _ _ _ _ _ _ _ _ _ _).

Definition part_weight (s : pstate) : nat := (length (ps_todo s) + sumn (fun d => length (ps_inputs s d)) all_directions)%nat.
Definition weight (st : state) : nat := sumn (fun rc => part_weight (st (fst rc) (snd rc))) (cells2 0 M0 0 M1).

Lemma in_parts_list r c : In (r, c) (cells2 0 M0 0 M1) <-> part_ok r c.
Proof. rewrite in_cells2'. cbn [fst snd]. unfold FlowProofs3.part_ok. lia. Qed.

Lemma weight_step (st st' : state) r c : part_ok r c -> part_weight (st r c) = S (part_weight (st' r c)) ->
  (forall r' c', part_ok r' c' -> ~ (r' = r /\ c' = c) -> part_weight (st' r' c') = part_weight (st r' c')) -> weight st = S (weight st').
Proof.
  intros HP E H. unfold weight. apply sumn_pred with (x := (r, c)).
  - apply cells2_NoDup.
  - now apply in_parts_list.
  - exact E.
  - intros [r' c'] Hy Hne. cbn [fst snd]. apply H; [now apply in_parts_list|]. intros [-> ->]. now apply Hne.
Qed.

Lemma upd_same (st : state) r c s : upd_part st r c s r c = s.
Proof. unfold upd_part. now rewrite !Z.eqb_refl. Qed.
Lemma upd_other (st : state) r c s r' c' : ~ (r' = r /\ c' = c) -> upd_part st r c s r' c' = st r' c'.
Proof. clear. intros H. unfold upd_part. destruct ((r' =? r) && (c' =? c)) eqn:E; [|reflexivity]. exfalso. apply H. lia. Qed.
Lemma parts_dec (r c r' c' : Z) : {r' = r /\ c' = c} + {~ (r' = r /\ c' = c)}.
Proof. clear. destruct (Z.eq_dec r' r), (Z.eq_dec c' c); intuition. Qed.

(** Replacing the state of one partition *)
Lemma Inv_upd dn ar dn' ar' (st : state) r c s' l : Inv dn ar st -> part_ok r c ->
  part_rep dn' ar' r c s' -> ghost_ok (upd_todo (fun r c => ps_todo (st r c)) r c l) dn' ar' (fun _ => False) ->
  (forall r' c', part_ok r' c' -> ~ (r' = r /\ c' = c) -> part_rep dn' ar' r' c' (st r' c')) ->
  ps_todo s' = l -> (forall t, In t l -> In t (ps_todo (st r c))) -> Inv dn' ar' (upd_part st r c s').
Proof.
  intros [I1 [I2 I3]] HP PR G O E HL. split; [|split].
  - intros r' c' HP'. destruct (parts_dec r c r' c') as [[-> ->]|N]; [now rewrite upd_same|]. rewrite upd_other by exact N. now apply O.
  - eapply ghost_ext; [|exact G]. intros r' c' _. unfold upd_todo, upd_part. destruct ((r' =? r) && (c' =? c)); [exact E|reflexivity].
  - intros r' c' t HP'. destruct (parts_dec r c r' c') as [[-> ->]|N]; [rewrite upd_same, E|rewrite upd_other by exact N; now apply I3].
    intros Ht. apply (I3 r c t HP). now apply HL.
Qed.

Lemma intra_step dn ar (st : state) r c t todo : Inv dn ar st -> part_ok r c -> ps_todo (st r c) = t :: todo ->
  exists s' dn' ar', intra ac nd (has_neighbour M0 M1 r c) (set_todo (st r c) todo) (fst t) (snd t) = Ok s' /\
    Inv dn' ar' (upd_part st r c s') /\ weight st = S (weight (upd_part st r c s')).
Proof.
  intros I HP ET. assert (I' := I). destruct I' as [I1 [I2 I3]].
  assert (Ht : inside (e0 r) (e1 c) t) by (apply (I3 r c t HP); rewrite ET; now left).
  destruct (intra_ok a0 a1 p0 p1 nd f P0 P1 V AC ac enter add pre post arg PA dn ar r c (set_todo (st r c) todo) t todo (fun r c => ps_todo (st r c)) HP Ht ET)
    as [s' [dn' [ar' [E [PR [G [CH [T NI]]]]]]]].
  - apply part_rep_todo. now apply I1.
  - exact I2.
  - exists s', dn', ar'. split; [exact E|]. split.
    + eapply (Inv_upd dn ar); try eassumption.
      * intros r' c' HP' N. eapply part_rep_other; try eassumption. now apply I1.
      * intros u Hu. rewrite ET. now right.
    + apply weight_step with (r := r) (c := c); [exact HP| |].
      * rewrite upd_same. unfold part_weight. rewrite T, NI, ET. reflexivity.
      * intros r' c' _ N. now rewrite upd_other.
Qed.

Lemma out_src r c d t : part_ok r c -> 0 <= d < 8 -> has_neighbour M0 M1 r c d = true ->
  (In (glob (r + off0 d) (c + off1 d) t) (srcs r c d) <-> In t (outs (r + off0 d) (c + off1 d)) /\ odir (r + off0 d) (c + off1 d) t = sender_direction d).
Proof.
  intros HP Hd HN. unfold FlowProofs3.srcs. rewrite HN, in_map_iff. split.
  - intros [u [E Hu]]. apply glob_inj in E. subst u. apply filter_In in Hu. destruct Hu as [H1 H2]. apply Z.eqb_eq in H2. auto.
  - intros [H1 H2]. exists t. split; [reflexivity|]. apply filter_In. split; [exact H1|]. now apply Z.eqb_eq.
Qed.

Lemma sent_to r c d t : part_ok r c -> 0 <= d < 8 -> has_neighbour M0 M1 r c d = true ->
  In t (outs (r + off0 d) (c + off1 d)) -> odir (r + off0 d) (c + off1 d) t = sender_direction d ->
  idx_to_idxs d (e0 r) (e1 c) (didx (r + off0 d) (c + off1 d) t) = input_of (glob (r + off0 d) (c + off1 d) t).
Proof.
  intros HP Hd HN Ht Ed. assert (HN' := HN). rewrite has_neighbour_ok in HN' by (exact Hd || apply HP). apply in_parts_ok in HN'.
  set (rn := r + off0 d) in *. set (cn := c + off1 d) in *.
  pose proof (proj2 (out_src r c d t HP Hd HN) (conj Ht Ed)) as IS. destruct (srcs_spec a0 a1 p0 p1 nd f P0 P1 r c d HP Hd) as [_ SS].
  fold rn cn in IS. apply SS in IS. destruct IS as [_ [_ [_ [_ [T [T0 T1]]]]]].
  destruct (outs_spec a0 a1 p0 p1 nd f P0 P1 rn cn HN') as [_ OI]. apply OI in Ht. destruct Ht as [Hi [Hn Ho]].
  destruct (ext_big a0 a1 p0 p1 P0 P1 rn cn HN') as [B0 B1].
  destruct (destination_cell_ok nd (e0 rn) (e1 cn) (lf rn cn) B0 B1 (fst t) (snd t)) as [idx [E Hidx]]; rewrite <- ?surjective_pairing; try assumption.
  unfold RouterProofs2.didx. rewrite E. rewrite <- surjective_pairing in Hidx.
  destruct (dest_part a0 a1 p0 p1 f P0 P1 rn cn t HN' Hi T) as [_ [X0 X1]].
  pose proof (convert_ok a0 a1 p0 p1 f P0 P1 rn cn t idx HN' Hi Ho T Hidx) as CO.
  fold (odir rn cn t) in CO. rewrite Ed in CO. destruct (sender_off d Hd) as [_ [_ [_ [_ SD]]]]. rewrite SD in CO.
  rewrite <- X0, <- X1, T0, T1 in CO. exact CO.
Qed.

Lemma inter_step dn ar (st : state) r c d o : Inv dn ar st -> step ac nd M0 M1 (Inter r c d) st = Some o ->
  exists st' dn' ar', o = Ok st' /\ Inv dn' ar' st' /\ weight st = S (weight st').
Proof.
  intros I. cbn [step]. destruct (in_parts M0 M1 r c && (0 <=? d) && (d <? 8)) eqn:EP; [|discriminate].
  assert (HP : part_ok r c) by (apply (in_parts_ok a0 a1 p0 p1); destruct (in_parts M0 M1 r c); [reflexivity|discriminate]).
  assert (Hd : 0 <= d < 8) by (destruct (in_parts M0 M1 r c); [lia|discriminate]). clear EP.
  destruct (ps_todo (st r c)) as [|? ?] eqn:ET; [|discriminate]. destruct (ps_inputs (st r c) d) as [|i0 il] eqn:EI; [discriminate|].
  assert (I' := I). destruct I' as [I1 [I2 I3]]. pose proof (I1 r c HP) as PR.
  pose proof (pr_inputs PR d Hd) as PI. rewrite EI in PI.
  destruct (filter (fun y => negb (ar y)) (srcs r c d)) as [|y0 yl] eqn:EF; [apply Permutation_sym, Permutation_nil in PI; discriminate|].
  assert (HN : has_neighbour M0 M1 r c d = true).
  { assert (In y0 (srcs r c d)) as Hy by (assert (In y0 (filter (fun y => negb (ar y)) (srcs r c d))) as H by (rewrite EF; now left); apply filter_In in H; apply H).
    unfold FlowProofs3.srcs in Hy. destruct (has_neighbour M0 M1 r c d); [reflexivity|destruct Hy]. }
  rewrite HN, neighbour_off. assert (HQ := HN). rewrite has_neighbour_ok in HQ by (exact Hd || apply HP). apply in_parts_ok in HQ.
  set (rn := r + off0 d) in *. set (cn := c + off1 d) in *. destruct (sender_off d Hd) as [SD0 [SD1 [SD2 [SD3 SD4]]]]. set (d' := sender_direction d) in *.
  assert (HN' : has_neighbour M0 M1 rn cn d' = true).
  { rewrite has_neighbour_ok by (exact SD1 || apply HQ). apply in_parts_ok. rewrite SD2, SD3. unfold rn, cn.
    replace (r + off0 d + - off0 d) with r by lia. replace (c + off1 d + - off1 d) with c by lia. exact HP. }
  pose proof (I1 rn cn HQ) as PN. destruct (pr_sends PN d' SD1) as [CL [q [EQ [NQ Q]]]].
  assert (Hne : ~ (r = rn /\ c = cn)) by (destruct (off_ok d Hd) as [[_ [_ Z]] _]; unfold rn, cn; lia).
  rewrite EQ. destruct q as [|t q]; cbn [map].
  - (* no message *)
    destruct (ch_closed (ps_sends (st rn cn) d')) eqn:EC; [|discriminate]. intros _. exfalso.
    assert (Hy : In y0 (srcs r c d) /\ ar y0 = false).
    { assert (In y0 (filter (fun y => negb (ar y)) (srcs r c d))) as H by (rewrite EF; now left). apply filter_In in H. destruct H as [H1 H2]. now rewrite negb_true_iff in H2. }
    destruct Hy as [Hy Ha]. destruct (srcs_spec a0 a1 p0 p1 nd f P0 P1 r c d HP Hd) as [_ SS].
    assert (Gy : glob rn cn (loc y0) = y0).
    { apply SS in Hy. destruct Hy as [Y1 [_ [Y3 [Y4 _]]]]. destruct (loc_inside a0 a1 p0 p1 P0 P1 y0 Y1) as [_ [_ G]]. rewrite Y3, Y4 in G. exact G. }
    assert (IO := proj1 (out_src r c d (loc y0) HP Hd HN)). fold rn cn in IO. rewrite Gy in IO. specialize (IO Hy). destruct IO as [IO1 IO2].
    specialize (CL eq_refl _ IO1 IO2). rewrite Gy in CL.
    apply (proj2 (Q (loc y0))). rewrite Gy. auto.
  - (* message of the cell y *)
    unfold RouterProofs2.msg at 1. set (y := glob rn cn t).
    destruct (proj1 (Q t) (or_introl eq_refl)) as [_ [Q1 [Q2 [Q3 Q4]]]]. fold y in Q3, Q4.
    assert (IY : In y (srcs r c d)) by (apply (out_src r c d t HP Hd HN); auto).
    cbv zeta. rewrite (upd_other st rn cn _ r c) by exact Hne.
    rewrite (pr_flow PR). change (g0 (gmake (e0 r) (e1 c) (lf r c))) with (e0 r). change (g1 (gmake (e0 r) (e1 c) (lf r c))) with (e1 c).
    pose proof (sent_to r c d t HP Hd HN Q1 Q2) as ST. fold rn cn in ST. rewrite ST. fold y. clear ST.
    destruct (input_of y) as [i j] eqn:Eu. intros EO. injection EO as <-.
    destruct (erase_first_perm (fun rc => (fst rc =? i) && (snd rc =? j)) (i, j) (ps_inputs (st r c) d)) as [inputs [EE EPm]].
    { reflexivity. }
    { rewrite <- Eu. apply (Permutation_in _ (Permutation_sym (pr_inputs PR d Hd))). apply in_map. apply filter_In. split; [exact IY|]. now rewrite Q4. }
    rewrite EE, obind_Ok.
    destruct (receive_ok a0 a1 p0 p1 nd f P0 P1 V AC ac enter add pre post arg PA dn ar r c d HP Hd y IY Q3 Q4 (st r c) PR (fun r c => ps_todo (st r c)) I2 inputs)
      as [s' [dn' [ar' [E [PR' [G' [CH [T NI]]]]]]]]; [rewrite Eu; exact EPm|].
    rewrite Eu in E. cbn [fst snd] in E. rewrite E, obind_Ok. clear E.
    set (stn := upd_part st rn cn _). exists (upd_part stn r c s'), dn', ar'. split; [reflexivity|].
    assert (W : weight st = weight stn).
    { unfold weight. apply sumn_ext. intros [r' c'] _. cbn [fst snd]. unfold stn. destruct (parts_dec rn cn r' c') as [[-> ->]|N]; [now rewrite upd_same|now rewrite upd_other]. }
    assert (TN : forall r' c', ps_todo (stn r' c') = ps_todo (st r' c')).
    { intros r' c'. unfold stn. destruct (parts_dec rn cn r' c') as [[-> ->]|N]; [now rewrite upd_same|now rewrite upd_other]. }
    destruct (srcs_spec a0 a1 p0 p1 nd f P0 P1 r c d HP Hd) as [_ SS]. apply SS in IY. destruct IY as [Y1 [Y2 [Y3 [Y4 [Y5 [Y6 Y7]]]]]]. fold rn cn in Y3, Y4.
    assert (PY : forall r' c', part_ok r' c' -> ~ (r' = r /\ c' = c) -> part_rep dn (setb ar y) r' c' (stn r' c')).
    { intros r' c' HP' N. destruct (outs_spec a0 a1 p0 p1 nd f P0 P1 r' c' HP') as [_ OI]. destruct (parts_dec rn cn r' c') as [[-> ->]|N'].
      - unfold stn. rewrite upd_same.
        assert (HU : forall i j, 0 <= i < e0 rn -> 0 <= j < e1 cn -> ~ In y (up (glob rn cn (i, j)))).
        { intros i' j' Hi' Hj' Hy. apply up_in_part in Hy. destruct (glob_inside a0 a1 p0 p1 P0 P1 rn cn (i', j') HQ) as [_ [G0 G1]]; [split; assumption|]. rewrite Hy in G0, G1. apply Hne. lia. }
        destruct PN. constructor; cbn [set_send ps_flow ps_args ps_original ps_count ps_result ps_outputs ps_inputs ps_sends]; try assumption.
        + rewrite pr_count. apply gmake_ext. intros i' j' Hi' Hj'. symmetry. apply cnt_other. now apply HU.
        + rewrite pr_result. apply gmake_ext. intros i' j' Hi' Hj'. unfold RouterProofs2.val. rewrite acc_other by now apply HU. reflexivity.
        + intros d2 Hd2. rewrite (pr_inputs d2 Hd2). erewrite filter_ext_in; [apply Permutation_refl|]. intros z Hz. cbn beta. f_equal. symmetry. apply setb_other. intros ->.
          destruct (srcs_spec a0 a1 p0 p1 nd f P0 P1 rn cn d2 HQ Hd2) as [_ S2]. apply S2 in Hz. destruct (off_ok d2 Hd2) as [[_ [_ Z]] _]. apply Z. lia.
        + intros d2 Hd2. unfold upd_z_fun. destruct (Z.eqb_spec d2 d') as [->|Nd]; cbn [ch_closed ch_queue].
          * split; [exact CL|]. exists q. split; [reflexivity|]. apply NoDup_cons_iff in NQ. destruct NQ as [NQ1 NQ2]. split; [exact NQ2|].
            intros u. split.
            -- intros Hu. destruct (proj1 (Q u) (or_intror Hu)) as [K1 [K2 [K3 [K4 K5]]]]. rewrite setb_other; [auto|]. intros E. apply glob_inj in E. subst u. contradiction.
            -- intros [K1 [K2 [K3 [K4 K5]]]]. destruct (cell_dec u t) as [->|Nu]; [unfold y in K5; rewrite setb_same in K5; discriminate|].
               rewrite setb_other in K5 by (intros E; apply glob_inj in E; contradiction).
               destruct (proj2 (Q u)) as [E|Hu]; [auto|subst u; contradiction|exact Hu].
          * destruct (pr_sends d2 Hd2) as [C2 [q2 [E2 [N2 K]]]]. split; [exact C2|]. exists q2. split; [exact E2|]. split; [exact N2|].
            intros u. rewrite K. split; intros [K1 [K2 [K3 [K4 K5]]]]; (assert (Nu : u <> t) by (intros ->; apply Nd; congruence));
            rewrite setb_other in * by (intros E; apply glob_inj in E; contradiction); auto.
      - unfold stn. rewrite upd_other by exact N'. apply (part_rep_agree a0 a1 p0 p1 nd f P0 P1 ac enter add arg dn ar); auto.
        + intros z _ _ Z0 Z1. apply setb_other. intros ->. apply N. lia.
        + intros u Hu. apply setb_other. intros E. apply OI in Hu. destruct Hu as [Hu _].
          destruct (glob_inside a0 a1 p0 p1 P0 P1 r' c' u HP' Hu) as [_ [G0 G1]]. rewrite E in G0, G1. apply N'. lia. }
    split.
    + split; [|split].
      * intros r' c' HP'. destruct (parts_dec r c r' c') as [[-> ->]|N]; [now rewrite upd_same|]. rewrite upd_other by exact N.
        eapply part_rep_other; try eassumption. now apply PY.
      * eapply ghost_ext; [|exact G']. intros r' c' _. cbn beta. destruct (parts_dec r c r' c') as [[-> ->]|N]; [rewrite upd_same; exact T|]. rewrite upd_other by exact N. apply TN.
      * intros r' c' u HP'. destruct (parts_dec r c r' c') as [[-> ->]|N]; [rewrite upd_same, T, ET; intros []|]. rewrite upd_other, TN by exact N. now apply I3.
    + rewrite W. apply weight_step with (r := r) (c := c); [exact HP| |].
      * rewrite upd_same. unfold stn. rewrite upd_other by exact Hne. unfold part_weight. rewrite T, NI.
        rewrite (sumn_pred (fun d => length (ps_inputs (st r c) d)) (fun d0 => length (upd_z_fun (ps_inputs (st r c)) d inputs d0)) all_directions d); [lia|apply directions_NoDup|now apply in_directions| |].
        -- unfold upd_z_fun. rewrite Z.eqb_refl. symmetry. exact (Permutation_length EPm).
        -- intros d2 _ N2. unfold upd_z_fun. destruct (Z.eqb_spec d2 d); [contradiction|reflexivity].
      * intros r' c' _ N. now rewrite upd_other.
Qed.

Lemma step_ok dn ar (st : state) l o : Inv dn ar st -> step ac nd M0 M1 l st = Some o ->
  exists st' dn' ar', o = Ok st' /\ Inv dn' ar' st' /\ weight st = S (weight st').
Proof.
  intros I. destruct l as [r c|r c d]; [|now apply (inter_step dn ar)]. cbn [step].
  destruct (in_parts M0 M1 r c) eqn:EP; [|discriminate]. apply (in_parts_ok a0 a1 p0 p1) in EP.
  destruct (ps_todo (st r c)) as [|[i j] todo] eqn:ET; [discriminate|]. intros H. injection H as <-.
  destruct (intra_step dn ar st r c (i, j) todo I EP ET) as [s' [dn' [ar' [E [I' W]]]]]. cbn [fst snd] in E. rewrite E, obind_Ok.
  exists (upd_part st r c s'), dn', ar'. auto.
Qed.

Lemma run_ok st ls st' : run ac nd M0 M1 st ls st' -> forall dn ar, Inv dn ar st -> exists dn' ar', Inv dn' ar' st' /\ weight st = (length ls + weight st')%nat.
Proof.
  induction 1 as [st|st l st1 ls st2 E R IH]; intros dn ar I.
  - exists dn, ar. auto.
  - destruct (step_ok dn ar st l _ I E) as [st1' [dn' [ar' [E' [I' W]]]]]. injection E' as <-.
    destruct (IH dn' ar' I') as [dn2 [ar2 [I2 W2]]]. exists dn2, ar2. split; [exact I2|]. cbn [length]. lia.
Qed.
End Steps4.
