(** The router: start, progress, end. *)
From Verif Require Import Common CommonProofs CoreSpec DecompSpec ArraySpec IndexModel DecompModel ArrayModel ArrayRep ArrayProofs GridModel GridProofs GridRaster FlowSpec FlowModel RouterModel
  FlowProofs FlowProofs2 FlowProofs3 FlowProofs4 RouterProofs RouterProofs2 RouterProofs3 RouterProofs4.

Lemma sumn_flat_map {T B} (h : T -> list B) L : sumn (fun x => length (h x)) L = length (flat_map h L).
Proof. induction L as [|x L IH]; [reflexivity|]. cbn. rewrite app_length. now rewrite IH. Qed.
Lemma sumn_add {T} (h k : T -> nat) L : sumn (fun x => (h x + k x)%nat) L = (sumn h L + sumn k L)%nat.
Proof. induction L as [|x L IH]; [reflexivity|]. cbn. lia. Qed.

Section Steps5.
Context (a0 a1 p0 p1 : Z) (nd : Z -> bool) (f : cell -> Z).
Context (P0 : 2 <= p0 <= a0) (P1 : 2 <= p1 <= a1).
Context (V : valid_network a0 a1 nd f) (AC : acyclic a0 a1 nd f).
Context {A X M : Type} (ac : accumulator A X M) (enter : A -> X -> X) (add : X -> M -> X) (pre post : X -> Prop) (arg : cell -> A).
Context (PA : pure_accumulator ac enter add pre post).

Notation glob := (glob p0 p1). Notation e0 := (e0 a0 p0). Notation e1 := (e1 a1 p1).
Notation M0 := (M0 a0 p0). Notation M1 := (M1 a1 p1). Notation part_ok := (part_ok a0 a1 p0 p1).
Notation lf := (lf p0 p1 f). Notation srcs := (srcs a0 a1 p0 p1 nd f). Notation input_of := (input_of a0 a1 p0 p1 f).
Notation prow := (prow a0 p0). Notation pcol := (pcol a1 p1). Notation loc := (loc a0 a1 p0 p1).
Notation outs := (outs a0 a1 p0 p1 nd f). Notation outc := (outc a0 a1 p0 p1 f). Notation odir := (odir a0 a1 p0 p1 f).
Notation up := (upstream a0 a1 nd f). Notation valid := (valid a0 a1 nd f).
Notation pstate := (@partition_state A X M).
Notation F := (F a0 a1 nd f ac enter add arg). Notation acc := (acc a0 a1 nd f ac enter add arg).
Notation val := (val a0 a1 nd f ac enter add arg). Notation cnt := (cnt a0 a1 nd f).
Notation msg := (msg a0 a1 p0 p1 nd f ac enter add arg). Notation didx := (didx a0 a1 p0 p1 f).
Notation part_rep := (part_rep a0 a1 p0 p1 nd f ac enter add arg).
Notation ghost_ok := (ghost_ok a0 a1 p0 p1 nd f). Notation changes := (changes a0 a1 p0 p1 f).
Notation Inv := (Inv a0 a1 p0 p1 nd f ac enter add arg).
Notation state := (@router_state A X M).
Notation pr_inputs := (pr_inputs _ _ _ _ _ _ _ _ _ _ _ _ _ _ _).
Notation pr_sends := (pr_sends _ _ _ _ _ _ _ _ _ _ _ _ _ _ _).
Notation pr_flow := (pr_flow _ _ _ _ _ _ _ _ _ _ _ _ _ _ _).

Notation weight := (weight a0 a1 p0 p1). Notation step := (step ac nd M0 M1). Notation finished := (finished M0 M1).

(** Material that has been sent and has not been received *)
Definition pending (dn ar : cell -> bool) : Prop :=
  exists r c d y, part_ok r c /\ 0 <= d < 8 /\ In y (srcs r c d) /\ dn y = true /\ ar y = false.

Lemma all_done dn ar (st : state) : Inv dn ar st -> (forall r c, part_ok r c -> ps_todo (st r c) = []) ->
  forall x, valid x -> dn x = true \/ pending dn ar.
Proof.
  intros [I1 [I2 I3]] HT. apply (upstream_ind a0 a1 nd f AC V). intros x Hx IH.
  destruct (loc_inside a0 a1 p0 p1 P0 P1 x (proj1 Hx)) as [HP [HL G]].
  destruct (dn x) eqn:Ed; [now left|right].
  destruct (filter (fun y => negb (ar y)) (up x)) as [|y l] eqn:EF.
  - exfalso. assert (HA : forall y, In y (up x) -> ar y = true).
    { intros y Hy. destruct (ar y) eqn:E; [reflexivity|]. exfalso. assert (In y (filter (fun y => negb (ar y)) (up x))) as H by (apply filter_In; now rewrite E). rewrite EF in H. destruct H. }
    destruct (up x) as [|z u] eqn:EU.
    + assert (dn x = true); [|congruence]. rewrite <- G. apply (g_todo _ _ _ _ _ _ _ _ _ _ I2); try assumption; [tauto|right; now rewrite G|]. rewrite HT by exact HP. intros [].
    + rewrite <- EU in HA. rewrite (g_ready _ _ _ _ _ _ _ _ _ _ I2 x Hx) in Ed; [discriminate|tauto|rewrite EU; discriminate|exact HA].
  - assert (Hy : In y (up x) /\ ar y = false).
    { assert (In y (filter (fun y => negb (ar y)) (up x))) as H by (rewrite EF; now left). apply filter_In in H. destruct H as [H1 H2]. now rewrite negb_true_iff in H2. }
    destruct Hy as [Hy Ea]. pose proof (proj1 (in_upstream _ _ _ _ _ _) Hy) as D. destruct (IH y D) as [Edy|PEND]; [|exact PEND].
    pose proof Hy as Hy'. rewrite <- G in Hy'. apply (Permutation_in _ (Permutation_sym (feeding_ok a0 a1 p0 p1 nd f P0 P1 _ _ (loc x) HP HL))) in Hy'.
    apply in_app_iff in Hy'. destruct Hy' as [Hy'|Hy'].
    + exfalso. apply (in_feeding_in a0 a1 p0 p1 nd f P0 P1) in Hy'; try assumption. destruct Hy' as [_ [E0 E1]].
      destruct D as [D1 [D2 [D3 D4]]]. rewrite (g_same _ _ _ _ _ _ _ _ _ _ I2 y) in Ea; try discriminate; try assumption; try (rewrite <- D3); auto; [now split|apply Hx].
    + apply in_flat_map in Hy'. destruct Hy' as [d [Hd Hy']]. apply in_directions in Hd. apply filter_In in Hy'. destruct Hy' as [Hy' _].
      exists (prow x), (pcol x), d, y. auto.
Qed.

Lemma pending_step dn ar (st : state) : Inv dn ar st -> (forall r c, part_ok r c -> ps_todo (st r c) = []) -> pending dn ar ->
  exists l o, step l st = Some o.
Proof.
  intros [I1 [I2 I3]] HT [r [c [d [y [HP [Hd [Hy [Ed Ea]]]]]]]]. exists (Inter r c d). cbn [RouterModel.step].
  rewrite (proj2 (in_parts_ok a0 a1 p0 p1 r c) HP). replace (0 <=? d) with true by lia. replace (d <? 8) with true by lia. cbn [andb].
  rewrite HT by exact HP. destruct (ps_inputs (st r c) d) as [|i il] eqn:EI.
  { exfalso. pose proof (pr_inputs (I1 r c HP) d Hd) as PI. rewrite EI in PI. apply Permutation_nil in PI.
    assert (In (input_of y) (map input_of (filter (fun y => negb (ar y)) (srcs r c d)))) as H by (apply in_map, filter_In; rewrite Ea; auto). rewrite PI in H. destruct H. }
  destruct (has_neighbour M0 M1 r c d) eqn:HN; [|eauto]. rewrite neighbour_off.
  destruct (sender_off d Hd) as [SD0 [SD1 [SD2 [SD3 SD4]]]].
  assert (HQ := HN). rewrite has_neighbour_ok in HQ by (exact Hd || apply HP). apply in_parts_ok in HQ.
  destruct (srcs_spec a0 a1 p0 p1 nd f P0 P1 r c d HP Hd) as [_ SS].
  assert (Gy : glob (r + off0 d) (c + off1 d) (loc y) = y).
  { apply SS in Hy. destruct Hy as [Y1 [_ [Y3 [Y4 _]]]]. destruct (loc_inside a0 a1 p0 p1 P0 P1 y Y1) as [_ [_ G]]. rewrite Y3, Y4 in G. exact G. }
  assert (IO := proj1 (out_src a0 a1 p0 p1 nd f r c d (loc y) HP Hd HN)). rewrite Gy in IO. specialize (IO Hy). destruct IO as [IO1 IO2].
  assert (HN' : has_neighbour M0 M1 (r + off0 d) (c + off1 d) (sender_direction d) = true).
  { rewrite has_neighbour_ok by (exact SD1 || apply HQ). apply in_parts_ok. rewrite SD2, SD3.
    replace (r + off0 d + - off0 d) with r by lia. replace (c + off1 d + - off1 d) with c by lia. exact HP. }
  destruct (pr_sends (I1 _ _ HQ) (sender_direction d) SD1) as [_ [q [EQ [NQ Q]]]].
  assert (Iq : In (loc y) q) by (apply Q; rewrite Gy; auto). rewrite EQ. destruct q as [|t q]; [destruct Iq|]. cbn [map]. unfold RouterProofs2.msg at 1.
  destruct (idx_to_idxs _ _ _ _). eauto.
Qed.

Lemma finished_spec (st : state) : finished st = true <-> forall r c, part_ok r c -> ps_todo (st r c) = [] /\ forall d, 0 <= d < 8 -> ps_inputs (st r c) d = [].
Proof.
  unfold RouterModel.finished. rewrite forallb_forall. split.
  - intros H r c HP. specialize (H (r, c) (proj2 (in_parts_list a0 a1 p0 p1 r c) HP)). cbn [fst snd] in H. unfold part_finished in H.
    destruct (ps_todo (st r c)); [|discriminate]. split; [reflexivity|]. intros d Hd. rewrite forallb_forall in H. specialize (H d (proj2 (in_directions d) Hd)).
    destruct (ps_inputs (st r c) d); [reflexivity|discriminate].
  - intros H [r c] HI. apply (in_parts_list a0 a1 p0 p1) in HI. destruct (H r c HI) as [E1 E2]. cbn [fst snd]. unfold part_finished. rewrite E1.
    apply forallb_forall. intros d Hd. apply in_directions in Hd. now rewrite E2.
Qed.

Lemma progress dn ar (st : state) : Inv dn ar st -> finished st = false -> exists l o, step l st = Some o.
Proof.
  intros I HF. assert (I' := I). destruct I' as [I1 [I2 I3]].
  destruct (existsb (fun rc => match ps_todo (st (fst rc) (snd rc)) with [] => false | _ => true end) (cells2 0 M0 0 M1)) eqn:EX.
  - apply existsb_exists in EX. destruct EX as [[r c] [HI E]]. apply (in_parts_list a0 a1 p0 p1) in HI. cbn [fst snd] in E.
    exists (Intra r c). cbn [RouterModel.step]. rewrite (proj2 (in_parts_ok a0 a1 p0 p1 r c) HI). destruct (ps_todo (st r c)) as [|[i j] l]; [discriminate|]. eauto.
  - assert (HT : forall r c, part_ok r c -> ps_todo (st r c) = []).
    { intros r c HP. destruct (ps_todo (st r c)) eqn:E; [reflexivity|]. exfalso.
      assert (existsb (fun rc => match ps_todo (st (fst rc) (snd rc)) with [] => false | _ => true end) (cells2 0 M0 0 M1) = true); [|congruence].
      apply existsb_exists. exists (r, c). split; [now apply in_parts_list|]. cbn [fst snd]. now rewrite E. }
    apply (pending_step dn ar st I HT).
    assert (NF : ~ finished st = true) by congruence. rewrite finished_spec in NF.
    destruct (existsb (fun rc => existsb (fun d => match ps_inputs (st (fst rc) (snd rc)) d with [] => false | _ => true end) all_directions) (cells2 0 M0 0 M1)) eqn:EX2.
    + apply existsb_exists in EX2. destruct EX2 as [[r c] [HI E]]. apply (in_parts_list a0 a1 p0 p1) in HI. cbn [fst snd] in E.
      apply existsb_exists in E. destruct E as [d [Hd E]]. apply in_directions in Hd.
      destruct (ps_inputs (st r c) d) as [|i il] eqn:EI; [discriminate|]. pose proof (pr_inputs (I1 r c HI) d Hd) as PI. rewrite EI in PI.
      destruct (filter (fun y => negb (ar y)) (srcs r c d)) as [|y0 yl] eqn:EF; [apply Permutation_sym, Permutation_nil in PI; discriminate|].
      assert (In y0 (filter (fun y => negb (ar y)) (srcs r c d))) as H by (rewrite EF; now left). apply filter_In in H. destruct H as [H1 H2]. rewrite negb_true_iff in H2.
      destruct (srcs_spec a0 a1 p0 p1 nd f P0 P1 r c d HI Hd) as [_ SS]. pose proof (proj1 (SS y0) H1) as [S1 [S2 _]].
      destruct (all_done dn ar st I HT y0 (conj S1 S2)) as [E'|E']; [|exact E']. exists r, c, d, y0. auto.
    + exfalso. apply NF. intros r c HP. split; [now apply HT|]. intros d Hd. destruct (ps_inputs (st r c) d) eqn:E; [reflexivity|]. exfalso.
      assert (existsb (fun rc => existsb (fun d => match ps_inputs (st (fst rc) (snd rc)) d with [] => false | _ => true end) all_directions) (cells2 0 M0 0 M1) = true); [|congruence].
      apply existsb_exists. exists (r, c). split; [now apply in_parts_list|]. cbn [fst snd]. apply existsb_exists. exists d. split; [now apply in_directions|]. now rewrite E.
Qed.

Lemma finished_done dn ar (st : state) : Inv dn ar st -> finished st = true -> forall x, inside a0 a1 x -> dn x = true.
Proof.
  intros I HF x Hx. assert (I' := I). destruct I' as [I1 [I2 I3]]. rewrite finished_spec in HF.
  destruct (nd (f x)) eqn:En.
  - destruct (loc_inside a0 a1 p0 p1 P0 P1 x Hx) as [HP [HL G]]. rewrite <- G. apply (g_todo _ _ _ _ _ _ _ _ _ _ I2); try assumption; [tauto|left; now rewrite G|].
    rewrite (proj1 (HF _ _ HP)). intros [].
  - destruct (all_done dn ar st I (fun r c HP => proj1 (HF r c HP)) x (conj Hx En)) as [E|E]; [exact E|]. exfalso.
    destruct E as [r [c [d [y [HP [Hd [Hy [Ed Ea]]]]]]]]. pose proof (pr_inputs (I1 r c HP) d Hd) as PI. rewrite (proj2 (HF r c HP) d Hd) in PI. apply Permutation_nil in PI.
    assert (In (input_of y) (map input_of (filter (fun y => negb (ar y)) (srcs r c d)))) as H by (apply in_map, filter_In; rewrite Ea; auto). rewrite PI in H. destruct H.
Qed.

(** The results *)
Context (flow : parray Z) (fl : list Z -> Z) (HR : raster_of [a0; a1] [p0; p1] flow fl) (Hfl : f = fun x => fl [fst x; snd x]).

Lemma flow_parts_ok : exists locality, flow_parts flow = gmake M0 M1 (rpart a0 a1 p0 p1 locality (fun x => f (nth 0 x 0, nth 1 x 0))).
Proof.
  destruct (raster_grid a0 a1 p0 p1 flow fl HR) as [locality HG]. exists locality. assert (H' := HR). destruct H' as [_ [Hf [Es [Ep _]]]].
  unfold flow_parts. rewrite Ep. cbn [parts_shape nth]. rewrite HG. subst f. reflexivity.
Qed.

Lemma results_ok dn ar (st : state) : Inv dn ar st -> finished st = true ->
  exists out, router_results flow st = Ok out /\
    raster_of [a0; a1] [p0; p1] out (fun x => if nd (fl x) then ac_mark_no_data ac else F (nth 0 x 0, nth 1 x 0)).
Proof.
  intros I HF. destruct flow_parts_ok as [locality EP]. unfold router_results. rewrite EP.
  set (parts := gmake M0 M1 _). change (g0 parts) with M0. change (g1 parts) with M1.
  set (h := fun x : cell => if nd (f x) then ac_mark_no_data ac else F x).
  rewrite (gbuild_ok _ _ _ (fun r c => Placed (locality r c) [r * p0; c * p1] [e0 r; e1 c] (gmake (e0 r) (e1 c) (fun i j => h (glob r c (i, j)))))).
  2:{ intros r c Hr Hc. assert (HP : part_ok r c) by now split. unfold parts. rewrite gget_make by assumption. rewrite obind_Ok.
      destruct I as [I1 I2]. pose proof (I1 r c HP) as PR. destruct (outs_spec a0 a1 p0 p1 nd f P0 P1 r c HP) as [_ OI].
      assert (HD : forall t, inside (e0 r) (e1 c) t -> dn (glob r c t) = true).
      { intros t Ht. apply (finished_done dn ar st); [now split|exact HF|]. now apply (glob_inside a0 a1 p0 p1 P0 P1 r c t HP). }
      rewrite (pr_outputs _ _ _ _ _ _ _ _ _ _ _ _ _ _ _ PR), filter_none by (intros t Ht; apply OI in Ht; now rewrite HD). cbn [map].
      rewrite (pr_result _ _ _ _ _ _ _ _ _ _ _ _ _ _ _ PR). cbn [gmake g0 g1 rpart pl_locality pl_offset]. do 2 f_equal.
      apply gmake_ext. intros i j Hi Hj. unfold RouterProofs2.val, h. rewrite HD by now split. reflexivity. }
  rewrite obind_Ok. eexists. split; [reflexivity|]. assert (H' := HR). destruct H' as [_ [_ [Es [Ep _]]]]. rewrite Es, Ep. apply grid_raster; try lia.
  intros r c Hr Hc. split; [reflexivity|]. split; [reflexivity|]. cbn [pl_data]. apply gmake_ext. intros i j Hi Hj. unfold h, FlowProofs3.glob. cbn [fst snd nth].
  subst f. reflexivity.
Qed.

(** The start *)
Context (args : parray A) (al : list Z -> A) (HA : raster_of [a0; a1] [p0; p1] args al) (Hal : arg = fun x => al [fst x; snd x]).

Definition start_part (r c : Z) : pstate :=
  PState (gmake (e0 r) (e1 c) (lf r c)) (gmake (e0 r) (e1 c) (fun i j => arg (glob r c (i, j))))
    (gmake (e0 r) (e1 c) (fun i j => cnt (fun _ => false) (glob r c (i, j)))) (gmake (e0 r) (e1 c) (fun i j => cnt (fun _ => false) (glob r c (i, j))))
    (gmake (e0 r) (e1 c) (fun _ _ => ac_initial ac)) (map (outc r c) (outs r c))
    (fun d => nth (Z.to_nat d) (map (fun d => map input_of (srcs r c d)) all_directions) []) (cells2 0 (e0 r) 0 (e1 c)) (fun _ => Channel [] false).

Lemma cnt_start x : inside a0 a1 x -> (if nd (f x) then 0 else inflows a0 a1 nd f x) = cnt (fun _ => false) x.
Proof.
  intros Hx. unfold RouterProofs2.cnt. rewrite filter_all by reflexivity. unfold inflows. destruct (nd (f x)) eqn:En; [|reflexivity].
  destruct (up x) as [|y l] eqn:E; [reflexivity|]. exfalso. assert (In y (up x)) as H by (rewrite E; now left). apply in_upstream in H. rewrite (V _ _ H Hx) in En. discriminate.
Qed.

Lemma start_ok : exists st, router_start ac nd flow args = Ok st /\ forall r c, part_ok r c -> st r c = start_part r c.
Proof.
  destruct flow_parts_ok as [locality EP]. destruct (raster_grid a0 a1 p0 p1 args al HA) as [aloc HG]. assert (H' := HA). destruct H' as [_ [_ [_ [Ep _]]]].
  unfold router_start. rewrite EP, Ep. cbn [parts_shape nth]. rewrite HG. set (parts := gmake M0 M1 _). set (aparts := gmake _ _ _).
  rewrite (connections_ok a0 a1 p0 p1 nd f P0 P1 parts locality eq_refl), obind_Ok. change (g0 parts) with M0. change (g1 parts) with M1.
  rewrite (gbuild_ok _ _ _ start_part).
  - rewrite obind_Ok. eexists. split; [reflexivity|]. intros r c [Hr Hc]. now rewrite gget_make.
  - intros r c Hr Hc. assert (HP : part_ok r c) by now split. unfold initial_part. unfold parts at 1. rewrite gget_make by assumption. rewrite obind_Ok.
    unfold aparts. rewrite gget_make by assumption. rewrite obind_Ok.
    rewrite (action_ok a0 a1 p0 p1 nd f P0 P1 V (fun k => k) (fun _ => false) (fun _ _ => eq_refl) parts locality eq_refl r c HP), obind_Ok.
    set (cg := gmake (e0 r) (e1 c) (fun i j => if nd (f (glob r c (i, j))) then 0 else inflows a0 a1 nd f (glob r c (i, j)))).
    assert (EC : cg = gmake (e0 r) (e1 c) (fun i j => cnt (fun _ => false) (glob r c (i, j)))).
    { apply gmake_ext. intros i j Hi Hj. apply cnt_start. apply (glob_inside a0 a1 p0 p1 P0 P1 r c (i, j) HP). now split. }
    rewrite EC. unfold start_part. rewrite rpart_data. cbn [pl_data rpart g0 g1 gmake]. do 2 f_equal. subst arg. reflexivity.
Qed.

Lemma nth_directions {B} (h : Z -> B) d b : 0 <= d < 8 -> nth (Z.to_nat d) (map h all_directions) b = h d.
Proof. clear. intros Hd. apply dir_cases8 in Hd. repeat destruct Hd as [->|Hd]; try (subst d); reflexivity. Qed.

Lemma start_Inv (st : state) : (forall r c, part_ok r c -> st r c = start_part r c) -> Inv (fun _ => false) (fun _ => false) st.
Proof.
  intros HS. split; [|split].
  - intros r c HP. rewrite HS by exact HP. constructor; cbn [start_part ps_flow ps_args ps_original ps_count ps_result ps_outputs ps_inputs ps_sends]; try reflexivity.
    + apply gmake_ext. intros i j _ _. unfold RouterProofs2.val. rewrite filter_none by reflexivity. destruct (nd _); reflexivity.
    + now rewrite filter_all.
    + intros d Hd. rewrite nth_directions by exact Hd. now rewrite filter_all.
    + intros d Hd. cbn [ch_closed ch_queue]. split; [discriminate|]. exists []. split; [reflexivity|]. split; [constructor|]. intros t. split; [intros []|].
      intros [_ [_ [_ [H _]]]]. discriminate.
  - constructor; try discriminate.
    + intros x Hx _ Hne H. exfalso. destruct (up x) as [|y l]; [now apply Hne|]. specialize (H y (or_introl eq_refl)). discriminate.
    + intros r c t HP Ht _ _. rewrite HS by exact HP. cbn [start_part ps_todo]. split; [discriminate|]. intros H. exfalso. apply H. apply in_cells2'. unfold inside in Ht. lia.
    + intros r c HP. rewrite HS by exact HP. apply cells2_NoDup.
  - intros r c t HP. rewrite HS by exact HP. cbn [start_part ps_todo]. intros H. apply in_cells2' in H. unfold inside. lia.
Qed.

Lemma start_weight (st : state) : (forall r c, part_ok r c -> st r c = start_part r c) -> (weight st <= 2 * Z.to_nat (a0 * a1))%nat.
Proof.
  intros HS. unfold RouterProofs4.weight.
  rewrite (sumn_ext _ (fun rc => (length (map (glob (fst rc) (snd rc)) (cells2 0 (e0 (fst rc)) 0 (e1 (snd rc)))) + length (flat_map (srcs (fst rc) (snd rc)) all_directions))%nat)).
  2:{ intros [r c] HI. apply (in_parts_list a0 a1 p0 p1) in HI. cbn [fst snd]. rewrite HS by exact HI. unfold part_weight. cbn [start_part ps_todo ps_inputs]. rewrite map_length. f_equal.
      rewrite <- sumn_flat_map. apply sumn_ext. intros d Hd. apply in_directions in Hd. rewrite nth_directions by exact Hd. apply map_length. }
  rewrite sumn_add, !sumn_flat_map.
  assert (B : forall L : list cell, NoDup L -> (forall x, In x L -> inside a0 a1 x) -> (length L <= Z.to_nat (a0 * a1))%nat).
  { intros L N I. rewrite <- (cells2_length 0 a0 0 a1) by lia. apply NoDup_incl_length; [exact N|]. intros x Hx. apply in_cells2'. specialize (I x Hx). unfold inside in I. lia. }
  assert (B1 : (length (flat_map (fun x => map (glob (fst x) (snd x)) (cells2 0 (e0 (fst x)) 0 (e1 (snd x)))) (cells2 0 M0 0 M1)) <= Z.to_nat (a0 * a1))%nat).
  { assert (IG : forall r c x, part_ok r c -> In x (map (glob r c) (cells2 0 (e0 r) 0 (e1 c))) -> inside a0 a1 x /\ prow x = r /\ pcol x = c).
    { intros r c x HP Hx. apply in_map_iff in Hx. destruct Hx as [t [<- Ht]]. apply in_cells2' in Ht. apply (glob_inside a0 a1 p0 p1 P0 P1 r c t HP). unfold inside. lia. }
    apply B.
    - apply flat_map_NoDup; [apply cells2_NoDup| |].
      + intros [r c] _. apply FinFun.Injective_map_NoDup; [intros x y; apply glob_inj|]. apply cells2_NoDup.
      + intros [r c] [r' c'] x H H' Hx Hx'. apply (in_parts_list a0 a1 p0 p1) in H, H'. apply IG in Hx, Hx'; try assumption. cbn [fst snd] in *. destruct Hx as [_ [<- <-]], Hx' as [_ [<- <-]]. reflexivity.
    - intros x Hx. apply in_flat_map in Hx. destruct Hx as [[r c] [H Hx]]. apply (in_parts_list a0 a1 p0 p1) in H. now apply (IG r c). }
  assert (B2 : (length (flat_map (fun x => flat_map (srcs (fst x) (snd x)) all_directions) (cells2 0 M0 0 M1)) <= Z.to_nat (a0 * a1))%nat).
  { assert (IG : forall r c d x, part_ok r c -> 0 <= d < 8 -> In x (srcs r c d) -> inside a0 a1 x /\ prow x = r + off0 d /\ pcol x = c + off1 d /\ prow (towards f x) = r /\ pcol (towards f x) = c).
    { intros r c d x HP Hd Hx. destruct (srcs_spec a0 a1 p0 p1 nd f P0 P1 r c d HP Hd) as [_ SS]. apply SS in Hx. tauto. }
    apply B.
    - apply flat_map_NoDup; [apply cells2_NoDup| |].
      + intros [r c] H. apply (in_parts_list a0 a1 p0 p1) in H. cbn [fst snd]. apply flat_map_NoDup; [apply directions_NoDup| |].
        * intros d Hd. apply in_directions in Hd. now apply (srcs_spec a0 a1 p0 p1 nd f P0 P1 r c d H Hd).
        * intros d d' x Hd Hd' Hx Hx'. apply in_directions in Hd, Hd'. apply IG in Hx, Hx'; try assumption. destruct (off_ok d Hd) as [_ E], (off_ok d' Hd') as [_ E'].
          rewrite <- E, <- E'. f_equal; lia.
      + intros [r c] [r' c'] x H H' Hx Hx'. apply (in_parts_list a0 a1 p0 p1) in H, H'. apply in_flat_map in Hx, Hx'. destruct Hx as [d [Hd Hx]], Hx' as [d' [Hd' Hx']].
        apply in_directions in Hd, Hd'. apply IG in Hx, Hx'; try assumption. cbn [fst snd] in *. destruct Hx as [_ [_ [_ [<- <-]]]], Hx' as [_ [_ [_ [<- <-]]]]. reflexivity.
    - intros x Hx. apply in_flat_map in Hx. destruct Hx as [[r c] [H Hx]]. apply (in_parts_list a0 a1 p0 p1) in H. apply in_flat_map in Hx. destruct Hx as [d [Hd Hx]].
      apply in_directions in Hd. now apply (IG r c d). }
  lia.
Qed.

Lemma router_ok : exists st0, router_start ac nd flow args = Ok st0 /\
  forall ls st, run ac nd M0 M1 st0 ls st ->
    (length ls <= 2 * Z.to_nat (a0 * a1))%nat /\
    (forall l o, step l st = Some o -> exists st', o = Ok st') /\
    (finished st = false -> exists l st', step l st = Some (Ok st')) /\
    (finished st = true -> exists out, router_results flow st = Ok out /\
       raster_of [a0; a1] [p0; p1] out (fun x => if nd (fl x) then ac_mark_no_data ac else F (nth 0 x 0, nth 1 x 0))).
Proof.
  destruct start_ok as [st0 [E HS]]. exists st0. split; [exact E|]. intros ls st R.
  destruct (run_ok a0 a1 p0 p1 nd f P0 P1 V AC ac enter add pre post arg PA st0 ls st R _ _ (start_Inv st0 HS)) as [dn [ar [I W]]].
  pose proof (start_weight st0 HS) as WS. split; [lia|]. split; [|split].
  - intros l o Hs. destruct (step_ok a0 a1 p0 p1 nd f P0 P1 V AC ac enter add pre post arg PA dn ar st l o I Hs) as [st' [_ [_ [Eo _]]]]. eauto.
  - intros HF. destruct (progress dn ar st I HF) as [l [o Hs]].
    destruct (step_ok a0 a1 p0 p1 nd f P0 P1 V AC ac enter add pre post arg PA dn ar st l o I Hs) as [st' [_ [_ [Eo _]]]]. subst o. eauto.
  - intros HF. now apply (results_ok dn ar st I).
Qed.
End Steps5.
