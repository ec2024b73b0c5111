(** Proofs about integration along routes: it follows first_n. *)
From Verif Require Import Common CommonProofs CoreSpec DecompSpec ArraySpec AggregateSpec IndexModel IndexProofs DecompModel DecompProofs ArrayModel ArrayRep ArrayProofs LocalProofs AggregateProofs ZonalModel ZonalProofs
  RasterCheck FlowProofs StreamProofs OrderModel OrderSpec OrderProofs OrderProofs2 OrderProofs3 OrderProofs4 OrderProofs5 WalkModel WalkSpec WalkProofs WalkProofs2 WalkProofs3 WalkProofs4
  IntegrateModel IntegrateSpec.

Lemma Forall2_nth_l {A B} (R : A -> B -> Prop) l l' k x : Forall2 R l l' -> nth_error l k = Some x -> exists y, nth_error l' k = Some y /\ R x y.
Proof. intros F. revert k. induction F; intros [|k]; cbn; try discriminate; [|apply IHF]. intros E. inversion E; subst. eauto. Qed.
Lemma Forall2_nth_r {A B} (R : A -> B -> Prop) l l' k y : Forall2 R l l' -> nth_error l' k = Some y -> exists x, nth_error l k = Some x /\ R x y.
Proof. intros F. revert k. induction F; intros [|k]; cbn; try discriminate; [|apply IHF]. intros E. inversion E; subst. eauto. Qed.
Lemma Forall2_firstn' {A B} (R : A -> B -> Prop) l l' n : Forall2 R l l' -> Forall2 R (firstn n l) (firstn n l').
Proof. intros F. revert n. induction F; intros [|n]; cbn [firstn]; try constructor; auto. Qed.
Lemma Forall2_skipn {A B} (R : A -> B -> Prop) l l' n : Forall2 R l l' -> Forall2 R (skipn n l) (skipn n l').
Proof. intros F. revert n. induction F; intros [|n]; cbn [skipn]; try constructor; auto. Qed.
Lemma upd_z_length {A} i (x : A) l l' : upd_z i x l = Some l' -> length l' = length l.
Proof.
  unfold upd_z. destruct (i <? 0); [discriminate|]. generalize (Z.to_nat i). intros k. revert l l'. induction k as [|k IH]; intros [|y l] l' E; cbn in E; try discriminate.
  - inversion E. reflexivity.
  - destruct (upd_nth k x l) eqn:E'; [|discriminate]. inversion E. cbn. f_equal. now apply IH.
Qed.

Section Sim.
Context {E : Type} (zero : E) (plus : E -> E -> E) (nd : E -> bool) (no_data : E) (n : Z).
Context (a p : list Z) (r : serial_route) (W : well_formed_route a p r) (integrand : parray E) (g : list Z -> E) (Hg : raster_of a p integrand g) (Once : visited_once r).
Context (H : Z -> list (Z * list Z)) (C : Z -> list (list Z)).
Context (Hr : forall z, route_hops r z (H z)) (HC : forall z, Forall2 (route_cell r) (hop_cells (H z)) (C z)).
Let Hmap := proj1 (proj2 (proj2 (proj2 (proj2 (proj2 (proj2 W)))))).
Let Hstarts := proj1 (proj2 (proj2 (proj2 (proj2 (proj2 W))))).

Notation sumv := (sum_valid zero plus nd g).
Definition acc (z : Z) (j : nat) : E := sumv (firstn j (C z)).
Definition expected (z : Z) (j : nat) (x : list Z) : E := if nd (g x) then no_data else acc z (S j).

Lemma acc_S z j x : nth_error (C z) j = Some x -> acc z (S j) = if nd (g x) then acc z j else plus (acc z j) (g x).
Proof.
  intros Hx. unfold acc, sum_valid.
  assert (firstn (S j) (C z) = firstn j (C z) ++ [x]) as ->.
  { revert Hx. generalize (C z). clear. induction j as [|j IH]; intros [|y l] Hx; cbn in Hx; try discriminate; [inversion Hx; reflexivity|]. cbn [firstn app]. f_equal. now apply IH. }
  rewrite fold_left_app. reflexivity.
Qed.
Lemma visits_C z : visits r z (C z).
Proof. exists (H z). split; [apply Hr|apply HC]. Qed.
Lemma place_once z z' j j' at_ : nth_error (hop_cells (H z)) j = Some at_ -> nth_error (hop_cells (H z')) j' = Some at_ -> z = z' /\ j = j'.
Proof.
  intros A B. destruct (Forall2_nth_l _ _ _ _ _ (HC z) A) as [x [Ex Rx]]. destruct (Forall2_nth_l _ _ _ _ _ (HC z') B) as [x' [Ex' Rx']].
  assert (x' = x) as ->.
  { destruct at_ as [q i]. destruct Rx as [q1 [y1 [A1 [A2 [A3 A4]]]]], Rx' as [q2 [y2 [B1 [B2 [B3 B4]]]]]. rewrite A1 in B1. inversion B1; subst q2. subst x x'. f_equal. apply (rowmaj_inj (pl_shape q1)); congruence. }
  exact (Once z z' (C z) (C z') j j' x (visits_C z) (visits_C z') Ex Ex').
Qed.
(** The value in a cell of a route *)
Lemma integrand_at q i x : route_cell r (q, i) x -> exists gq, nth_z q (pa_parts integrand) = Some gq /\ nth_z i (pl_data gq) = Some (g x).
Proof.
  intros Hx. apply (route_cell_nth a p r W) in Hx. destruct Hx as [c [E1 E2]]. unfold nth_z in E1 |- *. destruct (Z.ltb_spec q 0); [discriminate|].
  pose proof (raster_nth a p integrand g (Z.to_nat q) Hg) as R. rewrite E1 in R. destruct (nth_error (pa_parts integrand) (Z.to_nat q)) as [gq|]; [|contradiction].
  exists gq. split; [reflexivity|]. destruct R as [_ [_ [_ ->]]]. unfold nth_z in E2. destruct (i <? 0); [discriminate|]. rewrite nth_error_map, E2. reflexivity.
Qed.

Definition out_rel (q : Z) (out : list Z) (iout : list E) : Prop :=
  length iout = length out /\ forall i,
    (nth_z i out = Some 0 -> nth_z i iout = Some no_data) /\
    (nth_z i out = Some 1 -> forall z j x, nth_error (hop_cells (H z)) j = Some (q, i) -> nth_error (C z) j = Some x -> nth_z i iout = Some (expected z j x)) /\
    (nth_z i out = Some 0 \/ nth_z i out = Some 1 \/ nth_z i out = None).
Definition walker_rel (q : Z) (w : walker) (iw : integrator E) : Prop :=
  ig_idxs iw = wk_idxs w /\ ig_ready iw = wk_ready w /\ out_rel q (wk_output w) (ig_output iw).
Definition task_rel (t : walk_task) (it : integrate_task E) : Prop :=
  match t, it with
  | ResultPartition q, AskResult q' => q = q'
  | WalkRoute q z v, Integrate q' z' d => q = q' /\ z = z' /\ v = wd_visited d /\ accumulated zero d z = acc z (Z.to_nat v)
  | SkipRoute q z, SkipFragments q' z' => q = q' /\ z = z'
  | _, _ => False
  end.
Definition state_rel (st : walk_state) (ist : integrate_state E) : Prop :=
  length (is_integrators ist) = length (ws_walkers st) /\
  (forall q w iw, nth_z q (ws_walkers st) = Some w -> nth_z q (is_integrators ist) = Some iw -> walker_rel q w iw) /\
  Forall2 task_rel (ws_tasks st) (is_tasks ist).

Lemma cells_sim z q cells : forall out iout v out' v' gq, 0 <= v -> nth_z q (pa_parts integrand) = Some gq ->
  (forall m i, nth_error cells m = Some i -> nth_error (hop_cells (H z)) (Z.to_nat v + m) = Some (q, i)) ->
  out_rel q out iout -> mark_cells n cells out v = Ok (out', v') ->
  exists iout', integrate_cells plus nd n (pl_data gq) cells iout v (acc z (Z.to_nat v)) = Ok (iout', v', acc z (Z.to_nat v')) /\ out_rel q out' iout' /\ 0 <= v'.
Proof.
  induction cells as [|i cells IH]; intros out iout v out' v' gq Hv Egq Hpos R M; cbn [mark_cells integrate_cells] in *.
  - inversion M; subst. exists iout. auto.
  - unfold keep_integrating. unfold keep_walking in M. destruct (Z.ltb_spec v n) as [L|L]; [|inversion M; subst; exists iout; auto].
    destruct (upd_z i 1 out) as [out1|] eqn:Eu; [|discriminate].
    pose proof (Hpos 0%nat i eq_refl) as P0. rewrite Nat.add_0_r in P0.
    destruct (Forall2_nth_l _ _ _ _ _ (HC z) P0) as [x [Ex Rx]].
    destruct (integrand_at _ _ _ Rx) as [gq' [Egq' Eg]]. rewrite Egq in Egq'. inversion Egq'; subst gq'. rewrite Eg.
    assert (Hpos' : forall m i0, nth_error cells m = Some i0 -> nth_error (hop_cells (H z)) (Z.to_nat (v + 1) + m) = Some (q, i0)).
    { intros m i0 Hm. replace (Z.to_nat (v + 1) + m)%nat with (Z.to_nat v + S m)%nat by lia. now apply Hpos. }
    assert (ES : Z.to_nat (v + 1) = S (Z.to_nat v)) by lia.
    pose proof (acc_S z _ x Ex) as EA. rewrite <- ES in EA.
    assert (R1 : forall iout1, length iout1 = length out1 -> (forall j, nth_z j iout1 = if j =? i then Some (expected z (Z.to_nat v) x) else nth_z j iout) -> out_rel q out1 iout1).
    { intros iout1 L1 N1. split; [assumption|]. intros j. rewrite (nth_z_upd _ _ _ _ j Eu), N1. destruct (Z.eqb_spec j i) as [->|Hj]; [|apply R].
      split; [discriminate|]. split; [|auto]. intros _ z' j' x' P' Ex'. destruct (place_once _ _ _ _ _ P0 P') as [<- <-]. congruence. }
    destruct R as [RL RO].
    assert (Li : 0 <= i < Z.of_nat (length iout)).
    { rewrite RL. rewrite <- (upd_z_length _ _ _ _ Eu). apply (nth_z_in i 1). now rewrite (nth_z_upd _ _ _ _ i Eu), Z.eqb_refl. }
    destruct (nth_z_range i iout Li) as [e0 Ee0].
    destruct (nd (g x)) eqn:End.
    + rewrite <- EA. apply (IH out1 iout (v + 1) out' v' gq); try assumption; [lia|]. apply R1; [rewrite (upd_z_length _ _ _ _ Eu); assumption|].
      intros j. destruct (Z.eqb_spec j i) as [->|]; [|reflexivity]. unfold expected. rewrite End. destruct (RO i) as [O0 [O1 [O|[O|O]]]].
      * now apply O0.
      * rewrite (O1 O z _ x P0 Ex). unfold expected. now rewrite End.
      * exfalso. destruct (nth_z_range i out) as [e1 Ee1]; [lia|]. congruence.
    + destruct (upd_z_some i (plus (acc z (Z.to_nat v)) (g x)) e0 iout Ee0) as [iout1 Eu1]. rewrite Eu1. rewrite <- EA. apply (IH out1 iout1 (v + 1) out' v' gq); try assumption; [lia|].
      apply R1; [rewrite (upd_z_length _ _ _ _ Eu), (upd_z_length _ _ _ _ Eu1); assumption|].
      intros j. rewrite (nth_z_upd _ _ _ _ j Eu1). destruct (Z.eqb_spec j i) as [->|]; [|reflexivity]. unfold expected. rewrite End. rewrite <- ES. now rewrite EA.
Qed.

Lemma advance_sim q w iw id i nr out iout : walker_rel q w iw -> out_rel q out iout ->
  match advance w id i nr out with Ok w' => exists iw', next_fragment iw id i nr iout = Ok iw' /\ walker_rel q w' iw' | Throw => next_fragment iw id i nr iout = Throw | UB => True end.
Proof.
  intros [A [B _]] R. unfold advance, next_fragment, finish_if_walked, deliver_if_walked, finish_partition, deliver. cbn [wk_idxs ig_idxs wk_ready ig_ready wk_output ig_output]. rewrite A, B.
  destruct (i =? nr).
  - destruct (is_nil (zerase (wk_idxs w) id)); [destruct (0 <? wk_ready w); [reflexivity|]|]; eexists; (split; [reflexivity|]); repeat split; cbn; try reflexivity; apply R.
  - eexists. split; [reflexivity|]. repeat split; cbn; try reflexivity; apply R.
Qed.

Lemma Hcells : forall z q i, In (q, i) (hop_cells (H z)) -> exists pq, nth_z q (rt_parts r) = Some pq /\ 0 <= i < nr_elements (pl_shape pq).
Proof. intros z q i Hin. destruct (forall2_in_l _ _ _ _ (HC z) Hin) as [x [_ Hx]]. now apply (route_cell_range a p r W) in Hx. Qed.
(** Where a walk is *)
Lemma walk_position K st q z v w pq fs fi f : winv 0 n r H K st -> In (WalkRoute q z v) (ws_tasks st) -> nth_z q (rt_parts r) = Some pq -> nth_z q (ws_walkers st) = Some w ->
  zfind (pl_data pq) z = Some fs -> zfind (wk_idxs w) z = Some fi -> at_z fs fi = Ok f ->
  0 <= v /\ forall m i, nth_error (fr_cells f) m = Some i -> nth_error (hop_cells (H z)) (Z.to_nat v + m) = Some (q, i).
Proof.
  intros I Hin Epq Hw Efs Efi Ef. pose proof (wi_zone _ _ _ _ K st I z) as Zw.
  assert (Hzt : In (WalkRoute q z v) (ztasks z (ws_tasks st))) by (apply filter_In; split; [assumption|cbn; apply Z.eqb_refl]).
  pose proof (zw_tasks _ _ _ _ _ _ _ Zw) as T. destruct (skipn (K z) (H z)) as [|[p' c] h2] eqn:Hk; [rewrite T in Hzt; destruct Hzt|].
  destruct T as [[T Tc]|[T _]]; rewrite T in Hzt; destruct Hzt as [Et|[]]; [|discriminate]. inversion Et; subst p' v. clear Et.
  destruct (firstn_hop r H Hr Hcells _ _ _ _ _ Hk) as [F1 [F2 [F3 F4]]]. pose proof (nth_z_in _ _ _ Epq) as [_ Hq].
  pose proof (zw_idxs _ _ _ _ _ _ _ Zw q Hq) as Ei. unfold idxs_of in Ei. rewrite Hw, Efi in Ei.
  destruct (cnt q (firstn (K z) (H z)) <? cnt q (H z)); [|discriminate]. inversion Ei; subst fi. clear Ei.
  rewrite (part_fragments r H Hr Hmap q pq z Epq) in Efs. pose proof (hop_fragments_nth None q c (firstn (K z) (H z)) h2) as En. rewrite <- F2 in En.
  destruct (hop_fragments None q (H z)) as [|f0 fs0]; [discriminate|]. cbn [opt_list] in Efs. inversion Efs; subst fs. unfold at_z in Ef. rewrite En in Ef. inversion Ef; subst f. cbn [fr_cells].
  split; [lia|]. intros m i Hm. rewrite Nat2Z.id. rewrite F2. unfold hop_cells. rewrite flat_map_app. fold (hop_cells (firstn (K z) (H z))). fold (walked H (K z) z).
  rewrite nth_error_app2 by lia. replace (length (walked H (K z) z) + m - length (walked H (K z) z))%nat with m by lia. cbn [flat_map].
  rewrite nth_error_app1; [now rewrite nth_error_map, Hm|]. rewrite map_length. apply nth_error_Some. congruence.
Qed.

Definition outcome_rel (o : outcome walk_state) (o' : outcome (integrate_state E)) : Prop :=
  match o, o' with Ok st, Ok ist => state_rel st ist | Throw, Throw => True | UB, _ => True | _, _ => False end.

Lemma step_sim K st ist k o : winv 0 n r H K st -> state_rel st ist -> walk_step n r k st = Some o ->
  exists o', integrate_step zero plus nd n r integrand k ist = Some o' /\ outcome_rel o o'.
Proof.
  intros I [Lw [Rw Rt]] Hs. unfold walk_step in Hs. unfold integrate_step. destruct (nth_error (ws_tasks st) k) as [t|] eqn:Ht; [|discriminate]. cbv zeta in Hs.
  destruct (Forall2_nth_l _ _ _ _ _ Rt Ht) as [it [Hit Tr]]. rewrite Hit. cbv zeta.
  assert (Ep : integrate_task_partition it = walk_task_partition t) by (destruct t, it; cbn in Tr |- *; try contradiction; intuition congruence). rewrite Ep.
  eexists. split; [reflexivity|]. inversion Hs; subst o. clear Hs.
  destruct (nth_z (walk_task_partition t) (rt_parts r)) as [pq|] eqn:Epq; [|exact Logic.I].
  destruct (nth_z (walk_task_partition t) (ws_walkers st)) as [w|] eqn:Ew; [|exact Logic.I].
  pose proof (nth_z_in _ _ _ Ew) as [_ Hq]. pose proof (nth_z_in _ _ _ Epq) as [_ Hq2].
  destruct (nth_z_range (walk_task_partition t) (is_integrators ist)) as [iw Eiw]; [lia|].
  destruct (nth_z_range (walk_task_partition t) (pa_parts integrand)) as [gq Egq].
  { rewrite (parts_len a p integrand g Hg). unfold cells_lists. rewrite map_length, <- (wf_len a p r W). assumption. }
  rewrite Egq, Eiw. pose proof (Rw _ _ _ Ew Eiw) as Rq.
  assert (Main : match run_walk_task n t pq w with
                 | Ok (w', sp) => exists iw' isp, run_integrate_task zero plus nd n it pq (pl_data gq) iw = Ok (iw', isp) /\ walker_rel (walk_task_partition t) w' iw' /\ Forall2 task_rel sp isp
                 | Throw => run_integrate_task zero plus nd n it pq (pl_data gq) iw = Throw
                 | UB => True end).
  { destruct t as [q|q z v|q z], it as [q'|q' z' d|q' z']; cbn [task_rel] in Tr; try contradiction; cbn [run_walk_task run_integrate_task walk_task_partition] in *.
    - unfold result_partition, finish_if_walked, deliver_if_walked, finish_partition, deliver. destruct Rq as [A [B R]]. rewrite A, B.
      destruct (is_nil (wk_idxs w)); [destruct (0 <? wk_ready w); [reflexivity|]|]; cbn [obind]; eexists _, _; (split; [reflexivity|]); (split; [|constructor]); repeat split; cbn; try assumption; try (now rewrite ?B); apply R.
    - destruct Tr as [<- [<- [-> Ta]]]. unfold walk, integrate_walk. destruct Rq as [A [B R]]. rewrite A. destruct (zfind (pl_data pq) z) as [fs|] eqn:Efs; [|exact Logic.I]. destruct (zfind (wk_idxs w) z) as [fi|] eqn:Efi; [|exact Logic.I].
      destruct (at_z fs fi) as [f| |] eqn:Ef; cbn [obind]; [|reflexivity|exact Logic.I].
      destruct (walk_position K st q z _ w pq fs fi f I ltac:(eapply nth_error_In; exact Ht) Epq Ew Efs Efi Ef) as [Hv Hpos].
      destruct (mark_cells n (fr_cells f) (wk_output w) (wd_visited d)) as [[out' v']| |] eqn:Em; cbn [obind]; [| |exact Logic.I].
      + destruct (cells_sim z q (fr_cells f) _ _ _ _ _ gq Hv Egq Hpos R Em) as [iout' [Ei [R' Hv']]]. rewrite Ta, Ei. cbn [obind].
        assert (Rq : walker_rel q w iw) by (repeat split; try assumption; apply R).
        pose proof (advance_sim q w iw z (fi + 1) (Z.of_nat (length fs)) out' iout' Rq R') as Ad.
        destruct (fr_next f) as [p1|].
        * destruct (advance w z (fi + 1) (Z.of_nat (length fs)) out') as [w'| |]; cbn [obind].
          -- destruct Ad as [iw' [-> Rw']]. cbn [obind]. eexists _, _. split; [reflexivity|]. split; [assumption|]. constructor; [|constructor]. unfold keep_integrating, keep_walking.
             destruct (v' <? n); cbn [task_rel]; [|auto]. cbn [wd_visited]. repeat split; try reflexivity. unfold accumulated. cbn [wd_values]. now rewrite zfind_set, Z.eqb_refl.
          -- now rewrite Ad.
          -- exact Logic.I.
        * destruct (_ =? _); [|exact Logic.I]. destruct (advance w z (fi + 1) (Z.of_nat (length fs)) out') as [w'| |]; cbn [obind].
          -- destruct Ad as [iw' [-> Rw']]. cbn [obind]. eexists _, _. split; [reflexivity|]. split; [assumption|constructor].
          -- now rewrite Ad.
          -- exact Logic.I.
      + exfalso. clear - Em. revert Em. generalize (wk_output w) (wd_visited d). induction (fr_cells f) as [|i l IH]; intros o v; cbn [mark_cells]; [discriminate|].
        destruct (keep_walking n v); [|discriminate]. destruct (upd_z i 1 o); [apply IH|discriminate].
    - destruct Tr as [<- <-]. unfold skip_walking_route_fragments, integrate_skip. pose proof Rq as [A [B R]]. rewrite A. destruct (zfind (pl_data pq) z) as [fs|] eqn:Efs; [|exact Logic.I]. destruct (zfind (wk_idxs w) z) as [fi|] eqn:Efi; [|exact Logic.I].
      destruct (at_z fs fi) as [f| |] eqn:Ef; cbn [obind]; [|reflexivity|exact Logic.I].
      pose proof (advance_sim q w iw z (fi + 1) (Z.of_nat (length fs)) _ _ Rq R) as Ad. destruct (advance w z (fi + 1) (Z.of_nat (length fs)) (wk_output w)) as [w'| |]; cbn [obind].
      + destruct Ad as [iw' [-> Rw']]. cbn [obind]. eexists _, _. split; [reflexivity|]. split; [assumption|]. destruct (fr_next f); [|constructor]. constructor; [cbn; auto|constructor].
      + now rewrite Ad.
      + exact Logic.I. }
  destruct (run_walk_task n t pq w) as [[w' sp]| |]; cbn [obind]; [| |exact Logic.I].
  - destruct Main as [iw' [isp [-> [Rw' Rs]]]]. cbn [obind]. destruct (upd_z_some _ w' _ _ Ew) as [ws Eu]. destruct (upd_z_some _ iw' _ _ Eiw) as [iws Eiu]. rewrite Eu, Eiu.
    cbn [outcome_rel]. split; [cbn [is_integrators ws_walkers]; rewrite (upd_z_length _ _ _ _ Eu), (upd_z_length _ _ _ _ Eiu); assumption|]. split; cbn [ws_walkers is_integrators ws_tasks is_tasks].
    + intros q1 w1 iw1 E1 E2. rewrite (nth_z_upd _ _ _ _ _ Eu) in E1. rewrite (nth_z_upd _ _ _ _ _ Eiu) in E2. destruct (Z.eqb_spec q1 (walk_task_partition t)) as [->|]; [|now apply Rw].
      inversion E1; inversion E2; subst. assumption.
    + apply Forall2_app; [now apply Forall2_firstn'|]. apply Forall2_app; [exact (Forall2_skipn _ _ _ (S k) Rt)|assumption].
  - rewrite Main. exact Logic.I.
Qed.

Lemma init_rel : state_rel (first_n 0 r) (integrate no_data r).
Proof.
  split; [cbn; now rewrite !map_length|]. split; cbn [first_n integrate ws_walkers is_integrators ws_tasks is_tasks].
  - intros q w iw Ew Ei. unfold integrate in Ei. cbn [is_integrators] in Ei. rewrite nth_z_map in Ew. rewrite nth_z_map in Ei. destruct (nth_z q (rt_parts r)) as [pq|]; [|discriminate]. inversion Ew; inversion Ei; subst. repeat split; cbn [walker_of integrator_of wk_output ig_output].
    + now rewrite !map_length.
    + rewrite !nth_z_map. destruct (nth_z i _); [reflexivity|discriminate].
    + rewrite !nth_z_map. destruct (nth_z i _); discriminate.
    + rewrite !nth_z_map. destruct (nth_z i _); cbn; auto.
  - apply Forall2_app.
    + induction (zseq 0 (Z.of_nat (length (rt_parts r)))); constructor; [reflexivity|assumption].
    + clear Hmap Hstarts. generalize (rt_starts r). intros l0. induction l0 as [|[z q] l IH]; constructor; [|assumption]. cbn [task_rel wd_visited]. repeat split; try reflexivity.
Qed.
End Sim.
