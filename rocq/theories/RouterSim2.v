(** Routing with an accumulator that follows two others: the start and the results. *)
From Verif Require Import Common CommonProofs CoreSpec DecompSpec ArraySpec IndexModel DecompModel DecompProofs DecompProofs2 ArrayModel ArrayRep ArrayProofs GridModel GridProofs GridRaster
  FlowModel RouterModel RouterSpec RouterSim.

Lemma gget_none {B1 B2 B3} (R : B1 -> B2 -> B3 -> Prop) a b c x y : GR R a b c ->
  (exists u v w, gget a x y = Ok u /\ gget b x y = Ok v /\ gget c x y = Ok w /\ R u v w) \/ (gget a x y = UB /\ gget b x y = UB /\ gget c x y = UB).
Proof.
  intros [[E1 E2] [[E3 E4] F]]. unfold gget, in_grid. rewrite <- E1, <- E2, <- E3, <- E4. destruct (_ && _); [|auto].
  unfold at_z, nth_z. destruct (_ <? 0); [auto|]. destruct (nth_error (gl b) (Z.to_nat (x * g1 a + y))) as [v|] eqn:N2.
  - destruct (Forall3_nth _ _ _ _ F _ _ N2) as [u [w [-> [-> HR]]]]. left. eauto 10.
  - destruct (Forall3_len _ _ _ _ F) as [L1 L2]. apply nth_error_None in N2.
    rewrite (proj2 (nth_error_None (gl a) _)) by (rewrite L1; exact N2). rewrite (proj2 (nth_error_None (gl c) _)) by (rewrite <- L2, L1; exact N2). auto.
Qed.
Lemma GR_make {B1 B2 B3} (R : B1 -> B2 -> B3 -> Prop) n0 n1 f g h : (forall x y, 0 <= x < n0 -> 0 <= y < n1 -> R (f x y) (g x y) (h x y)) -> GR R (gmake n0 n1 f) (gmake n0 n1 g) (gmake n0 n1 h).
Proof.
  intros H. split; [split; reflexivity|]. split; [split; reflexivity|]. rewrite !gl_make. apply Forall3_map. intros [x y] HI. apply in_cells2 in HI. apply H; cbn [fst snd]; lia.
Qed.
Lemma gbuild_OR {B1 B2 B3} (R : B1 -> B2 -> B3 -> Prop) n0 n1 f g h : (forall x y, OR R (f x y) (g x y) (h x y)) -> OR (GR R) (gbuild n0 n1 f) (gbuild n0 n1 g) (gbuild n0 n1 h).
Proof.
  intros H. unfold gbuild. eapply OR_bind; [apply OR_seq; intros; apply H|]. intros l m n F. apply OR_ok. split; [split; reflexivity|]. split; [split; reflexivity|exact F].
Qed.
Lemma OR_weaken {B1 B2 B3} (R S : B1 -> B2 -> B3 -> Prop) o1 o2 o3 : (forall a b c, R a b c -> S a b c) -> OR R o1 o2 o3 -> OR S o1 o2 o3.
Proof. intros H HO y2 y3 E2 E3. destruct (HO y2 y3 E2 E3) as [y1 [E HR]]. eauto. Qed.

(** The partition of a cell *)
Definition part_of_cell (a p y : Z) : Z := Z.min (y / p) (a / p - 1).
Lemma part_of_cell_inv a p r x : 0 < p <= a -> 0 <= r < a / p -> 0 <= x < ext1 a p r -> part_of_cell a p (r * p + x) = r.
Proof.
  intros Hp Hr. unfold ext1, part_of_cell. rewrite Z.div_add_l by lia. destruct (Z.eqb_spec r (a / p - 1)); intros Hx.
  - pose proof (Z.div_pos x p ltac:(lia) ltac:(lia)). lia.
  - rewrite (Z.div_small x p) by lia. lia.
Qed.
Lemma part_of_cell_in a p y : 0 < p <= a -> 0 <= y < a -> 0 <= part_of_cell a p y < a / p /\ 0 <= y - part_of_cell a p y * p < ext1 a p (part_of_cell a p y).
Proof.
  intros Hp Hy. unfold part_of_cell. pose proof (Z.div_pos y p ltac:(lia) ltac:(lia)). pose proof (nparts_pos a p Hp). pose proof (Z.mul_div_le y p ltac:(lia)). pose proof (Z.mul_succ_div_gt y p ltac:(lia)).
  split; [lia|]. unfold ext1. destruct (Z.eqb_spec (Z.min (y / p) (a / p - 1)) (a / p - 1)); [nia|]. assert (E : Z.min (y / p) (a / p - 1) = y / p) by lia. rewrite E. lia.
Qed.

Section Routes.
Context {A1 A2 A3 X1 X2 X3 M1 M2 M3 : Type} (ac1 : accumulator A1 X1 M1) (ac2 : accumulator A2 X2 M2) (ac3 : accumulator A3 X3 M3).
Context (RA : A1 -> A2 -> A3 -> Prop) (RX : X1 -> X2 -> X3 -> Prop) (RM : M1 -> M2 -> M3 -> Prop) (HF : follows ac1 ac2 ac3 RA RX RM) (nd : Z -> bool).
Context (a0 a1 p0 p1 : Z) (flow : parray Z) (f : list Z -> Z) (args1 : parray A1) (args2 : parray A2) (args3 : parray A3) (m1 : list Z -> A1) (m2 : list Z -> A2) (m3 : list Z -> A3).
Context (Hflow : raster_of [a0; a1] [p0; p1] flow f).
Context (H1 : raster_of [a0; a1] [p0; p1] args1 m1) (H2 : raster_of [a0; a1] [p0; p1] args2 m2) (H3 : raster_of [a0; a1] [p0; p1] args3 m3).
Context (HM : forall x, in_shape [a0; a1] x -> RA (m1 x) (m2 x) (m3 x)).

Let P : 0 < p0 <= a0 /\ 0 < p1 <= a1.
Proof. destruct Hflow as [_ [Hf _]]. apply fits2 in Hf. exact Hf. Qed.

Lemma sip {E} (arr : parray E) g : raster_of [a0; a1] [p0; p1] arr g -> nth 0 (pa_sip arr) 0 = a0 / p0 /\ nth 1 (pa_sip arr) 0 = a1 / p1.
Proof. intros [_ [_ [_ [-> _]]]]. cbn. auto. Qed.

Lemma args_OR r c : OR (fun q1 q2 q3 => GR RA (pl_data q1) (pl_data q2) (pl_data q3))
  (gget (Grid (nth 0 (pa_sip args1) 0) (nth 1 (pa_sip args1) 0) (map to_part2 (pa_parts args1))) r c)
  (gget (Grid (nth 0 (pa_sip args2) 0) (nth 1 (pa_sip args2) 0) (map to_part2 (pa_parts args2))) r c)
  (gget (Grid (nth 0 (pa_sip args3) 0) (nth 1 (pa_sip args3) 0) (map to_part2 (pa_parts args3))) r c).
Proof.
  destruct (sip args1 m1 H1) as [-> ->]. destruct (sip args2 m2 H2) as [-> ->]. destruct (sip args3 m3 H3) as [-> ->].
  destruct (raster_grid a0 a1 p0 p1 args1 m1 H1) as [l1 ->]. destruct (raster_grid a0 a1 p0 p1 args2 m2 H2) as [l2 ->]. destruct (raster_grid a0 a1 p0 p1 args3 m3 H3) as [l3 ->].
  apply gget_OR, GR_make. intros i j Hi Hj. unfold rpart. cbn [pl_data]. apply GR_make. intros x y Hx Hy. apply HM.
  destruct P as [P0 P1]. pose proof (ext1_in _ _ _ _ P0 Hi Hx). pose proof (ext1_in _ _ _ _ P1 Hj Hy). cbn. auto.
Qed.

Lemma unreached_SR : SR RA RX RM unreached unreached unreached.
Proof.
  constructor; try (split; reflexivity).
  - split; [split; reflexivity|]. split; [split; reflexivity|constructor].
  - split; [split; reflexivity|]. split; [split; reflexivity|constructor].
  - intros d. split; [constructor|split; reflexivity].
Qed.

Lemma start_OR : OR (StR RA RX RM) (router_start ac1 nd flow args1) (router_start ac2 nd flow args2) (router_start ac3 nd flow args3).
Proof.
  unfold router_start. cbv zeta. apply OR_bind_same. intros conns _. eapply OR_bind.
  - apply (gbuild_OR (SR RA RX RM)). intros r c. unfold initial_part. apply OR_bind_same. intros q _. eapply OR_bind; [apply args_OR|]. intros q1 q2 q3 HG. apply OR_bind_same. intros [[cnt inputs] outputs] _.
    apply OR_ok. constructor; cbn [ps_flow ps_args ps_original ps_count ps_result ps_outputs ps_inputs ps_todo ps_sends]; try (split; reflexivity); try exact HG.
    + apply GR_make. intros. apply (fo_initial _ _ _ _ _ _ HF).
    + intros d. split; [constructor|split; reflexivity].
  - intros s t u HG. apply OR_ok. intros r c. destruct (gget_none _ _ _ _ r c HG) as [[x [y [z [-> [-> [-> HR]]]]]]|[-> [-> ->]]]; [exact HR|exact unreached_SR].
Qed.

Definition rest_of (st : @router_state A1 X1 M1) : outcome (grid (part2 X1)) :=
  gbuild (g0 (flow_parts flow)) (g1 (flow_parts flow)) (fun r c => obind (gget (flow_parts flow) r c) (fun q =>
    match ps_outputs (st r c) with
    | [] => Ok (Placed (pl_locality q) (pl_offset q) [g0 (ps_result (st r c)); g1 (ps_result (st r c))] (ps_result (st r c)))
    | _ => UB
    end)).

Lemma results_related st1 st2 st3 out2 out3 g2 g3 : StR RA RX RM st1 st2 st3 ->
  router_results flow st2 = Ok out2 -> raster_of [a0; a1] [p0; p1] out2 g2 -> router_results flow st3 = Ok out3 -> raster_of [a0; a1] [p0; p1] out3 g3 ->
  exists out1 g1, router_results flow st1 = Ok out1 /\ raster_of [a0; a1] [p0; p1] out1 g1 /\ forall x, in_shape [a0; a1] x -> RX (g1 x) (g2 x) (g3 x).
Proof.
  intros HS E2 R2 E3 R3. unfold router_results in E2, E3. cbv zeta in E2, E3.
  set (o2 := gbuild _ _ _) in E2. set (o3 := gbuild _ _ _) in E3.
  destruct o2 as [q2s| |] eqn:Q2; try discriminate E2. destruct o3 as [q3s| |] eqn:Q3; try discriminate E3. cbn [obind] in E2, E3. injection E2 as <-. injection E3 as <-.
  set (RQ := fun (q1 : part2 X1) (q2 : part2 X2) (q3 : part2 X3) => pl_offset q1 = pl_offset q2 /\ pl_shape q1 = pl_shape q2 /\ pl_shape q1 = [g0 (pl_data q1); g1 (pl_data q1)] /\ GR RX (pl_data q1) (pl_data q2) (pl_data q3)).
  assert (HO : OR (GR RQ) (rest_of st1) o2 o3).
  { apply gbuild_OR. intros r c. apply OR_bind_same. intros q _. destruct (sr_outputs _ _ _ _ _ _ (HS r c)) as [<- <-]. destruct (ps_outputs (st1 r c)); [|apply OR_UB].
    apply OR_ok. pose proof (sr_result _ _ _ _ _ _ (HS r c)) as G. assert (G' := G). destruct G' as [[G1 G2] _]. split; [reflexivity|]. cbn [pl_shape pl_data]. rewrite <- G1, <- G2. split; [reflexivity|]. split; [reflexivity|exact G]. }
  destruct (HO q2s q3s Q2 Q3) as [q1s [Q1 HG]].
  assert (HG' := HG). destruct HG' as [[D1 D2] [_ F3]].
  destruct P as [P0 P1]. pose proof (nparts_pos _ _ P0) as N0. pose proof (nparts_pos _ _ P1) as N1.
  assert (DQ : g0 q1s = a0 / p0 /\ g1 q1s = a1 / p1).
  { unfold rest_of, gbuild in Q1. destruct (sequence _); try discriminate Q1. cbn [obind] in Q1. injection Q1 as <-. cbn [g0 g1]. unfold flow_parts. cbn [g0 g1]. apply (sip flow f Hflow). }
  destruct DQ as [DQ0 DQ1].
  (* the partitions *)
  destruct (raster_grid a0 a1 p0 p1 _ g2 R2) as [l2 G2]. destruct (raster_grid a0 a1 p0 p1 _ g3 R3) as [l3 G3]. cbn [pa_parts] in G2, G3. rewrite map_map in G2, G3.
  assert (PART : forall r c, 0 <= r < a0 / p0 -> 0 <= c < a1 / p1 -> exists q1, gget q1s r c = Ok q1 /\ pl_offset q1 = [r * p0; c * p1] /\ pl_shape q1 = [ext1 a0 p0 r; ext1 a1 p1 c] /\
            g0 (pl_data q1) = ext1 a0 p0 r /\ g1 (pl_data q1) = ext1 a1 p1 c /\
            Forall3 RX (gl (pl_data q1)) (gl (gmake (ext1 a0 p0 r) (ext1 a1 p1 c) (fun x y => g2 [r * p0 + x; c * p1 + y]))) (gl (gmake (ext1 a0 p0 r) (ext1 a1 p1 c) (fun x y => g3 [r * p0 + x; c * p1 + y])))).
  { intros r c Hr Hc.
    assert (X2' : gget (Grid (a0 / p0) (a1 / p1) (map (fun x => to_part2 (of_part2 x)) (gl q2s))) r c = Ok (rpart a0 a1 p0 p1 l2 g2 r c)) by (rewrite G2; apply gget_make; assumption).
    assert (X3' : gget (Grid (a0 / p0) (a1 / p1) (map (fun x => to_part2 (of_part2 x)) (gl q3s))) r c = Ok (rpart a0 a1 p0 p1 l3 g3 r c)) by (rewrite G3; apply gget_make; assumption).
    assert (IG : in_grid (Grid (a0 / p0) (a1 / p1) (map (fun x => to_part2 (of_part2 x)) (gl q2s))) r c = true) by (apply in_grid_spec; cbn; lia).
    unfold gget in X2', X3'. rewrite IG in X2'. change (in_grid (Grid (a0 / p0) (a1 / p1) (map (fun x => to_part2 (of_part2 x)) (gl q3s))) r c) with (in_grid (Grid (a0 / p0) (a1 / p1) (map (fun x => to_part2 (of_part2 x)) (gl q2s))) r c) in X3'. rewrite IG in X3'.
    cbn [g1 gl] in X2', X3'. unfold at_z in X2', X3'. assert (K0 : 0 <= r * (a1 / p1) + c) by nia. rewrite nth_z_nat in X2' by exact K0. rewrite nth_z_nat in X3' by exact K0. rewrite nth_error_map in X2'. rewrite nth_error_map in X3'.
    assert (W2 : exists q, nth_error (gl q2s) (Z.to_nat (r * (a1 / p1) + c)) = Some q /\ to_part2 (of_part2 q) = rpart a0 a1 p0 p1 l2 g2 r c).
    { clear - X2'. revert X2'. generalize (gl q2s) (rpart a0 a1 p0 p1 l2 g2 r c). intros l w. change (part2 X2) with (placed (grid X2)). destruct (nth_error l (Z.to_nat (r * (a1 / p1) + c))) as [q|] eqn:Y; cbn [option_map]; intros X; [|discriminate X]. injection X as X. exists q. split; [reflexivity|exact X]. }
    destruct W2 as [q2 [Y2 W2]]. clear X2'.
    assert (W3 : exists q, nth_error (gl q3s) (Z.to_nat (r * (a1 / p1) + c)) = Some q /\ to_part2 (of_part2 q) = rpart a0 a1 p0 p1 l3 g3 r c).
    { clear - X3'. revert X3'. generalize (gl q3s) (rpart a0 a1 p0 p1 l3 g3 r c). intros l w. change (part2 X3) with (placed (grid X3)). destruct (nth_error l (Z.to_nat (r * (a1 / p1) + c))) as [q|] eqn:Y; cbn [option_map]; intros X; [|discriminate X]. injection X as X. exists q. split; [reflexivity|exact X]. }
    destruct W3 as [q3 [Y3 W3]]. clear X3'.
    
    destruct (Forall3_nth _ _ _ _ F3 _ _ Y2) as [q1 [q3' [Y1 [Y3' [B1 [B2 [B3 B4]]]]]]]. pose proof (eq_trans (eq_sym Y3) Y3') as Y4. injection Y4 as <-. clear Y3'.
    exists q1. split.
    { unfold gget. replace (in_grid q1s r c) with true by (symmetry; apply in_grid_spec; lia). unfold at_z. rewrite DQ1, nth_z_nat by nia. rewrite Y1. reflexivity. }
    unfold to_part2, of_part2, rpart in W2, W3. cbn [pl_locality pl_offset pl_shape pl_data gl] in W2, W3. injection W2 as _ Eo Es Eg0 Eg1 El. injection W3 as _ _ _ _ _ El3.
    rewrite B1, B2. split; [exact Eo|]. split; [exact Es|]. rewrite B2, Es in B3. injection B3 as C0 C1. split; [now symmetry|]. split; [now symmetry|].
    destruct B4 as [_ [_ B4]]. rewrite El, El3 in B4. exact B4. }
  set (dflt := ac_initial ac1).
  set (gf := fun x : list Z => match x with [y0; y1] => match gget q1s (part_of_cell a0 p0 y0) (part_of_cell a1 p1 y1) with
    | Ok q => match gget (pl_data q) (y0 - part_of_cell a0 p0 y0 * p0) (y1 - part_of_cell a1 p1 y1 * p1) with Ok v => v | _ => dflt end | _ => dflt end | _ => dflt end).
  assert (CELL : forall r c q1 x y, 0 <= r < a0 / p0 -> 0 <= c < a1 / p1 -> gget q1s r c = Ok q1 -> g0 (pl_data q1) = ext1 a0 p0 r -> g1 (pl_data q1) = ext1 a1 p1 c ->
     Forall3 RX (gl (pl_data q1)) (gl (gmake (ext1 a0 p0 r) (ext1 a1 p1 c) (fun x y => g2 [r * p0 + x; c * p1 + y]))) (gl (gmake (ext1 a0 p0 r) (ext1 a1 p1 c) (fun x y => g3 [r * p0 + x; c * p1 + y]))) ->
     0 <= x < ext1 a0 p0 r -> 0 <= y < ext1 a1 p1 c ->
     gget (pl_data q1) x y = Ok (gf [r * p0 + x; c * p1 + y]) /\ RX (gf [r * p0 + x; c * p1 + y]) (g2 [r * p0 + x; c * p1 + y]) (g3 [r * p0 + x; c * p1 + y])).
  { intros r c q1 x y Hr Hc Eq L0 L1 F Hx Hy.
    assert (G : GR RX (pl_data q1) (gmake (ext1 a0 p0 r) (ext1 a1 p1 c) (fun x y => g2 [r * p0 + x; c * p1 + y])) (gmake (ext1 a0 p0 r) (ext1 a1 p1 c) (fun x y => g3 [r * p0 + x; c * p1 + y]))).
    { split; [split; assumption|]. split; [split; assumption|exact F]. }
    destruct (gget_OR _ _ _ _ x y G _ _ (gget_make _ _ _ x y Hx Hy) (gget_make _ _ _ x y Hx Hy)) as [v [Ev HR]].
    assert (EV : gf [r * p0 + x; c * p1 + y] = v).
    { unfold gf. rewrite (part_of_cell_inv a0 p0 r x P0 Hr Hx), (part_of_cell_inv a1 p1 c y P1 Hc Hy), Eq. replace (r * p0 + x - r * p0) with x by lia. replace (c * p1 + y - c * p1) with y by lia. now rewrite Ev. }
    rewrite EV. auto. }
  exists (PArray (pa_shape flow) (pa_sip flow) (map of_part2 (gl q1s))), gf.
  split; [|split].
  - unfold router_results. cbv zeta. fold (rest_of st1). rewrite Q1. reflexivity.
  - set (Qf := fun r c => match gget q1s r c with Ok q => q | _ => Placed 0 [] [] (Grid 0 0 []) end).
    assert (EM : q1s = gmake (a0 / p0) (a1 / p1) Qf).
    { destruct q1s as [d0 d1 l]. cbn [g0 g1] in DQ0, DQ1. subst d0 d1. apply grid_eq_make; cbn [g0 g1 gl]; [lia|lia| |].
      - destruct (Forall3_len _ _ _ _ F3) as [L _]. cbn [gl] in L. rewrite L. assert (L' := f_equal (fun g => length (gl g)) G2). cbn beta in L'. rewrite make_length in L' by lia. cbn [gl] in L'. rewrite map_length in L'. change (part2 X2) with (placed (grid X2)) in *. rewrite L'. apply Z2Nat.id. nia.
      - intros r c Hr Hc. destruct (PART r c Hr Hc) as [q1 [E _]]. unfold Qf. rewrite E. reflexivity. }
    destruct Hflow as [_ [_ [-> [-> _]]]]. rewrite EM. apply grid_raster; [exact P0|exact P1|]. intros r c Hr Hc. destruct (PART r c Hr Hc) as [q1 [E [B1 [B2 [L0 [L1 F]]]]]].
    unfold Qf. rewrite E. split; [exact B1|]. split; [exact B2|].
    destruct (pl_data q1) as [d0 d1 l] eqn:ED. cbn [g0 g1] in L0, L1. subst d0 d1. pose proof (ext1_pos a0 p0 r P0 Hr). pose proof (ext1_pos a1 p1 c P1 Hc).
    apply grid_eq_make; cbn [g0 g1 gl]; [lia|lia| |].
    + destruct (Forall3_len _ _ _ _ F) as [L _]. cbn [gl] in L. rewrite L, make_length by lia. apply Z2Nat.id. nia.
    + intros x y Hx Hy. rewrite <- ED. apply (CELL r c q1 x y Hr Hc E); rewrite ?ED; cbn [g0 g1]; try reflexivity; try assumption.
  - intros x Hx. destruct x as [|y0 [|y1 [|]]]; cbn in Hx; try tauto. destruct Hx as [Hy0 [Hy1 _]].
    destruct (part_of_cell_in a0 p0 y0 P0 Hy0) as [C0 C1]. destruct (part_of_cell_in a1 p1 y1 P1 Hy1) as [C2 C3].
    destruct (PART _ _ C0 C2) as [q1 [E [B1 [B2 [L0 [L1 F]]]]]]. destruct (CELL _ _ q1 _ _ C0 C2 E L0 L1 F C1 C3) as [_ HR].
    replace (part_of_cell a0 p0 y0 * p0 + (y0 - part_of_cell a0 p0 y0 * p0)) with y0 in HR by lia. replace (part_of_cell a1 p1 y1 * p1 + (y1 - part_of_cell a1 p1 y1 * p1)) with y1 in HR by lia. exact HR.
Qed.

(** As routes_to, for results that may differ between orders of tasks *)
Lemma routes_related g2 g3 : routes_to ac2 nd a0 a1 p0 p1 flow args2 g2 -> routes_to ac3 nd a0 a1 p0 p1 flow args3 g3 ->
  exists st0, router_start ac1 nd flow args1 = Ok st0 /\
  forall steps st, run ac1 nd (a0 / p0) (a1 / p1) st0 steps st ->
    (length steps <= 2 * Z.to_nat (a0 * a1))%nat /\
    (forall l o, step ac1 nd (a0 / p0) (a1 / p1) l st = Some o -> exists st', o = Ok st') /\
    (finished (a0 / p0) (a1 / p1) st = false -> exists l st', step ac1 nd (a0 / p0) (a1 / p1) l st = Some (Ok st')) /\
    (finished (a0 / p0) (a1 / p1) st = true -> exists out g1, router_results flow st = Ok out /\ raster_of [a0; a1] [p0; p1] out g1 /\ forall x, in_shape [a0; a1] x -> RX (g1 x) (g2 x) (g3 x)).
Proof.
  intros [t0 [T0 HT]] [u0 [U0 HU]]. destruct (start_OR t0 u0 T0 U0) as [s0 [S0 HS]]. exists s0. split; [exact S0|]. intros steps s HR.
  assert (NT : never_fails nd ac2 (a0 / p0) (a1 / p1) t0) by (intros ls st' R; apply (HT ls st' R)).
  assert (NU : never_fails nd ac3 (a0 / p0) (a1 / p1) u0) by (intros ls st' R; apply (HU ls st' R)).
  destruct (run_OR ac1 ac2 ac3 RA RX RM HF nd (a0 / p0) (a1 / p1) s0 steps s HR t0 u0 HS NT NU) as [t [u [RT [RU HS']]]].
  destruct (HT steps t RT) as [L [F2 [G2 E2]]]. destruct (HU steps u RU) as [_ [F3 [_ E3]]].
  destruct (finished_same RA RX RM (a0 / p0) (a1 / p1) s t u HS') as [Ft Fu].
  assert (ST : forall l, steps3 RA RX RM (step ac1 nd (a0 / p0) (a1 / p1) l s) (step ac2 nd (a0 / p0) (a1 / p1) l t) (step ac3 nd (a0 / p0) (a1 / p1) l u)) by (intros l; apply step_OR; assumption).
  split; [exact L|]. split; [|split].
  - intros l o E. specialize (ST l). rewrite E in ST. destruct (step ac2 nd _ _ l t) as [o2|] eqn:S2; [|contradiction]. destruct (step ac3 nd _ _ l u) as [o3|] eqn:S3; [|contradiction].
    destruct (F2 l o2 S2) as [t1 ->]. destruct (F3 l o3 S3) as [u1 ->]. destruct (ST t1 u1 eq_refl eq_refl) as [s1 [-> _]]. eauto.
  - intros Fs. rewrite <- Ft in Fs. destruct (G2 Fs) as [l [t1 S2]]. specialize (ST l). rewrite S2 in ST. destruct (step ac1 nd _ _ l s) as [o1|] eqn:S1; [|contradiction]. destruct (step ac3 nd _ _ l u) as [o3|] eqn:S3; [|contradiction].
    destruct (F3 l o3 S3) as [u1 ->]. destruct (ST t1 u1 eq_refl eq_refl) as [s1 [-> _]]. eauto.
  - intros Fs. destruct (E2 ltac:(congruence)) as [out2 [O2 R2]]. destruct (E3 ltac:(congruence)) as [out3 [O3 R3]]. exact (results_related s t u out2 out3 g2 g3 HS' O2 R2 O3 R3).
Qed.
End Routes.
