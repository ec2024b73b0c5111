(** Routing with the kinematic wave *)
From Coq Require Import Reals Lra Permutation.
From Verif Require Import Common CommonProofs CoreSpec DecompSpec ArraySpec DecompModel ArrayModel ArrayProofs ArrayRep RasterCheck FlowSpec AccuSpec FlowModel RouterModel RouterSpec RouterSim RouterSim2
  FlowProofs4 RouterProofs RouterProofs2 AccuProofs AccuProofs3 KinematicModel KinematicSpec KinematicSolver KinematicProofs.
Local Open Scope R_scope.

Section Cell.
Context (m eps : R) (solve : wave -> R -> R) (Hm : 0 < m) (Heps : 0 <= eps <= 1) (HS : solves eps solve).

Lemma within_nonneg q e : 0 <= e -> within eps q e -> 0 <= q.
Proof. intros He H. unfold within in H. assert (H1 : - (eps * e) <= q - e) by (unfold Rabs in H; destruct (Rcase_abs (q - e)); lra). assert (eps * e <= 1 * e) by (apply Rmult_le_compat_r; lra). lra. Qed.
Lemma within_refl e : 0 <= e -> within eps e e.
Proof. intros H. unfold within. replace (e - e) with 0 by lra. rewrite Rabs_R0. apply Rmult_le_pos; lra. Qed.
Lemma zero_solution lat alpha beta dt dx : lat = 0 -> wave_equation 0 0 lat alpha beta dt dx 0.
Proof. intros ->. unfold wave_equation. rewrite power_0. lra. Qed.

Lemma iterate_ok up old lat alpha beta dt dx : 0 <= up -> 0 <= old -> 0 < alpha -> 0 < beta -> 0 < dt -> 0 < dx ->
  exists q exact, iterate_to_new_discharge m solve up old lat alpha beta dt dx = Ok (Rmax 0 (q - dx * Rmax 0 (- lat))) /\
    0 <= q /\ 0 <= exact /\ within eps q exact /\ wave_equation up old (Rmax 0 lat) alpha beta dt dx exact.
Proof.
  intros Hup Hold Ha Hb Ht Hx. unfold iterate_to_new_discharge. rewrite !r_le_true by lra. rewrite (r_lt_true 0 dt), (r_lt_true 0 dx) by assumption. cbn [r_assert obind].
  set (inflow := if r_le 0 lat then lat else 0). assert (EI : inflow = Rmax 0 lat).
  { unfold inflow. destruct (r_le 0 lat) eqn:E; [apply r_le_iff in E; now rewrite Rmax_right|]. rewrite Rmax_left; [reflexivity|]. destruct (Rle_dec 0 lat); [|lra]. rewrite r_le_true in E by assumption. discriminate E. }
  assert (HI : 0 <= inflow) by (rewrite EI; apply Rmax_l).
  assert (B : exists q exact, (if r_lt 0 (up + old) || r_lt 0 lat then obind (make_wave up old inflow alpha beta dt dx) (fun w => obind (guess m w) (fun g => Ok (solve w g))) else Ok 0) = Ok q /\
    0 <= q /\ 0 <= exact /\ within eps q exact /\ wave_equation up old inflow alpha beta dt dx exact).
  { destruct (r_lt 0 (up + old) || r_lt 0 lat) eqn:B.
    - assert (P : 0 < up + old + inflow).
      { apply orb_true_iff in B. destruct B as [B|B]; apply r_lt_iff in B; [lra|]. rewrite EI, Rmax_right by lra. lra. }
      pose proof (make_wave_ok up old inflow alpha beta dt dx Hup Hold Ha Hb Ht Hx P) as MW. rewrite MW. cbn [obind].
      destruct (guess_ok up old inflow alpha beta dt dx Hup Hold Ha Hb Ht Hx m Hm) as [g [-> Hg]]. cbn [obind].
      destruct (solution up old inflow alpha beta dt dx Hup HI Ha Hb Ht Hx P) as [e [He [Ef We]]].
      pose proof (HS _ _ _ _ _ _ _ _ g e MW Hg He Ef) as W. eexists. exists e. split; [reflexivity|]. split; [|split; [lra|split; [exact W|exact We]]].
      apply (within_nonneg _ e); [lra|exact W].
    - apply orb_false_iff in B. destruct B as [B1 B2]. assert (U0 : up + old <= 0) by (apply Rnot_lt_le; intros L; apply r_lt_iff in L; congruence). assert (L0 : lat <= 0) by (apply Rnot_lt_le; intros L; apply r_lt_iff in L; congruence).
      exists 0, 0. split; [reflexivity|]. split; [lra|]. split; [lra|]. split; [apply within_refl; lra|]. replace up with 0 by lra. replace old with 0 by lra. apply zero_solution. rewrite EI, Rmax_left; lra. }
  destruct B as [q [e [-> [Hq [He [W WE]]]]]]. cbn [obind]. exists q, e. split; [|rewrite <- EI; auto].
  assert (R : (if r_lt lat 0 then q - Rmin (dx * Rabs lat) q else q) = Rmax 0 (q - dx * Rmax 0 (- lat))).
  { destruct (r_lt lat 0) eqn:L.
    - apply r_lt_iff in L. rewrite Rabs_left by exact L. rewrite (Rmax_right 0 (- lat)) by lra. unfold Rmin, Rmax. destruct (Rle_dec _ _), (Rle_dec _ _); lra.
    - assert (0 <= lat) by (apply Rnot_lt_le; intros K; apply r_lt_iff in K; congruence). rewrite (Rmax_left 0 (- lat)) by lra. rewrite Rmult_0_r, Rminus_0_r. now rewrite Rmax_right. }
  rewrite R. rewrite r_le_true by apply Rmax_l. reflexivity.
Qed.

(** The arguments of cells that the theorem is about *)
Definition args_usable (a : cell_args) : Prop := usable_args (ka_current a) (ka_inflow a) (ka_alpha a) (ka_beta a) (ka_duration a) (ka_length a).
Definition args_positive (a : cell_args) : Prop :=
  (forall v, ka_alpha a = Some v -> 0 < v) /\ (forall v, ka_beta a = Some v -> 0 < v) /\ (forall v, ka_duration a = Some v -> 0 < v).
Definition nonneg (x : option R) : Prop := forall q, x = Some q -> 0 <= q.

(** Entering a cell, with an arbitrary result where the code fails *)
Definition enter (a : cell_args) (x : option R) : option R :=
  match kw_enter_cell m solve value_domain a x with Ok (Some q) => Some (Rmax 0 q) | _ => None end.
Definition add (x o : option R) : option R := match x, o with Some a, Some b => Some (a + b) | _, _ => None end.
Definition total : accumulator cell_args (option R) (option R) :=
  Accumulator (Some 0) None (fun a x => Ok (enter a x)) (fun u x => Ok (add x u)) (fun u x => Ok (add x u)) (fun x => x).

Lemma enter_nonneg a x : nonneg (enter a x).
Proof. intros q E. unfold enter in E. destruct (kw_enter_cell _ _ _ a x) as [[r|]| |]; try discriminate E. injection E as <-. apply Rmax_l. Qed.
Lemma add_nonneg x u : nonneg x -> nonneg u -> nonneg (add x u).
Proof. intros Hx Hu q E. destruct x as [a|], u as [b|]; try discriminate E. injection E as <-. specialize (Hx a eq_refl). specialize (Hu b eq_refl). lra. Qed.
Lemma total_pure : pure_accumulator total enter add nonneg nonneg.
Proof.
  constructor; cbn.
  - intros q E. injection E as <-. lra.
  - intros a x _. split; [reflexivity|apply enter_nonneg].
  - reflexivity.
  - reflexivity.
  - intros u x Hu Hx. now apply add_nonneg.
  - intros u v x _ _ _. destruct x as [a|], u as [b|], v as [c|]; cbn; try reflexivity. f_equal. lra.
Qed.

(** What entering a cell does *)
Lemma enter_usable a o : args_usable a -> args_positive a -> 0 <= o ->
  exists q exact, kw_enter_cell m solve value_domain a (Some o) = Ok (Some q) /\ enter a (Some o) = Some q /\ 0 <= q /\ 0 <= exact /\ within eps q exact /\
    wave_equation o (rvalue (ka_current a)) (rvalue (ka_inflow a)) (rvalue (ka_alpha a)) (rvalue (ka_beta a)) (rvalue (ka_duration a)) (rvalue (ka_length a)) exact.
Proof.
  intros [old [lat [al [be [t [l [E1 [E2 [E3 [E4 [E5 [E6 [Ho [Hl Hx]]]]]]]]]]]]]] [P1 [P2 P3]] Hu.
  destruct (iterate_ok o old lat al be t l Hu Ho (P1 _ E3) (P2 _ E4) (P3 _ E5) Hx) as [q [e [EI [Hq [He [W WE]]]]]].
  assert (EC : kw_enter_cell m solve value_domain a (Some o) = Ok (Some q)).
  { unfold kw_enter_cell. rewrite E1, E2, E3, E4, E5, E6. unfold value_domain. rewrite !r_le_true by assumption. rewrite r_lt_true by assumption. cbn [andb negb r_assert obind].
    rewrite EI. cbn [obind]. rewrite (Rmax_left 0 (- lat)) by lra. rewrite Rmult_0_r, Rminus_0_r, Rmax_right by exact Hq. reflexivity. }
  exists q, e. split; [exact EC|]. split; [unfold enter; rewrite EC, Rmax_right by exact Hq; reflexivity|]. repeat (split; [assumption|]).
  rewrite E1, E2, E3, E4, E5, E6. cbn [rvalue]. rewrite Rmax_right in WE by exact Hl. exact WE.
Qed.
Lemma enter_unusable a o : ~ args_usable a -> kw_enter_cell m solve value_domain a (Some o) = Ok None.
Proof.
  intros N. unfold kw_enter_cell. destruct (ka_current a) as [old|] eqn:E1; [|reflexivity]. destruct (ka_inflow a) as [lat|] eqn:E2; [|reflexivity]. destruct (ka_alpha a) as [al|] eqn:E3; [|reflexivity].
  destruct (ka_beta a) as [be|] eqn:E4; [|reflexivity]. destruct (ka_duration a) as [t|] eqn:E5; [|reflexivity]. destruct (ka_length a) as [l|] eqn:E6; [|reflexivity].
  destruct (value_domain old lat l) eqn:D; [|reflexivity]. exfalso. apply N. unfold value_domain in D. apply andb_true_iff in D. destruct D as [D D3]. apply andb_true_iff in D. destruct D as [D1 D2].
  apply r_le_iff in D1, D2. apply r_lt_iff in D3. exists old, lat, al, be, t, l. repeat split; assumption.
Qed.
Lemma enter_none a : enter a None = None. Proof. reflexivity. Qed.

Definition args_usableb (a : cell_args) : bool :=
  match ka_current a, ka_inflow a, ka_alpha a, ka_beta a, ka_duration a, ka_length a with Some o, Some l, Some _, Some _, Some _, Some x => value_domain o l x | _, _, _, _, _, _ => false end.
Lemma args_usable_dec a : args_usable a \/ ~ args_usable a.
Proof.
  destruct (args_usableb a) eqn:E; [left|right].
  - unfold args_usableb in E. destruct (ka_current a) as [old|] eqn:E1; [|discriminate E]. destruct (ka_inflow a) as [lat|] eqn:E2; [|discriminate E]. destruct (ka_alpha a) as [al|] eqn:E3; [|discriminate E].
    destruct (ka_beta a) as [be|] eqn:E4; [|discriminate E]. destruct (ka_duration a) as [t|] eqn:E5; [|discriminate E]. destruct (ka_length a) as [l|] eqn:E6; [|discriminate E].
    unfold value_domain in E. apply andb_true_iff in E. destruct E as [D D3]. apply andb_true_iff in D. destruct D as [D1 D2]. apply r_le_iff in D1, D2. apply r_lt_iff in D3. exists old, lat, al, be, t, l. repeat split; assumption.
  - intros [old [lat [al [be [t [l [E1 [E2 [E3 [E4 [E5 [E6 [Ho [Hl Hx]]]]]]]]]]]]]]. unfold args_usableb in E. rewrite E1, E2, E3, E4, E5, E6 in E. unfold value_domain in E.
    rewrite !r_le_true in E by assumption. rewrite r_lt_true in E by assumption. discriminate E.
Qed.

Notation ac := (kinematic m solve value_domain).
Definition RA (a b c : cell_args) : Prop := a = b /\ a = c /\ args_positive a.
Definition RX (x y z : option R) : Prop := x = y /\ x = z /\ nonneg x.
Lemma kinematic_follows : follows ac total total RA RX RX.
Proof.
  assert (RXI : forall x, nonneg x -> RX x x x) by (intros x H; split; [reflexivity|split; [reflexivity|exact H]]).
  constructor; cbn.
  - apply RXI. intros q E. injection E as <-. lra.
  - apply RXI. intros q E. discriminate E.
  - intros a b c x y z [<- [<- HP]] [<- [<- HN]] y2 y3 E2 E3. injection E2 as <-. injection E3 as <-.
    assert (E : kw_enter_cell m solve value_domain a x = Ok (enter a x)).
    { destruct x as [o|]; [|reflexivity]. destruct (args_usable_dec a) as [U|U].
      - destruct (enter_usable a o U HP (HN o eq_refl)) as [q [e [-> [-> _]]]]. reflexivity.
      - unfold enter. now rewrite (enter_unusable a o U). }
    rewrite E. eexists. split; [reflexivity|]. apply RXI, enter_nonneg.
  - intros u v w x y z [<- [<- HU]] [<- [<- HN]] y2 y3 E2 E3. injection E2 as <-. injection E3 as <-.
    unfold kw_leave_cell, add. destruct x as [i|]; [|eexists; split; [reflexivity|now apply RXI]]. destruct u as [o|]; [|eexists; split; [reflexivity|apply RXI; intros q E; discriminate E]].
    rewrite r_le_true by (now apply HU). eexists. split; [reflexivity|]. apply RXI. exact (add_nonneg (Some i) (Some o) HN HU).
  - intros u v w x y z [<- [<- HU]] [<- [<- HN]] y2 y3 E2 E3. injection E2 as <-. injection E3 as <-.
    unfold kw_enter_inter, add. destruct x as [i|]; [|eexists; split; [reflexivity|now apply RXI]]. destruct u as [o|]; [|eexists; split; [reflexivity|apply RXI; intros q E; discriminate E]].
    eexists. split; [reflexivity|]. apply RXI. exact (add_nonneg (Some i) (Some o) HN HU).
  - intros x y z H. exact H.
Qed.

Section Routing.
Context (a0 a1 : Z) (nd : Z -> bool) (f : list Z -> Z) (k : list Z -> cell_args).
Context (V : valid_network a0 a1 nd (by_cell f)) (AC : acyclic a0 a1 nd (by_cell f)) (HP : forall x, inside a0 a1 x -> args_positive (by_cell k x)).
Definition G := F a0 a1 nd (by_cell f) total enter add (by_cell k).
Definition g := result_raster nd f (@None R) G.

Lemma in_shape_inside x : in_shape [a0; a1] x -> exists r c, x = [r; c] /\ inside a0 a1 (r, c).
Proof. destruct x as [|r [|c [|? ?]]]; cbn; try tauto. intros [H0 [H1 _]]. exists r, c. split; [reflexivity|]. split; assumption. Qed.

Lemma kinematic_routes p0 p1 flow args : (2 <= p0)%Z -> (2 <= p1)%Z -> raster_of [a0; a1] [p0; p1] flow f -> raster_of [a0; a1] [p0; p1] args k ->
  routes_to ac nd a0 a1 p0 p1 flow args g.
Proof.
  intros H0 H1 HR HA. assert (RT : routes_to total nd a0 a1 p0 p1 flow args g) by (apply (routes total enter add nonneg nonneg total_pure nd a0 a1 p0 p1 flow f args k); assumption).
  assert (HM : forall x, in_shape [a0; a1] x -> RA (k x) (k x) (k x)).
  { intros x Hx. destruct (in_shape_inside x Hx) as [r [c [-> I]]]. split; [reflexivity|]. split; [reflexivity|]. exact (HP (r, c) I). }
  destruct (routes_related ac total total RA RX RX kinematic_follows nd a0 a1 p0 p1 flow f args args args k k k HR HA HA HA HM g g RT RT) as [st0 [S0 H]].
  exists st0. split; [exact S0|]. intros steps st R. destruct (H steps st R) as [L [N [Pr E]]]. split; [exact L|]. split; [exact N|]. split; [exact Pr|]. intros FI. destruct (E FI) as [out [g1 [O [RO Eg]]]].
  exists out. split; [exact O|]. apply (raster_ext [a0; a1] [p0; p1] out g1 g); [|exact RO]. intros x Hx. now destruct (Eg x Hx).
Qed.

Lemma G_nonneg x : in_network a0 a1 nd (by_cell f) x -> nonneg (G x).
Proof. intros Hx. unfold G. rewrite (F_eq a0 a1 nd (by_cell f) V AC total enter add (by_cell k) x Hx). apply enter_nonneg. Qed.

Lemma fold_add L : forall s, fold_left add (map G L) s = match s with None => None | Some v => if existsb (fun y => match G y with None => true | _ => false end) L then None else Some (v + rsum (fun y => rvalue (G y)) L) end.
Proof.
  induction L as [|y L IH]; intros s; cbn [map fold_left existsb rsum fold_right]; [destruct s; [f_equal; lra|reflexivity]|]. rewrite IH. fold (rsum (fun y => rvalue (G y)) L).
  destruct s as [v|]; [|reflexivity]. destruct (G y) as [w|]; cbn [add orb rvalue]; [|reflexivity]. destruct (existsb _ L); [reflexivity|]. f_equal. lra.
Qed.
Lemma acc_eq L : acc a0 a1 nd (by_cell f) total enter add (by_cell k) L = if existsb (fun y => match G y with None => true | _ => false end) L then None else Some (rsum (fun y => rvalue (G y)) L).
Proof. unfold acc. change (map _ L) with (map G L). rewrite fold_add. cbn [total ac_initial]. destruct (existsb _ L); [reflexivity|]. f_equal. lra. Qed.
Lemma rsum_ext h h' L : (forall y, In y L -> h y = h' y) -> rsum h L = rsum h' L.
Proof. induction L as [|y L IH]; intros H; [reflexivity|]. cbn. fold (rsum h L) (rsum h' L). rewrite IH by (intros; apply H; now right). now rewrite (H y (or_introl eq_refl)). Qed.
Lemma rsum_nonneg h L : (forall y, In y L -> 0 <= h y) -> 0 <= rsum h L.
Proof. induction L as [|y L IH]; intros H; cbn; [lra|]. fold (rsum h L). pose proof (H y (or_introl eq_refl)). assert (0 <= rsum h L) by (apply IH; intros; apply H; now right). lra. Qed.

Notation cur := (fun x => ka_current (by_cell k x)). Notation inf := (fun x => ka_inflow (by_cell k x)). Notation alp := (fun x => ka_alpha (by_cell k x)).
Notation bet := (fun x => ka_beta (by_cell k x)). Notation dur := (fun x => ka_duration (by_cell k x)). Notation len := (fun x => ka_length (by_cell k x)).
Lemma g_spec : kinematic_spec a0 a1 nd (by_cell f) cur inf alp bet dur len eps (by_cell g).
Proof.
  split; intros x Hx.
  - intros Hn. unfold g. now rewrite result_cell, Hn.
  - assert (E : forall y, in_network a0 a1 nd (by_cell f) y -> by_cell g y = G y) by (intros y [_ Hy]; unfold g; now rewrite result_cell, Hy).
    assert (EU : forall y, In y (upstream a0 a1 nd (by_cell f) x) -> by_cell g y = G y /\ nonneg (G y)) by (intros y Hy; apply upstream_cell in Hy; split; [now apply E|now apply G_nonneg]).
    rewrite (rsum_ext _ (fun y => rvalue (G y))) by (intros y Hy; now rewrite (proj1 (EU y Hy))).
    assert (EX : G x = enter (by_cell k x) (if existsb (fun y => match G y with None => true | _ => false end) (upstream a0 a1 nd (by_cell f) x) then None else Some (rsum (fun y => rvalue (G y)) (upstream a0 a1 nd (by_cell f) x)))).
    { unfold G at 1. rewrite (F_eq a0 a1 nd (by_cell f) V AC total enter add (by_cell k) x Hx). f_equal. apply acc_eq. }
    assert (S0 : 0 <= rsum (fun y => rvalue (G y)) (upstream a0 a1 nd (by_cell f) x)).
    { apply rsum_nonneg. intros y Hy. destruct (EU y Hy) as [_ N]. destruct (G y) as [v|]; cbn; [now apply N|lra]. }
    assert (EB : existsb (fun y => match G y with None => true | _ => false end) (upstream a0 a1 nd (by_cell f) x) = false <-> forall y, drains a0 a1 nd (by_cell f) y x -> by_cell g y <> None).
    { split.
      - intros B y D Ny. assert (Hy : In y (upstream a0 a1 nd (by_cell f) x)) by (now apply in_upstream). assert (B' : existsb (fun y => match G y with None => true | _ => false end) (upstream a0 a1 nd (by_cell f) x) = true); [|congruence].
        apply existsb_exists. exists y. split; [exact Hy|]. rewrite <- (proj1 (EU y Hy)), Ny. reflexivity.
      - intros H. destruct (existsb _ _) eqn:B; [|reflexivity]. exfalso. apply existsb_exists in B. destruct B as [y [Hy B]]. apply (H y); [now apply in_upstream|]. rewrite (proj1 (EU y Hy)). destruct (G y); [discriminate B|reflexivity]. }
    cbv zeta. rewrite (E x Hx). split.
    + intros [U N]. apply EB in N. rewrite N in EX. destruct (enter_usable (by_cell k x) _ U (HP x (proj1 Hx)) S0) as [q [e [_ [Eq R]]]]. exists q, e. split; [now rewrite EX|exact R].
    + intros N. rewrite EX. destruct (existsb _ _) eqn:B; [reflexivity|]. destruct (args_usable_dec (by_cell k x)) as [U|U].
      * exfalso. apply N. split; [exact U|]. now apply EB.
      * unfold enter. now rewrite (enter_unusable _ _ U).
Qed.
End Routing.
End Cell.

(** The water balance *)
Section Balance.
Context (a0 a1 : Z) (nd : Z -> bool) (f : cell -> Z).
Context (V : valid_network a0 a1 nd f) (AC : acyclic a0 a1 nd f).
Context (C : list cell) (HC : lists (in_network a0 a1 nd f) C) (O : list cell) (HO : lists (outlet a0 a1 nd f) O).
Lemma rsum_cons h x L : rsum h (x :: L) = h x + rsum h L. Proof. reflexivity. Qed.
Lemma rsum_app h L L' : rsum h (L ++ L') = rsum h L + rsum h L'.
Proof. induction L as [|x L IH]; [change (rsum h L' = 0 + rsum h L'); lra|]. cbn [app]. rewrite !rsum_cons, IH. lra. Qed.
Lemma rsum_perm h L L' : Permutation L L' -> rsum h L = rsum h L'.
Proof. induction 1 as [|x l l' P IH|x y l|l l' l'' P1 IH1 P2 IH2]; [reflexivity| | |congruence]; rewrite !rsum_cons; lra. Qed.
Lemma rsum_filter (p : cell -> bool) h L : rsum h L = rsum h (filter p L) + rsum h (filter (fun x => negb (p x)) L).
Proof. induction L as [|x L IH]; [cbn; lra|]. cbn [filter]. rewrite rsum_cons. destruct (p x); cbn [negb]; rewrite rsum_cons; lra. Qed.
Lemma rbalance (o s e : cell -> R) : (forall x, in_network a0 a1 nd f x -> o x + s x = e x + rsum o (upstream a0 a1 nd f x)) ->
  rsum o O + rsum s C = rsum e C.
Proof.
  intros H. assert (E : rsum o C + rsum s C = rsum e C + rsum o (flat_map (upstream a0 a1 nd f) C)).
  { assert (E : forall L, (forall x, In x L -> in_network a0 a1 nd f x) -> rsum o L + rsum s L = rsum e L + rsum o (flat_map (upstream a0 a1 nd f) L)).
    { induction L as [|x L IH]; intros HL; cbn [flat_map]; [cbn; lra|]. rewrite rsum_app. specialize (IH (fun y Hy => HL y (or_intror Hy))). specialize (H x (HL x (or_introl eq_refl))).
      rewrite !rsum_cons. lra. }
    apply E. intros x Hx. now apply HC. }
  rewrite (rsum_perm o _ _ (upstream_all a0 a1 nd f V C HC)) in E. rewrite (rsum_filter (flowsb a0 a1 nd f) o C) in E. rewrite (rsum_perm o _ _ (outlets_all a0 a1 nd f C HC O HO)). lra.
Qed.
End Balance.
