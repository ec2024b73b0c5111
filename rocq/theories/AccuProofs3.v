(** The theorems about routing, for each of the accumulators. *)
From Coq Require Import QArith Qcanon.
From Verif Require Import Common CommonProofs CoreSpec DecompSpec ArraySpec IndexModel DecompModel ArrayModel ArrayRep GridModel GridProofs GridRaster FlowSpec AccuSpec FlowModel
  RouterModel RouterSpec AccuModel FlowProofs FlowProofs3 FlowProofs4 RouterProofs RouterProofs2 RouterProofs3 RouterProofs4 RouterProofs5 AccuProofs AccuProofs2.
Local Notation q0 := (Q2Qc 0).
Opaque sum_of.

(** The raster of results *)
Definition result_raster {X} (nd : Z -> bool) (f : list Z -> Z) (mark : X) (G : cell -> X) : list Z -> X :=
  fun x => if nd (f x) then mark else G (nth 0 x 0, nth 1 x 0).
Lemma result_cell {X} nd f (mark : X) G x : by_cell (result_raster nd f mark G) x = if nd (by_cell f x) then mark else G x.
Proof. destruct x as [r c]. reflexivity. Qed.

Lemma routes {A X M} (ac : accumulator A X M) enter add pre post (PA : pure_accumulator ac enter add pre post) nd a0 a1 p0 p1 flow f args m :
  2 <= p0 -> 2 <= p1 -> raster_of [a0; a1] [p0; p1] flow f -> raster_of [a0; a1] [p0; p1] args m ->
  valid_network a0 a1 nd (by_cell f) -> acyclic a0 a1 nd (by_cell f) ->
  routes_to ac nd a0 a1 p0 p1 flow args (result_raster nd f (ac_mark_no_data ac) (F a0 a1 nd (by_cell f) ac enter add (by_cell m))).
Proof.
  intros H0 H1 HR HA V AC. assert (H' := HR). destruct H' as [_ [Hf _]]. apply fits2 in Hf. destruct Hf as [Hp0 Hp1].
  assert (P0 : 2 <= p0 <= a0) by lia. assert (P1 : 2 <= p1 <= a1) by lia.
  exact (router_ok a0 a1 p0 p1 nd (by_cell f) P0 P1 V AC ac enter add pre post (by_cell m) PA flow f HR eq_refl args m HA eq_refl).
Qed.

Lemma accu_ok a0 a1 nd f m : valid_network a0 a1 nd (by_cell f) -> acyclic a0 a1 nd (by_cell f) ->
  exists g, accu_spec a0 a1 nd (by_cell f) (by_cell m) (by_cell g) /\
    forall p0 p1 flow args, 2 <= p0 -> 2 <= p1 -> raster_of [a0; a1] [p0; p1] flow f -> raster_of [a0; a1] [p0; p1] args m ->
      routes_to accu nd a0 a1 p0 p1 flow args g.
Proof.
  intros V AC. eexists. split; [|intros; eapply routes; [exact accu_pure|..]; eassumption].
  split; intros x Hx; rewrite result_cell.
  - intros ->. reflexivity.
  - rewrite (proj2 Hx). exists (catchment a0 a1 nd (by_cell f) x). split; [now apply catchment_lists|].
    pose proof (accu_value a0 a1 nd (by_cell f) AC V (by_cell m) x Hx) as AV. change (@by_cell (option Qc) m) with (@by_cell material m) in *. rewrite AV. clear AV. split.
    + intros H. rewrite (proj2 (forallb_forall _ _)); [reflexivity|]. intros y Hy. apply usableb_spec. now apply H.
    + intros [y [Hy N]]. destruct (forallb _ _) eqn:E; [|reflexivity]. exfalso. apply N. rewrite forallb_forall in E. apply usableb_spec. now apply E.
Qed.

Lemma accu_spec_recurrence a0 a1 nd f m g : valid_network a0 a1 nd f -> acyclic a0 a1 nd f -> accu_spec a0 a1 nd f m g ->
  (forall x, in_network a0 a1 nd f x -> usable (m x)) ->
  forall x, in_network a0 a1 nd f x -> (amount (g x) = amount (m x) + sum_of (fun y => amount (g y)) (upstream a0 a1 nd f x))%Qc.
Proof.
  intros V AC [_ S] HU. assert (E : forall x, in_network a0 a1 nd f x -> amount (g x) = sum_of (fun y => amount (m y)) (catchment a0 a1 nd f x)).
  { intros x Hx. destruct (S x Hx) as [L [HL [H1 _]]]. rewrite H1 by (intros y Hy; apply HU; apply HL in Hy; now apply path_start in Hy). cbn [amount].
    apply sum_perm. destruct (catchment_lists a0 a1 nd f AC V x Hx) as [N I]. destruct HL as [N' I']. apply NoDup_Permutation; try assumption. intros y. now rewrite I, I'. }
  intros x Hx. rewrite E by exact Hx. rewrite (catchment_eq a0 a1 nd f AC V x Hx), sum_cons. f_equal. rewrite sum_flat.
  assert (Q : forall l, (forall y, In y l -> in_network a0 a1 nd f y) -> sum_each (fun y => amount (m y)) (catchment a0 a1 nd f) l = sum_of (fun y => amount (g y)) l).
  { induction l as [|y l IH]; intros H; [reflexivity|]. cbn [sum_each]. rewrite sum_cons, IH by (intros; apply H; now right). rewrite E by (apply H; now left). reflexivity. }
  apply Q. intros y Hy. apply in_upstream in Hy. destruct Hy as [D1 [D2 _]]. now split.
Qed.

Lemma conservation a0 a1 nd f m g C O : valid_network a0 a1 nd f -> acyclic a0 a1 nd f -> accu_spec a0 a1 nd f m g ->
  (forall x, in_network a0 a1 nd f x -> usable (m x)) ->
  lists (in_network a0 a1 nd f) C -> lists (outlet a0 a1 nd f) O ->
  sum_of (fun x => amount (g x)) O = sum_of (fun x => amount (m x)) C.
Proof.
  intros V AC S HU HC HO.
  pose proof (balance a0 a1 nd f V C HC O HO (fun x => amount (g x)) (fun _ => q0) (fun x => amount (m x))) as B.
  assert (Z : forall L, sum_of (fun _ => q0) L = q0) by (induction L as [|y L IH]; [reflexivity|]; rewrite sum_cons, IH; reflexivity).
  rewrite Z in B. rewrite <- B; [ring|]. intros x Hx. rewrite <- (accu_spec_recurrence a0 a1 nd f m g V AC S HU x Hx). ring.
Qed.

(** The accumulators that split *)
Lemma upstream_cell a0 a1 nd f x y : In y (upstream a0 a1 nd f x) -> in_network a0 a1 nd f y.
Proof. intros H. apply in_upstream in H. destruct H as [D1 [D2 _]]. now split. Qed.

Lemma split_ok (domain : Qc -> bool) (domainP : Qc -> Prop) split_ (rule : Qc -> Qc -> Qc -> Qc -> Prop) a0 a1 nd f (m : list Z -> material * material) : (forall q, domain q = true <-> domainP q) ->
  (forall t p, (q0 <= t)%Qc -> domain p = true -> (q0 <= fst (split_ t p))%Qc) ->
  (forall t p, rule t p (fst (split_ t p)) (snd (split_ t p))) ->
  valid_network a0 a1 nd (by_cell f) -> acyclic a0 a1 nd (by_cell f) ->
  exists g, split_spec a0 a1 nd (by_cell f) domainP rule (fun x => fst (by_cell m x)) (fun x => snd (by_cell m x)) (fun x => fst (by_cell g x)) (fun x => snd (by_cell g x)) /\
    forall p0 p1 flow args, 2 <= p0 -> 2 <= p1 -> raster_of [a0; a1] [p0; p1] flow f -> raster_of [a0; a1] [p0; p1] args m ->
      routes_to (split_accumulator domain split_) nd a0 a1 p0 p1 flow args g.
Proof.
  intros HD HS HR V AC. eexists. split; [|intros; eapply routes; [apply (split_pure domain split_ HS)|..]; eassumption].
  set (G := F _ _ _ _ _ _ _ _).
  split; intros x Hx.
  - intros Hn. rewrite !result_cell, Hn. split; reflexivity.
  - set (RR := result_raster _ _ _ _). unfold flux, material in *.
    assert (E : forall y, in_network a0 a1 nd (by_cell f) y -> by_cell RR y = G y) by (intros y [_ Hy]; unfold RR; now rewrite result_cell, Hy).
    assert (E1 : forall y, drains a0 a1 nd (by_cell f) y x -> by_cell RR y = G y) by (intros y [D1 [D2 _]]; apply E; now split).
    destruct (split_value a0 a1 nd (by_cell f) AC V domain split_ (by_cell m) x Hx) as [S1 S2]. fold G in S1, S2.
    assert (DO : domain_ok domain (by_cell m x) <-> (exists q, fst (by_cell m x) = Some q /\ (q0 <= q)%Qc) /\ (exists q, snd (by_cell m x) = Some q /\ domainP q)).
    { unfold domain_ok. split.
      - intros [e [p [-> [He Hp]]]]. cbn [fst snd]. split; [eauto|]. exists p. split; [reflexivity|]. now apply HD.
      - destruct (by_cell m x) as [me mp]. cbn [fst snd]. intros [[e [-> He]] [p [-> Hp]]]. exists e, p. repeat split; [exact He|]. now apply HD. }
    rewrite (sum_ext _ (fun y => amount (fst (G y)))) by (intros y Hy; apply in_upstream in Hy; now rewrite E1).
    cbv zeta. split.
    + intros [O1 [O2 O3]]. destruct S1 as [e [p [Ea Eg]]]; [now apply DO|intros y D; rewrite <- E1 by exact D; now apply O3|]. rewrite (E x Hx). rewrite (Eg : G x = _), Ea. cbn [fst snd amount].
      set (T := sum_of _ _). replace (e + T)%Qc with (T + e)%Qc by ring. specialize (HR (T + e)%Qc p). destruct (split_ (T + e)%Qc p) as [o s]. cbn [fst snd] in *. eauto.
    + intros N. rewrite (E x Hx). assert (E0 : G x = (None, None)); [apply S2|rewrite E0; split; reflexivity].
      destruct (existsb (fun y => match fst (G y) with None => true | _ => false end) (upstream a0 a1 nd (by_cell f) x)) eqn:EX.
      * right. apply existsb_exists in EX. destruct EX as [y [Hy Ey]]. exists y. split; [now apply in_upstream|]. change (fst (G y) = None). destruct (fst (G y)); [discriminate|reflexivity].
      * left. intros D. apply N. apply DO in D. destruct D as [D1 D2]. split; [exact D1|]. split; [exact D2|]. intros y Dy. rewrite (E1 y Dy). intros Ey.
        assert (existsb (fun y => match fst (G y) with None => true | _ => false end) (upstream a0 a1 nd (by_cell f) x) = true); [|congruence].
        apply existsb_exists. exists y. split; [now apply in_upstream|]. now rewrite Ey.
Qed.

Lemma threshold_rule t p : over_threshold t p (fst (threshold_split t p)) (snd (threshold_split t p)).
Proof.
  unfold over_threshold, threshold_split. destruct (qc_lt p t) eqn:E; cbn [fst snd]; (split; [ring|]); split; intros H; try reflexivity.
  - apply qc_lt_spec in E. exfalso. exact (Qclt_not_le _ _ E H).
  - apply qc_lt_spec in H. congruence.
Qed.
Lemma capacity_rule t p : up_to_capacity t p (fst (capacity_split t p)) (snd (capacity_split t p)).
Proof.
  unfold up_to_capacity, capacity_split. destruct (qc_lt p t) eqn:E; cbn [fst snd]; (split; [ring|]); split; intros H; try reflexivity.
  - apply qc_lt_spec in E. exfalso. exact (Qclt_not_le _ _ E H).
  - apply qc_lt_spec in H. congruence.
Qed.
Lemma fraction_rule t p : by_fraction t p (fst (fraction_split t p)) (snd (fraction_split t p)).
Proof. unfold by_fraction, fraction_split. cbn [fst snd]. split; [ring|reflexivity]. Qed.
Lemma trigger_rule t p : all_or_nothing t p (fst (trigger_split t p)) (snd (trigger_split t p)).
Proof.
  unfold all_or_nothing, trigger_split. destruct (qc_lt t p) eqn:E; cbn [fst snd]; (split; [ring|]); split; intros H; try reflexivity.
  - apply qc_lt_spec in E. exfalso. exact (Qclt_not_le _ _ E H).
  - apply qc_lt_spec in H. congruence.
Qed.

(** The water balance of the network *)
Lemma split_conservation a0 a1 nd f domain (rule : Qc -> Qc -> Qc -> Qc -> Prop) m p flux storage C O : valid_network a0 a1 nd f -> acyclic a0 a1 nd f ->
  (forall t q o s, rule t q o s -> (o + s = t)%Qc) ->
  split_spec a0 a1 nd f domain rule m p flux storage ->
  (forall x, in_network a0 a1 nd f x -> usable (m x) /\ exists q, p x = Some q /\ domain q) ->
  lists (in_network a0 a1 nd f) C -> lists (outlet a0 a1 nd f) O ->
  (sum_of (fun x => amount (flux x)) O + sum_of (fun x => amount (storage x)) C = sum_of (fun x => amount (m x)) C)%Qc.
Proof.
  intros V AC HRule [_ S] HU HC HO.
  assert (N : forall x, in_network a0 a1 nd f x -> flux x <> None).
  { apply (upstream_ind a0 a1 nd f AC V). intros x Hx IH. destruct (S x Hx) as [S1 _]. destruct S1 as [o [s [E _]]]; [|rewrite E; discriminate].
    destruct (HU x Hx) as [U1 U2]. auto. }
  apply (balance a0 a1 nd f V C HC O HO). intros x Hx. destruct (S x Hx) as [S1 _]. destruct S1 as [o [s [E [E' R]]]].
  - destruct (HU x Hx) as [U1 U2]. split; [exact U1|]. split; [exact U2|]. intros y D. apply N. destruct D as [D1 [D2 _]]. now split.
  - rewrite E, E'. cbn [amount]. now apply HRule in R.
Qed.
