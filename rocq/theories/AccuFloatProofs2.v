(** Routing in floating point arithmetic *)
From Coq Require Import Reals QArith Qcanon Qreals Lra Permutation.
From Flocq Require Import Core.
From Flocq Require Import IEEE754.BinarySingleNaN.
From Verif Require Import Common CommonProofs CoreSpec DecompSpec ArraySpec DecompModel ArrayModel ArrayRep RasterCheck FlowSpec AccuSpec FlowModel RouterModel RouterSpec RouterSim RouterSim2
  AccuModel AccuProofs AccuProofs3 AccuFloatModel AccuFloatSpec AccuFloatProofs.
Local Open Scope R_scope.

Lemma qr_sum h L : qr (sum_of h L) = real_sum (fun y => qr (h y)) L.
Proof. induction L as [|x L IH]; cbn [sum_of real_sum fold_right]; [apply qr_0|]. fold (sum_of h L). rewrite qr_plus, IH. reflexivity. Qed.
Lemma real_sum_ext h h' L : (forall y, In y L -> h y = h' y) -> real_sum h L = real_sum h' L.
Proof. induction L as [|x L IH]; intros H; cbn; [reflexivity|]. fold (real_sum h L) (real_sum h' L). rewrite IH by (intros; apply H; now right). now rewrite (H x (or_introl eq_refl)). Qed.

Section Main.
Context {prec emax : Z} {Hprec : Prec_gt_0 prec} {Hemax : Prec_lt_emax prec emax}.
Notation element := (binary_float prec emax).
Notation ac := (accu_f prec emax Hprec Hemax).
Context (a0 a1 : Z) (nd : Z -> bool) (f : list Z -> Z) (m : list Z -> element).
Context (V : valid_network a0 a1 nd (by_cell f)) (AC : acyclic a0 a1 nd (by_cell f)).
Context (NI : forall x, inside a0 a1 x -> by_cell m x <> B754_infinity false).

Definition exact_arg (x : list Z) : option Qc := if is_finite (m x) then Some (b2q (m x)) else None.
Lemma exact_usable x : usable (exact_arg x) <-> f_usable (m x).
Proof.
  unfold usable, f_usable, exact_arg. destruct (is_finite (m x)); split.
  - intros [q [E H]]. injection E as <-. split; [reflexivity|]. apply qr_le in H. rewrite qr_0, b2q_R in H. exact H.
  - intros [_ H]. eexists. split; [reflexivity|]. apply qr_le. rewrite qr_0, b2q_R. exact H.
  - intros [q [E _]]. discriminate E.
  - intros [E _]. discriminate E.
Qed.
Lemma exact_amount x : f_usable (m x) -> qr (amount (exact_arg x)) = B2R (m x).
Proof. intros [F _]. unfold exact_arg. rewrite F. cbn [amount]. apply b2q_R. Qed.

(** With a relation that holds for the arguments *)
Lemma related (J : element -> Qc -> Qc -> Prop) (kf : list Z -> Qc) p0 p1 flow args g2 g3 :
  J (B754_zero false) (Q2Qc 0) (Q2Qc 0) ->
  (forall v w q q' k k', nn v -> nn w -> 0 <= qr q -> 0 <= qr q' -> J v q k -> J w q' k' -> J (Bplus mode_NE v w) (q + q')%Qc (k + k')%Qc) ->
  (forall x, 0 <= qr (kf x)) -> (forall x, f_usable (m x) -> J (m x) (b2q (m x)) (kf x)) ->
  (forall flow args, raster_of [a0; a1] [p0; p1] flow f -> raster_of [a0; a1] [p0; p1] args exact_arg -> routes_to accu nd a0 a1 p0 p1 flow args g2) ->
  (forall flow args, raster_of [a0; a1] [p0; p1] flow f -> raster_of [a0; a1] [p0; p1] args (fun x => Some (kf x)) -> routes_to accu nd a0 a1 p0 p1 flow args g3) ->
  raster_of [a0; a1] [p0; p1] flow f -> raster_of [a0; a1] [p0; p1] args m ->
  routes_all ac nd a0 a1 p0 p1 flow args (fun g => forall x, inside a0 a1 x -> RX J (by_cell g x) (by_cell g2 x) (by_cell g3 x)).
Proof.
  intros J0 JP K0 JA R2 R3 Hf Hm.
  assert (PF : partition_fits [a0; a1] [p0; p1]) by apply Hf. assert (NE : [a0; a1] <> @nil Z) by discriminate.
  pose proof (raster_array_ok [a0; a1] [p0; p1] exact_arg NE PF) as H2. pose proof (raster_array_ok [a0; a1] [p0; p1] (fun x => Some (kf x)) NE PF) as H3.
  destruct (routes_related ac accu accu (RA J) (RX J) (RX J) (accu_follows J J0 JP) nd a0 a1 p0 p1 flow f args _ _ m exact_arg (fun x => Some (kf x)) Hf Hm H2 H3) with (g2 := g2) (g3 := g3) as [st0 [E R]].
  - intros x Hx. destruct x as [|y0 [|y1 [|]]]; cbn in Hx; try tauto. destruct Hx as [Hy0 [Hy1 _]]. specialize (NI (y0, y1) (conj Hy0 Hy1)). unfold by_cell in NI. cbn [fst snd] in NI.
    unfold RA, exact_arg. destruct (is_finite (m [y0; y1])) eqn:F.
    + split; [now apply finite_not_nan|]. split; [apply K0|]. rewrite b2q_R. split; [now apply ge0_finite|]. intros H. apply JA. now split.
    + destruct (m [y0; y1]) as [s|[|]| |s mm e H]; cbn in *; try discriminate; auto; congruence.
  - now apply R2.
  - now apply R3.
  - exists st0. split; [exact E|]. intros steps st HR. destruct (R steps st HR) as [A [B [C D]]]. split; [exact A|]. split; [exact B|]. split; [exact C|].
    intros Fs. destruct (D Fs) as [out [g [O1 [O2 O3]]]]. exists out, g. split; [exact O1|]. split; [exact O2|]. intros x Hx. apply O3. cbn. destruct Hx. auto.
Qed.

Lemma lists_same P L L' : lists P L -> lists P L' -> Permutation L L'.
Proof. intros [N I] [N' I']. apply NoDup_Permutation; try assumption. intros y. now rewrite I, I'. Qed.

Lemma routes_all_weaken {A X M} (c : accumulator A X M) p0 p1 flow args (P Q : (list Z -> X) -> Prop) : (forall g, P g -> Q g) ->
  routes_all c nd a0 a1 p0 p1 flow args P -> routes_all c nd a0 a1 p0 p1 flow args Q.
Proof.
  intros H [st0 [E R]]. exists st0. split; [exact E|]. intros steps st HR. destruct (R steps st HR) as [A1 [B [C D]]]. split; [exact A1|]. split; [exact B|]. split; [exact C|].
  intros Fs. destruct (D Fs) as [out [g [O1 [O2 O3]]]]. exists out, g. auto.
Qed.

(** What the exact results are *)
Lemma exact_sum g : accu_spec a0 a1 nd (by_cell f) (by_cell exact_arg) g -> forall x, in_network a0 a1 nd (by_cell f) x -> forall L, lists (fun y => path a0 a1 nd (by_cell f) y x) L ->
  ((forall y, In y L -> f_usable (by_cell m y)) -> exists q, g x = Some q /\ qr q = real_sum (fun y => B2R (by_cell m y)) L) /\
  ((exists y, In y L /\ ~ f_usable (by_cell m y)) -> g x = None).
Proof.
  intros [_ S] x Hx L HL. destruct (S x Hx) as [L' [HL' [S1 S2]]]. pose proof (lists_same _ _ _ HL HL') as PL. split.
  - intros HU. eexists. split.
    + apply S1. intros y Hy. apply exact_usable. apply HU. revert Hy. apply Permutation_in. now symmetry.
    + rewrite (sum_perm _ _ _ (Permutation_sym PL)), qr_sum. apply real_sum_ext. intros y Hy. apply exact_amount. now apply HU.
  - intros [y [Hy N]]. apply S2. exists y. split; [eapply Permutation_in; eassumption|]. intros U. apply N. now apply exact_usable.
Qed.
Lemma exact_count (kf : cell -> Qc) g : (forall y, 0 <= qr (kf y)) -> accu_spec a0 a1 nd (by_cell f) (fun y => Some (kf y)) g -> forall x, in_network a0 a1 nd (by_cell f) x -> forall L, lists (fun y => path a0 a1 nd (by_cell f) y x) L ->
  exists k, g x = Some k /\ qr k = real_sum (fun y => qr (kf y)) L.
Proof.
  intros K0 [_ S] x Hx L HL. destruct (S x Hx) as [L' [HL' [S1 _]]]. pose proof (lists_same _ _ _ HL HL') as PL. eexists. split.
  - apply S1. intros y _. exists (kf y). split; [reflexivity|]. apply qr_le. rewrite qr_0. apply K0.
  - rewrite (sum_perm _ _ _ (Permutation_sym PL)), qr_sum. reflexivity.
Qed.
Lemma real_sum_1 L : real_sum (fun _ => 1) L = INR (length L).
Proof. induction L as [|x L IH]; [reflexivity|]. change (real_sum (fun _ => 1) (x :: L)) with (1 + real_sum (fun _ => 1) L). cbn [length]. rewrite S_INR, IH. ring. Qed.
Lemma real_sum_0 (h : cell -> R) L : (forall y, In y L -> h y = 0) -> real_sum h L = 0.
Proof. induction L as [|x L IH]; intros H; [reflexivity|]. change (h x + real_sum h L = 0). rewrite IH by (intros; apply H; now right). rewrite H by now left. ring. Qed.

Lemma rounding_ok p0 p1 flow args : (2 <= p0)%Z -> (2 <= p1)%Z -> raster_of [a0; a1] [p0; p1] flow f -> raster_of [a0; a1] [p0; p1] args m ->
  routes_all ac nd a0 a1 p0 p1 flow args (fun g => accu_rounded a0 a1 nd (by_cell f) (by_cell m) (by_cell g)).
Proof.
  intros P0 P1 Hf Hm. destruct (accu_ok a0 a1 nd f exact_arg V AC) as [g2 [S2 R2]]. destruct (accu_ok a0 a1 nd f (fun _ => Some (nq 1)) V AC) as [g3 [S3 R3]].
  assert (N1 : qr (nq 1) = 1) by (unfold nq; apply qr_Z).
  eapply routes_all_weaken; [|apply (related (Jr (prec := prec) (emax := emax)) (fun _ => nq 1) p0 p1 flow args g2 g3)].
  2: exact Jr_init. 2: { intros; now apply Jr_plus. } 2: { intros; lra. }
  2: { intros x [F H]. exists 1%nat. split; [reflexivity|]. split; [discriminate|]. cbn [Nat.sub pow]. rewrite b2q_R. intros _. split; [exact F|]. rewrite Rminus_diag_eq by reflexivity. rewrite Rabs_R0. lra. }
  2: { intros; now apply R2. } 2: { intros; now apply R3. } 2: exact Hf. 2: exact Hm.
  intros g HG. split.
  - intros x Hx E. specialize (HG x Hx). change (@by_cell (option Qc) g2 x) with (@by_cell material g2 x) in *. pose proof (proj1 S2 x Hx E) as Q. unfold by_cell in Q, HG. rewrite Q in HG. exact HG.
  - intros x Hx L HL. specialize (HG x (proj1 Hx)). destruct (exact_sum (by_cell g2) S2 x Hx L HL) as [E1 E2]. destruct (exact_count (fun _ => nq 1) (by_cell g3) ltac:(intros; lra) S3 x Hx L HL) as [k [E3 E4]]. split.
    + intros U. specialize (E2 U). unfold by_cell in E2, HG. rewrite E2 in HG. exact HG.
    + intros U. destruct (E1 U) as [q [E5 E6]]. unfold by_cell in E5, E3, HG. rewrite E5, E3 in HG. cbn [RX] in HG. destruct HG as [[N _] [_ [n [Ek [_ HJ]]]]]. split; [exact N|].
      assert (n = length L).
      { apply INR_eq. rewrite <- real_sum_1. transitivity (qr k); [|rewrite E4; apply real_sum_ext; intros; exact N1]. rewrite Ek. unfold nq. rewrite qr_Z. apply INR_IZR_INZ. }
      subst n. rewrite E6 in HJ. exact HJ.
Qed.

Lemma whole_ok e p0 p1 flow args : (3 - emax - prec <= e)%Z -> (2 <= p0)%Z -> (2 <= p1)%Z -> raster_of [a0; a1] [p0; p1] flow f -> raster_of [a0; a1] [p0; p1] args m ->
  routes_all ac nd a0 a1 p0 p1 flow args (fun g => accu_whole e a0 a1 nd (by_cell f) (by_cell m) (by_cell g)).
Proof.
  intros He P0 P1 Hf Hm. pose (kf := fun x : list Z => if whole e (m x) then Q2Qc 0 else nq 1).
  assert (N1 : qr (nq 1) = 1) by (unfold nq; apply qr_Z). assert (K0 : forall x, 0 <= qr (kf x)) by (intros x; unfold kf; destruct (whole e (m x)); [rewrite qr_0|rewrite N1]; lra).
  destruct (accu_ok a0 a1 nd f exact_arg V AC) as [g2 [S2 R2]]. destruct (accu_ok a0 a1 nd f (fun x => Some (kf x)) V AC) as [g3 [S3 R3]].
  eapply routes_all_weaken; [|apply (related (Jw (prec := prec) (emax := emax) e) kf p0 p1 flow args g2 g3)].
  2: apply Jw_init. 2: { intros; now apply Jw_plus. } 2: exact K0.
  2: { intros x [F H]. split; [apply K0|]. intros E. unfold kf in E. destruct (whole e (m x)) eqn:W; [|lra]. apply whole_spec in W. destruct W as [n W]. exists n. rewrite b2q_R. auto. }
  2: { intros; now apply R2. } 2: { intros; now apply R3. } 2: exact Hf. 2: exact Hm.
  intros g HG x Hx L HL U total T1 T2. specialize (HG x (proj1 Hx)). destruct (exact_sum (by_cell g2) S2 x Hx L HL) as [E1 _].
  destruct (exact_count (by_cell kf) (by_cell g3) ltac:(intros; apply K0) S3 x Hx L HL) as [k [E3 E4]].
  destruct (E1 ltac:(intros; now apply U)) as [q [E5 E6]]. unfold by_cell in E5, E3, HG. rewrite E5, E3 in HG. destruct HG as [_ [_ [_ HJ]]].
  rewrite real_sum_0 in E4. 2: { intros y Hy. unfold by_cell, kf. destruct (U y Hy) as [_ W]. apply whole_spec in W. unfold by_cell in W. rewrite W. apply qr_0. }
  destruct (HJ E4) as [n [_ HJ2]]. fold total in E6. rewrite E6 in HJ2. auto.
Qed.
End Main.
