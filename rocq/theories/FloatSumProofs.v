From Coq Require Import Reals Lra Permutation.
From Flocq Require Import Core Plus_error Relative.
From Flocq Require Import IEEE754.BinarySingleNaN.
From Verif Require Import Common CommonProofs CoreSpec DecompSpec ArraySpec DecompModel ArrayModel ArrayRep ArrayProofs AggregateModel AggregateSpec AggregateProofs
  AccuFloatProofs FloatSumModel FloatSumSpec.
Local Open Scope R_scope.

Lemma sumR_app l m : sumR (l ++ m) = sumR l + sumR m.
Proof. induction l as [|x l IH]; [change (sumR m = 0 + sumR m); lra|]. change (x + sumR (l ++ m) = x + sumR l + sumR m). rewrite IH. lra. Qed.
Lemma sumR_perm l m : Permutation l m -> sumR l = sumR m.
Proof.
  induction 1 as [|x l m H IH|x y l|l m n H IH H' IH']; [reflexivity| | |congruence].
  - change (x + sumR l = x + sumR m). now rewrite IH.
  - change (y + (x + sumR l) = x + (y + sumR l)). lra.
Qed.

Section Sums.
Context {prec emax : Z} {Hprec : Prec_gt_0 prec} {Hemax : Prec_lt_emax prec emax}.
Notation element := (binary_float prec emax).
Notation fexp := (FLT_exp (3 - emax - prec) prec).
Notation plus := (Bplus (prec := prec) (emax := emax) mode_NE).
Notation u := (bpow radix2 (- prec)).

Lemma magnitude_ge0 (l : list element) : 0 <= magnitude l.
Proof. unfold magnitude. induction l as [|v l IH]; [change (0 <= 0); lra|]. pose proof (Rabs_pos (B2R v)). change (0 <= Rabs (B2R v) + sumR (map (fun v : element => Rabs (B2R v)) l)). lra. Qed.
Lemma total_le_magnitude (l : list element) : Rabs (total l) <= magnitude l.
Proof.
  unfold total, magnitude. induction l as [|v l IH]; [change (Rabs 0 <= 0); rewrite Rabs_R0; lra|]. change (Rabs (B2R v + sumR (map B2R l)) <= Rabs (B2R v) + sumR (map (fun v : element => Rabs (B2R v)) l)).
  eapply Rle_trans; [apply Rabs_triang|]. lra.
Qed.
Lemma magnitude_app (l m : list element) : magnitude (l ++ m) = magnitude l + magnitude m.
Proof. unfold magnitude. rewrite map_app. apply sumR_app. Qed.
Lemma total_app (l m : list element) : total (l ++ m) = total l + total m.
Proof. unfold total. rewrite map_app. apply sumR_app. Qed.

Lemma plus_signed (v w : element) : is_finite v = true -> is_finite w = true -> let r := round radix2 fexp ZnearestE (B2R v + B2R w) in
  Rabs r < bpow radix2 emax -> is_finite (plus v w) = true /\ B2R (plus v w) = r.
Proof.
  intros Fv Fw r L. pose proof (Bplus_correct prec emax Hprec Hemax mode_NE v w Fv Fw) as C. cbn [round_mode] in C. change (round radix2 (SpecFloat.fexp prec emax) ZnearestE (B2R v + B2R w)) with r in C.
  rewrite Rlt_bool_true in C by exact L. destruct C as [C1 [C2 _]]. auto.
Qed.

(** The result [v] of adding the numbers of [l] in some order *)
Definition added (l : list element) (v : element) : Prop :=
  magnitude l * (1 + u) ^ (length l - 1) < bpow radix2 emax -> is_finite v = true /\ Rabs (B2R v - total l) <= ((1 + u) ^ (length l - 1) - 1) * magnitude l.
Lemma added_one v : is_finite v = true -> added [v] v.
Proof. intros F _. split; [exact F|]. change (total [v]) with (B2R v + 0). rewrite Rplus_0_r, Rminus_diag_eq, Rabs_R0 by reflexivity. pose proof (magnitude_ge0 [v]). cbn [length Nat.sub pow]. lra. Qed.
Lemma added_app l m v w : l <> [] -> m <> [] -> added l v -> added m w -> added (l ++ m) (plus v w).
Proof.
  intros Nl Nm. destruct l as [|x l]; [congruence|]. destruct m as [|y m]; [congruence|]. clear Nl Nm. unfold added. rewrite magnitude_app, total_app, app_length.
  pose proof (magnitude_ge0 (x :: l)) as Q0. pose proof (magnitude_ge0 (y :: m)) as Q0'. pose proof (total_le_magnitude (x :: l)) as B1. pose proof (total_le_magnitude (y :: m)) as B2.
  set (A := magnitude (x :: l)) in *. set (A' := magnitude (y :: m)) in *. set (s := total (x :: l)) in *. set (s' := total (y :: m)) in *. clearbody A A' s s'. cbn [length]. set (n := length l). set (n' := length m). clearbody n n'. clear x y l m.
  intros H1 H2. replace (S n + S n' - 1)%nat with (S (n + n')) by lia. cbn [Nat.sub] in H1, H2. rewrite Nat.sub_0_r in H1, H2.
  set (P := (1 + u) ^ (n + n')). assert (GP : 1 <= P) by apply pow_ge1. assert (Gn : (1 + u) ^ n <= P) by (apply pow_mono; lia). assert (Gn' : (1 + u) ^ n' <= P) by (apply pow_mono; lia).
  pose proof (pow_ge1 (prec := prec) n) as G1. pose proof (pow_ge1 (prec := prec) n') as G2. pose proof (u_pos (prec := prec)) as U. change ((1 + u) ^ S (n + n')) with ((1 + u) * P). intros L.
  assert (T3 : (A + A') * P <= (A + A') * ((1 + u) * P)). { apply Rmult_le_compat_l; [lra|]. nra. }
  assert (T1 : A * P <= (A + A') * P) by nra. assert (T2 : A' * P <= (A + A') * P) by nra.
  assert (T4 : A * (1 + u) ^ n <= A * P) by (apply Rmult_le_compat_l; assumption). assert (T5 : A' * (1 + u) ^ n' <= A' * P) by (apply Rmult_le_compat_l; assumption).
  destruct (H1 ltac:(lra)) as [Fv E1]. destruct (H2 ltac:(lra)) as [Fw E2]. clear H1 H2.
  pose proof (plus_signed v w Fv Fw) as PF. cbv zeta in PF.
  destruct (FLT_plus_error_N_ex radix2 (3 - emax - prec) prec (fun x => negb (Z.even x)) (B2R v) (B2R w) (generic_format_B2R prec emax v) (generic_format_B2R prec emax w)) as [eps [Be Ee]].
  change (Znearest (fun x => negb (Z.even x))) with ZnearestE in Ee. rewrite Ee in PF.
  assert (Be' : Rabs eps <= u). { eapply Rle_trans; [exact Be|]. rewrite <- u_ro_eq. apply u_rod1pu_ro_le_u_ro. }
  set (d1 := B2R v - s) in *. set (d2 := B2R w - s') in *.
  assert (D1 : Rabs d1 <= (P - 1) * A). { eapply Rle_trans; [exact E1|]. apply Rmult_le_compat_r; lra. }
  assert (D2 : Rabs d2 <= (P - 1) * A'). { eapply Rle_trans; [exact E2|]. apply Rmult_le_compat_r; lra. }
  set (Q := A + A') in *. assert (ES : B2R v + B2R w = (s + s') + (d1 + d2)) by (unfold d1, d2; lra).
  assert (SD : Rabs (d1 + d2) <= (P - 1) * Q). { eapply Rle_trans; [apply Rabs_triang|]. unfold Q. lra. }
  assert (SB : Rabs (B2R v + B2R w) <= Q * P). { rewrite ES. eapply Rle_trans; [apply Rabs_triang|]. pose proof (Rabs_triang s s'). unfold Q in *. lra. }
  assert (X1 : Rabs (1 + eps) <= 1 + u). { eapply Rle_trans; [apply Rabs_triang|]. rewrite (Rabs_pos_eq 1) by lra. lra. }
  assert (LT : Rabs ((B2R v + B2R w) * (1 + eps)) < bpow radix2 emax).
  { eapply Rle_lt_trans; [|exact L]. rewrite Rabs_mult. replace (Q * ((1 + u) * P)) with ((Q * P) * (1 + u)) by ring. apply Rmult_le_compat; try apply Rabs_pos; assumption. }
  destruct (PF LT) as [F E]. split; [exact F|]. rewrite E. replace ((B2R v + B2R w) * (1 + eps) - (s + s')) with ((d1 + d2) + (B2R v + B2R w) * eps) by (rewrite ES; ring).
  eapply Rle_trans; [apply Rabs_triang|]. rewrite Rabs_mult.
  assert (A2 : Rabs (B2R v + B2R w) * Rabs eps <= Q * P * u) by (apply Rmult_le_compat; try apply Rabs_pos; assumption).
  replace (((1 + u) * P - 1) * Q) with ((P - 1) * Q + Q * P * u) by ring. lra.
Qed.

(** Whole numbers of units *)
Context (e : Z) (He : (3 - emax - prec <= e)%Z).
Definition added_whole (l : list element) (v : element) : Prop :=
  (forall x, In x l -> exists n : Z, B2R x = IZR n * bpow radix2 e) -> magnitude l <= bpow radix2 (prec + e) -> magnitude l < bpow radix2 emax -> is_finite v = true /\ B2R v = total l.
Lemma whole_total (l : list element) : (forall x, In x l -> exists n : Z, B2R x = IZR n * bpow radix2 e) -> exists n : Z, total l = IZR n * bpow radix2 e.
Proof.
  induction l as [|x l IH]; intros H; [exists 0%Z; change (0 = 0 * bpow radix2 e); lra|]. destruct (H x (or_introl eq_refl)) as [n E]. destruct IH as [n' E']; [intros; apply H; now right|].
  exists (n + n')%Z. change (total (x :: l)) with (B2R x + total l). rewrite E, E', plus_IZR. ring.
Qed.
Lemma added_whole_one v : is_finite v = true -> added_whole [v] v.
Proof. intros F _ _ _. split; [exact F|]. change (total [v]) with (B2R v + 0). lra. Qed.
Lemma added_whole_app l m v w : added_whole l v -> added_whole m w -> added_whole (l ++ m) (plus v w).
Proof.
  intros H1 H2 HW. rewrite magnitude_app. intros L1 L2. pose proof (magnitude_ge0 l). pose proof (magnitude_ge0 m).
  destruct (H1 ltac:(intros; apply HW, in_or_app; now left) ltac:(lra) ltac:(lra)) as [Fv Ev]. destruct (H2 ltac:(intros; apply HW, in_or_app; now right) ltac:(lra) ltac:(lra)) as [Fw Ew].
  destruct (whole_total _ HW) as [n EN]. rewrite total_app in EN. pose proof (total_le_magnitude (l ++ m)) as B. rewrite total_app, magnitude_app in B.
  pose proof (plus_signed v w Fv Fw) as PF. cbv zeta in PF. rewrite Ev, Ew in PF. rewrite round_generic in PF; [|apply valid_rnd_N|].
  - rewrite total_app. apply PF. lra.
  - rewrite EN. apply whole_format; [assumption|].
    pose proof (bpow_gt_0 radix2 e). rewrite EN, Rabs_mult, (Rabs_pos_eq (bpow radix2 e)) in B by lra. rewrite bpow_plus in L1.
    assert (B' : Rabs (IZR n) * bpow radix2 e <= bpow radix2 prec * bpow radix2 e) by lra. apply Rmult_le_reg_r in B'; [|assumption].
    unfold Prec_gt_0 in Hprec. rewrite <- IZR_Zpower, <- abs_IZR in B' by lia. apply le_IZR in B'. exact B'.
Qed.

(** The sum over an array *)
Notation pol := (float_agg_policies prec emax).
Notation fsum := (float_sum prec emax Hprec Hemax).
Notation valid := (fun v : element => negb (is_nan v)).
Lemma sublist_magnitude (ls : list (list element)) l : In l ls -> magnitude (filter (ok pol) l) <= magnitude (filter (ok pol) (concat ls)) /\ (length (filter (ok pol) l) <= length (filter (ok pol) (concat ls)))%nat.
Proof.
  induction ls as [|k ls IH]; intros HI; [contradiction|]. cbn [concat]. rewrite filter_app, magnitude_app, app_length.
  destruct HI as [->|HI]; [pose proof (magnitude_ge0 (filter (ok pol) (concat ls)))|pose proof (magnitude_ge0 (filter (ok pol) k)); destruct (IH HI)]; split; lra || lia.
Qed.
Lemma ok_valid v : ok pol v = valid v. Proof. unfold ok. cbn. apply andb_true_r. Qed.
Lemma filter_ok (l : list element) : filter (ok pol) l = filter valid l. Proof. apply filter_ext, ok_valid. Qed.
Lemma magnitude_perm (l m : list element) : Permutation l m -> magnitude l = magnitude m. Proof. intros H. apply sumR_perm. now apply Permutation_map. Qed.
Lemma total_perm (l m : list element) : Permutation l m -> total l = total m. Proof. intros H. apply sumR_perm. now apply Permutation_map. Qed.

(** [P] is [added] or [added_whole], for lists without infinities *)
Lemma sum_ok (P : list element -> element -> Prop) (Q : list element -> Prop) a p (x : parray element) f :
  (forall v, is_finite v = true -> P [v] v) -> (forall l m v w, l <> [] -> m <> [] -> P l v -> P m w -> P (l ++ m) (plus v w)) ->
  (forall l m v, Permutation l m -> P l v -> P m v) -> (forall l v, l <> [] -> Q l -> P l v -> is_finite v = true) ->
  raster_of a p x f -> (forall c, in_shape a c -> is_nan (f c) = false -> is_finite (f c) = true) ->
  (forall l, In l (map pl_data (pa_parts x)) -> Q (filter (ok pol) l)) ->
  let values := valid_values valid a f in
  (values <> [] -> P values (fsum x)) /\ (values = [] -> fsum x = B754_nan).
Proof.
  intros PO PA PP PQ Hx HF HQ values.
  assert (FIN : forall l, In l (map pl_data (pa_parts x)) -> Forall (fun v => is_finite v = true) (filter (ok pol) l)).
  { intros l Hl. apply Forall_forall. intros v Hv. apply filter_In in Hv. destruct Hv as [Hv O]. rewrite ok_valid in O.
    assert (HC : In v (concat (map pl_data (pa_parts x)))) by (apply in_concat; eauto). apply (Permutation_in _ (raster_permutation a p x f Hx)) in HC. apply in_map_iff in HC. destruct HC as [c [<- Hc]]. apply all_cells_spec in Hc.
    apply HF; [exact Hc|]. now apply negb_true_iff. }
  pose (P' := fun l v => Forall (fun v : element => is_finite v = true) l -> P l v).
  assert (G : (filter (ok pol) (map f (all_cells a)) <> [] -> P' (filter (ok pol) (map f (all_cells a))) (fsum x)) /\ (filter (ok pol) (map f (all_cells a)) = [] -> fsum x = B754_nan)).
  { apply (aggregate_ok pol (float_sum_functor prec emax Hprec Hemax) P') with (p := p); try assumption; try reflexivity.
    - intros v _ F. inversion F; subst. now apply PO.
    - intros l r v N _ H F. apply Forall_app in F. destruct F as [F1 F2]. inversion F2; subst. cbn [fn_next float_sum_functor]. apply PA; [assumption|discriminate|now apply H|now apply PO].
    - intros l r l' r' N N' H H' F. apply Forall_app in F. destruct F as [F1 F2]. cbn [fn_part2 float_sum_functor]. apply PA; auto.
    - intros l l' r PL H F. apply (PP l); [exact PL|]. apply H. eapply Permutation_Forall; [symmetry; exact PL|exact F].
    - intros l Hl r N H. cbn [ag_out_no_data float_agg_policies]. apply finite_not_nan. apply (PQ (filter (ok pol) l)); [exact N|now apply HQ|]. apply H. now apply FIN. }
  destruct G as [G1 G2]. unfold values, valid_values. rewrite <- filter_ok. split; [|exact G2]. intros N. apply G1; [exact N|].
  apply Forall_forall. intros v Hv. apply filter_In in Hv. destruct Hv as [Hv O]. rewrite ok_valid in O. apply in_map_iff in Hv. destruct Hv as [c [<- Hc]]. apply all_cells_spec in Hc. apply HF; [exact Hc|]. now apply negb_true_iff.
Qed.
Lemma part_magnitude a p (x : parray element) f l : raster_of a p x f -> In l (map pl_data (pa_parts x)) ->
  magnitude (filter (ok pol) l) <= magnitude (valid_values valid a f) /\ (length (filter (ok pol) l) <= length (valid_values valid a f))%nat.
Proof.
  intros Hx Hl. pose proof (filter_perm (ok pol) _ _ (raster_permutation a p x f Hx)) as PF. unfold valid_values. rewrite <- filter_ok.
  rewrite <- (magnitude_perm _ _ PF), <- (Permutation_length PF). now apply sublist_magnitude.
Qed.
Lemma float_sum_rounding a p (x : parray element) f : raster_of a p x f -> (forall c, in_shape a c -> is_nan (f c) = false -> is_finite (f c) = true) ->
  let values := valid_values valid a f in let growth := (1 + u) ^ (length values - 1) in
  magnitude values * growth < bpow radix2 emax ->
  (values <> [] -> is_finite (fsum x) = true /\ Rabs (B2R (fsum x) - total values) <= (growth - 1) * magnitude values) /\ (values = [] -> fsum x = B754_nan).
Proof.
  intros Hx HF values growth HM.
  destruct (sum_ok added (fun l => magnitude l * (1 + u) ^ (length l - 1) < bpow radix2 emax) a p x f) as [G1 G2]; try assumption.
  - apply added_one.
  - apply added_app.
  - intros l m v PL H. unfold added. rewrite <- (magnitude_perm _ _ PL), <- (total_perm _ _ PL), <- (Permutation_length PL). exact H.
  - intros l v _ HQ H. now apply H.
  - intros l Hl. destruct (part_magnitude a p x f l Hx Hl) as [M L]. eapply Rle_lt_trans; [|exact HM]. pose proof (magnitude_ge0 (filter (ok pol) l)). unfold growth, values.
    apply Rmult_le_compat; [assumption| |exact M|apply pow_mono; lia]. pose proof (pow_ge1 (prec := prec) (length (filter (ok pol) l) - 1)). lra.
  - split; [|exact G2]. intros N. now apply G1.
Qed.
Lemma float_sum_whole a p (x : parray element) f : raster_of a p x f -> (forall c, in_shape a c -> is_nan (f c) = false -> is_finite (f c) = true) ->
  let values := valid_values valid a f in
  (forall v, In v values -> exists n : Z, B2R v = IZR n * bpow radix2 e) ->
  magnitude values <= bpow radix2 (prec + e) -> magnitude values < bpow radix2 emax -> values <> [] -> is_finite (fsum x) = true /\ B2R (fsum x) = total values.
Proof.
  intros Hx HF values HW M1 M2 N.
  destruct (sum_ok added_whole (fun l => (forall v, In v l -> exists n : Z, B2R v = IZR n * bpow radix2 e) /\ magnitude l <= bpow radix2 (prec + e) /\ magnitude l < bpow radix2 emax) a p x f) as [G1 _]; try assumption.
  - apply added_whole_one.
  - intros; now apply added_whole_app.
  - intros l m v PL H. unfold added_whole. rewrite <- (magnitude_perm _ _ PL), <- (total_perm _ _ PL). intros HI. apply H. intros y Hy. apply HI. eapply Permutation_in; eassumption.
  - intros l v _ [Q1 [Q2 Q3]] H. now apply H.
  - intros l Hl. destruct (part_magnitude a p x f l Hx Hl) as [M L]. split; [|split].
    + intros v Hv. apply HW. unfold values, valid_values. rewrite <- filter_ok. eapply Permutation_in; [apply filter_perm, (raster_permutation a p x f Hx)|]. apply filter_In in Hv. apply filter_In. split; [|apply Hv]. apply in_concat. exists l. split; [exact Hl|apply Hv].
    + unfold values in *. lra.
    + unfold values in *. lra.
  - apply G1; assumption.
Qed.
End Sums.
