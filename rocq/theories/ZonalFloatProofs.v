From Coq Require Import Reals Lra Permutation.
From Flocq Require Import Core Plus_error Relative.
From Flocq Require Import IEEE754.BinarySingleNaN.
From Verif Require Import Common CommonProofs CoreSpec DecompSpec ArraySpec DecompModel ArrayModel ArrayRep ArrayProofs AggregateModel AggregateSpec AggregateProofs
  AccuFloatProofs FloatSumModel FloatSumSpec FloatSumProofs ZonalModel ZonalSpec ZonalProofs ZonalFloatModel.
Local Open Scope R_scope.

Section ZonalFloat.
Context {prec emax : Z} {Hprec : Prec_gt_0 prec} {Hemax : Prec_lt_emax prec emax}.
Notation element := (binary_float prec emax).
Notation fexp := (FLT_exp (3 - emax - prec) prec).
Notation rd := (round radix2 fexp ZnearestE).
Notation plus := (Bplus (prec := prec) (emax := emax) mode_NE).
Notation u := (bpow radix2 (- prec)).
Notation valid := (fun v : element => negb (is_nan v)).

Lemma added_perm (l m : list element) v : Permutation l m -> added l v -> added m v.
Proof. intros PL H. unfold added. rewrite <- (magnitude_perm _ _ PL), <- (total_perm _ _ PL), <- (Permutation_length PL). exact H. Qed.
Lemma added_whole_perm e (l m : list element) v : Permutation l m -> added_whole e l v -> added_whole e m v.
Proof.
  intros PL H. unfold added_whole. rewrite <- (magnitude_perm _ _ PL), <- (total_perm _ _ PL). intros HI. apply H. intros y Hy. apply HI. eapply Permutation_in; eassumption.
Qed.
Lemma zone_values_finite a (fz : list Z -> Z) (fv : list Z -> element) z : (forall c, in_shape a c -> is_nan (fv c) = false -> is_finite (fv c) = true) ->
  Forall (fun v => is_finite v = true) (zone_values valid a fz fv z).
Proof.
  intros HF. apply Forall_forall. intros v Hv. apply in_map_iff in Hv. destruct Hv as [c [<- Hc]]. apply filter_In in Hc. destruct Hc as [Hc O].
  apply all_cells_spec in Hc. apply HF; [exact Hc|]. apply andb_prop in O. destruct O as [_ O]. now apply negb_true_iff.
Qed.

Notation zsum := (float_zonal_sum prec emax Hprec Hemax).
Notation zmean := (float_zonal_mean prec emax Hprec Hemax).

(** [P] is [added] or [added_whole] *)
Lemma zsum_ok (P : list element -> element -> Prop) :
  (forall v, is_finite v = true -> P [v] v) -> (forall l m v w, l <> [] -> m <> [] -> P l v -> P m w -> P (l ++ m) (plus v w)) ->
  (forall l m v, Permutation l m -> P l v -> P m v) ->
  forall iter zone_no_data junk a p values zones fv fz, (forall m, Permutation (iter m) m) -> raster_of a p values fv -> raster_of a p zones fz ->
  (forall c, in_shape a c -> is_nan (fv c) = false -> is_finite (fv c) = true) ->
  exists out g, zsum iter zone_no_data junk values zones = Ok out /\ raster_of a p out g /\
    forall c, in_shape a c -> let l := zone_values valid a fz fv (fz c) in
      (zone_no_data (fz c) = false -> l <> [] -> P l (g c)) /\ (zone_no_data (fz c) = true \/ l = [] -> g c = B754_nan).
Proof.
  intros PO PA PP iter zone_no_data junk a p values zones fv fz Hiter Hv Hz HF.
  pose (P' := fun l v => Forall (fun v : element => is_finite v = true) l -> P l v).
  destruct (zonal_ok iter (float_sum_aggregator prec emax Hprec Hemax) Hiter P' (fun _ => true)) with (no_data1 := @is_nan prec emax) (no_data2 := zone_no_data) (nd := @B754_nan prec emax)
    (junk := junk) (a := a) (p := p) (values := values) (zones := zones) (fv := fv) (fz := fz) as [out [g [E [Ro H]]]].
  - intros v _ F. inversion F; subst. now apply PO.
  - intros l s v N HP _ F. apply Forall_app in F. destruct F as [F1 F2]. inversion F2; subst. cbn [za_add float_sum_aggregator float_sum_add]. apply PA; [assumption|discriminate|now apply HP|now apply PO].
  - intros l s _ HP. exact HP.
  - intros l s l' s' N N' HP HP' F. apply Forall_app in F. destruct F as [F1 F2]. cbn [za_merge float_sum_aggregator float_sum_add]. apply PA; auto.
  - intros l l' s PL HP F. apply (PP l); [exact PL|]. apply HP. eapply Permutation_Forall; [symmetry; exact PL|exact F].
  - reflexivity.
  - exact Hv.
  - exact Hz.
  - exists out, g. split; [exact E|]. split; [exact Ro|]. intros c Hc. destruct (H c Hc) as [H1 H2]. split; [|exact H2].
    intros E1 N. destruct (H1 E1 N) as [s [HP Es]]. cbn [za_result float_sum_aggregator] in Es. rewrite Es. apply HP. now apply zone_values_finite.
Qed.
Lemma zmean_ok (P : list element -> element -> Prop) :
  (forall v, is_finite v = true -> P [v] v) -> (forall l m v w, l <> [] -> m <> [] -> P l v -> P m w -> P (l ++ m) (plus v w)) ->
  (forall l m v, Permutation l m -> P l v -> P m v) ->
  forall iter zone_no_data junk a p values zones fv fz, (forall m, Permutation (iter m) m) -> raster_of a p values fv -> raster_of a p zones fz ->
  (forall c, in_shape a c -> is_nan (fv c) = false -> is_finite (fv c) = true) ->
  exists out g, zmean iter zone_no_data junk values zones = Ok out /\ raster_of a p out g /\
    forall c, in_shape a c -> let l := zone_values valid a fz fv (fz c) in
      (zone_no_data (fz c) = false -> l <> [] -> exists s, P l s /\ g c = float_divide_count prec emax Hprec Hemax s (Z.of_nat (length l))) /\
      (zone_no_data (fz c) = true \/ l = [] -> g c = B754_nan).
Proof.
  intros PO PA PP iter zone_no_data junk a p values zones fv fz Hiter Hv Hz HF.
  pose (P' := fun l (s : element * Z) => snd s = Z.of_nat (length l) /\ (Forall (fun v : element => is_finite v = true) l -> P l (fst s))).
  destruct (zonal_ok iter (float_mean_aggregator prec emax Hprec Hemax) Hiter P' (fun _ => true)) with (no_data1 := @is_nan prec emax) (no_data2 := zone_no_data) (nd := @B754_nan prec emax)
    (junk := junk) (a := a) (p := p) (values := values) (zones := zones) (fv := fv) (fz := fz) as [out [g [E [Ro H]]]].
  - intros v _. split; [reflexivity|]. intros F. inversion F; subst. now apply PO.
  - intros l [s n] v N [L HP] _. cbn [fst snd] in L, HP. split; [cbn [za_add float_mean_aggregator zonal_mean_aggregator zonal_mean_merge snd]; rewrite app_length, L; cbn [length]; lia|].
    intros F. apply Forall_app in F. destruct F as [F1 F2]. inversion F2; subst. cbn [za_add float_mean_aggregator zonal_mean_aggregator zonal_mean_merge fst]. apply PA; [assumption|discriminate|now apply HP|now apply PO].
  - intros l s _ HP. exact HP.
  - intros l [s n] l' [s' n'] N N' [L HP] [L' HP']. cbn [fst snd] in L, HP, L', HP'. split; [cbn [za_merge float_mean_aggregator zonal_mean_aggregator zonal_mean_merge snd]; rewrite app_length, L, L'; lia|].
    intros F. apply Forall_app in F. destruct F as [F1 F2]. cbn [za_merge float_mean_aggregator zonal_mean_aggregator zonal_mean_merge fst]. apply PA; auto.
  - intros l l' s PL [L HP]. split; [rewrite L; now rewrite (Permutation_length PL)|]. intros F. apply (PP l); [exact PL|]. apply HP. eapply Permutation_Forall; [symmetry; exact PL|exact F].
  - reflexivity.
  - exact Hv.
  - exact Hz.
  - exists out, g. split; [exact E|]. split; [exact Ro|]. intros c Hc. destruct (H c Hc) as [H1 H2]. split; [|exact H2].
    intros E1 N. destruct (H1 E1 N) as [[s n] [[L HP] Es]]. cbn [fst snd] in L, HP. subst n. exists s. split; [apply HP; now apply zone_values_finite|exact Es].
Qed.

Lemma count_exact (n : Z) : (1 <= n <= 2 ^ prec)%Z -> let b := binary_normalize prec emax Hprec Hemax mode_NE n 0 false in is_finite b = true /\ B2R b = IZR n.
Proof.
  intros Hn b. pose proof (Hprec : (0 < prec)%Z) as HP0. pose proof (Hemax : (prec < emax)%Z) as HE0.
  pose proof (binary_normalize_correct prec emax Hprec Hemax mode_NE n 0 false) as C. fold b in C. cbn [round_mode] in C.
  change (round radix2 (SpecFloat.fexp prec emax)) with (round radix2 fexp) in C.
  assert (EF : F2R (beta := radix2) {| Fnum := n; Fexp := 0 |} = IZR n) by (unfold F2R; cbn [Fnum Fexp bpow]; lra). rewrite EF in C.
  assert (G : generic_format radix2 fexp (IZR n)).
  { replace (IZR n) with (IZR n * bpow radix2 0) by (cbn [bpow]; lra). apply (whole_format (prec := prec) (emax := emax)); lia. }
  rewrite (round_generic radix2 fexp ZnearestE _ G) in C. rewrite Rlt_bool_true in C; [destruct C as [C1 [C2 _]]; auto|].
  rewrite Rabs_pos_eq by (apply IZR_le; lia). eapply Rle_lt_trans; [apply IZR_le, Hn|]. rewrite (IZR_Zpower radix2) by lia. apply bpow_lt. lia.
Qed.
Lemma divide_count (s : element) (n : Z) : is_finite s = true -> (1 <= n <= 2 ^ prec)%Z ->
  let m := float_divide_count prec emax Hprec Hemax s n in is_finite m = true /\ B2R m = rd (B2R s / IZR n).
Proof.
  intros Fs Hn m. destruct (count_exact n Hn) as [Fb Eb]. unfold m, float_divide_count. set (b := binary_normalize prec emax Hprec Hemax mode_NE n 0 false) in *.
  assert (I1 : 1 <= IZR n) by (apply IZR_le; lia).
  pose proof (Bdiv_correct prec emax Hprec Hemax mode_NE s b ltac:(rewrite Eb; lra)) as C. cbn [round_mode] in C. change (round radix2 (SpecFloat.fexp prec emax)) with (round radix2 fexp) in C. rewrite Eb in C.
  rewrite Rlt_bool_true in C; [destruct C as [C1 [C2 _]]; rewrite C2; auto|].
  eapply Rle_lt_trans with (Rabs (B2R s)); [|apply abs_B2R_lt_emax]. apply abs_round_le_generic; [typeclasses eauto|typeclasses eauto|apply generic_format_abs, generic_format_B2R|].
  unfold Rdiv. rewrite Rabs_mult. rewrite (Rabs_pos_eq (/ IZR n)) by (apply Rlt_le, Rinv_0_lt_compat; lra). pose proof (Rabs_pos (B2R s)).
  assert (/ IZR n <= 1) by (rewrite <- Rinv_1; apply Rinv_le; lra). nra.
Qed.
Lemma round_error x : Rabs (rd x - x) <= u * Rabs x + bpow radix2 (2 - emax - prec).
Proof.
  pose proof (Hprec : (0 < prec)%Z) as HP0. pose proof (Hemax : (prec < emax)%Z) as HE0.
  destruct (error_N_FLT radix2 (3 - emax - prec) prec Hprec (fun x => negb (Z.even x)) x) as [eps [eta [H1 [H2 [_ E]]]]].
  change (Znearest (fun x => negb (Z.even x))) with ZnearestE in E. rewrite E. replace (x * (1 + eps) + eta - x) with (x * eps + eta) by ring.
  eapply Rle_trans; [apply Rabs_triang|]. rewrite Rabs_mult.
  replace (bpow radix2 (2 - emax - prec)) with (/ 2 * bpow radix2 (3 - emax - prec)).
  2:{ replace (3 - emax - prec)%Z with ((2 - emax - prec) + 1)%Z by ring. rewrite bpow_plus. change (bpow radix2 1) with 2. field. }
  replace u with (/ 2 * bpow radix2 (- prec + 1)).
  2:{ rewrite bpow_plus. change (bpow radix2 1) with 2. field. }
  pose proof (Rabs_pos x). assert (Rabs x * Rabs eps <= (/ 2 * bpow radix2 (- prec + 1)) * Rabs x) by (rewrite Rmult_comm; apply Rmult_le_compat_r; assumption). lra.
Qed.
Lemma mean_error (l : list element) s : l <> [] -> (Z.of_nat (length l) <= 2 ^ prec)%Z -> added l s -> let n := length l in
  magnitude l * (1 + u) ^ (n - 1) < bpow radix2 emax -> let m := float_divide_count prec emax Hprec Hemax s (Z.of_nat n) in
  is_finite m = true /\ Rabs (B2R m - total l / INR n) <= ((1 + u) ^ n - 1) * magnitude l / INR n + bpow radix2 (2 - emax - prec).
Proof.
  intros N Hn A n HM m. destruct (A HM) as [Fs Es]. clear A HM. fold n in Es. assert (N0 : (1 <= n)%nat) by (unfold n; destruct l; [congruence|cbn; lia]).
  destruct (divide_count s (Z.of_nat n) Fs ltac:(unfold n in *; lia)) as [Fm Em]. fold m in Fm, Em. split; [exact Fm|]. rewrite Em, <- INR_IZR_INZ. clear Em Fm.
  pose proof (round_error (B2R s / INR n)) as RE. set (x := B2R s / INR n) in *. set (eta := bpow radix2 (2 - emax - prec)) in *.
  assert (I1 : 1 <= INR n) by (apply (le_INR 1); exact N0).
  pose proof (magnitude_ge0 l) as M0. pose proof (total_le_magnitude l) as TM. pose proof (u_pos (prec := prec)) as U.
  assert (EP : (1 + u) ^ n = (1 + u) * (1 + u) ^ (n - 1)) by (replace n with (S (n - 1)) at 1 by lia; reflexivity). rewrite EP. clear EP. set (G := (1 + u) ^ (n - 1)) in *. set (M := magnitude l) in *. set (T := total l) in *.
  assert (IV : 0 < / INR n) by (apply Rinv_0_lt_compat; lra).
  assert (BS : Rabs (B2R s) <= G * M). { replace (B2R s) with ((B2R s - T) + T) by ring. eapply Rle_trans; [apply Rabs_triang|]. lra. }
  assert (BX : Rabs x <= G * M * / INR n). { unfold x, Rdiv. rewrite Rabs_mult, (Rabs_pos_eq (/ INR n)) by lra. apply Rmult_le_compat_r; lra. }
  assert (BD : Rabs (x - T / INR n) <= (G - 1) * M * / INR n). { unfold x, Rdiv. rewrite <- Rmult_minus_distr_r, Rabs_mult, (Rabs_pos_eq (/ INR n)) by lra. apply Rmult_le_compat_r; lra. }
  replace (rd x - T / INR n) with ((rd x - x) + (x - T / INR n)) by ring. eapply Rle_trans; [apply Rabs_triang|].
  assert (u * Rabs x <= u * (G * M * / INR n)) by (apply Rmult_le_compat_l; lra). unfold Rdiv in *.
  replace (((1 + u) * G - 1) * M * / INR n) with (u * (G * M * / INR n) + (G - 1) * M * / INR n) by ring. lra.
Qed.
End ZonalFloat.
