From Coq Require Import QArith Qcanon.
From Verif Require Import Common CommonProofs GdalModel GdalSpec GdalProofs TranslateModel TranslateSpec TranslateProofs.
Open Scope Z_scope.

Lemma qz_pos : forall n, 0 < n -> Qclt (Q2Qc 0) (qz n).
Proof.
  intros n N. unfold Qclt, qz, Q2Qc. cbn [this]. rewrite !Qred_correct. unfold Qlt, inject_Z. cbn. lia.
Qed.

Lemma qabs_nonneg : forall q, Qcle (Q2Qc 0) (qabs q).
Proof.
  intros q. unfold qabs. destruct (Qclt_le_dec q (Q2Qc 0)) as [l|l]; [|exact l].
  apply Qclt_le_weak in l. apply Qcopp_le_compat in l. replace (Q2Qc 0) with (- Q2Qc 0)%Qc by reflexivity. exact l.
Qed.

Lemma qabs_neg : forall q, Qcle q (Q2Qc 0) -> qabs q = Qcopp q.
Proof.
  intros q H. unfold qabs. destruct (Qclt_le_dec q (Q2Qc 0)) as [l|l]; [reflexivity|].
  assert (q = Q2Qc 0) by (apply Qcle_antisym; assumption). subst. reflexivity.
Qed.

Lemma nonneg_mult : forall a b, Qcle (Q2Qc 0) a -> Qcle (Q2Qc 0) b -> Qcle (Q2Qc 0) (a * b)%Qc.
Proof.
  intros a b A B. replace (Q2Qc 0) with (Q2Qc 0 * b)%Qc by (apply Qcmult_0_l). apply Qcmult_le_compat_r; assumption.
Qed.

Lemma geo_round_trip : forall shape g, 0 < fst shape -> 0 < snd shape -> Qcle (Q2Qc 0) (g_cell_width g) ->
  obind (box_of_geo shape g) (geo_of_box shape) =
  Ok {| g_west := g_west g; g_cell_width := g_cell_width g; g_row_rotation := Q2Qc 0;
        g_north := g_north g; g_col_rotation := Q2Qc 0; g_cell_height := Qcopp (qabs (g_cell_height g)) |}.
Proof.
  intros [nr nc] g R C W. cbn [fst snd] in *.
  pose proof (qz_pos nr R) as QR. pose proof (qz_pos nc C) as QC.
  unfold box_of_geo. cbn [fst snd].
  set (east := (g_west g + qz nc * g_cell_width g)%Qc). set (south := (g_north g - qz nr * qabs (g_cell_height g))%Qc).
  assert (X1 : (if Qclt_le_dec east (g_west g) then false else true) = true).
  { destruct (Qclt_le_dec east (g_west g)) as [l|l]; [|reflexivity]. exfalso. revert l. apply Qcle_not_lt.
    unfold east. rewrite <- (Qcplus_0_r (g_west g)) at 1. apply Qcplus_le_compat; [apply Qcle_refl|].
    apply nonneg_mult; [apply Qclt_le_weak; exact QC | exact W]. }
  assert (X2 : (if Qclt_le_dec (g_north g) south then false else true) = true).
  { destruct (Qclt_le_dec (g_north g) south) as [l|l]; [|reflexivity]. exfalso. revert l. apply Qcle_not_lt.
    unfold south. rewrite <- (Qcplus_0_r (g_north g)) at 2. unfold Qcminus. apply Qcplus_le_compat; [apply Qcle_refl|].
    replace (Q2Qc 0) with (- Q2Qc 0)%Qc by reflexivity. apply Qcopp_le_compat.
    apply nonneg_mult; [apply Qclt_le_weak; exact QR | apply qabs_nonneg]. }
  assert (G : (nr >? 0) && (nc >? 0) = true) by lia.
  rewrite X1, X2. cbn [andb]. replace (nr >? 0) with true by lia. replace (nc >? 0) with true by lia. cbn [andb obind].
  unfold geo_of_box. cbn [fst snd x_west x_east x_south x_north]. rewrite X1, X2. cbn [andb].
  replace (nr >? 0) with true by lia. replace (nc >? 0) with true by lia. cbn [andb].
  assert (NR : qz nr <> Q2Qc 0) by (intros H; rewrite H in QR; exact (Qclt_not_eq _ _ QR eq_refl)).
  assert (NC : qz nc <> Q2Qc 0) by (intros H; rewrite H in QC; exact (Qclt_not_eq _ _ QC eq_refl)).
  f_equal. f_equal.
  - unfold east. field. exact NC.
  - unfold south. field. exact NR.
Qed.
