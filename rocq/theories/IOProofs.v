From Coq Require Import Permutation.
From Verif Require Import Common CommonProofs CoreSpec DecompSpec ArraySpec IndexModel IndexProofs DecompModel DecompProofs ArrayModel ArrayRep ArrayProofs
  LocalProofs AggregateProofs GridRaster IOModel IOSpec.

(** ** Writing values at distinct positions *)
Definition scatter {V} (l : list (Z * V)) (acc : outcome (list V)) : outcome (list V) :=
  fold_left (fun acc '(i, v) => obind acc (fun cells => match upd_z i v cells with Some cells' => Ok cells' | None => UB end)) l acc.

Lemma scatter_ok {V} (l : list (Z * V)) : forall cells, NoDup (map fst l) -> (forall i v, In (i, v) l -> 0 <= i < Z.of_nat (length cells)) ->
  exists cells', scatter l (Ok cells) = Ok cells' /\ length cells' = length cells /\
    (forall i v, In (i, v) l -> nth_error cells' (Z.to_nat i) = Some v) /\
    (forall j, ~ In (Z.of_nat j) (map fst l) -> nth_error cells' j = nth_error cells j).
Proof.
  induction l as [|[i v] l IH]; intros cells N R.
  - exists cells. cbn. repeat split; auto. intros i v [].
  - cbn [map fst] in N. inversion N as [|? ? N1 N2]; subst. assert (Hi := R i v (or_introl eq_refl)).
    destruct (upd_nth_Some (Z.to_nat i) v cells) as [c1 E1]; [lia|]. pose proof (upd_nth_length _ _ _ _ E1) as L1.
    destruct (IH c1 N2) as [c2 [E2 [L2 [A2 B2]]]].
    { intros j w Hin. rewrite L1. apply (R j w). now right. }
    exists c2. unfold scatter in *. cbn [fold_left obind]. rewrite upd_z_nonneg by lia. rewrite E1. split; [assumption|]. split; [congruence|]. split.
    + intros j w [E|Hin]; [|auto]. injection E as -> ->. rewrite B2.
      * apply (upd_nth_same _ _ _ _ E1).
      * rewrite Z2Nat.id by lia. assumption.
    + intros j Hj. cbn [map fst] in Hj. rewrite B2 by (intros Hin; apply Hj; now right). apply (upd_nth_other _ _ _ _ _ E1). intros <-. apply Hj. left. lia.
Qed.

(** ** Vectors *)
Lemma vadd_map2 a b : map2 Z.add a b = vadd a b.
Proof. revert b. induction a as [|x a IH]; intros [|y b]; cbn; try reflexivity. now rewrite IH. Qed.

Lemma vadd_inj s : forall x y, length x = length s -> length y = length s -> vadd s x = vadd s y -> x = y.
Proof.
  induction s as [|z s IH]; intros [|i x] [|j y] Hx Hy H; cbn in *; try discriminate; try reflexivity.
  injection H as H1 H2. f_equal; [lia|]. apply IH; congruence.
Qed.

Lemma box_within_vadd s c n x : box_within s c n -> in_shape c x -> in_shape n (vadd s x).
Proof.
  revert c n x. induction s as [|z s IH]; intros [|e c] [|m n] [|i x] H Hx; cbn in *; try tauto. split; [lia|]. apply (IH c); tauto.
Qed.

Lemma box_within_length s c n : box_within s c n -> length s = length c /\ length n = length c.
Proof. revert c n. induction s as [|z s IH]; intros [|e c] [|m n] H; cbn in *; try tauto. destruct (IH c n) as [A B]; [tauto|]. lia. Qed.

Lemma box_selectable s c n : pos_shape c -> box_within s c n -> selectable s c n = true.
Proof.
  revert c n. induction s as [|z s IH]; intros [|e c] [|m n] P H; cbn in *; try tauto. inversion P; subst.
  rewrite IH by tauto. repeat rewrite (proj2 (Z.leb_le _ _)) by lia. reflexivity.
Qed.
Lemma selectable_box s c n : selectable s c n = true -> box_within s c n.
Proof.
  revert c n. induction s as [|z s IH]; intros [|e c] [|m n] H; cbn in *; try discriminate; [tauto|].
  rewrite !Bool.andb_true_iff, !Z.leb_le in H. specialize (IH c n). tauto.
Qed.

Lemma vadd_length s x : length x = length s -> length (vadd s x) = length s.
Proof. revert x. induction s as [|z s IH]; intros [|i x] H; cbn in *; try discriminate; [reflexivity|]. now rewrite IH by congruence. Qed.

Lemma file_position_ok s c n k : pos_shape c -> box_within s c n -> 0 <= k < volume c ->
  exists x, in_shape c x /\ rowmaj c x = k /\ linear_idx_to_idxs k c = x /\ file_position (hyperslab_of s c) n k = rowmaj n (vadd s x).
Proof.
  intros P B Hk. pose proof (box_within_length _ _ _ B) as [L1 L2]. rewrite volume_prodZ in Hk. exists (linear_idx_to_idxs k c).
  pose proof (linear_to_idxs_in_shape k c P (proj1 Hk)) as Hs. split; [assumption|]. split.
  - rewrite rowmaj_linear' by assumption. now apply linear_roundtrip.
  - split; [reflexivity|]. unfold file_position, hyperslab_of. cbn [hs_start hs_count]. rewrite vadd_map2. symmetry. apply rowmaj_linear.
    rewrite vadd_length; [congruence|]. rewrite <- (in_shape_length _ _ Hs). congruence.
Qed.

(** ** Reading and writing a box of a file *)
Section Slabs.
Context {E : Type}.

Lemma fold_scatter (buffer : list E) pos (g : Z -> E) ks : (forall k, In k ks -> at_z buffer k = Ok (g k)) -> forall acc,
  fold_left (fun acc k => obind acc (fun cells => obind (at_z buffer k) (fun v => match upd_z (pos k) v cells with Some cells' => Ok cells' | None => UB end))) ks acc =
  scatter (map (fun k => (pos k, g k)) ks) acc.
Proof.
  intros H. induction ks as [|k ks IH]; intros acc; [reflexivity|]. unfold scatter in *. cbn [fold_left map]. rewrite IH.
  - do 1 f_equal. destruct acc as [cells| |]; cbn [obind]; try reflexivity. rewrite (H k) by now left. reflexivity.
  - intros k' Hk. apply H. now right.
Qed.

Lemma write_box s c n (buffer : list E) g d F : c <> [] -> pos_shape c -> box_within s c n -> block_holds c buffer g -> file_holds d n F ->
  exists d' F', write_hyperslab (hyperslab_of s c) buffer d = Ok d' /\ file_holds d' n F' /\
    (forall x, in_shape c x -> F' (vadd s x) = g x) /\
    (forall y, in_shape n y -> (forall x, in_shape c x -> y <> vadd s x) -> F' y = F y).
Proof.
  intros Hne P B Hb [Ed Hd]. pose proof (box_within_length _ _ _ B) as [L1 L2]. unfold write_hyperslab. cbn [hyperslab_of hs_start hs_count]. fold (hyperslab_of s c).
  rewrite Ed, box_selectable by assumption. rewrite nr_elements_volume by assumption.
  rewrite (fold_scatter buffer _ (fun k => g (linear_idx_to_idxs k c))).
  2: { intros k Hk. apply in_zseq in Hk. destruct (file_position_ok s c n k P B) as [x [Hx [Ek [Ex _]]]]; [lia|]. rewrite Ex, <- Ek. now apply block_at. }
  destruct Hd as [Hl Hd].
  destruct (scatter_ok (map (fun k => (file_position (hyperslab_of s c) n k, g (linear_idx_to_idxs k c))) (zseq 0 (volume c))) (ds_cells d)) as [cells [E1 [L3 [A3 B3]]]].
  - rewrite map_map. cbn [fst]. apply NoDup_map_in; [|apply zseq_NoDup].
    intros k k' Hk Hk' HE. apply in_zseq in Hk, Hk'.
    destruct (file_position_ok s c n k P B) as [x [Hx [Ek [Ex Ep]]]]; [lia|]. destruct (file_position_ok s c n k' P B) as [x' [Hx' [Ek' [Ex' Ep']]]]; [lia|].
    rewrite Ep, Ep' in HE. apply rowmaj_inj in HE; [|eapply box_within_vadd; eassumption|eapply box_within_vadd; eassumption].
    apply vadd_inj in HE; [congruence| |].
    + rewrite <- (in_shape_length _ _ Hx). congruence.
    + rewrite <- (in_shape_length _ _ Hx'). congruence.
  - intros i v Hin. apply in_map_iff in Hin. destruct Hin as [k [E1 Hk]]. apply (f_equal fst) in E1. cbn [fst] in E1. subst i. apply in_zseq in Hk.
    destruct (file_position_ok s c n k P B) as [x [Hx [Ek [Ex Ep]]]]; [lia|]. rewrite Ep, Hl. apply rowmaj_range. eapply box_within_vadd; eassumption.
  - rewrite E1. cbn [obind]. exists (Dataset n cells), (fun y => nth (Z.to_nat (rowmaj n y)) cells (F y)). split; [reflexivity|].
    split; [|split].
    + split; [reflexivity|]. cbn [ds_cells]. split; [lia|]. intros y Hy. apply nth_error_nth'. pose proof (rowmaj_range _ _ Hy). lia.
    + intros x Hx. apply nth_error_nth. assert (Hr := rowmaj_range _ _ Hx). destruct (file_position_ok s c n (rowmaj c x) P B Hr) as [x' [Hx' [Ek [Ex Ep]]]].
      apply rowmaj_inj in Ek; [|assumption|assumption]. rewrite Ek in *. apply A3. apply in_map_iff. exists (rowmaj c x). split; [|apply in_zseq; lia]. now rewrite Ep, Ex.
    + intros y Hy Hn. apply nth_error_nth. rewrite B3.
      * apply Hd. assumption.
      * rewrite map_map. cbn [fst]. intros Hin. apply in_map_iff in Hin. destruct Hin as [k [HE Hk]]. apply in_zseq in Hk.
        destruct (file_position_ok s c n k P B) as [x [Hx [Ek [Ex Ep]]]]; [lia|]. rewrite Ep in HE. pose proof (rowmaj_range _ _ Hy). rewrite Z2Nat.id in HE by lia.
        apply rowmaj_inj in HE; [|eapply box_within_vadd; eassumption|assumption]. apply (Hn x Hx). congruence.
Qed.

Lemma read_box s c n d (F : list Z -> E) buffer : c <> [] -> pos_shape c -> box_within s c n -> file_holds d n F -> Z.of_nat (length buffer) = volume c ->
  exists data, read_hyperslab (hyperslab_of s c) d buffer = Ok data /\ block_holds c data (fun x => F (vadd s x)).
Proof.
  intros Hne P B [Ed Hd] Hl. unfold read_hyperslab. cbn [hyperslab_of hs_start hs_count]. fold (hyperslab_of s c). rewrite Ed, box_selectable by assumption.
  rewrite nr_elements_volume by assumption. pose proof (volume_pos c P) as Hv.
  destruct (for_elements_upto (fun k _ => at_z (ds_cells d) (file_position (hyperslab_of s c) n k)) (fun k => F (vadd s (linear_idx_to_idxs k c))) buffer (volume c)) with (k := Z.to_nat (volume c)) as [out [E1 [L1 H1]]].
  - intros k _ Hk. destruct (file_position_ok s c n k P B Hk) as [x [Hx [Ek [Ex Ep]]]]. rewrite Ep, Ex. apply (block_at n); [assumption|]. eapply box_within_vadd; eassumption.
  - assumption.
  - lia.
  - rewrite Z2Nat.id in E1 by lia. exists out. split; [assumption|]. split; [lia|]. intros x Hx. assert (Hr := rowmaj_range _ _ Hx).
    destruct (file_position_ok s c n (rowmaj c x) P B Hr) as [x' [Hx' [Ek [Ex Ep]]]]. apply rowmaj_inj in Ek; [|assumption|assumption]. subst x'.
    destruct H1 as [H1 _]. rewrite H1 by lia. rewrite Z2Nat.id by lia. now rewrite Ex.
Qed.
End Slabs.
