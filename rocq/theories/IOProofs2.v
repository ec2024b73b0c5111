From Coq Require Import Permutation.
From Verif Require Import Common CommonProofs CoreSpec DecompSpec ArraySpec IndexModel IndexProofs DecompModel DecompProofs ArrayModel ArrayRep ArrayProofs
  LocalProofs AggregateProofs GridRaster IOModel IOSpec IOProofs.

Lemma box_or_not s c : forall y, length s = length c -> (exists x, in_shape c x /\ y = vadd s x) \/ (forall x, in_shape c x -> y <> vadd s x).
Proof.
  revert c. induction s as [|z s IH]; intros [|e c] y H; cbn in H; try discriminate.
  - destruct y as [|v y]; [left; exists []; cbn; auto|]. right. intros [|? ?] Hx; cbn in *; [discriminate|tauto].
  - destruct y as [|v y]; [right; intros [|? ?] Hx; cbn in *; [tauto|discriminate]|].
    destruct (IH c y) as [[x [Hx E]]|Hn]; [congruence| |].
    + destruct (Z_le_dec z v) as [L|L]; [destruct (Z_lt_dec v (z + e)) as [L'|L']|].
      * left. exists (v - z :: x). cbn. split; [split; [lia|assumption]|]. f_equal; [lia|assumption].
      * right. intros [|i x'] Hx' E'; cbn in *; [tauto|]. injection E' as E1 E2. lia.
      * right. intros [|i x'] Hx' E'; cbn in *; [tauto|]. injection E' as E1 E2. lia.
    + right. intros [|i x'] Hx' E'; cbn in *; [tauto|]. injection E' as E1 E2. apply (Hn x'); tauto.
Qed.

Lemma vadd_origin a x : length x = length a -> vadd (origin a) x = x.
Proof. revert x. induction a as [|e a IH]; intros [|i x] H; cbn in *; try discriminate; [reflexivity|]. now rewrite IH by congruence. Qed.

Lemma vadd_assoc s : forall o x, length o = length s -> length x = length s -> vadd (vadd s o) x = vadd s (vadd o x).
Proof. induction s as [|z s IH]; intros [|j o] [|i x] Ho Hx; cbn in *; try discriminate; [reflexivity|]. f_equal; [lia|]. apply IH; congruence. Qed.

Lemma box_within_add s a n o c : box_within s a n -> box_within o c a -> box_within (vadd s o) c n.
Proof.
  revert a n o c. induction s as [|z s IH]; intros [|e a] [|m n] [|j o] [|k c] H1 H2; cbn in *; try tauto. split; [lia|]. split; [lia|]. apply (IH a); tauto.
Qed.

Lemma part_box a p c : partition_fits a p -> in_shape (parts_shape a p) c -> box_within (part_offset p c) (part_extent a p c) a.
Proof.
  intros H. revert c. induction H as [|x y a p Hxy H IH]; intros [|i c] Hc; cbn in *; try tauto. destruct Hc as [Hi Hc].
  split; [nia|]. split; [|auto]. destruct (Z.eqb_spec i (x / y - 1)) as [E|E]; [lia|].
  pose proof (Z.mul_div_le x y (proj1 Hxy)). nia.
Qed.

Lemma room_add ts s a n o c : room_for ts s a n -> box_within o c a -> room_for ts (vadd s o) c n.
Proof.
  destruct ts as [t|]; cbn; intros H B; [|eapply box_within_add; eassumption].
  destruct H as [n0 [n1 [n' [-> [H0 [H1 H2]]]]]]. exists n0, n1, n'. repeat (split; [tauto||assumption|]). eapply box_within_add; eassumption.
Qed.

Lemma room_length ts s a n : room_for ts s a n -> length s = length a.
Proof.
  destruct ts as [t|]; cbn; intros H; [|apply (box_within_length _ _ _ H)]. destruct H as [n0 [n1 [n' [_ [_ [_ H]]]]]]. apply (box_within_length _ _ _ H).
Qed.

Lemma room_cell ts s a n x : room_for ts s a n -> in_shape a x -> in_shape n (stored_at ts (vadd s x)).
Proof.
  destruct ts as [t|]; cbn; intros H Hx; [|eapply box_within_vadd; eassumption].
  destruct H as [n0 [n1 [n' [-> [H0 [H1 H2]]]]]]. cbn. split; [lia|]. split; [lia|]. eapply box_within_vadd; eassumption.
Qed.

Lemma stored_at_inj ts x y : stored_at ts x = stored_at ts y -> x = y.
Proof. destruct ts; cbn; congruence. Qed.

Section Partitions.
Context {E : Type}.

Definition slab_start (ts : option Z) (o : list Z) : list Z := match ts with None => o | Some t => 0 :: t :: o end.
Definition slab_count (ts : option Z) (c : list Z) : list Z := match ts with None => c | Some t => 1 :: 1 :: c end.
Definition slab_cell (ts : option Z) (x : list Z) : list Z := match ts with None => x | Some t => skipn 2 x end.

Lemma slab_within ts o c n : room_for ts o c n -> box_within (slab_start ts o) (slab_count ts c) n.
Proof.
  destruct ts as [t|]; cbn; [|auto]. intros [n0 [n1 [n' [-> [H0 [H1 H2]]]]]]. cbn. repeat split; try lia. assumption.
Qed.

Lemma slab_shape ts c x : in_shape (slab_count ts c) x -> in_shape c (slab_cell ts x) /\ (forall o, vadd (slab_start ts o) x = stored_at ts (vadd o (slab_cell ts x))).
Proof.
  destruct ts as [t|]; cbn; [|auto]. destruct x as [|i [|j x]]; cbn; try tauto. intros [Hi [Hj Hx]]. split; [assumption|]. intros o. f_equal; [lia|]. f_equal; lia.
Qed.
Lemma slab_shape' ts c x : in_shape c x -> exists z, in_shape (slab_count ts c) z /\ slab_cell ts z = x.
Proof. destruct ts as [t|]; cbn; intros H; [|eauto]. exists (0 :: 0 :: x). cbn. repeat split; try lia. assumption. Qed.

Lemma slab_rowmaj ts c x : in_shape (slab_count ts c) x -> rowmaj (slab_count ts c) x = rowmaj c (slab_cell ts x).
Proof. destruct ts as [t|]; cbn; [|auto]. destruct x as [|i [|j x]]; cbn; try tauto. intros [Hi [Hj Hx]]. assert (i = 0) by lia. assert (j = 0) by lia. subst. lia. Qed.
Lemma slab_volume ts c : volume (slab_count ts c) = volume c.
Proof. destruct ts as [t|]; cbn [slab_count volume]; lia. Qed.
Lemma slab_pos ts c : pos_shape c -> pos_shape (slab_count ts c).
Proof. destruct ts as [t|]; cbn; [|auto]. intros H. repeat constructor; try lia. assumption. Qed.
Lemma slab_ne ts c : c <> [] -> slab_count ts c <> [].
Proof. destruct ts as [t|]; cbn; [discriminate|auto]. Qed.

Lemma slab_block ts c (data : list E) g : block_holds c data g -> block_holds (slab_count ts c) data (fun x => g (slab_cell ts x)).
Proof.
  intros [Hl H]. split; [now rewrite slab_volume|]. intros x Hx. rewrite slab_rowmaj by assumption. apply H. now apply (slab_shape ts c).
Qed.
Lemma slab_block' ts c (data : list E) g h : block_holds (slab_count ts c) data h -> (forall z, in_shape (slab_count ts c) z -> h z = g (slab_cell ts z)) -> block_holds c data g.
Proof.
  intros [Hl H] Hg. split; [now rewrite <- (slab_volume ts)|]. intros x Hx. destruct (slab_shape' ts c x Hx) as [z [Hz <-]]. rewrite <- (slab_rowmaj ts c z Hz).
  rewrite H by assumption. now rewrite Hg.
Qed.

Lemma partition_hyperslab_ok ts s (q : placed (list E)) : length s = length (pl_offset q) ->
  partition_hyperslab ts s q = Ok (hyperslab_of (slab_start ts (vadd s (pl_offset q))) (slab_count ts (pl_shape q))).
Proof. intros H. unfold partition_hyperslab. rewrite (proj2 (Nat.eqb_eq _ _)) by assumption. rewrite vadd_map2. now destruct ts. Qed.

Lemma write_partition_ok ts s (q : placed (list E)) n g d F : pl_shape q <> [] -> pos_shape (pl_shape q) -> length s = length (pl_offset q) ->
  room_for ts (vadd s (pl_offset q)) (pl_shape q) n -> block_holds (pl_shape q) (pl_data q) g -> file_holds d n F ->
  exists d' F', write_partition ts s d q = Ok d' /\ file_holds d' n F' /\
    (forall x, in_shape (pl_shape q) x -> F' (stored_at ts (vadd (vadd s (pl_offset q)) x)) = g x) /\
    (forall y, in_shape n y -> (forall x, in_shape (pl_shape q) x -> y <> stored_at ts (vadd (vadd s (pl_offset q)) x)) -> F' y = F y).
Proof.
  intros Hne P Hl Hr Hb Hd. unfold write_partition. rewrite partition_hyperslab_ok by assumption. cbn [obind].
  destruct (write_box (slab_start ts (vadd s (pl_offset q))) (slab_count ts (pl_shape q)) n (pl_data q) (fun x => g (slab_cell ts x)) d F) as [d' [F' [E1 [H1 [H2 H3]]]]].
  - now apply slab_ne.
  - now apply slab_pos.
  - now apply slab_within.
  - now apply slab_block.
  - assumption.
  - exists d', F'. split; [assumption|]. split; [assumption|]. split.
    + intros x Hx. destruct (slab_shape' ts _ x Hx) as [z [Hz <-]]. destruct (slab_shape ts _ z Hz) as [_ Hv]. rewrite <- Hv. auto.
    + intros y Hy Hn. apply H3; [assumption|]. intros z Hz. destruct (slab_shape ts _ z Hz) as [Hs Hv]. rewrite Hv. auto.
Qed.

Lemma read_partition_ok ts s (q : placed (list E)) n d F : pl_shape q <> [] -> pos_shape (pl_shape q) -> length s = length (pl_offset q) ->
  room_for ts (vadd s (pl_offset q)) (pl_shape q) n -> Z.of_nat (length (pl_data q)) = volume (pl_shape q) -> file_holds d n F ->
  exists q', read_partition ts s d q = Ok q' /\ pl_locality q' = pl_locality q /\ pl_offset q' = pl_offset q /\ pl_shape q' = pl_shape q /\
    block_holds (pl_shape q) (pl_data q') (fun x => F (stored_at ts (vadd (vadd s (pl_offset q)) x))).
Proof.
  intros Hne P Hl Hr Hb Hd. unfold read_partition. rewrite partition_hyperslab_ok by assumption. cbn [obind].
  destruct (read_box (slab_start ts (vadd s (pl_offset q))) (slab_count ts (pl_shape q)) n d F (pl_data q)) as [data [E1 H1]].
  - now apply slab_ne.
  - now apply slab_pos.
  - now apply slab_within.
  - assumption.
  - now rewrite slab_volume.
  - rewrite E1. cbn [obind]. eexists. split; [reflexivity|]. repeat (split; [reflexivity|]). eapply slab_block'; [exact H1|].
    intros z Hz. cbv beta. destruct (slab_shape ts _ z Hz) as [_ Hv]. now rewrite Hv.
Qed.

(** ** Grouping by locality *)
Lemma add_idx_perm l i (g : list (Z * list Z)) : Permutation (flat_map snd (add_partition_idx l i g)) (i :: flat_map snd g).
Proof.
  induction g as [|[m idxs] g IH]; cbn; [reflexivity|]. destruct (l <? m); [cbn; reflexivity|]. destruct (l =? m); cbn.
  - rewrite <- app_assoc. cbn. apply Permutation_sym, Permutation_middle.
  - rewrite IH. apply Permutation_sym, Permutation_middle.
Qed.

Lemma by_locality_perm (a : parray E) : Permutation (flat_map snd (partition_idxs_by_locality a)) (zseq 0 (Z.of_nat (length (pa_parts a)))).
Proof.
  unfold partition_idxs_by_locality.
  assert (G : forall (l : list (Z * placed (list E))) acc, Permutation (flat_map snd (fold_left (fun acc '(idx, q) => add_partition_idx (pl_locality q) idx acc) l acc)) (map fst l ++ flat_map snd acc)).
  { induction l as [|[i q] l IH]; intros acc; cbn; [reflexivity|]. rewrite IH, add_idx_perm. apply Permutation_sym, Permutation_middle. }
  rewrite G. cbn. rewrite app_nil_r. rewrite map_fst_combine; [reflexivity|]. rewrite zseq_length. lia.
Qed.

Lemma selected_ok (a : parray E) idxs : (forall i, In i idxs -> 0 <= i < Z.of_nat (length (pa_parts a))) ->
  exists l, selected_partitions a idxs = Ok l /\ Forall2 (fun i q => nth_error (pa_parts a) (Z.to_nat i) = Some q) idxs l.
Proof.
  intros H. unfold selected_partitions. induction idxs as [|i idxs IH]; [exists []; cbn; auto|].
  destruct IH as [l [E1 F1]]; [intros j Hj; apply H; now right|]. assert (Hi := H i (or_introl eq_refl)).
  destruct (nth_error (pa_parts a) (Z.to_nat i)) as [q|] eqn:Eq; [|apply nth_error_None in Eq; lia].
  exists (q :: l). cbn [map sequence]. unfold at_z at 1. rewrite nth_z_nonneg by lia. rewrite Eq. cbn [obind]. rewrite E1. cbn [obind]. split; [reflexivity|]. constructor; assumption.
Qed.

Lemma groups_ok (a : parray E) (g : list (Z * list Z)) : (forall i, In i (flat_map snd g) -> 0 <= i < Z.of_nat (length (pa_parts a))) ->
  exists groups, sequence (map (fun '(_, idxs) => selected_partitions a idxs) g) = Ok groups /\
    Forall2 (fun i q => nth_error (pa_parts a) (Z.to_nat i) = Some q) (flat_map snd g) (concat groups).
Proof.
  induction g as [|[m idxs] g IH]; intros H; cbn [map sequence flat_map snd]; [exists []; cbn; auto|].
  cbn [flat_map snd] in H. destruct (selected_ok a idxs) as [l [E1 F1]]; [intros i Hi; apply H; apply in_or_app; now left|].
  destruct IH as [groups [E2 F2]]; [intros i Hi; apply H; apply in_or_app; now right|].
  rewrite E1. cbn [obind]. rewrite E2. cbn [obind]. exists (l :: groups). split; [reflexivity|]. cbn [concat]. now apply Forall2_app.
Qed.

Lemma Forall2_in_r {A B} (R : A -> B -> Prop) l l' y : Forall2 R l l' -> In y l' -> exists x, In x l /\ R x y.
Proof. induction 1 as [|a b l l' Hab H IH]; cbn; [tauto|]. intros [<-|Hin]; [eauto|]. destruct (IH Hin) as [x [? ?]]. eauto. Qed.
Lemma Forall2_in_l {A B} (R : A -> B -> Prop) l l' x : Forall2 R l l' -> In x l -> exists y, In y l' /\ R x y.
Proof. induction 1 as [|a b l l' Hab H IH]; cbn; [tauto|]. intros [<-|Hin]; [eauto|]. destruct (IH Hin) as [y [? ?]]. eauto. Qed.

Lemma groups_all (a : parray E) : exists groups, sequence (map (fun '(_, idxs) => selected_partitions a idxs) (partition_idxs_by_locality a)) = Ok groups /\
  forall q, In q (concat groups) <-> In q (pa_parts a).
Proof.
  pose proof (by_locality_perm a) as P. destruct (groups_ok a (partition_idxs_by_locality a)) as [groups [E1 F1]].
  - intros i Hi. apply (Permutation_in _ P) in Hi. apply in_zseq in Hi. lia.
  - exists groups. split; [assumption|]. intros q. split; intros Hq.
    + destruct (Forall2_in_r _ _ _ _ F1 Hq) as [i [_ Hi]]. eapply nth_error_In; exact Hi.
    + apply In_nth_error in Hq. destruct Hq as [k Hk]. destruct (Forall2_in_l _ _ _ (Z.of_nat k) F1) as [q' [Hq' Eq']].
      * apply (Permutation_in _ (Permutation_sym P)). apply in_zseq. assert ((k < length (pa_parts a))%nat) by (apply nth_error_Some; congruence). lia.
      * rewrite Nat2Z.id in Eq'. congruence.
Qed.

(** What the partitions of a raster look like. *)
Definition part_of (a p : list Z) (f : list Z -> E) (q : placed (list E)) : Prop :=
  exists c, in_shape (parts_shape a p) c /\ pl_offset q = part_offset p c /\ pl_shape q = part_extent a p c /\
    block_holds (part_extent a p c) (pl_data q) (fun x => f (vadd (part_offset p c) x)).

Lemma raster_part_of a p arr f q : raster_of a p arr f -> In q (pa_parts arr) -> part_of a p f q.
Proof.
  intros H Hq. assert (Hf := H). destruct Hf as [_ [Hf _]]. apply In_nth_error in Hq. destruct Hq as [k Hk].
  assert (Hlt : (k < length (pa_parts arr))%nat) by (apply nth_error_Some; congruence). pose proof (raster_length a p arr f H) as HL.
  destruct (rowmaj_surj (parts_shape a p) (Z.of_nat k) (parts_shape_pos a p Hf)) as [c [Hc Ec]]; [unfold nr_parts in HL; lia|].
  destruct (raster_part a p arr f c H Hc) as [q' [Eq [A [B C]]]]. rewrite Ec, Nat2Z.id in Eq. assert (q' = q) by congruence. subst q'. exists c. auto.
Qed.

Lemma write_fold ts a p f n l : a <> [] -> partition_fits a p -> room_for ts (origin a) a n -> (forall q, In q l -> part_of a p f q) -> forall d F, file_holds d n F ->
  exists d' F', fold_left (fun acc q => obind acc (fun d => write_partition ts (origin a) d q)) l (Ok d) = Ok d' /\ file_holds d' n F' /\
    (forall q x, In q l -> in_shape (pl_shape q) x -> F' (stored_at ts (vadd (pl_offset q) x)) = f (vadd (pl_offset q) x)) /\
    (forall x, in_shape a x -> F (stored_at ts x) = f x -> F' (stored_at ts x) = f x) /\
    (forall y, in_shape n y -> (forall x, in_shape a x -> y <> stored_at ts x) -> F' y = F y).
Proof.
  intros Hne Hf Hr. induction l as [|q l IH]; intros Hl d F Hd.
  - exists d, F. cbn. repeat split; auto; try tauto; apply Hd.
  - destruct (Hl q (or_introl eq_refl)) as [c [Hc [Eo [Es Hb]]]].
    assert (Hlo : length (pl_offset q) = length a) by (rewrite Eo; eapply length_part_offset; eassumption).
    assert (Ev : vadd (origin a) (pl_offset q) = pl_offset q) by (now apply vadd_origin).
    assert (Hroom : room_for ts (vadd (origin a) (pl_offset q)) (pl_shape q) n) by (eapply room_add; [exact Hr|]; rewrite Eo, Es; now apply part_box).
    destruct (write_partition_ok ts (origin a) q n (fun x => f (vadd (pl_offset q) x)) d F) as [d1 [F1 [E1 [H1 [A1 B1]]]]].
    + rewrite Es. now apply part_extent_ne.
    + rewrite Es. now apply part_extent_pos.
    + unfold origin. rewrite map_length. congruence.
    + assumption.
    + rewrite Es, Eo. assumption.
    + assumption.
    + rewrite Ev in A1, B1, Hroom. destruct (IH (fun q' Hq' => Hl q' (or_intror Hq')) d1 F1 H1) as [d2 [F2 [E2 [H2 [A2 [C2 B2]]]]]]. exists d2, F2.
      assert (Hin : forall x, in_shape (pl_shape q) x -> in_shape a (vadd (pl_offset q) x)).
      { intros x Hx. rewrite Eo. apply part_cell; [assumption|assumption|]. now rewrite <- Es. }
      cbn [fold_left obind]. rewrite E1. split; [assumption|]. split; [assumption|]. split; [|split].
      * intros q' x [<-|Hq'] Hx; [|auto]. apply C2; [auto|]. auto.
      * intros x Hx Hfx. apply C2; [assumption|]. destruct (box_or_not (pl_offset q) (pl_shape q) x (room_length _ _ _ _ Hroom)) as [[x' [Hx' ->]]|Hn].
        -- apply A1. assumption.
        -- rewrite B1; [assumption| |].
           ++ rewrite <- (vadd_origin a x). { eapply room_cell; [exact Hr|assumption]. } symmetry. now apply in_shape_length.
           ++ intros x' Hx' E'. apply stored_at_inj in E'. apply (Hn x' Hx' E').
      * intros y Hy Hn. rewrite B2 by assumption. apply B1; [assumption|]. intros x Hx. apply Hn. auto.
Qed.

Theorem to_lue_ok order ts a p (arr : parray E) f n d F : (forall l, Permutation (order l) l) -> raster_of a p arr f -> file_holds d n F -> room_for ts (origin a) a n ->
  exists d' F', to_lue order ts arr d = Ok d' /\ file_holds d' n F' /\
    (forall x, in_shape a x -> F' (stored_at ts x) = f x) /\
    (forall y, in_shape n y -> (forall x, in_shape a x -> y <> stored_at ts x) -> F' y = F y).
Proof.
  intros Ho H Hd Hr. assert (Hx := H). destruct Hx as [Hne [Hf [Es _]]]. destruct (groups_all arr) as [groups [E1 G]].
  destruct (write_fold ts a p f n (order (concat groups)) Hne Hf Hr) with (d := d) (F := F) as [d' [F' [E2 [H2 [A2 [_ B2]]]]]].
  - intros q Hq. apply (raster_part_of a p arr); [assumption|]. apply G. eapply Permutation_in; [apply Ho|assumption].
  - assumption.
  - exists d', F'. unfold to_lue. rewrite E1. cbn [obind]. unfold hyperslab_of_shape, hyperslab_of. cbn [hs_start]. rewrite Es. split; [assumption|]. split; [assumption|]. split; [|assumption].
    intros y Hy. destruct (cell_part a p y Hf Hy) as [c [x [Hc [Hx ->]]]]. destruct (raster_part a p arr f c H Hc) as [q [Eq [Eo [Esh _]]]].
    rewrite <- Eo. apply A2; [|now rewrite Esh]. eapply Permutation_in; [apply Permutation_sym, Ho|]. apply G. eapply nth_error_In; exact Eq.
Qed.
End Partitions.
