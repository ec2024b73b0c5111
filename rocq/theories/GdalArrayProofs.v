(** Reading and writing rasters with GDAL. *)
From Coq Require Import Permutation.
From Flocq Require Import BinarySingleNaN.
From Verif Require Import Common CommonProofs CoreSpec DecompSpec ArraySpec IndexModel IndexProofs DecompModel DecompProofs DecompProofs2 DecompProofs4 ArrayModel ArrayRep ArrayProofs IOModel IOSpec IOProofs IOProofs2 IOProofs3.
From Verif Require Import Float64 GdalArrayModel GdalArraySpec.

Section GdalArray.
Context {E C S : Type} (kind : element_kind E).
Implicit Types (r : gdal_raster E C S).

Definition converted (nd : option E) (v : E) : E := if band_is_no_data kind nd v then band_mark kind nd v else v.

Lemma is_no_data_iff nd v : band_is_no_data kind nd v = true <-> missing_in_band kind nd v.
Proof.
  unfold band_is_no_data, missing_in_band. destruct nd as [x|].
  - destruct (ek_floating kind) eqn:Ef, (ek_is_nan kind x) eqn:En; cbn [andb]; split.
    + intros H. exists x. auto.
    + intros [y [Ey [[_ [_ H]]|[[H|H] _]]]]; [assumption|discriminate|]. injection Ey as <-. congruence.
    + intros H. exists x. auto.
    + intros [y [Ey [[_ [H _]]|[_ H]]]]; injection Ey as <-; [congruence|assumption].
    + intros H. exists x. auto.
    + intros [y [Ey [[H _]|[_ H]]]]; [discriminate|injection Ey as <-; assumption].
    + intros H. exists x. auto.
    + intros [y [Ey [[H _]|[_ H]]]]; [discriminate|injection Ey as <-; assumption].
  - split; [discriminate|]. intros [x [H _]]. discriminate.
Qed.

Lemma converted_read_as nd n f : read_as kind nd n f (fun x => converted nd (f x)).
Proof.
  intros x _. unfold converted. split; intros H.
  - rewrite (proj2 (is_no_data_iff nd (f x)) H). destruct H as [y [-> _]]. reflexivity.
  - destruct (band_is_no_data kind nd (f x)) eqn:Eb; [|reflexivity]. apply is_no_data_iff in Eb. contradiction.
Qed.

Lemma instantiate_partition_ok junk r start o s n F : s <> [] -> pos_shape s -> box_within (vadd start o) s n -> file_holds (gr_band r) n F ->
  exists data, instantiate_partition kind junk r start o s = Ok data /\ block_holds s data (fun x => converted (gr_no_data r) (F (vadd (vadd start o) x))).
Proof.
  intros Hne P B Hd. unfold instantiate_partition. rewrite vadd_map2.
  destruct (read_box (vadd start o) s n (gr_band r) F (fresh junk (nr_elements s)) Hne P B Hd) as [data [E1 [L1 H1]]].
  - unfold fresh. rewrite map_length, zseq_length, nr_elements_volume by assumption. pose proof (volume_pos s P). lia.
  - rewrite E1. cbn [obind]. eexists. split; [reflexivity|]. split; [now rewrite map_length|]. intros x Hx. rewrite nth_error_map, (H1 x Hx). reflexivity.
Qed.

Lemma create_read_ok junk L r start count p n F : supported L count p -> partition_fits count p -> L <= nr_parts count p ->
  file_holds (gr_band r) n F -> box_within start count n ->
  exists arr, create_read kind junk L r start count p = Ok arr /\ raster_of count p arr (fun x => converted (gr_no_data r) (F (vadd start x))).
Proof.
  intros Hs Hf HL Hd Hb. assert (Hne : count <> []) by apply Hs. unfold create_read. pose proof (to_accepted L count p Hs Hf HL) as Hacc.
  rewrite partition_shapes_ok by (split; assumption). cbn [obind]. rewrite <- parts_shape_map2.
  rewrite (c07 (fun _ o s => instantiate_partition kind junk r start o s)); try assumption.
  2:{ intros _ [|[o s] l] Hl; [congruence|]. reflexivity. }
  destruct (instantiate_individually_ok L (fun _ o s => instantiate_partition kind junk r start o s) count p Hacc) as [visits [parts [Ev [Er [Hl Hh]]]]].
  destruct (accepted_visits L count p Hacc) as [v [Hv [_ [_ Hin]]]]. rewrite Ev in Hv. assert (v = visits) by congruence. subst v. rewrite Er. cbn [obind].
  destruct (box_within_length _ _ _ Hb) as [Lb _].
  destruct (assemble count p (map (fun q => obind (pl_data q) (fun data => Ok (Placed (pl_locality q) (pl_offset q) (pl_shape q) data))) parts)
    (fun x => converted (gr_no_data r) (F (vadd start x))) Hne Hf) as [l [E1 R]].
  - rewrite map_length, nr_parts_prodZ. assumption.
  - intros c Hc. assert (Hc' := Hc). rewrite parts_shape_map2 in Hc'. apply Hin in Hc'. apply in_map_iff in Hc'.
    destruct Hc' as [[k c'] [Ek Hvv]]. cbn in Ek. subst c'. specialize (Hh _ Hvv). cbn [snd expected] in Hh. assert (Hc0 : in_shape (parts_shape count p) c) by assumption.
    assert (Ep : part_extent count p c = exts count p c) by now apply part_extent_exts.
    assert (Eo : part_offset p c = map2 Z.mul c p) by (apply part_offset_map2).
    destruct (instantiate_partition_ok junk r start (part_offset p c) (part_extent count p c) n F) as [data [E2 B2]].
    + now apply part_extent_ne.
    + now apply part_extent_pos.
    + eapply box_within_add; [eassumption|]. now apply part_box.
    + assumption.
    + eexists. split; [|split; [|split]].
      * rewrite rowmaj_linear' by assumption. rewrite parts_shape_map2, nth_error_map, Hh. cbn [option_map pl_data pl_locality pl_offset pl_shape].
        rewrite <- Ep, <- Eo, E2. cbn [obind]. reflexivity.
      * reflexivity.
      * reflexivity.
      * cbn [pl_data]. destruct B2 as [B2 B3]. split; [assumption|]. intros x Hx. rewrite (B3 x Hx). do 3 f_equal. apply vadd_assoc.
        -- rewrite Lb. eapply length_part_offset; eassumption.
        -- rewrite Lb. rewrite <- (in_shape_length _ _ Hx). eapply length_part_extent; eassumption.
  - rewrite E1. eexists. split; [reflexivity|]. exact R.
Qed.

Theorem from_gdal_ok junk L r n F nd p : supported L n p -> partition_fits n p -> L <= nr_parts n p -> raster_file r n F nd ->
  exists arr g, from_gdal kind junk L (Some r) p = Ok arr /\ raster_of n p arr g /\ read_as kind nd n F g.
Proof.
  intros Hs Hf HL [Hd <-]. unfold from_gdal. destruct Hd as [En Hd].
  destruct (create_read_ok junk L r (origin n) n p n F Hs Hf HL (conj En Hd)) as [arr [E1 R]].
  - clear -Hf. induction Hf; cbn; [exact I|]. split; [lia|]. split; [lia|assumption].
  - rewrite En. fold (origin n). exists arr, (fun x => converted (gr_no_data r) (F x)). split; [assumption|]. split; [|apply converted_read_as].
    eapply raster_ext; [|exact R]. intros x Hx. cbv beta. rewrite vadd_origin; [reflexivity|]. symmetry. now apply in_shape_length.
Qed.

Lemma contained_box offsets counts : forall n, length offsets = length counts -> length n = length counts -> Forall (fun o => 0 <= o) offsets ->
  is_contained_by offsets counts n = true <-> box_within offsets counts n.
Proof.
  unfold is_contained_by. revert counts. induction offsets as [|o os IH]; intros [|c cs] [|e n] L1 L2 Ho; cbn in L1, L2; try discriminate; cbn [combine forallb box_within]; [tauto|].
  inversion Ho as [|? ? Ho1 Ho2]; subst. rewrite andb_true_iff, IH by (try assumption; lia). rewrite Z.ltb_lt. intuition lia.
Qed.

Lemma offsets_unique center shape offsets offsets' : length offsets = length shape -> length offsets' = length shape ->
  (forall d, (d < length shape)%nat -> nth d offsets 0 + nth d shape 0 / 2 = nth d center 0) ->
  (forall d, (d < length shape)%nat -> nth d offsets' 0 + nth d shape 0 / 2 = nth d center 0) -> offsets = offsets'.
Proof.
  intros L1 L2 H1 H2. apply (nth_ext _ _ 0 0); [congruence|]. intros d Hd. rewrite L1 in Hd. specialize (H1 d Hd). specialize (H2 d Hd). lia.
Qed.

Lemma box_nth offsets shape n d : box_within offsets shape n -> (d < length shape)%nat -> 0 <= nth d offsets 0.
Proof.
  revert shape n d. induction offsets as [|o os IH]; intros [|c cs] [|e n] d B Hd; cbn in B; try contradiction; cbn in Hd; [lia|].
  destruct d as [|d]; cbn; [lia|]. apply (IH cs n d); [tauto|lia].
Qed.

Lemma strides_one (l : list Z) : existsb (fun stride => 1 <? stride) (map (fun _ => 1) l) = false.
Proof. induction l; cbn; auto. Qed.

Theorem from_gdal_hyperslab_ok junk L r n F nd center shape offsets p : length center = length shape -> length offsets = length shape ->
  (forall d, (d < length shape)%nat -> nth d offsets 0 + nth d shape 0 / 2 = nth d center 0) -> box_within offsets shape n ->
  supported L shape p -> partition_fits shape p -> L <= nr_parts shape p -> raster_file r n F nd ->
  exists arr g, from_gdal_hyperslab kind junk L (Some r) center shape p = Ok arr /\ raster_of shape p arr g /\ read_as kind nd shape (fun x => F (vadd offsets x)) g.
Proof.
  intros Lc Lo Ho Hb Hs Hf HL [Hd <-]. unfold from_gdal_hyperslab.
  assert (Hsh : is_shape shape) by (clear -Hf; induction Hf; constructor; [lia|assumption]).
  destruct (hyperslab_at_ok center shape Lc Hsh) as [offsets' [E1 [L1 H1]]].
  - intros d Hd'. pose proof (box_nth _ _ _ _ Hb Hd'). rewrite <- (Ho d Hd'). lia.
  - assert (offsets' = offsets) as -> by (eapply offsets_unique; try eassumption; intros d Hd'; apply H1; assumption).
    rewrite E1. cbn [obind]. destruct Hd as [En Hd]. rewrite En. unfold verify_hyperslab. rewrite strides_one.
    destruct (box_within_length _ _ _ Hb) as [_ Ln].
    rewrite (proj2 (contained_box offsets shape n Lo Ln ltac:(apply Forall_forall; intros o Hi; apply (In_nth _ _ 0) in Hi; destruct Hi as [d [Hd1 <-]]; apply H1; lia)) Hb). cbn [negb obind].
    destruct (create_read_ok junk L r offsets shape p n F Hs Hf HL (conj En Hd) Hb) as [arr [E2 R]]. exists arr. eexists. split; [exact E2|]. split; [exact R|].
    apply (converted_read_as (gr_no_data r) shape (fun x => F (vadd offsets x))).
Qed.

Theorem from_gdal_hyperslab_throws junk L r n F nd center shape offsets p : length center = length shape -> length offsets = length shape -> length n = length shape -> is_shape shape ->
  (forall d, (d < length shape)%nat -> nth d offsets 0 + nth d shape 0 / 2 = nth d center 0) -> ~ box_within offsets shape n -> raster_file r n F nd ->
  from_gdal_hyperslab kind junk L (Some r) center shape p = Throw.
Proof.
  intros Lc Lo Ln Hsh Ho Hb [[En Hd] _]. unfold from_gdal_hyperslab.
  destruct (Forall_Exists_dec (fun o => 0 <= o) (fun o => Z_le_dec 0 o) offsets) as [Hpos|Hneg].
  - destruct (hyperslab_at_ok center shape Lc Hsh) as [offsets' [E1 [L1 H1]]].
    + intros d Hd'. rewrite <- (Ho d Hd'). rewrite Forall_forall in Hpos. assert (0 <= nth d offsets 0) by (apply Hpos, nth_In; lia). lia.
    + assert (offsets' = offsets) as -> by (eapply offsets_unique; try eassumption; intros d Hd'; apply H1; assumption).
      rewrite E1. cbn [obind]. rewrite En. unfold verify_hyperslab. rewrite strides_one. destruct (is_contained_by offsets shape n) eqn:Ec; [|reflexivity].
      exfalso. apply Hb. apply contained_box; assumption.
  - apply Exists_exists in Hneg. destruct Hneg as [o [Hi Hlt]]. apply (In_nth _ _ 0) in Hi. destruct Hi as [d [Hd1 Ed]].
    rewrite (hyperslab_at_throw center shape d); [reflexivity|assumption|assumption|lia|]. rewrite <- (Ho d) by lia. lia.
Qed.

(** Each partition is written once, whatever the order in which they become ready. *)
Lemma rotate_length {A} idx n (l : list A) : (idx < n)%nat -> length l = n -> length (rotate_to_end idx n l) = n.
Proof.
  intros Hi Hl. unfold rotate_to_end. rewrite !app_length, !firstn_length, !skipn_length, !firstn_length. lia.
Qed.

Lemma rotate_prefix {A} idx n (l : list A) q : (idx < Datatypes.S n)%nat -> length l = Datatypes.S n -> nth_error l idx = Some q ->
  Permutation (q :: firstn n (rotate_to_end idx (Datatypes.S n) l)) l.
Proof.
  intros Hi Hl Hq. apply nth_error_split in Hq. destruct Hq as [l1 [l2 [-> L1]]]. unfold rotate_to_end.
  assert (E4 : firstn (Datatypes.S n) (l1 ++ q :: l2) = l1 ++ q :: l2) by (apply firstn_all2; lia).
  assert (E5 : skipn (Datatypes.S n) (l1 ++ q :: l2) = []) by (apply skipn_all2; lia).
  assert (E1 : firstn idx (l1 ++ q :: l2) = l1) by (subst idx; rewrite firstn_app, Nat.sub_diag, firstn_all; cbn; apply app_nil_r).
  assert (E2 : skipn idx (l1 ++ q :: l2) = q :: l2) by (subst idx; rewrite skipn_app, Nat.sub_diag, skipn_all; reflexivity).
  assert (E3 : skipn (idx + 1) (l1 ++ q :: l2) = l2).
  { replace (l1 ++ q :: l2) with ((l1 ++ [q]) ++ l2) by (rewrite <- app_assoc; reflexivity). rewrite skipn_app.
    rewrite skipn_all2 by (rewrite app_length; cbn; lia). rewrite app_length. cbn. replace (idx + 1 - (length l1 + 1))%nat with O by lia. reflexivity. }
  rewrite E4, E5, E1, E2, E3. rewrite app_nil_r. change (firstn 1 (q :: l2)) with [q]. rewrite app_assoc. rewrite firstn_app.
  rewrite app_length in Hl. cbn in Hl. rewrite firstn_all2 by (rewrite app_length; lia). rewrite app_length.
  replace (n - (length l1 + length l2))%nat with O by lia. cbn. rewrite app_nil_r. apply Permutation_middle.
Qed.

Lemma firstn_length_eq {A} (l : list A) n : length l = n -> firstn n l = l.
Proof. intros <-. apply firstn_all. Qed.

Lemma write_ready_order picks : forall n (l : list (placed (list E))), valid_picks n picks -> (n <= length l)%nat ->
  exists order, Permutation order (firstn n l) /\
    forall d, write_ready picks n l d = fold_left (fun acc q => obind acc (fun d => write_ready_partition d q)) order (Ok d).
Proof.
  induction picks as [|i picks IH]; intros [|n] l Hv Hl; cbn in Hv; try contradiction.
  - exists []. split; [reflexivity|]. reflexivity.
  - destruct Hv as [Hi Hv]. pose (l' := firstn (Datatypes.S n) l). assert (Hl' : length l' = Datatypes.S n) by (unfold l'; rewrite firstn_length; lia).
    destruct (nth_error l' i) as [q|] eqn:Eq; [|apply nth_error_None in Eq; lia].
    destruct (IH n (rotate_to_end i (Datatypes.S n) l') Hv) as [order [P HO]].
    + rewrite rotate_length by assumption. lia.
    + exists (q :: order). split.
      * fold l'. rewrite <- (rotate_prefix i n l' q Hi Hl' Eq). constructor. assumption.
      * intros d. cbn [write_ready]. fold l'. rewrite Eq. cbn [fold_left obind]. destruct (write_ready_partition d q) as [d'| |]; cbn [obind].
        -- apply HO.
        -- clear. induction order; cbn; auto.
        -- clear. induction order; cbn; auto.
Qed.

Lemma write_ready_partition_eq a (q : placed (list E)) d : length (pl_offset q) = length a -> write_ready_partition d q = write_partition None (origin a) d q.
Proof.
  intros Hl. unfold write_ready_partition, write_partition, partition_hyperslab. unfold origin at 1. rewrite map_length, Hl, Nat.eqb_refl. cbn [obind].
  rewrite vadd_map2, vadd_origin by assumption. reflexivity.
Qed.

Lemma fold_write_eq a : forall (l : list (placed (list E))) acc, (forall q, In q l -> length (pl_offset q) = length a) ->
  fold_left (fun acc q => obind acc (fun d => write_ready_partition d q)) l acc =
  fold_left (fun acc q => obind acc (fun d => write_partition None (origin a) d q)) l acc.
Proof.
  induction l as [|q l IH]; intros acc H; [reflexivity|]. cbn [fold_left]. rewrite IH by (intros; apply H; now right). f_equal.
  destruct acc; cbn [obind]; try reflexivity. apply write_ready_partition_eq. apply H. now left.
Qed.

Lemma write_all picks a p (arr : parray E) f d F : raster_of a p arr f -> valid_picks (length (pa_parts arr)) picks -> file_holds d a F ->
  exists d', write_ready picks (length (pa_parts arr)) (pa_parts arr) d = Ok d' /\ file_holds d' a f.
Proof.
  intros H Hv Hd. assert (Hx := H). destruct Hx as [Hne [Hf _]].
  destruct (write_ready_order picks (length (pa_parts arr)) (pa_parts arr) Hv (le_n _)) as [order [P HO]]. rewrite firstn_all in P. rewrite HO.
  assert (Hin : forall q, In q order -> part_of a p f q) by (intros q Hq; apply (raster_part_of a p arr); [assumption|]; eapply Permutation_in; eassumption).
  rewrite (fold_write_eq a).
  - destruct (write_fold None a p f a order Hne Hf) with (d := d) (F := F) as [d' [F' [E2 [H2 [A2 [_ B2]]]]]]; try assumption.
    + cbn [room_for]. clear -Hf. induction Hf; cbn; [exact I|]. split; [lia|]. split; [lia|assumption].
    + exists d'. split; [exact E2|]. destruct H2 as [H2 [H3 H4]]. split; [assumption|]. split; [assumption|]. intros y Hy. rewrite (H4 y Hy). f_equal.
      destruct (cell_part a p y Hf Hy) as [c [x [Hc [Hx ->]]]]. destruct (raster_part a p arr f c H Hc) as [q [Eq [Eo [Esh _]]]].
      rewrite <- Eo. apply (A2 q x); [|now rewrite Esh]. eapply Permutation_in; [apply Permutation_sym; exact P|]. eapply nth_error_In; exact Eq.
  - intros q Hq. destruct (Hin q Hq) as [c [Hc [Eo _]]]. rewrite Eo. eapply length_part_offset; eassumption.
Qed.

Theorem to_gdal_ok (of_int : Z -> C) created picks a p arr f (clone : option (gdal_raster E C S)) before :
  raster_of a p arr f -> valid_picks (length (pa_parts arr)) picks -> (forall c, clone = Some c -> ds_shape (gr_band c) = a) ->
  exists r, to_gdal kind of_int created picks arr (option_map Some clone) before = (Some r, Ok tt) /\
    raster_file r a f (Some (ek_mark kind)) /\ georeferenced of_int a clone r.
Proof.
  intros H Hv Hc. assert (Hx := H). destruct Hx as [Hne [Hf [Es _]]].
  assert (Hfresh : exists F, file_holds (Dataset (pa_shape arr) (fresh created (nr_elements (pa_shape arr)))) a F).
  { exists (fun x => created (rowmaj a x)). rewrite Es. split; [reflexivity|]. cbn [ds_cells]. unfold fresh. rewrite nr_elements_volume by assumption.
    assert (Hp : pos_shape a) by (clear -Hf; induction Hf; constructor; [lia|assumption]). pose proof (volume_pos a Hp).
    split; [rewrite map_length, zseq_length; lia|]. intros x Hx. pose proof (rowmaj_range a x Hx). rewrite nth_error_map, nth_error_zseq by lia. cbn. do 2 f_equal. lia. }
  destruct Hfresh as [F HF]. destruct (write_all picks a p arr f _ F H Hv HF) as [d' [E1 H1]].
  unfold to_gdal. destruct clone as [c|]; cbn [option_map].
  - rewrite Es in *. destruct (list_eq_dec Z.eq_dec (ds_shape (gr_band c)) a) as [_|Hn]; [|exfalso; apply Hn, Hc; reflexivity].
    rewrite E1. eexists. split; [reflexivity|]. split; [split; [exact H1|reflexivity]|]. split; reflexivity.
  - rewrite E1. eexists. split; [reflexivity|]. split; [split; [exact H1|reflexivity]|]. unfold default_transform. rewrite Es. split; reflexivity.
Qed.

Lemma mark_missing : one_mark kind -> (ek_floating kind = false -> ek_equal kind (ek_mark kind) (ek_mark kind) = true) -> missing_in_array kind (ek_mark kind).
Proof. intros [H _] H'. unfold missing_in_array. destruct (ek_floating kind); auto. Qed.

Lemma missing_marked v : one_mark kind -> missing_in_band kind (Some (ek_mark kind)) v -> v = ek_mark kind.
Proof.
  intros [H1 H2] [x [Ex H]]. injection Ex as <-. apply H2. unfold missing_in_array. destruct (ek_floating kind).
  - destruct H as [[_ [_ H]]|[[H|H] _]]; [assumption|discriminate|]. rewrite H1 in H by reflexivity. discriminate.
  - destruct H as [[H _]|[_ H]]; [discriminate|assumption].
Qed.

Lemma read_back n f g : one_mark kind -> read_as kind (Some (ek_mark kind)) n f g -> forall x, in_shape n x -> g x = f x.
Proof.
  intros H1 H x Hx. destruct (H x Hx) as [A B]. destruct (band_is_no_data kind (Some (ek_mark kind)) (f x)) eqn:Eb.
  - apply is_no_data_iff in Eb. rewrite (A Eb). symmetry. now apply missing_marked.
  - apply B. rewrite <- is_no_data_iff. congruence.
Qed.
End GdalArray.

Lemma integer_one_mark m : one_mark (ElementKind false (fun _ => false) Z.eqb m).
Proof. split; [discriminate|]. intros v H. cbn in H. apply Z.eqb_eq. exact H. Qed.

Lemma float_one_mark : one_mark float_kind.
Proof. split; [reflexivity|]. intros v H. cbn in H. destruct v; try discriminate. reflexivity. Qed.
