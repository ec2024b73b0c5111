From Verif Require Import Common CoreSpec DecompSpec ArraySpec IndexModel DecompModel ArrayModel IOModel IOSpec NumpyModel NumpySpec ValueModel ValueSpec.
From Verif Require Import CommonProofs IndexProofs DecompProofs DecompProofs3 ArrayProofs AggregateProofs IOProofs IOProofs3 NumpyProofs ValueProofs ValueProofs2 ValueProofs3.

Section Objects.
Context {E : Type}.
Implicit Types (v : array E) (zero : E).

(** ** An array that is written as a whole *)
Definition whole v (shape : list Z) (data : list E) : Prop := exists F, file_holds (ar_data v) shape F /\ block_holds shape data F.

Lemma whole_created shape zero : array_extents shape -> whole (create_array shape zero) shape (repeat zero (Z.to_nat (volume shape))).
Proof.
  intros X. pose proof (extents_pos _ X) as P. exists (fun _ => zero). split; [|now apply repeat_block]. split; [reflexivity|].
  unfold create_array. cbn [ar_data ds_cells]. rewrite <- volume_prodZ. now apply repeat_block.
Qed.

Lemma all_slab shape : hyperslab_of_shape shape = Hyperslab (zeros shape) (ones (zeros shape)) shape.
Proof. reflexivity. Qed.

Lemma read_whole v shape data buffer : array_extents shape -> whole v shape data -> Z.of_nat (length buffer) = volume shape -> read_array v buffer = Ok data.
Proof.
  intros X [F [HF HB]] Hb. pose proof (extents_pos _ X) as P. unfold read_array. destruct HF as [ES HF']. rewrite ES, all_slab.
  destruct (read_strided_ok (zeros shape) (ones (zeros shape)) shape shape (ar_data v) F buffer) as [d [E1 B]];
    [now apply slab_zeros|split; assumption|assumption|]. rewrite E1. f_equal. eapply block_unique; [exact P|exact B|].
  destruct HB as [L HB]. split; [assumption|]. intros x Hx. rewrite phi_zeros by assumption. now apply HB.
Qed.

Lemma write_whole v shape data buffer : array_extents shape -> whole v shape data -> volume shape <= Z.of_nat (length buffer) ->
  exists v', write_array buffer v = Ok v' /\ whole v' shape (firstn (Z.to_nat (volume shape)) buffer).
Proof.
  intros X [F [HF HB]] Hb. pose proof (extents_pos _ X) as P. pose proof (volume_pos _ P) as Hv. unfold write_array. pose proof (proj1 HF) as ES. rewrite ES, all_slab, <- volume_prodZ.
  destruct buffer as [|b0 buffer0] eqn:EB; [cbn in Hb; lia|]. rewrite <- EB in *.
  destruct (write_strided_ok (zeros shape) (ones (zeros shape)) shape shape buffer (fun x => nth (Z.to_nat (rowmaj shape x)) buffer b0) (ar_data v) F) as [d' [F' [E1 [HF' [H1 _]]]]].
  - now apply slab_zeros.
  - intros x Hx. pose proof (rowmaj_range _ _ Hx). unfold at_z, nth_z. replace (rowmaj shape x <? 0) with false by lia. rewrite (nth_error_nth' _ b0) by lia. reflexivity.
  - assumption.
  - rewrite E1. cbn [obind]. eexists. split; [reflexivity|]. exists F'. split; [exact HF'|]. split; [rewrite firstn_length; lia|].
    intros x Hx. pose proof (rowmaj_range _ _ Hx). rewrite nth_error_firstn by lia. rewrite (nth_error_nth' _ b0) by lia. f_equal. rewrite <- (H1 x Hx). now rewrite phi_zeros by assumption.
Qed.

Lemma run_whole shape zero buffers : array_extents shape -> Forall (fun b => volume shape <= Z.of_nat (length b)) buffers ->
  exists v, run_changes write_array (rev buffers) (create_array shape zero) = Ok v /\ whole v shape (last_buffer (volume shape) zero buffers).
Proof.
  intros X. induction buffers as [|b buffers IH]; intros H.
  - eexists. split; [reflexivity|]. now apply whole_created.
  - destruct IH as [v [E1 W]]; [now apply Forall_inv_tail in H|]. cbn [rev]. rewrite run_changes_app, E1. cbn [obind run_changes].
    destruct (write_whole v shape _ b X W (Forall_inv H)) as [v' [E2 W']]. rewrite E2. exists v'. split; [reflexivity|exact W'].
Qed.

(** ** Creating objects *)
Lemma create_objects_ok zero objects items : NoDup (map fst items ++ names objects) ->
  create_objects zero objects items = (Ok tt, items ++ map (fun kv => (fst kv, create_array (snd kv) zero)) objects).
Proof.
  revert items. induction objects as [|[id shape] objects IH]; intros items HN.
  - cbn. now rewrite app_nil_r.
  - cbn [create_objects names map fst] in *. destruct (NoDup_app_parts _ _ HN) as [_ [_ N3]]. unfold create_item.
    rewrite find_item_none by (intros Hin; apply (N3 id); [exact Hin|now left]).
    rewrite IH.
    + rewrite <- app_assoc. reflexivity.
    + rewrite map_app, <- app_assoc. exact HN.
Qed.

Lemma expand_objects_ok zero objects h g : NoDup (map fst (gr_items g) ++ names objects) ->
  expand_objects zero objects h g = (Ok tt, Handle (ha_count h + Z.of_nat (length objects)) (ha_rank h),
    Group (gr_items g ++ map (fun kv => (fst kv, create_array (snd kv) zero)) objects) (ha_count h + Z.of_nat (length objects))).
Proof. intros H. unfold expand_objects. rewrite create_objects_ok by assumption. reflexivity. Qed.

Definition made_value zero (i : list Z * Z) : array E := match new_value zero (fst i) (snd i) with Ok v => v | _ => create_value (fst i) zero end.
Lemma new_value_ok zero shape n : new_value zero shape n = Ok (made_value zero (shape, n)).
Proof. reflexivity. Qed.

Lemma create_values_ok zero objects items : NoDup (map fst items ++ names objects) ->
  create_values zero objects items = (Ok tt, items ++ map (fun kv => (fst kv, made_value zero (snd kv))) objects).
Proof.
  revert items. induction objects as [|[id [shape n]] objects IH]; intros items HN.
  - cbn. now rewrite app_nil_r.
  - cbn [create_values names map fst] in *. destruct (NoDup_app_parts _ _ HN) as [_ [_ N3]]. rewrite new_value_ok. cbn [obind]. unfold create_item.
    rewrite find_item_none by (intros Hin; apply (N3 id); [exact Hin|now left]).
    rewrite IH.
    + rewrite <- app_assoc. reflexivity.
    + rewrite map_app, <- app_assoc. exact HN.
Qed.

Lemma expand_values_ok zero objects h g : NoDup (map fst (gr_items g) ++ names objects) ->
  expand_values zero objects h g = (Ok tt, Handle (ha_count h + Z.of_nat (length objects)) (ha_rank h),
    Group (gr_items g ++ map (fun kv => (fst kv, made_value zero (snd kv))) objects) (ha_count h + Z.of_nat (length objects))).
Proof. intros H. unfold expand_values. rewrite create_values_ok by assumption. reflexivity. Qed.

Definition made_group zero (objects : list (Z * list Z)) : group (array E) :=
  Group (map (fun kv => (fst kv, create_array (snd kv) zero)) objects) (Z.of_nat (length objects)).

Lemma store_item_last {V} k (u v : V) l : ~ In k (map fst l) -> store_item k v (l ++ [(k, u)]) = l ++ [(k, v)].
Proof.
  intros H. unfold store_item. rewrite map_app. cbn [map fst]. rewrite Z.eqb_refl. f_equal. rewrite <- (map_id l) at 2. apply map_ext_in. intros [j w] Hj. cbn [fst].
  destruct (Z.eqb_spec j k) as [->|N]; [|reflexivity]. exfalso. apply H. apply in_map_iff. now exists (k, w).
Qed.

Lemma expand_time_ok zero (c : Z * list (Z * list Z)) h g : NoDup (names (snd c)) -> NoDup (map fst (gr_items g) ++ names (made_time c)) ->
  expand_time zero (fst c) (snd c) h g = (Ok tt, Handle (ha_count h + Z.of_nat (length (made_time c))) (ha_rank h),
    Group (gr_items g ++ map (fun kv => (fst kv, made_group zero (snd kv))) (made_time c)) (ha_count h + Z.of_nat (length (made_time c)))).
Proof.
  intros HF HN. destruct c as [idx objects]. cbn [made_time names map fst snd length] in *. destruct (NoDup_app_parts _ _ HN) as [_ [_ N3]].
  assert (HI : ~ In idx (map fst (gr_items g))) by (intros Hin; apply (N3 idx); [exact Hin|now left]).
  unfold expand_time, create_item. rewrite find_item_none by exact HI. rewrite expand_objects_ok by exact HF. cbn [ha_count gr_items app].
  rewrite store_item_last by exact HI. reflexivity.
Qed.

(** ** Values as a sequence of changes *)
Lemma run_value ops v : run_changes value_step ops v = @value_run E ops v.
Proof. revert v. induction ops as [|o ops IH]; intros v; [reflexivity|]. cbn. destruct (value_step o v); [apply IH|apply IH|reflexivity]. Qed.

Lemma made_value_run zero shape n ops : value_run ops (made_value zero (shape, n)) = value_run (ExpandBy n :: ops) (create_value shape zero).
Proof. reflexivity. Qed.

Lemma run_group zero objects (writes : list (Z * list E)) : NoDup (names objects) ->
  (forall id shape, In (id, shape) objects -> array_extents shape) ->
  (forall id buffer, In (id, buffer) writes -> exists shape, In (id, shape) objects /\ volume shape <= Z.of_nat (length buffer)) ->
  exists g, run_changes (fun '(id, buffer) => update_item id (write_array buffer)) (rev writes) (made_group zero objects) = Ok g /\
    gr_count g = Z.of_nat (length objects) /\ map fst (gr_items g) = names objects /\
    forall id shape, In (id, shape) objects -> exists v, item id g = Ok v /\
      whole v shape (last_buffer (volume shape) zero (map snd (filter (fun w => fst w =? id) writes))).
Proof.
  intros HN HX. induction writes as [|[id b] writes IH]; intros HW.
  - eexists. split; [reflexivity|]. split; [reflexivity|]. split; [cbn [made_group gr_items]; rewrite map_map; reflexivity|].
    intros id shape Hin. exists (create_array shape zero). split; [|apply whole_created; eauto].
    unfold item, made_group. cbn [gr_items]. rewrite (find_item_some id (create_array shape zero)); [reflexivity| |].
    + rewrite map_map. exact HN.
    + apply in_map_iff. now exists (id, shape).
  - destruct IH as [g [E1 [C1 [N1 I1]]]]; [intros; apply HW; now right|]. cbn [rev]. rewrite run_changes_app, E1. cbn [obind run_changes].
    destruct (HW id b ltac:(now left)) as [shape [Hin Hb]]. destruct (I1 id shape Hin) as [v [Ev Wv]]. unfold update_item. rewrite Ev. cbn [obind].
    destruct (write_whole v shape _ b (HX _ _ Hin) Wv Hb) as [v' [Ew Wv']]. rewrite Ew. cbn [obind]. eexists. split; [reflexivity|].
    split; [exact C1|]. split; [cbn [gr_items]; now rewrite store_item_names|].
    intros id' shape' Hin'. cbn [filter fst]. destruct (Z.eqb_spec id id') as [<-|Ne].
    + assert (shape' = shape). { pose proof (find_item_some _ _ _ HN Hin). pose proof (find_item_some _ _ _ HN Hin'). congruence. }
      subst shape'. exists v'. split; [|exact Wv']. unfold item. cbn [gr_items]. rewrite store_item_same; [reflexivity|]. rewrite N1. apply in_map_iff. now exists (id, shape).
    + destruct (I1 id' shape' Hin') as [u [Eu Wu]]. exists u. split; [|exact Wu]. unfold item. cbn [gr_items]. rewrite store_item_other by congruence. exact Eu.
Qed.

(** ** Items that are not addressed do not change, whatever happens *)
Lemma create_objects_frame zero objects items o items' k v : create_objects zero objects items = (o, items') -> find_item k items = Some v -> find_item k items' = Some v.
Proof.
  revert items. induction objects as [|[id shape] objects IH]; intros items H HF; cbn in H; [injection H as <- <-; assumption|].
  unfold create_item in H. destruct (find_item id items); [injection H as <- <-; assumption|]. apply (IH _ H). rewrite find_item_app, HF. reflexivity.
Qed.
Lemma create_flat_frame zero rank i ids shapes items o items' k v : create_objects_flat zero rank i ids shapes items = (o, items') -> find_item k items = Some v -> find_item k items' = Some v.
Proof.
  revert i items. induction ids as [|id ids IH]; intros i items H HF; cbn in H; [injection H as <- <-; assumption|].
  destruct (at_z shapes i); cbn in H; [|injection H as <- <-; assumption|injection H as <- <-; assumption].
  destruct (at_z shapes (i + 1)); cbn in H; [|injection H as <- <-; assumption|injection H as <- <-; assumption].
  unfold create_item in H. destruct (find_item id items); [injection H as <- <-; assumption|]. apply (IH _ _ H). rewrite find_item_app, HF. reflexivity.
Qed.
Lemma create_values_frame zero objects items o items' k v : create_values zero objects items = (o, items') -> find_item k items = Some v -> find_item k items' = Some v.
Proof.
  revert items. induction objects as [|[id [shape n]] objects IH]; intros items H HF; cbn [create_values] in H; [injection H as <- <-; assumption|].
  rewrite new_value_ok in H. cbn [obind] in H.
  unfold create_item in H. destruct (find_item id items); [injection H as <- <-; assumption|]. apply (IH _ H). rewrite find_item_app, HF. reflexivity.
Qed.

Lemma counted_items {V} n h (g : group V) r o h' g' : counted n h g r = (o, h', g') -> gr_items g' = snd r.
Proof. destruct r as [[[]| |] items]; cbn; intros H; injection H as <- <- <-; reflexivity. Qed.

Definition keeps {V Create} (create : Create -> handle -> group V -> effect V) : Prop :=
  forall c h g o h' g' k (x : V), create c h g = (o, h', g') -> find_item k (gr_items g) = Some x -> find_item k (gr_items g') = Some x.

Lemma expand_objects_keeps zero : keeps (expand_objects zero).
Proof. intros c h g o h' g' k v H HF. unfold expand_objects in H. rewrite (counted_items _ _ _ _ _ _ _ H). destruct (create_objects zero c (gr_items g)) eqn:EC. eapply create_objects_frame; eassumption. Qed.
Lemma expand_flat_keeps zero : keeps (fun c h g => expand_flat zero (fst c) (snd c) h g).
Proof. intros c h g o h' g' k v H HF. unfold expand_flat in H. rewrite (counted_items _ _ _ _ _ _ _ H). destruct (create_objects_flat _ _ _ _ _ _) eqn:EC. eapply create_flat_frame; eassumption. Qed.
Lemma expand_values_keeps zero : keeps (expand_values zero).
Proof. intros c h g o h' g' k v H HF. unfold expand_values in H. rewrite (counted_items _ _ _ _ _ _ _ H). destruct (create_values zero c (gr_items g)) eqn:EC. eapply create_values_frame; eassumption. Qed.
Lemma expand_time_keeps zero : keeps (fun c h g => expand_time zero (fst c) (snd c) h g).
Proof.
  intros [idx objects] h g o h' g' k v H HF. cbn [fst snd] in H. unfold expand_time, create_item in H.
  destruct (find_item idx (gr_items g)) eqn:EI; [injection H as <- <- <-; assumption|].
  destruct (expand_objects _ _ _ _) as [[o1 h1] g1]. rewrite (counted_items _ _ _ _ _ _ _ H). cbn [snd].
  assert (k <> idx) by (intros ->; congruence). rewrite store_item_other by assumption. rewrite find_item_app, HF. reflexivity.
Qed.

Lemma run_keeps {V Create Change} (create : Create -> handle -> group V -> effect V) (change : Change -> V -> outcome V) ops w w' k (v : V) :
  keeps create -> (forall c, ~ In (ChangeItem k c) ops) -> group_run create change ops w = Ok w' -> item k (wo_file w) = Ok v -> item k (wo_file w') = Ok v.
Proof.
  intros K. revert w. induction ops as [|o ops IH]; intros w HC HR HI; [cbn in HR; congruence|]. cbn [group_run] in HR.
  destruct (group_step create change o w) as [w1| |] eqn:ES; [|discriminate|discriminate]. cbn [obind] in HR. apply (IH w1); [intros c Hc; apply (HC c); now right|assumption|].
  destruct o as [r|i c|j c]; cbn [group_step] in ES.
  - injection ES as <-. exact HI.
  - destruct (nth_error (wo_handles w) i) as [h|]; [|discriminate]. destruct (create c h (wo_file w)) as [[o1 h1] g1] eqn:EC.
    assert (HG : item k g1 = Ok v).
    { unfold item in *. destruct (find_item k (gr_items (wo_file w))) eqn:EF; [|discriminate]. rewrite (K _ _ _ _ _ _ _ _ EC EF). assumption. }
    destruct o1, (upd_nth i h1 (wo_handles w)); try discriminate; injection ES as <-; exact HG.
  - assert (j <> k) by (intros ->; apply (HC c); now left). unfold update_item in ES. destruct (item j (wo_file w)) as [u| |]; cbn [obind] in ES; [|injection ES as <-; exact HI|discriminate].
    destruct (change c u) as [u'| |]; cbn [obind] in ES; [|injection ES as <-; exact HI|discriminate]. injection ES as <-. cbn [wo_file]. unfold item in *. cbn [gr_items]. rewrite store_item_other by congruence. exact HI.
Qed.

(** ** Rank 2 *)
Lemma create_flat_two zero ids shapes : length ids = length shapes -> Forall (fun s => length s = 2%nat) shapes -> forall before items,
  create_objects_flat zero 2 (Z.of_nat (length before)) ids (before ++ concat shapes) items = create_objects zero (combine ids shapes) items.
Proof.
  revert shapes. induction ids as [|id ids IH]; intros [|s shapes] HL HF before items; cbn in HL; try discriminate; [reflexivity|].
  pose proof (Forall_inv HF) as Hs. cbn in Hs. destruct s as [|a [|b [|c s]]]; try discriminate. cbn [create_objects_flat combine create_objects concat].
  unfold at_z, nth_z. replace (Z.of_nat (length before) <? 0) with false by lia. replace (Z.of_nat (length before) + 1 <? 0) with false by lia.
  rewrite !(nth_error_app2 before) by lia. replace (Z.to_nat (Z.of_nat (length before)) - length before)%nat with 0%nat by lia.
  replace (Z.to_nat (Z.of_nat (length before) + 1) - length before)%nat with 1%nat by lia. cbn [app nth_error obind].
  destruct (create_item id (create_array [a; b] zero) items); [|reflexivity|reflexivity].
  specialize (IH shapes ltac:(lia) (Forall_inv_tail HF) (before ++ [a; b]) a0). rewrite app_length in IH. cbn [length] in IH.
  replace (Z.of_nat (length before + 2)) with (Z.of_nat (length before) + 2) in IH by lia. rewrite <- app_assoc in IH. cbn [app] in IH. exact IH.
Qed.
End Objects.
