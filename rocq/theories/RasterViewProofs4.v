(** Proofs about the views on rasters: layers, and programs as a whole *)
From Coq Require Import Ascii String.
From Verif Require Import Common CoreSpec DecompSpec ArraySpec IndexModel DecompModel ArrayModel IOModel IOSpec NumpyModel NumpySpec ValueModel ValueSpec ValidateModel.
From Verif Require Import FileNameModel CatalogModel RasterViewModel RasterViewSpec.
From Verif Require Import CommonProofs IndexProofs DecompProofs ArrayProofs AggregateProofs IOProofs3 NumpyProofs ValueProofs ValueProofs4 CatalogProofs CatalogProofs2 RasterViewProofs RasterViewProofs2 RasterViewProofs3.
Open Scope Z_scope.

Section Layers.
Context {E C : Type} (zero : E) (origin : C).
Implicit Types (r : @raster E C) (areas : list (text * @area E C)) (a : @area E C) (st : @state E C).
Notation enc := (enc origin).
Notation enc_set := (enc_set origin).
Notation enc_world := (enc_world origin).

Lemma knows_enc areas ph s known r name : find_raster ph s areas = Some r -> knows (enc_view areas (ph, s, known)) name = existsb (same_text name) known.
Proof. intros F. unfold knows, enc_view. now rewrite F. Qed.
Lemma upd_nth_some {T} i (v : T) l x : nth_error l i = Some x -> exists l', upd_nth i v l = Some l'.
Proof. revert i. induction l as [|y l IH]; intros [|i] H; cbn in *; try discriminate; [now eexists|]. destruct (IH i H) as [l' ->]. now eexists. Qed.
Lemma upd_nth_map {A B} (f : A -> B) i v l : upd_nth i (f v) (map f l) = option_map (map f) (upd_nth i v l).
Proof. revert i. induction l as [|y l IH]; intros [|i]; cbn; try reflexivity. rewrite IH. now destruct (upd_nth i v l). Qed.
Lemma upd_nth_in {T} i (v : T) l l' x : upd_nth i v l = Some l' -> In x l' -> x = v \/ In x l.
Proof.
  revert i l'. induction l as [|y l IH]; intros [|i] l' H I; cbn in H; try discriminate.
  - injection H as <-. destruct I as [<-|I]; [now left|right; now right].
  - destruct (upd_nth i v l) as [l1|] eqn:Eu; [|discriminate]. injection H as <-. destruct I as [<-|I]; [right; now left|].
    destruct (IH _ _ Eu I) as [->|I']; [now left|right; now right].
Qed.

(** *** Adding a layer *)
Lemma enc_add_layer ph s r name fill cells : 
  enc_set ph s (with_layers r (map_insert name (fill, cells) (ra_layers r))) =
  match ra_time r with
  | None => Set_ (se_tracker (enc_set ph s r)) (se_time (enc_set ph s r)) (se_space (enc_set ph s r)) (se_same (enc_set ph s r)) (se_same_constant (enc_set ph s r))
              (map_insert name (enc_layer ph s r name (fill, cells)) (se_different (enc_set ph s r))) (se_different_constant (enc_set ph s r))
  | Some _ => Set_ (se_tracker (enc_set ph s r)) (se_time (enc_set ph s r)) (se_space (enc_set ph s r)) (se_same (enc_set ph s r)) (se_same_constant (enc_set ph s r))
              (se_different (enc_set ph s r)) (map_insert name (enc_layer ph s r name (fill, cells)) (se_different_constant (enc_set ph s r)))
  end.
Proof.
  unfold RasterViewProofs2.enc_set. cbn [ra_time with_layers se_tracker se_time se_space se_same se_same_constant se_different se_different_constant ra_box ra_shape ra_layers].
  destruct (ra_time r) as [t|] eqn:T; rewrite mapv_insert; f_equal; apply map_ext; intros [k l]; cbn [fst snd]; f_equal; unfold enc_layer, full_shape, with_layers; cbn [ra_time ra_shape ra_id]; now rewrite T.
Qed.
Lemma enc_update_layer ph s r name fill cells : 
  enc_set ph s (with_layers r (map_update name (fill, cells) (ra_layers r))) =
  match ra_time r with
  | None => Set_ (se_tracker (enc_set ph s r)) (se_time (enc_set ph s r)) (se_space (enc_set ph s r)) (se_same (enc_set ph s r)) (se_same_constant (enc_set ph s r))
              (map_update name (enc_layer ph s r name (fill, cells)) (se_different (enc_set ph s r))) (se_different_constant (enc_set ph s r))
  | Some _ => Set_ (se_tracker (enc_set ph s r)) (se_time (enc_set ph s r)) (se_space (enc_set ph s r)) (se_same (enc_set ph s r)) (se_same_constant (enc_set ph s r))
              (se_different (enc_set ph s r)) (map_update name (enc_layer ph s r name (fill, cells)) (se_different_constant (enc_set ph s r)))
  end.
Proof.
  unfold RasterViewProofs2.enc_set. cbn [ra_time with_layers se_tracker se_time se_space se_same se_same_constant se_different se_different_constant ra_box ra_shape ra_layers].
  destruct (ra_time r) as [t|] eqn:T; rewrite mapv_update; f_equal; apply map_ext; intros [k l]; cbn [fst snd]; f_equal; unfold enc_layer, full_shape, with_layers; cbn [ra_time ra_shape ra_id]; now rewrite T.
Qed.
Lemma good_add_layer r name fill : good_raster r -> map_find name (ra_layers r) = None -> name <> time_grid_name -> name <> space_grid_name ->
  good_raster (with_layers r (map_insert name (fill, repeat fill (Z.to_nat (nr_cells r))) (ra_layers r))).
Proof.
  intros [G1 G2 G3 G4] F N1 N2. split; [exact G1|exact G2|exact G3|]. intros n f c. cbn [with_layers ra_layers]. rewrite map_find_insert by assumption.
  change (nr_cells (with_layers r _)) with (nr_cells r).
  destruct (same_text name n) eqn:En; [|apply G4]. apply same_text_true in En. subst n. intros [= <- <-]. split; [|tauto]. rewrite repeat_length.
  assert (0 <= nr_cells r); [|lia]. unfold nr_cells. apply extents_pos in G1. destruct (ra_time r) as [[b n]|]; pose proof (volume_pos _ G1); lia.
Qed.
Lemma find_same_grid ph s r : exists g, map_find space_grid_name (se_same (enc_set ph s r)) = Some g.
Proof. unfold RasterViewProofs2.enc_set, map_find. cbn [se_same find fst snd]. rewrite same_text_refl. now eexists. Qed.
Lemma find_time_grid ph s r t : ra_time r = Some t -> exists g, map_find time_grid_name (se_same_constant (enc_set ph s r)) = Some g.
Proof. intros T. unfold RasterViewProofs2.enc_set, map_find. rewrite T. destruct t as [b n]. cbn [se_same_constant find fst snd]. rewrite same_text_refl. now eexists. Qed.

Lemma add_constant_enc ph s known r name no_data areas : find_raster ph s areas = Some r -> good_raster r -> ra_time r = None ->
  (forall n, In n known -> map_find n (ra_layers r) <> None) ->
  let fill := match no_data with Some v => v | None => zero end in
  add_constant zero name no_data (enc_view areas (ph, s, known)) (enc areas) =
  match map_find name (ra_layers r) with
  | Some _ => (Throw, enc areas)
  | None => (Ok (View ph s (ra_id r) (ra_box r) (ra_shape r) (ra_time r) (known ++ [name])),
             enc (set_raster ph s (with_layers r (map_insert name (fill, repeat fill (Z.to_nat (nr_cells r))) (ra_layers r))) areas))
  end.
Proof.
  intros F G T K fill. unfold add_constant. rewrite (knows_enc _ _ _ _ r) by assumption. unfold enc_view. rewrite F. cbn [rv_phenomenon rv_set rv_id rv_shape].
  rewrite (get_set_enc origin ph s r) by assumption.
  destruct (find_same_grid ph s r) as [g Eg]. rewrite Eg. 
  replace (map_find name (se_different (enc_set ph s r))) with (option_map (enc_layer ph s r name) (map_find name (ra_layers r)))
    by (unfold RasterViewProofs2.enc_set; cbn [se_different]; rewrite T; symmetry; apply mapv_find).
  destruct (existsb (same_text name) known) eqn:EK.
  { apply existsb_exists in EK. destruct EK as [n [In_ En]]. apply same_text_true in En. subst n. specialize (K _ In_). destruct (map_find name (ra_layers r)); [reflexivity|congruence]. }
  destruct (map_find name (ra_layers r)) as [l|] eqn:Fn; [reflexivity|]. cbn [option_map].
  fold fill. unfold expand_objects, counted, create_objects, ValueModel.create_group. cbn [gr_items create_item ValueModel.find_item find option_map app ha_count length Z.of_nat].
  change (0 + Z.pos (Pos.of_succ_nat 0)) with 1. unfold know. cbn [rv_phenomenon rv_set rv_id rv_box rv_shape rv_time rv_layers]. f_equal.
  rewrite <- put_set_enc, enc_add_layer, T. f_equal. f_equal. f_equal. unfold enc_layer. rewrite T. f_equal. f_equal. f_equal. f_equal. unfold create_array, full_shape. rewrite T. cbn [fst snd].
  f_equal. f_equal. f_equal. unfold nr_cells. rewrite T. now rewrite volume_prodZ.
Qed.
Lemma add_variable_enc ph s known r t name areas : find_raster ph s areas = Some r -> good_raster r -> ra_time r = Some t ->
  (forall n, In n known -> map_find n (ra_layers r) <> None) ->
  add_variable zero name (enc_view areas (ph, s, known)) (enc areas) =
  match map_find name (ra_layers r) with
  | Some _ => (Throw, enc areas)
  | None => (Ok (View ph s (ra_id r) (ra_box r) (ra_shape r) (ra_time r) (known ++ [name])),
             enc (set_raster ph s (with_layers r (map_insert name (zero, repeat zero (Z.to_nat (nr_cells r))) (ra_layers r))) areas))
  end.
Proof.
  intros F G T K. unfold add_variable. rewrite (knows_enc _ _ _ _ r) by assumption. unfold enc_view. rewrite F. cbn [rv_phenomenon rv_set rv_id rv_shape rv_time].
  rewrite (get_set_enc origin ph s r) by assumption. rewrite T.
  destruct (find_same_grid ph s r) as [g Eg]. destruct (find_time_grid ph s r t T) as [tg Et]. rewrite Eg, Et. 
  replace (map_find name (se_different_constant (enc_set ph s r))) with (option_map (enc_layer ph s r name) (map_find name (ra_layers r)))
    by (unfold RasterViewProofs2.enc_set; cbn [se_different_constant]; rewrite T; symmetry; apply mapv_find).
  destruct t as [b n].
  destruct (existsb (same_text name) known) eqn:EK.
  { apply existsb_exists in EK. destruct EK as [m [In_ En]]. apply same_text_true in En. subst m. specialize (K _ In_). destruct (map_find name (ra_layers r)); [reflexivity|congruence]. }
  destruct (map_find name (ra_layers r)) as [l|] eqn:Fn; [reflexivity|]. cbn [option_map].
  pose proof (gd_extents _ G) as X. rewrite T in X.
  unfold expand_values, counted, create_values, ValueModel.create_group, new_value. rewrite (expand_one _ _ X). cbn [obind gr_items create_item ValueModel.find_item find option_map app ha_count length Z.of_nat].
  change (0 + Z.pos (Pos.of_succ_nat 0)) with 1. unfold know. cbn [rv_phenomenon rv_set rv_id rv_box rv_shape rv_time rv_layers]. f_equal.
  rewrite <- put_set_enc, enc_add_layer, T. f_equal. f_equal. f_equal. unfold enc_layer. rewrite T. f_equal. f_equal. f_equal. f_equal. unfold full_shape. rewrite T. cbn [fst snd].
  f_equal. f_equal. f_equal. unfold nr_cells. now rewrite T.
Qed.

(** *** Writing and reading a layer *)
Lemma write_layer_enc ph s known r name cells areas : find_raster ph s areas = Some r -> good_raster r -> Z.of_nat (length cells) = nr_cells r ->
  write_layer name cells (enc_view areas (ph, s, known)) (enc areas) =
  match (if existsb (same_text name) known then map_find name (ra_layers r) else None) with
  | None => Throw
  | Some (fill, _) => Ok (enc (set_raster ph s (with_layers r (map_update name (fill, cells) (ra_layers r))) areas))
  end.
Proof.
  intros F G L. unfold write_layer. rewrite (knows_enc _ _ _ _ r) by assumption. unfold enc_view. rewrite F. cbn [rv_phenomenon rv_set rv_id rv_shape rv_time].
  destruct (existsb (same_text name) known); [|reflexivity].
  rewrite (get_set_enc origin ph s r) by assumption. cbn [obind]. pose proof (gd_extents _ G) as X.
  destruct (ra_time r) as [[b n]|] eqn:T.
  - unfold get. replace (map_find name (se_different_constant (enc_set ph s r))) with (option_map (enc_layer ph s r name) (map_find name (ra_layers r)))
      by (unfold RasterViewProofs2.enc_set; cbn [se_different_constant]; rewrite T; symmetry; apply mapv_find).
    destruct (map_find name (ra_layers r)) as [[fill old]|] eqn:Fn; [|reflexivity]. cbn [option_map obind].
    destruct (gd_layers _ G _ _ _ Fn) as [Lo _]. unfold nr_cells in L, Lo. rewrite T in L, Lo.
    unfold update_item, item. cbn [enc_layer vp_value gr_items gr_count ValueModel.find_item find fst snd]. unfold ValueModel.find_item. cbn [find fst]. rewrite Z.eqb_refl. cbn [option_map snd obind].
    unfold full_shape at 1. rewrite T. rewrite (write_index_eq _ _ _ fill X Lo L). cbn [obind]. f_equal. rewrite <- put_set_enc, enc_update_layer, T. f_equal. f_equal. f_equal.
    unfold store_item. cbn [map fst]. rewrite Z.eqb_refl. unfold enc_layer, full_shape. rewrite T. reflexivity.
  - unfold get. replace (map_find name (se_different (enc_set ph s r))) with (option_map (enc_layer ph s r name) (map_find name (ra_layers r)))
      by (unfold RasterViewProofs2.enc_set; cbn [se_different]; rewrite T; symmetry; apply mapv_find).
    destruct (map_find name (ra_layers r)) as [[fill old]|] eqn:Fn; [|reflexivity]. cbn [option_map obind].
    destruct (gd_layers _ G _ _ _ Fn) as [Lo _]. unfold nr_cells in L, Lo. rewrite T in L, Lo.
    unfold update_item, item. cbn [enc_layer vp_value gr_items gr_count ValueModel.find_item find fst snd]. unfold ValueModel.find_item. cbn [find fst]. rewrite Z.eqb_refl. cbn [option_map snd obind].
    unfold full_shape at 1. rewrite T. rewrite (write_array_eq _ _ _ fill X Lo L). cbn [obind]. f_equal. rewrite <- put_set_enc, enc_update_layer, T. f_equal. f_equal. f_equal.
    unfold store_item. cbn [map fst]. rewrite Z.eqb_refl. unfold enc_layer, full_shape. rewrite T. reflexivity.
Qed.
Lemma read_layer_enc ph s known r name areas : find_raster ph s areas = Some r -> good_raster r ->
  read_layer zero name (nr_cells r) (enc_view areas (ph, s, known)) (enc areas) =
  match (if existsb (same_text name) known then map_find name (ra_layers r) else None) with
  | None => Throw
  | Some (_, cells) => Ok cells
  end.
Proof.
  intros F G. unfold read_layer, layer_of. rewrite (knows_enc _ _ _ _ r) by assumption. unfold enc_view. rewrite F. cbn [rv_phenomenon rv_set rv_id rv_shape rv_time].
  destruct (existsb (same_text name) known); [|reflexivity].
  rewrite (get_set_enc origin ph s r) by assumption. cbn [obind]. pose proof (gd_extents _ G) as X.
  assert (LB : Z.of_nat (length (repeat zero (Z.to_nat (nr_cells r)))) = nr_cells r).
  { rewrite repeat_length. pose proof (extents_pos _ X) as P. unfold nr_cells. destruct (ra_time r) as [[b n]|]; pose proof (volume_pos _ P); lia. }
  destruct (ra_time r) as [[b n]|] eqn:T.
  - unfold get. replace (map_find name (se_different_constant (enc_set ph s r))) with (option_map (enc_layer ph s r name) (map_find name (ra_layers r)))
      by (unfold RasterViewProofs2.enc_set; cbn [se_different_constant]; rewrite T; symmetry; apply mapv_find).
    destruct (map_find name (ra_layers r)) as [[fill old]|] eqn:Fn; [|reflexivity]. cbn [option_map obind].
    destruct (gd_layers _ G _ _ _ Fn) as [Lo _]. unfold nr_cells in LB at 2. unfold nr_cells in Lo. rewrite T in LB, Lo.
    unfold item. cbn [enc_layer vp_value gr_items]. unfold ValueModel.find_item. cbn [find fst]. rewrite Z.eqb_refl. cbn [option_map snd obind].
    unfold full_shape. rewrite T. rewrite (read_index_eq _ _ _ fill X Lo LB). reflexivity.
  - unfold get. replace (map_find name (se_different (enc_set ph s r))) with (option_map (enc_layer ph s r name) (map_find name (ra_layers r)))
      by (unfold RasterViewProofs2.enc_set; cbn [se_different]; rewrite T; symmetry; apply mapv_find).
    destruct (map_find name (ra_layers r)) as [[fill old]|] eqn:Fn; [|reflexivity]. cbn [option_map obind].
    destruct (gd_layers _ G _ _ _ Fn) as [Lo _]. unfold nr_cells in LB at 2. unfold nr_cells in Lo. rewrite T in LB, Lo.
    unfold item. cbn [enc_layer vp_value gr_items]. unfold ValueModel.find_item. cbn [find fst]. rewrite Z.eqb_refl. cbn [option_map snd obind].
    unfold full_shape. rewrite T. rewrite (read_array_eq _ _ _ fill X Lo LB). reflexivity.
Qed.
Lemma find_raster_good ph s r areas : good_areas areas -> find_raster ph s areas = Some r -> good_raster r.
Proof. unfold find_raster. intros G F. destruct (map_find ph areas) as [a|] eqn:Fa; [|discriminate]. exact (proj1 (G _ _ _ _ Fa F)). Qed.

(** ** A step, and a program *)
Lemma step_enc o st : good st -> proper_op st o ->
  step zero origin o (enc_world st) = (fst (expected zero o st), enc_world (snd (expected zero o st))) /\ good (snd (expected zero o st)).
Proof.
  intros HG HP. pose proof HG as [G GV]. destruct o as [ph ids|ph s shape box|ph s steps tb shape box|ph s|ph s|i name no_data|i|i name cells|i name size]; cbn [step expected].
  - cbn [enc_world wo_store RasterViewProofs3.enc_world]. rewrite contains_enc, map_contains_find. destruct (map_find ph (st_areas st)) as [a|] eqn:F; [split; [reflexivity|exact HG]|].
    assert (LT : later (st_areas st) (map_insert ph (Area ids []) (st_areas st))).
    { intros p t r Fr. exists r. split; [|split; [apply same_meta_refl|tauto]]. unfold find_raster in *. rewrite map_find_insert by assumption. destruct (same_text ph p) eqn:Ep; [|exact Fr].
      apply same_text_true in Ep. subst p. rewrite F in Fr. discriminate. }
    destruct (later_views _ _ _ LT GV) as [V1 V2]. split.
    + cbn [fst snd]. unfold RasterViewProofs3.enc_world. cbn [st_areas st_views wo_views]. rewrite V1. f_equal. f_equal. change (Phen ids []) with (enc_area origin ph (@Area E C ids [])). apply mapv_insert.
    + cbn [snd]. split; [|exact V2]. intros p a s r F1 F2. cbn [st_areas] in F1. rewrite map_find_insert in F1 by assumption. destruct (same_text ph p); [injection F1 as <-; discriminate|exact (G _ _ _ _ F1 F2)].
  - destruct HP as [X [L2 L4]]. unfold create_constant. cbn [RasterViewProofs3.enc_world wo_store wo_views]. apply created_step; [exact HG| | |].
    + destruct box as [|b0 [|b1 [|b2 [|b3 [|]]]]]; try discriminate. destruct shape as [|n0 [|n1 [|]]]; try discriminate. reflexivity.
    + intros r GR areas a F1 F2 N I T. exact (open_constant_enc origin ph s r a areas F1 F2 GR N I T).
    + intros id. split; [exact X|exact L2|exact L4|discriminate].
  - destruct HP as [X [L2 L4]]. unfold create_variable. cbn [RasterViewProofs3.enc_world wo_store wo_views]. apply created_step; [exact HG| | |].
    + destruct box as [|b0 [|b1 [|b2 [|b3 [|]]]]]; try discriminate. destruct shape as [|n0 [|n1 [|]]]; try discriminate. reflexivity.
    + intros r GR areas a F1 F2 N I T. exact (open_variable_enc origin ph s r a areas _ F1 F2 GR N I T).
    + intros id. split; [exact X|exact L2|exact L4|discriminate].
  - cbn [RasterViewProofs3.enc_world wo_store wo_views]. apply (opened_step origin ph s false st); [exact HG| | | |].
    + intros a r F1 F2 GR. exact (contains_constant_enc origin ph s r a _ F1 F2 GR).
    + intros F. unfold contains_constant, contains_raster, get. now rewrite find_enc, F.
    + intros a F1 F2. unfold contains_constant, contains_raster. rewrite (get_enc origin _ _ _ F1). cbn [obind]. unfold get. cbn [enc_area pn_sets]. now rewrite mapv_find, F2.
    + intros a r F1 F2 GR N I V. assert (T : ra_time r = None) by (unfold is_variable in V; now destruct (ra_time r)). rewrite T. exact (open_constant_enc origin ph s r a _ F1 F2 GR N I T).
  - cbn [RasterViewProofs3.enc_world wo_store wo_views]. apply (opened_step origin ph s true st); [exact HG| | | |].
    + intros a r F1 F2 GR. exact (contains_variable_enc origin ph s r a _ F1 F2 GR).
    + intros F. unfold contains_variable, contains_raster, get. now rewrite find_enc, F.
    + intros a F1 F2. unfold contains_variable, contains_raster. rewrite (get_enc origin _ _ _ F1). cbn [obind]. unfold get. cbn [enc_area pn_sets]. now rewrite mapv_find, F2.
    + intros a r F1 F2 GR N I V. unfold is_variable in V. destruct (ra_time r) as [t|] eqn:T; [|discriminate]. exact (open_variable_enc origin ph s r a _ t F1 F2 GR N I T).
  - unfold on_view, at_view. cbn [RasterViewProofs3.enc_world wo_store wo_views]. rewrite nth_error_map. destruct (nth_error (st_views st) i) as [[[ph s] known]|] eqn:Ni; [|split; [reflexivity|exact HG]].
    cbn [option_map]. destruct (GV ph s known (nth_error_In _ _ Ni)) as [r [F K]]. rewrite F. pose proof (find_raster_good _ _ _ _ G F) as GR. destruct HP as [N1 N2].
    assert (EA : (match rv_time (enc_view (st_areas st) (ph, s, known)) with
       | None => add_constant zero name no_data (enc_view (st_areas st) (ph, s, known)) (enc (st_areas st))
       | Some _ => add_variable zero name (enc_view (st_areas st) (ph, s, known)) (enc (st_areas st)) end) =
       match map_find name (ra_layers r) with
       | Some _ => (Throw, enc (st_areas st))
       | None => let fill := match ra_time r, no_data with None, Some v => v | _, _ => zero end in
           (Ok (View ph s (ra_id r) (ra_box r) (ra_shape r) (ra_time r) (known ++ [name])),
            enc (set_raster ph s (with_layers r (map_insert name (fill, repeat fill (Z.to_nat (nr_cells r))) (ra_layers r))) (st_areas st)))
       end).
    { replace (rv_time (enc_view (st_areas st) (ph, s, known))) with (ra_time r) by (unfold enc_view; now rewrite F). destruct (ra_time r) as [t|] eqn:T.
      - rewrite (add_variable_enc ph s known r t name _ F GR T K). now rewrite T.
      - rewrite (add_constant_enc ph s known r name no_data _ F GR T K). now rewrite T. }
    rewrite EA. clear EA. destruct (map_find name (ra_layers r)) as [l|] eqn:Fn; [split; [reflexivity|exact HG]|]. cbv zeta.
    set (fill := match ra_time r, no_data with None, Some v => v | _, _ => zero end).
    set (r' := with_layers r (map_insert name (fill, repeat fill (Z.to_nat (nr_cells r))) (ra_layers r))).
    assert (LT : later (st_areas st) (set_raster ph s r' (st_areas st))).
    { apply (later_set_raster ph s r); [exact F|apply with_layers_meta|]. intros n Hn. cbn [r' with_layers ra_layers]. rewrite map_find_insert by assumption. now destruct (same_text name n). }
    destruct (later_views _ _ _ LT GV) as [V1 V2]. destruct (upd_nth_some i (ph, s, known ++ [name]) _ _ Ni) as [views Eu]. rewrite Eu.
    assert (F' : find_raster ph s (set_raster ph s r' (st_areas st)) = Some r') by (rewrite (find_set_raster ph s r) by assumption; now rewrite !same_text_refl).
    rewrite V1. replace (View ph s (ra_id r) (ra_box r) (ra_shape r) (ra_time r) (known ++ [name])) with (enc_view (set_raster ph s r' (st_areas st)) (ph, s, known ++ [name]))
      by (unfold enc_view; now rewrite F').
    rewrite upd_nth_map, Eu. cbn [option_map fst snd]. split; [reflexivity|]. split.
    + cbn [st_areas]. apply (good_set_raster ph s r); [exact G|exact F|apply with_layers_meta|]. now apply good_add_layer.
    + cbn [st_areas st_views]. intros p t kn I. destruct (upd_nth_in _ _ _ _ _ Eu I) as [[= -> -> ->]|I']; [|now apply V2].
      exists r'. split; [exact F'|]. intros n Hn. cbn [r' with_layers ra_layers]. rewrite map_find_insert by assumption. apply in_app_or in Hn.
      destruct (same_text name n) eqn:En; [discriminate|]. destruct Hn as [Hn|[<-|[]]]; [now apply K|]. now rewrite same_text_refl in En.
  - unfold on_view, at_view. cbn [RasterViewProofs3.enc_world wo_store wo_views]. rewrite nth_error_map. destruct (nth_error (st_views st) i) as [[[ph s] known]|] eqn:Ni; [|split; [reflexivity|exact HG]].
    cbn [option_map]. destruct (GV ph s known (nth_error_In _ _ Ni)) as [r [F K]]. rewrite F. cbn [fst snd]. split; [|exact HG]. f_equal. unfold describe, enc_view. now rewrite F.
  - unfold on_view, at_view. cbn [RasterViewProofs3.enc_world wo_store wo_views]. rewrite nth_error_map. destruct (nth_error (st_views st) i) as [[[ph s] known]|] eqn:Ni; [|split; [reflexivity|exact HG]].
    cbn [option_map]. destruct (GV ph s known (nth_error_In _ _ Ni)) as [r [F K]]. rewrite F. pose proof (find_raster_good _ _ _ _ G F) as GR. cbn [proper_op] in HP. specialize (HP ph s known r Ni F).
    rewrite (write_layer_enc ph s known r) by assumption. destruct (if existsb (same_text name) known then map_find name (ra_layers r) else None) as [[fill old]|] eqn:El; [|split; [reflexivity|exact HG]].
    assert (Fn : map_find name (ra_layers r) = Some (fill, old)) by (destruct (existsb (same_text name) known); [exact El|discriminate]).
    set (r' := with_layers r (map_update name (fill, cells) (ra_layers r))).
    assert (LT : later (st_areas st) (set_raster ph s r' (st_areas st))).
    { apply (later_set_raster ph s r); [exact F|apply with_layers_meta|]. intros n Hn. cbn [r' with_layers ra_layers]. rewrite map_find_update. destruct (same_text name n); [|exact Hn]. now destruct (map_find n (ra_layers r)). }
    destruct (later_views _ _ _ LT GV) as [V1 V2]. split; [cbn [fst snd]; unfold RasterViewProofs3.enc_world; cbn [st_areas st_views]; now rewrite V1|]. split; [|exact V2]. cbn [snd st_areas].
    apply (good_set_raster ph s r); [exact G|exact F|apply with_layers_meta|]. destruct GR as [G1 G2 G3 G4]. split; [exact G1|exact G2|exact G3|]. intros n f c. cbn [r' with_layers ra_layers].
    change (nr_cells r') with (nr_cells r). rewrite map_find_update. destruct (same_text name n) eqn:En; [|apply G4]. apply same_text_true in En. subst n. rewrite Fn. intros [= <- <-].
    destruct (G4 _ _ _ Fn) as [_ NN]. split; [exact HP|exact NN].
  - unfold on_view, at_view. cbn [RasterViewProofs3.enc_world wo_store wo_views]. rewrite nth_error_map. destruct (nth_error (st_views st) i) as [[[ph s] known]|] eqn:Ni; [|split; [reflexivity|exact HG]].
    cbn [option_map]. destruct (GV ph s known (nth_error_In _ _ Ni)) as [r [F K]]. rewrite F. pose proof (find_raster_good _ _ _ _ G F) as GR. cbn [proper_op] in HP. rewrite (HP ph s known r Ni F).
    rewrite (read_layer_enc ph s known r) by assumption. destruct (if existsb (same_text name) known then map_find name (ra_layers r) else None) as [[fill old]|]; split; try reflexivity; exact HG.
Qed.

Lemma run_enc ops : forall st, good st -> proper_program zero ops st ->
  run zero origin ops (enc_world st) = (fst (expect zero ops st), enc_world (snd (expect zero ops st))) /\ good (snd (expect zero ops st)).
Proof.
  induction ops as [|o ops IH]; intros st G P; [split; [reflexivity|exact G]|]. destruct P as [P1 P2]. destruct (step_enc o st G P1) as [E1 G1].
  cbn [run expect]. rewrite E1. destruct (expected zero o st) as [an st1]. cbn [fst snd] in *. destruct (IH st1 G1 P2) as [E2 G2]. rewrite E2.
  destruct (expect zero ops st1) as [l st2]. split; [reflexivity|exact G2].
Qed.
Lemma good_nothing : good (@nothing E C).
Proof. split; [intros ph a s r F; discriminate|intros ph s known []]. Qed.
Lemma new_world_enc : new_world = enc_world (@nothing E C).
Proof. reflexivity. Qed.
End Layers.
