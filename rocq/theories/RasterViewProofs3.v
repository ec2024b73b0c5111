(** Proofs about the views on rasters: programs *)
From Coq Require Import Ascii String.
From Verif Require Import Common CoreSpec DecompSpec ArraySpec IndexModel DecompModel ArrayModel IOModel IOSpec NumpyModel NumpySpec ValueModel ValueSpec ValidateModel.
From Verif Require Import FileNameModel CatalogModel RasterViewModel RasterViewSpec.
From Verif Require Import CommonProofs ArrayProofs ValueProofs ValueProofs4 CatalogProofs CatalogProofs2 RasterViewProofs RasterViewProofs2.
Open Scope Z_scope.

Section Programs.
Context {E C : Type} (zero : E) (origin : C).
Implicit Types (r : @raster E C) (areas : list (text * @area E C)) (a : @area E C) (st : @state E C).
Notation enc := (enc origin).
Notation enc_set := (enc_set origin).

(** Rasters remain, and so do their layers *)
Definition same_meta r r' : Prop := ra_id r' = ra_id r /\ ra_box r' = ra_box r /\ ra_shape r' = ra_shape r /\ ra_time r' = ra_time r.
Definition later areas areas' : Prop := forall ph s r, find_raster ph s areas = Some r ->
  exists r', find_raster ph s areas' = Some r' /\ same_meta r r' /\ forall name, map_find name (ra_layers r) <> None -> map_find name (ra_layers r') <> None.
Lemma same_meta_refl r : same_meta r r.
Proof. now repeat split. Qed.
Lemma later_refl areas : later areas areas.
Proof. intros ph s r F. exists r. split; [exact F|]. split; [apply same_meta_refl|tauto]. Qed.
Lemma later_views areas areas' views : later areas areas' -> good_views areas views ->
  map (enc_view areas) views = map (enc_view areas') views /\ good_views areas' views.
Proof.
  intros L G. split.
  - apply map_ext_in. intros [[ph s] known] I. destruct (G _ _ _ I) as [r [F _]]. destruct (L _ _ _ F) as [r' [F' [[M1 [M2 [M3 M4]]] _]]]. unfold enc_view. rewrite F, F'. congruence.
  - intros ph s known I. destruct (G _ _ _ I) as [r [F K]]. destruct (L _ _ _ F) as [r' [F' [_ K']]]. exists r'. split; [exact F'|]. intros name Hn. now apply K', K.
Qed.

Definition good st : Prop := good_areas (st_areas st) /\ good_views (st_areas st) (st_views st).
Definition enc_world st : @world E C := World (enc (st_areas st)) (map (enc_view (st_areas st)) (st_views st)).

(** *** Changing a raster *)
Lemma good_set_raster ph s r0 r areas : good_areas areas -> find_raster ph s areas = Some r0 -> same_meta r0 r -> good_raster r -> good_areas (set_raster ph s r areas).
Proof.
  intros G F M GR p a t q F1 F2. unfold set_raster, find_raster in *. destruct (map_find ph areas) as [a0|] eqn:Fa; [|discriminate].
  rewrite map_find_update in F1. destruct (same_text ph p) eqn:Ep.
  - apply same_text_true in Ep. subst p. rewrite Fa in F1. injection F1 as <-. cbn [ar_rasters ar_ids] in *. rewrite map_find_update in F2.
    destruct (same_text s t) eqn:Et.
    + apply same_text_true in Et. subst t. rewrite F in F2. injection F2 as <-. destruct (G _ _ _ _ Fa F) as [_ [N I]]. split; [exact GR|]. split; [exact N|]. destruct M as [M _]. congruence.
    + exact (G _ _ _ _ Fa F2).
  - exact (G _ _ _ _ F1 F2).
Qed.
Lemma later_set_raster ph s r0 r areas : find_raster ph s areas = Some r0 -> same_meta r0 r -> (forall name, map_find name (ra_layers r0) <> None -> map_find name (ra_layers r) <> None) ->
  later areas (set_raster ph s r areas).
Proof.
  intros F M K p t q Fq. rewrite (find_set_raster ph s r0) by assumption. destruct (same_text ph p && same_text s t) eqn:Eq.
  - apply andb_true_iff in Eq. destruct Eq as [E1 E2]. apply same_text_true in E1, E2. subst p t. rewrite F in Fq. injection Fq as <-. exists r. now repeat split; try apply M.
  - exists q. split; [exact Fq|]. split; [apply same_meta_refl|tauto].
Qed.
Lemma with_layers_meta r layers : same_meta r (with_layers r layers).
Proof. now repeat split. Qed.

(** *** Creating a raster *)
Lemma with_object_enc ph areas : with_object ph (enc areas) = enc (with_one ph areas) /\ exists a, map_find ph (with_one ph areas) = Some a /\ ar_ids a <> [].
Proof.
  unfold with_object, with_one. rewrite contains_enc, map_contains_find. destruct (map_find ph areas) as [a|] eqn:F.
  - rewrite find_enc, F. cbn [option_map enc_area pn_ids pn_sets]. destruct (ar_ids a) eqn:EI.
    + split; [|exists (Area [5] (ar_rasters a)); split; [rewrite map_find_update, same_text_refl; now rewrite F|discriminate]].
      change (Phen [object_id] (mapv (enc_set ph) (ar_rasters a))) with (enc_area origin ph (Area [5] (ar_rasters a))). apply mapv_update.
    + split; [reflexivity|]. exists a. split; [exact F|congruence].
  - assert (F' : map_find ph (enc areas) = None) by (now rewrite find_enc, F). split.
    + rewrite map_find_insert, same_text_refl by assumption. cbn [pn_ids pn_sets].
      rewrite map_update_insert, same_text_refl.
      assert (U : map_update ph (Phen [object_id] []) (enc areas) = enc areas).
      { unfold map_update. rewrite <- map_id. apply map_ext_in. intros [k w] I. cbn [fst]. destruct (same_text k ph) eqn:Ek; [|reflexivity]. apply same_text_true in Ek. subst k.
        exfalso. assert (CT : map_contains ph (enc areas) = true) by (unfold map_contains; apply existsb_exists; exists (ph, w); split; [exact I|apply same_text_refl]).
        rewrite map_contains_find, F' in CT. discriminate. }
      rewrite U. change (Phen [object_id] []) with (enc_area origin ph (@Area E C [5] [])). apply mapv_insert.
    + exists (Area [5] []). split; [rewrite map_find_insert, same_text_refl by assumption; reflexivity|discriminate].
Qed.
Lemma with_one_find ph areas p t : find_raster p t (with_one ph areas) = find_raster p t areas.
Proof.
  unfold find_raster, with_one. destruct (map_find ph areas) as [a|] eqn:F.
  - destruct (ar_ids a); [|reflexivity]. rewrite map_find_update. destruct (same_text ph p) eqn:Ep; [|reflexivity]. apply same_text_true in Ep. subst p. now rewrite F.
  - rewrite map_find_insert by assumption. destruct (same_text ph p) eqn:Ep; [|reflexivity]. apply same_text_true in Ep. subst p. now rewrite F.
Qed.
Lemma with_one_good ph areas : good_areas areas -> good_areas (with_one ph areas).
Proof.
  intros G p a s r F1 F2. unfold with_one in F1. destruct (map_find ph areas) as [a0|] eqn:F.
  - destruct (ar_ids a0) eqn:EI; [|exact (G _ _ _ _ F1 F2)]. rewrite map_find_update in F1. destruct (same_text ph p) eqn:Ep; [|exact (G _ _ _ _ F1 F2)].
    apply same_text_true in Ep. subst p. rewrite F in F1. injection F1 as <-. cbn [ar_rasters] in F2. destruct (G _ _ _ _ F F2) as [_ [N _]]. congruence.
  - rewrite map_find_insert in F1 by assumption. destruct (same_text ph p) eqn:Ep; [|exact (G _ _ _ _ F1 F2)]. injection F1 as <-. discriminate.
Qed.
Lemma with_one_later ph areas : later areas (with_one ph areas).
Proof. intros p t r F. exists r. rewrite with_one_find. split; [exact F|]. split; [apply same_meta_refl|tauto]. Qed.

Lemma add_raster_facts ph s r a areas : map_find ph areas = Some a -> map_find s (ar_rasters a) = None -> good_areas areas -> good_raster r -> ar_ids a <> [] -> ra_id r = hd 0 (ar_ids a) ->
  let areas' := map_update ph (Area (ar_ids a) (map_insert s r (ar_rasters a))) areas in
  good_areas areas' /\ later areas areas' /\ find_raster ph s areas' = Some r.
Proof.
  intros F1 F2 G GR N I areas'. split; [|split].
  - intros p b t q Fb Fq. unfold areas' in Fb. rewrite map_find_update in Fb. destruct (same_text ph p) eqn:Ep; [|exact (G _ _ _ _ Fb Fq)].
    apply same_text_true in Ep. subst p. rewrite F1 in Fb. injection Fb as <-. cbn [ar_rasters ar_ids] in *. rewrite map_find_insert in Fq by assumption.
    destruct (same_text s t); [injection Fq as <-; tauto|exact (G _ _ _ _ F1 Fq)].
  - intros p t q Fq. exists q. split; [|split; [apply same_meta_refl|tauto]]. unfold find_raster, areas' in *. rewrite map_find_update. destruct (same_text ph p) eqn:Ep; [|exact Fq].
    apply same_text_true in Ep. subst p. rewrite F1 in *. cbn [ar_rasters]. rewrite map_find_insert by assumption. destruct (same_text s t) eqn:Et; [|exact Fq].
    apply same_text_true in Et. subst t. congruence.
  - unfold find_raster, areas'. rewrite map_find_update, same_text_refl, F1. cbn [ar_rasters]. now rewrite map_find_insert, same_text_refl by assumption.
Qed.

Lemma created_step ph s time shape box st v opening : good st -> v = Ok (enc_set ph s (Raster_ 0 box shape time [])) ->
  (forall r, good_raster r -> forall areas a, map_find ph areas = Some a -> map_find s (ar_rasters a) = Some r -> ar_ids a <> [] -> ra_id r = hd 0 (ar_ids a) -> ra_time r = time ->
     opening (enc areas) = Ok (View ph s (ra_id r) (ra_box r) (ra_shape r) time (layer_names r))) ->
  (forall id, good_raster (@Raster_ E C id box shape time [])) ->
  new_view (add_set ph s v opening (enc (st_areas st))) (map (enc_view (st_areas st)) (st_views st)) =
    (fst (RasterViewSpec.created ph s time shape box st), enc_world (snd (RasterViewSpec.created ph s time shape box st))) /\ good (snd (RasterViewSpec.created ph s time shape box st)).
Proof.
  intros [G GV] -> HO GR. unfold add_set, RasterViewSpec.created. destruct (with_object_enc ph (st_areas st)) as [EW [a [Fa N]]]. rewrite EW. clear EW.
  pose proof (with_one_good ph _ G) as G1. destruct (later_views _ _ _ (with_one_later ph (st_areas st)) GV) as [V1 V2]. revert G1 V1 V2 Fa.
  generalize (with_one ph (st_areas st)). intros areas1 G1 V1 V2 Fa. rewrite find_enc, Fa. cbn [option_map enc_area pn_ids pn_sets]. rewrite mapv_contains, map_contains_find.
  destruct (map_find s (ar_rasters a)) as [r0|] eqn:Fs.
  - cbn [new_view fst snd st_areas st_views]. unfold enc_world. cbn [st_areas st_views]. rewrite V1. split; [reflexivity|]. split; assumption.
  - set (r := Raster_ (hd 0 (ar_ids a)) box shape time []).
    change (enc_set ph s (Raster_ 0 box shape time [])) with (enc_set ph s r).
    rewrite mapv_insert. change (Phen (ar_ids a) (mapv (enc_set ph) (map_insert s r (ar_rasters a)))) with (enc_area origin ph (Area (ar_ids a) (map_insert s r (ar_rasters a)))).
    replace (map_update ph (enc_area origin ph (Area (ar_ids a) (map_insert s r (ar_rasters a)))) (enc areas1))
      with (enc (map_update ph (Area (ar_ids a) (map_insert s r (ar_rasters a))) areas1)) by (symmetry; apply mapv_update).
    destruct (add_raster_facts ph s r a areas1 Fa Fs G1 (GR _) N eq_refl) as [G2 [L2 F2]]. cbv zeta in *.
    set (areas2 := map_update ph (Area (ar_ids a) (map_insert s r (ar_rasters a))) areas1) in *.
    rewrite (HO r (GR _) areas2 (Area (ar_ids a) (map_insert s r (ar_rasters a))));
      [|unfold areas2; rewrite map_find_update, same_text_refl; now rewrite Fa|cbn [ar_rasters]; now rewrite map_find_insert, same_text_refl by assumption|exact N|reflexivity|reflexivity].
    destruct (later_views _ _ _ L2 V2) as [V3 V4]. cbn [new_view fst snd]. unfold enc_world. cbn [st_areas st_views]. rewrite map_app, V1, V3. cbn [map].
    split.
    + f_equal. f_equal. f_equal. f_equal. unfold enc_view. rewrite F2. reflexivity.
    + split; [exact G2|]. intros p t known I. apply in_app_or in I. destruct I as [I|[[= <- <- <-]|[]]]; [now apply V4|]. exists r. split; [exact F2|]. intros name [].
Qed.

Lemma opened_step ph s variable st contains opening : good st ->
  (forall a r, map_find ph (st_areas st) = Some a -> map_find s (ar_rasters a) = Some r -> good_raster r ->
     contains = Ok ((Z.of_nat (length (ar_ids a)) =? 1) && Bool.eqb (is_variable r) variable)) ->
  (map_find ph (st_areas st) = None -> contains = Throw) -> (forall a, map_find ph (st_areas st) = Some a -> map_find s (ar_rasters a) = None -> contains = Throw) ->
  (forall a r, map_find ph (st_areas st) = Some a -> map_find s (ar_rasters a) = Some r -> good_raster r -> ar_ids a <> [] -> ra_id r = hd 0 (ar_ids a) -> is_variable r = variable ->
     opening = Ok (View ph s (ra_id r) (ra_box r) (ra_shape r) (ra_time r) (layer_names r))) ->
  match contains with
  | Ok true => new_view (opening, enc (st_areas st)) (map (enc_view (st_areas st)) (st_views st))
  | Ok false => (NoRaster, enc_world st) | Throw => (Refused, enc_world st) | UB => (Undefined, enc_world st)
  end = (fst (RasterViewSpec.opened ph s variable st), enc_world (snd (RasterViewSpec.opened ph s variable st))) /\ good (snd (RasterViewSpec.opened ph s variable st)).
Proof.
  intros [G GV] H1 H2 H3 H4. unfold RasterViewSpec.opened. destruct (map_find ph (st_areas st)) as [a|] eqn:F1.
  - destruct (map_find s (ar_rasters a)) as [r|] eqn:F2.
    + destruct (G _ _ _ _ F1 F2) as [GR [N I]]. rewrite (H1 a r eq_refl F2 GR). destruct (Z.of_nat (length (ar_ids a)) =? 1); cbn [andb]; [|split; [reflexivity|split; assumption]].
      destruct (Bool.eqb (is_variable r) variable) eqn:EV; [|split; [reflexivity|split; assumption]]. apply Bool.eqb_prop in EV.
      assert (FR : find_raster ph s (st_areas st) = Some r) by (unfold find_raster; now rewrite F1).
      rewrite (H4 a r eq_refl F2 GR N I EV). cbn [new_view fst snd]. unfold enc_world. cbn [st_areas st_views]. split.
      * f_equal. f_equal. rewrite map_app. f_equal. cbn [map]. unfold enc_view. now rewrite FR.
      * split; [exact G|]. intros p t known Hin. apply in_app_or in Hin. destruct Hin as [Hin|[[= <- <- <-]|[]]]; [now apply GV|].
        exists r. split; [exact FR|]. intros name Hn. unfold layer_names in Hn. intros Fn. apply in_map_iff in Hn. destruct Hn as [[k v] [<- Hi]]. cbn [fst] in Fn.
        assert (CT : map_contains k (ra_layers r) = true) by (unfold map_contains; apply existsb_exists; exists (k, v); split; [exact Hi|apply same_text_refl]).
        rewrite map_contains_find, Fn in CT. discriminate.
    + rewrite (H3 a eq_refl F2). split; [reflexivity|split; assumption].
  - rewrite (H2 eq_refl). split; [reflexivity|split; assumption].
Qed.
End Programs.
