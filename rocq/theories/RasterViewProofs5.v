(** Proofs about the views on rasters: datasets that are accepted by the validation, and opening what is said to be a raster *)
From Coq Require Import Ascii String.
From Verif Require Import Common CoreSpec DecompSpec ArraySpec IndexModel DecompModel ArrayModel IOModel IOSpec NumpyModel NumpySpec ValueModel ValueSpec ValidateModel ValidateSpec.
From Verif Require Import FileNameModel CatalogModel RasterViewModel RasterViewSpec.
From Verif Require Import CommonProofs IndexProofs ArrayProofs ValueProofs ValueProofs2 ValueProofs4 ValidateProofs ValidateProofs2 ValidateProofs3 CatalogProofs CatalogProofs2 RasterViewProofs RasterViewProofs2 RasterViewProofs3 RasterViewProofs4.
Open Scope Z_scope.

(** ** Names are unique *)
Lemma absent {T} k (m : list (text * T)) : map_find k m = None -> ~ In k (map fst m).
Proof.
  intros F I. apply in_map_iff in I. destruct I as [[k' v] [E0 I]]. cbn in E0. subst k'.
  assert (CT : map_contains k m = true) by (unfold map_contains; apply existsb_exists; exists (k, v); split; [exact I|apply same_text_refl]).
  rewrite map_contains_find, F in CT. discriminate.
Qed.
Lemma insert_unique {T} k (v : T) m : map_find k m = None -> NoDup (map fst m) -> NoDup (map fst (map_insert k v m)).
Proof.
  intros F. apply absent in F. induction m as [|[k' w] m IH]; intros N; cbn [map_insert]; [constructor; [intros []|constructor]|]. cbn [map fst] in *. destruct (same_text k k'); [exact N|].
  destruct (text_less k k'); cbn [map fst]; [now constructor|]. apply NoDup_cons_iff in N. destruct N as [N1 N2]. constructor; [|apply IH; [intros H; apply F; now right|exact N2]].
  intros I. apply in_map_iff in I. destruct I as [x [Ex Ix]]. apply map_insert_in in Ix. destruct Ix as [->|Ix]; [cbn in Ex; apply F; now left|].
  apply N1. rewrite <- Ex. now apply in_map.
Qed.
Lemma unique_find {T} k (v : T) m : NoDup (map fst m) -> In (k, v) m -> map_find k m = Some v.
Proof.
  intros N I. destruct (map_find k m) as [w|] eqn:F.
  - apply map_find_in in F. f_equal. revert N I F. clear. induction m as [|[k' u] m IH]; intros N I F; [destruct I|]. cbn in N. apply NoDup_cons_iff in N. destruct N as [N1 N2].
    destruct F as [F|F], I as [I|I].
    + congruence.
    + injection F as -> ->. exfalso. apply N1. change k with (fst (k, v)). now apply in_map.
    + injection I as -> ->. exfalso. apply N1. change k with (fst (k, w)). now apply in_map.
    + now apply IH.
  - apply absent in F. exfalso. apply F. change k with (fst (k, v)). now apply in_map.
Qed.

Section Valid.
Context {E C : Type} (zero : E) (origin : C).
Implicit Types (r : @raster E C) (areas : list (text * @area E C)) (a : @area E C) (st : @state E C).
Notation enc := (enc origin).
Notation enc_set := (enc_set origin).
Notation enc_world := (enc_world origin).

Definition unique areas : Prop := NoDup (map fst areas) /\ forall ph a, In (ph, a) areas -> NoDup (map fst (ar_rasters a)).
Lemma update_unique ph a areas : unique areas -> NoDup (map fst (ar_rasters a)) -> unique (map_update ph a areas).
Proof.
  intros [U1 U2] N. split; [now rewrite map_update_keys|]. intros p b I. unfold map_update in I. apply in_map_iff in I. destruct I as [[k w] [Ek Ik]]. cbn [fst] in Ek.
  destruct (same_text k ph); [now injection Ek as <- <-|]. injection Ek as <- <-. now apply (U2 k).
Qed.
Lemma add_unique ph a areas : unique areas -> map_find ph areas = None -> NoDup (map fst (ar_rasters a)) -> unique (map_insert ph a areas).
Proof.
  intros [U1 U2] F N. split; [now apply insert_unique|]. intros p b I. apply map_insert_in in I. destruct I as [[= -> ->]|I]; [exact N|now apply (U2 p)].
Qed.
Lemma find_unique ph a areas : unique areas -> map_find ph areas = Some a -> NoDup (map fst (ar_rasters a)).
Proof. intros [_ U] F. apply (U ph). now apply map_find_in. Qed.
Lemma with_one_unique ph areas : unique areas -> unique (with_one ph areas).
Proof.
  intros U. unfold with_one. destruct (map_find ph areas) as [a|] eqn:F.
  - destruct (ar_ids a); [|exact U]. apply update_unique; [exact U|]. cbn [ar_rasters]. now apply (find_unique ph a areas).
  - apply add_unique; [exact U|exact F|constructor].
Qed.
Lemma set_raster_unique ph s r areas : unique areas -> unique (set_raster ph s r areas).
Proof.
  intros U. unfold set_raster. destruct (map_find ph areas) as [a|] eqn:F; [|exact U]. apply update_unique; [exact U|]. cbn [ar_rasters]. rewrite map_update_keys. now apply (find_unique ph a areas).
Qed.
Lemma created_unique ph s time shape box st : unique (st_areas st) -> unique (st_areas (snd (RasterViewSpec.created ph s time shape box st))).
Proof.
  intros U. unfold RasterViewSpec.created. pose proof (with_one_unique ph _ U) as U1. destruct (map_find ph (with_one ph (st_areas st))) as [a|] eqn:F; [|exact U].
  destruct (map_find s (ar_rasters a)) as [r0|] eqn:Fs; [exact U1|]. cbn [snd st_areas]. apply update_unique; [exact U1|]. cbn [ar_rasters]. apply insert_unique; [exact Fs|].
  now apply (find_unique ph a _ U1).
Qed.
Lemma opened_areas ph s v st : st_areas (snd (RasterViewSpec.opened ph s v st)) = st_areas st.
Proof.
  unfold RasterViewSpec.opened. destruct (map_find ph (st_areas st)) as [a|]; [|reflexivity]. destruct (map_find s (ar_rasters a)) as [r|]; [|reflexivity]. now destruct (_ && _).
Qed.
Lemma expected_unique o st : unique (st_areas st) -> unique (st_areas (snd (expected zero o st))).
Proof.
  intros U. destruct o as [ph ids|ph s shape box|ph s steps tb shape box|ph s|ph s|i name no_data|i|i name cells|i name size]; cbn [expected].
  - destruct (map_find ph (st_areas st)) eqn:F; [exact U|]. cbn [snd st_areas]. apply add_unique; [exact U|exact F|constructor].
  - now apply created_unique.
  - now apply created_unique.
  - now rewrite opened_areas.
  - now rewrite opened_areas.
  - unfold at_view. destruct (nth_error (st_views st) i) as [[[ph s] known]|]; [|exact U]. destruct (find_raster ph s (st_areas st)) as [r|]; [|exact U].
    destruct (map_find name (ra_layers r)); [exact U|]. destruct (upd_nth i (ph, s, known ++ [name]) (st_views st)); [|exact U]. now apply set_raster_unique.
  - unfold at_view. destruct (nth_error (st_views st) i) as [[[ph s] known]|]; [|exact U]. now destruct (find_raster ph s (st_areas st)).
  - unfold at_view. destruct (nth_error (st_views st) i) as [[[ph s] known]|]; [|exact U]. destruct (find_raster ph s (st_areas st)) as [r|]; [|exact U].
    destruct (if existsb (same_text name) known then map_find name (ra_layers r) else None) as [[fill old]|]; [|exact U]. now apply set_raster_unique.
  - unfold at_view. destruct (nth_error (st_views st) i) as [[[ph s] known]|]; [|exact U]. destruct (find_raster ph s (st_areas st)) as [r|]; [|exact U].
    now destruct (if existsb (same_text name) known then map_find name (ra_layers r) else None) as [[fill old]|].
Qed.
Lemma expect_unique ops : forall st, unique (st_areas st) -> unique (st_areas (snd (expect zero ops st))).
Proof.
  induction ops as [|o ops IH]; intros st U; [exact U|]. cbn [expect]. pose proof (expected_unique o st U) as U1. destruct (expected zero o st) as [an st1]. cbn [snd] in U1.
  specialize (IH st1 U1). destruct (expect zero ops st1) as [l st2]. exact IH.
Qed.

(** ** Validation *)

Lemma nr_forget {T} (v : array T) : nr_arrays (forget v) = nr_arrays v.
Proof. reflexivity. Qed.
Lemma nodup_one (x : Z) : NoDup [x].
Proof. constructor; [intros []|constructor]. Qed.
Lemma grid_space ph s r : grid_at ph s (enc_set ph s r) (Some (Link true (path_of ph s SameShape space_grid_name))) = Some (Grid false true true false true 1 [2]).
Proof.
  unfold grid_at. cbn [ln_path]. rewrite same_location_refl. unfold RasterViewProofs2.enc_set, map_find. cbn [se_same find fst snd]. rewrite same_text_refl. reflexivity.
Qed.

Lemma set_valid ph s r a : ar_ids a <> [] -> ra_id r = hd 0 (ar_ids a) -> (valid_set (ar_ids a) (to_set ph s (enc_set ph s r)) <-> fine_raster a r).
Proof.
  intros N I. split.
  - intros [VT Vt Vs VV]. unfold to_set in *. cbn [ps_tracker ps_time ps_space ps_properties] in *. cbn [RasterViewProofs2.enc_set se_tracker se_time se_space] in *.
    assert (L : length (ar_ids a) = 1%nat). { specialize (Vs _ eq_refl). cbn [option_map sp_items valid_space] in Vs. rewrite nr_forget in Vs. cbn in Vs. unfold len in Vs. lia. }
    split; [exact L|]. destruct (ra_time r) as [[[b e] n]|]; [|exact Logic.I]. split.
    + apply active_ids_known in VT; [|exact N]. cbn [tr_ids] in VT. specialize (VT 5 (or_introl eq_refl)). destruct (ar_ids a) as [|x [|]]; try discriminate. cbn in I. destruct VT as [->|[]]. exact I.
    + specialize (Vt _ eq_refl). cbn [option_map ti_boxes valid_time coordinates map concat fst snd app] in Vt. destruct Vt as [Vt _]. inversion Vt; subst. now inversion H2.
  - intros [L HT]. destruct (ar_ids a) as [|id [|]]; try discriminate. cbn in I. clear N L.
    split; unfold to_set; cbn [ps_tracker ps_time ps_space ps_properties]; cbn [RasterViewProofs2.enc_set se_tracker se_time se_space].
    + destruct (ra_time r) as [[[b e] n]|].
      * destruct HT as [H5 _]. split; cbn [tr_sets tr_ids tr_idxs].
        -- apply nodup_one.
        -- discriminate.
        -- cbn. repeat constructor; lia.
        -- intros [|k] Hk; [apply nodup_one|cbn in Hk; lia].
        -- intros _. repeat constructor. cbn. lia.
        -- intros _ x [<-|[]]. left. congruence.
      * split; cbn [tr_sets tr_ids tr_idxs].
        -- apply nodup_one.
        -- now split.
        -- cbn. repeat constructor.
        -- intros k Hk. cbn in Hk. lia.
        -- congruence.
        -- intros _ x [].
    + intros d Hd. destruct (ra_time r) as [[[b e] n]|]; [|discriminate]. injection Hd as <-. cbn [ti_boxes fst valid_time coordinates map concat snd app tr_sets]. split; [|reflexivity].
      destruct HT as [_ HT]. repeat constructor; assumption.
    + intros d Hd. injection Hd as <-. reflexivity.
    + intros p Hp. repeat (apply in_app_or in Hp; destruct Hp as [Hp|Hp]).
      * cbn [RasterViewProofs2.enc_set se_same map snd] in Hp. destruct Hp as [<-|[]]. cbn [di_property di_time di_space complete]. split; [reflexivity|]. split; intros g Hg; discriminate.
      * cbn [RasterViewProofs2.enc_set se_same_constant] in Hp. destruct (ra_time r) as [[[b e] n]|]; [|destruct Hp]. cbn [map snd] in Hp. destruct Hp as [<-|[]]. cbn [di_property di_time di_space complete]. split; [reflexivity|]. split; intros g Hg; discriminate.
      * apply in_map_iff in Hp. destruct Hp as [[k l] [<- Hp]]. cbn [RasterViewProofs2.enc_set se_different] in Hp. destruct (ra_time r) as [t|] eqn:T; [destruct Hp|].
        unfold mapv in Hp. apply in_map_iff in Hp. destruct Hp as [[k' [fill cells]] [[= <- <-] _]]. cbn [snd di_property di_time di_space].
        cbn [enc_layer vp_value vp_time vp_space]. rewrite T. rewrite grid_space. cbn [grid_at]. split; [|split; [intros g Hg; discriminate|]].
        -- cbn [complete]. split; [reflexivity|]. intros x [<-|[]]. unfold item, forget_group, ValueModel.find_item. cbn [gr_items map find fst]. rewrite <- I, Z.eqb_refl. now eexists.
        -- intros g [= <-]. cbn [valid_space_grid gr_variable]. split; [reflexivity|]. repeat split.
      * apply in_map_iff in Hp. destruct Hp as [[k l] [<- Hp]]. cbn [RasterViewProofs2.enc_set se_different_constant] in Hp. destruct (ra_time r) as [[[b e] n]|] eqn:T; [|destruct Hp].
        destruct HT as [H5 _].
        unfold mapv in Hp. apply in_map_iff in Hp. destruct Hp as [[k' [fill cells]] [[= <- <-] _]]. cbn [snd di_property di_time di_space].
        cbn [enc_layer vp_value vp_time vp_space]. rewrite grid_space. split; [|split; [intros g Hg; exact Logic.I|]].
        -- assert (HI : exists v, item 5 (forget_group (Group [(ra_id r, Array (IOModel.Dataset (full_shape r) (snd (fill, cells))) (fst (fill, cells)))] 1)) = Ok v /\ nr_arrays v = 1).
           { unfold item, forget_group, ValueModel.find_item. cbn [gr_items map find fst]. rewrite H5, Z.eqb_refl. eexists. split; [reflexivity|]. unfold full_shape. rewrite T. reflexivity. }
           destruct HI as [v [HI HN]]. cbn [complete tr_ids tr_sets]. split; [reflexivity|]. split; [intros x [<-|[]]; now exists v|].
           intros [|j] position Hj Hpos; [|cbn in Hj; lia]. unfold in_set, set_last, set_first in Hpos; cbn in Hpos. assert (position = 0) by lia. subst position. exists 5, 0, v. repeat split; [exact HI|lia].
        -- intros g [= <-]. cbn [valid_space_grid gr_variable]. split; [reflexivity|]. repeat split.
Qed.

Lemma unsigned_enc areas : unsigned_dataset (to_data_set (enc areas)).
Proof.
  intros p s Hp Hs. destruct Hp as [Hp|[u [[] _]]]. cbn [to_data_set da_phenomena] in Hp. apply in_map_iff in Hp. destruct Hp as [[ph q] [<- Hq]].
  cbn [ph_sets ph_collections fst snd] in Hs. destruct Hs as [Hs|[]]. apply in_map_iff in Hs. destruct Hs as [[t v] [<- Hv]].
  unfold RasterViewProofs2.enc, mapv in Hq. apply in_map_iff in Hq. destruct Hq as [[ph' a] [[= <- <-] _]]. cbn [enc_area pn_sets fst snd] in Hv.
  unfold mapv in Hv. apply in_map_iff in Hv. destruct Hv as [[t' r] [[= <- <-] _]]. unfold to_set. cbn [fst snd RasterViewProofs2.enc_set se_tracker se_time].
  split; cbn [ps_tracker ps_time].
  - destruct (ra_time r); split; cbn; repeat constructor; try (unfold size_range; cbn; lia); try (cbn; discriminate).
  - intros d Hd. destruct (ra_time r) as [t|]; [|discriminate]. injection Hd as <-. exact Logic.I.
Qed.

Lemma dataset_valid areas : unique areas -> good_areas areas ->
  (assert_is_valid false (to_data_set (enc areas)) = Ok tt <-> forall ph a s r, map_find ph areas = Some a -> map_find s (ar_rasters a) = Some r -> fine_raster a r).
Proof.
  intros U G. rewrite (assert_ok _ (unsigned_enc areas)). split.
  - intros V ph a s r F1 F2. destruct (G _ _ _ _ F1 F2) as [_ [N I]]. apply (set_valid ph s r a N I).
    assert (HP : in_dataset (ValidateModel.Phenomenon (ar_ids a) (map (fun t => to_set ph (fst t) (snd t)) (mapv (enc_set ph) (ar_rasters a))) []) (to_data_set (enc areas))).
    { left. cbn [to_data_set da_phenomena]. apply in_map_iff. exists (ph, enc_area origin ph a). split; [reflexivity|]. unfold RasterViewProofs2.enc, mapv. apply in_map_iff. exists (ph, a). split; [reflexivity|now apply map_find_in]. }
    destruct (V _ HP) as [VS _]. cbn [ph_sets ph_ids] in VS. apply VS. apply in_map_iff. exists (s, enc_set ph s r). split; [reflexivity|]. unfold mapv. apply in_map_iff. exists (s, r). split; [reflexivity|now apply map_find_in].
  - intros H p Hp. destruct Hp as [Hp|[u [[] _]]]. cbn [to_data_set da_phenomena] in Hp. apply in_map_iff in Hp. destruct Hp as [[ph q] [<- Hq]].
    unfold RasterViewProofs2.enc, mapv in Hq. apply in_map_iff in Hq. destruct Hq as [[ph' a] [[= <- <-] Ha]]. split; [|intros x []].
    intros x Hx. cbn [ph_sets ph_ids fst snd enc_area pn_sets pn_ids] in *. apply in_map_iff in Hx. destruct Hx as [[t v] [<- Hv]].
    unfold mapv in Hv. apply in_map_iff in Hv. destruct Hv as [[s r] [[= <- <-] Hr]]. cbn [fst snd].
    assert (F1 : map_find ph' areas = Some a) by (apply unique_find; [exact (proj1 U)|exact Ha]).
    assert (F2 : map_find s (ar_rasters a) = Some r) by (apply unique_find; [exact (find_unique _ _ _ U F1)|exact Hr]).
    destruct (G _ _ _ _ F1 F2) as [_ [N I]]. apply (set_valid ph' s r a N I). exact (H _ _ _ _ F1 F2).
Qed.

Definition fives areas : Prop := forall ph a, map_find ph areas = Some a -> ar_ids a = [5] /\ forall s r, map_find s (ar_rasters a) = Some r -> fine_raster a r.
Lemma fine_with_layers a r l : fine_raster a r -> fine_raster a (with_layers r l).
Proof. exact (fun H => H). Qed.
Lemma fine_ids a a' r : ar_ids a = ar_ids a' -> fine_raster a r -> fine_raster a' r.
Proof. unfold fine_raster. intros ->. exact (fun H => H). Qed.
Lemma fives_set_raster ph s r r' areas : fives areas -> find_raster ph s areas = Some r -> (forall a, fine_raster a r -> fine_raster a r') -> fives (set_raster ph s r' areas).
Proof.
  intros F Fr Hr p a Fa. unfold set_raster, find_raster in *. destruct (map_find ph areas) as [a0|] eqn:Fp; [|discriminate]. rewrite map_find_update in Fa.
  destruct (same_text ph p) eqn:Ep; [|now apply (F p)]. apply same_text_true in Ep. subst p. rewrite Fp in Fa. injection Fa as <-. destruct (F _ _ Fp) as [F1 F2]. cbn [ar_ids ar_rasters]. split; [exact F1|].
  intros t q Fq. rewrite map_find_update in Fq. destruct (same_text s t) eqn:Et.
  - apply same_text_true in Et. subst t. rewrite Fr in Fq. injection Fq as <-. apply (fine_ids a0); [reflexivity|]. now apply Hr, (F2 s).
  - apply (fine_ids a0); [reflexivity|]. now apply (F2 t).
Qed.
Lemma fives_created ph s time shape box st : fives (st_areas st) -> match time with Some (tb, _) => fst tb <= snd tb | None => True end ->
  fives (st_areas (snd (RasterViewSpec.created ph s time shape box st))).
Proof.
  intros F HT. assert (F1 : fives (with_one ph (st_areas st))).
  { intros p a Fa. unfold with_one in Fa. destruct (map_find ph (st_areas st)) as [a0|] eqn:Fp.
    - destruct (F _ _ Fp) as [F1 _]. rewrite F1 in Fa. now apply (F p).
    - rewrite map_find_insert in Fa by assumption. destruct (same_text ph p); [|now apply (F p)]. injection Fa as <-. split; [reflexivity|discriminate]. }
  unfold RasterViewSpec.created. destruct (map_find ph (with_one ph (st_areas st))) as [a|] eqn:Fa; [|exact F]. destruct (F1 _ _ Fa) as [A1 A2].
  destruct (map_find s (ar_rasters a)) as [r0|] eqn:Fs; [exact F1|]. cbn [snd st_areas]. intros p b Fb. rewrite map_find_update in Fb. destruct (same_text ph p) eqn:Ep; [|now apply (F1 p)].
  apply same_text_true in Ep. subst p. rewrite Fa in Fb. injection Fb as <-. cbn [ar_ids ar_rasters]. split; [exact A1|]. intros t q Fq. rewrite map_find_insert in Fq by assumption.
  destruct (same_text s t); [|apply (fine_ids a); [reflexivity|now apply (A2 t)]]. injection Fq as <-. split; cbn [ar_ids ra_time ra_id]; rewrite A1; [reflexivity|].
  destruct time as [[[b e] n]|]; [|exact Logic.I]. split; [reflexivity|exact HT].
Qed.
Lemma fives_expected o st : fives (st_areas st) -> views_only o -> fives (st_areas (snd (expected zero o st))).
Proof.
  intros F V. destruct o as [ph ids|ph s shape box|ph s steps tb shape box|ph s|ph s|i name no_data|i|i name cells|i name size]; cbn [expected views_only] in *.
  - destruct V.
  - now apply fives_created.
  - now apply fives_created.
  - now rewrite opened_areas.
  - now rewrite opened_areas.
  - unfold at_view. destruct (nth_error (st_views st) i) as [[[ph s] known]|]; [|exact F]. destruct (find_raster ph s (st_areas st)) as [r|] eqn:Fr; [|exact F].
    destruct (map_find name (ra_layers r)); [exact F|]. destruct (upd_nth i (ph, s, known ++ [name]) (st_views st)); [|exact F]. cbn [snd st_areas]. apply (fives_set_raster ph s r); [exact F|exact Fr|]. intros a. apply fine_with_layers.
  - unfold at_view. destruct (nth_error (st_views st) i) as [[[ph s] known]|]; [|exact F]. now destruct (find_raster ph s (st_areas st)).
  - unfold at_view. destruct (nth_error (st_views st) i) as [[[ph s] known]|]; [|exact F]. destruct (find_raster ph s (st_areas st)) as [r|] eqn:Fr; [|exact F].
    destruct (if existsb (same_text name) known then map_find name (ra_layers r) else None) as [[fill old]|]; [|exact F]. cbn [snd st_areas]. apply (fives_set_raster ph s r); [exact F|exact Fr|]. intros a. apply fine_with_layers.
  - unfold at_view. destruct (nth_error (st_views st) i) as [[[ph s] known]|]; [|exact F]. destruct (find_raster ph s (st_areas st)) as [r|]; [|exact F].
    now destruct (if existsb (same_text name) known then map_find name (ra_layers r) else None) as [[fill old]|].
Qed.
Lemma fives_expect ops : forall st, fives (st_areas st) -> Forall views_only ops -> fives (st_areas (snd (expect zero ops st))).
Proof.
  induction ops as [|o ops IH]; intros st F V; [exact F|]. cbn [expect]. pose proof (fives_expected o st F (Forall_inv V)) as F1. destruct (expected zero o st) as [an st1]. cbn [snd] in F1.
  specialize (IH st1 F1 (Forall_inv_tail V)). destruct (expect zero ops st1) as [l st2]. exact IH.
Qed.
Lemma unique_nothing : unique (st_areas (@nothing E C)).
Proof. split; [constructor|intros ph a []]. Qed.

Lemma programs_valid ops : proper_program zero ops nothing ->
  (assert_is_valid false (to_data_set (wo_store (snd (run zero origin ops new_world)))) = Ok tt <->
   forall ph a s r, map_find ph (st_areas (snd (expect zero ops nothing))) = Some a -> map_find s (ar_rasters a) = Some r -> fine_raster a r).
Proof.
  intros P. rewrite (new_world_enc origin). destruct (run_enc zero origin ops nothing good_nothing P) as [ER [G _]]. rewrite ER. cbn [snd RasterViewProofs3.enc_world wo_store].
  apply dataset_valid; [apply expect_unique, unique_nothing|exact G].
Qed.
Lemma programs_views_only ops : proper_program zero ops nothing -> Forall views_only ops ->
  assert_is_valid false (to_data_set (wo_store (snd (run zero origin ops new_world)))) = Ok tt.
Proof.
  intros P V. apply (programs_valid ops P). intros ph a s r F1 F2. destruct (fives_expect ops nothing) with (2 := V) (ph := ph) (a := a) as [_ H]; [intros p b Fb; discriminate|exact F1|]. now apply (H s).
Qed.
End Valid.

(** ** What is said to be a raster can be opened *)
Section Opens.
Context {E C : Type} (origin : C).

Lemma read_four (v : array C) : nr_arrays v = 1 -> array_shape v = [4] -> sized v -> exists l, read_index 0 v (repeat origin 4) = Ok l.
Proof.
  intros N S Z4. destruct v as [[sh cells] fill]. unfold nr_arrays, array_shape, sized in *. cbn [ar_data ds_shape ds_cells] in *. destruct sh as [|n sh]; [discriminate|]. cbn [hd tl] in *. subst n sh.
  cbn in Z4. exists cells. apply (read_index_eq [4] cells); [repeat constructor|exact Z4|reflexivity].
Qed.
Lemma read_two (v : array Z) : nr_arrays v = 1 -> array_shape v = [2] -> sized v -> exists l, read_index 0 v (repeat 0 2) = Ok l.
Proof.
  intros N S Z4. destruct v as [[sh cells] fill]. unfold nr_arrays, array_shape, sized in *. cbn [ar_data ds_shape ds_cells] in *. destruct sh as [|n sh]; [discriminate|]. cbn [hd tl] in *. subst n sh.
  cbn in Z4. exists cells. apply (read_index_eq [2] cells); [repeat constructor|exact Z4|reflexivity].
Qed.
Lemma read_one (v : array Z) : nr_arrays v = 1 -> array_shape v = [1] -> sized v -> exists n, read_index 0 v (repeat 0 1) = Ok [n].
Proof.
  intros N S Z4. destruct v as [[sh cells] fill]. unfold nr_arrays, array_shape, sized in *. cbn [ar_data ds_shape ds_cells] in *. destruct sh as [|n sh]; [discriminate|]. cbn [hd tl] in *. subst n sh.
  cbn in Z4. destruct cells as [|c [|]]; cbn in Z4; try lia. exists c. apply (read_index_eq [1] [c]); [repeat constructor|exact Z4|reflexivity].
Qed.


Lemma contains_base ph s (d : @store E C) : contains_raster ph s d = Ok true -> (forall v, get_set ph s d = Ok v -> sized_set 4 v) ->
  exists v w, get_set ph s d = Ok v /\ open_base origin ph s d = Ok (v, w).
Proof.
  unfold contains_raster, get_set, open_base. destruct (get ph d) as [p| |]; cbn [obind]; try discriminate. destruct (get s (pn_sets p)) as [v| |]; cbn [obind]; try discriminate.
  intros H HS. specialize (HS v eq_refl). destruct HS as [S1 [S2 _]]. exists v. destruct (Z.eqb_spec (Z.of_nat (length (pn_ids p))) 1) as [L|]; [|discriminate].
  unfold first_id. destruct (pn_ids p) as [|id ids]; [discriminate|]. cbn [obind]. unfold first_box. destruct (se_space v) as [sp|]; [|discriminate].
  destruct (negb (sp_mobile sp)); [|discriminate]. destruct (sp_box sp); [|discriminate]. destruct (negb (sp_presence sp)); [|discriminate].
  destruct (Z.eqb_spec (nr_arrays (sp_items sp)) 1) as [N1|]; [|discriminate]. cbn [andb] in H. destruct (S1 sp eq_refl) as [Z1 A1]. destruct (read_four _ N1 A1 Z1) as [box ->]. cbn [obind].
  destruct (has_property space_grid_name v && is_same space_grid_name v && is_constant space_grid_name v); [|discriminate].
  destruct (get space_grid_name (se_same v)) as [g| |] eqn:Eg; cbn [obind] in *; try discriminate.
  destruct (negb (np_time g)); [|discriminate]. destruct (negb (np_space g)); [|discriminate]. destruct (Z.eqb_spec (nr_arrays (np_value g)) 1) as [N2|]; [|discriminate].
  destruct (list_eq_dec Z.eq_dec (array_shape (np_value g)) [2]) as [A2|]; [|discriminate].
  assert (Z2 : sized (np_value g)). { unfold get in Eg. destruct (map_find space_grid_name (se_same v)) as [g'|] eqn:Fg; [|discriminate]. injection Eg as <-. apply map_find_in in Fg. now apply (S2 space_grid_name). }
  destruct (read_two _ N2 A2 Z2) as [shape ->]. eexists. split; reflexivity.
Qed.
Lemma contains_constant_opens ph s (d : @store E C) : contains_constant ph s d = Ok true -> (forall v, get_set ph s d = Ok v -> sized_set 4 v) -> exists w, open_constant origin ph s d = Ok w.
Proof.
  unfold contains_constant, open_constant. destruct (contains_raster ph s d) as [[|]| |] eqn:EC; cbn [obind]; try discriminate. intros _ HS.
  destruct (contains_base ph s d EC HS) as [v [w [_ ->]]]. cbn [obind]. now eexists.
Qed.
Lemma contains_variable_opens ph s (d : @store E C) : contains_variable ph s d = Ok true -> (forall v, get_set ph s d = Ok v -> sized_set 4 v) -> exists w, open_variable origin ph s d = Ok w.
Proof.
  unfold contains_variable, open_variable. destruct (contains_raster ph s d) as [[|]| |] eqn:EC; cbn [obind]; try discriminate. intros H HS.
  destruct (contains_base ph s d EC HS) as [v [w [Ev ->]]]. cbn [obind]. rewrite Ev in *. cbn [obind] in H. destruct (HS v eq_refl) as [_ [_ S3]]. unfold first_time_box.
  destruct (se_time v) as [t|]; [|discriminate]. destruct (ti_box t); [|discriminate]. destruct (Z.eqb_spec (Z.of_nat (length (ti_boxes t))) 1) as [L|]; [|discriminate]. cbn [andb] in H.
  destruct (ti_boxes t) as [|b bs]; [discriminate|]. cbn [obind]. destruct (has_property time_grid_name v && is_same time_grid_name v && negb (is_constant time_grid_name v)); [|discriminate].
  destruct (has_constant_shape time_grid_name v) as [[|]| |]; cbn [obind] in H; try discriminate. destruct (get time_grid_name (se_same_constant v)) as [g| |] eqn:Eg; cbn [obind] in *; try discriminate.
  destruct (negb (np_time g)); [|discriminate]. destruct (Z.eqb_spec (nr_arrays (np_value g)) 1) as [N2|]; [|discriminate]. destruct (list_eq_dec Z.eq_dec (array_shape (np_value g)) [1]) as [A2|]; [|discriminate].
  assert (Z2 : sized (np_value g)). { unfold get in Eg. destruct (map_find time_grid_name (se_same_constant v)) as [g'|] eqn:Fg; [|discriminate]. injection Eg as <-. apply map_find_in in Fg. now apply (S3 time_grid_name). }
  destruct (read_one _ N2 A2 Z2) as [n ->]. cbn [obind at_z]. now eexists.
Qed.
End Opens.
