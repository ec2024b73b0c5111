(** Proofs about the views on rasters: what is stored for a raster, and opening it *)
From Coq Require Import Ascii String.
From Verif Require Import Common CoreSpec DecompSpec ArraySpec IndexModel DecompModel ArrayModel IOModel IOSpec NumpyModel NumpySpec ValueModel ValueSpec ValidateModel.
From Verif Require Import FileNameModel CatalogModel RasterViewModel RasterViewSpec.
From Verif Require Import CommonProofs ArrayProofs ValueProofs ValueProofs4 CatalogProofs CatalogProofs2 RasterViewProofs.
Open Scope Z_scope.

Section Stored.
Context {E C : Type} (zero : E) (origin : C).
Implicit Types (r : @raster E C) (areas : list (text * @area E C)) (a : @area E C).

(** What is stored for a raster *)
Definition full_shape r : list Z := match ra_time r with None => ra_shape r | Some (_, n) => 1 :: n :: ra_shape r end.
Definition enc_layer (ph s : text) r (name : text) (l : E * list E) : @values E :=
  Values (Group [(ra_id r, Array (IOModel.Dataset (full_shape r) (snd l)) (fst l))] 1)
    (match ra_time r with None => None | Some _ => Some (Link true (path_of ph s SameConstant time_grid_name)) end)
    (Some (Link true (path_of ph s SameShape space_grid_name))).
Definition enc_set (ph s : text) r : @set E C :=
  Set_ (match ra_time r with None => Tracker [] [] [] | Some _ => Tracker [0] [5] [0] end)
    (option_map (fun t => Times true [fst t]) (ra_time r))
    (Some (Space false true false (Array (IOModel.Dataset [1; 4] (ra_box r)) origin)))
    [(space_grid_name, Numbers (Array (IOModel.Dataset [1; 2] (ra_shape r)) 0) true false false)]
    (match ra_time r with None => [] | Some (_, n) => [(time_grid_name, Numbers (Array (IOModel.Dataset [1; 1] [n]) 0) true false false)] end)
    (match ra_time r with None => mapv (enc_layer ph s r) (ra_layers r) | Some _ => [] end)
    (match ra_time r with None => [] | Some _ => mapv (enc_layer ph s r) (ra_layers r) end).
Definition enc_area (ph : text) a : @phen E C := Phen (ar_ids a) (mapv (enc_set ph) (ar_rasters a)).
Definition enc areas : @store E C := mapv enc_area areas.
Definition enc_view areas (v : text * text * list text) : @view C :=
  let '(ph, s, known) := v in
  match find_raster ph s areas with
  | Some r => View ph s (ra_id r) (ra_box r) (ra_shape r) (ra_time r) known
  | None => View ph s 0 [] [] None known
  end.

(** What is invariant *)
Record good_raster r : Prop := GoodRaster {
  gd_extents : array_extents (match ra_time r with None => ra_shape r | Some (_, n) => n :: ra_shape r end);
  gd_shape : length (ra_shape r) = 2%nat;
  gd_box : length (ra_box r) = 4%nat;
  gd_layers : forall name fill cells, map_find name (ra_layers r) = Some (fill, cells) ->
    Z.of_nat (length cells) = nr_cells r /\ name <> time_grid_name /\ name <> space_grid_name }.
Definition good_areas areas : Prop := forall ph a s r, map_find ph areas = Some a -> map_find s (ar_rasters a) = Some r ->
  good_raster r /\ ar_ids a <> [] /\ ra_id r = hd 0 (ar_ids a).
Definition good_views areas (views : list (text * text * list text)) : Prop := forall ph s known, In (ph, s, known) views ->
  exists r, find_raster ph s areas = Some r /\ forall name, In name known -> map_find name (ra_layers r) <> None.

(** *** Finding *)
Lemma find_enc ph areas : map_find ph (enc areas) = option_map (enc_area ph) (map_find ph areas).
Proof. apply mapv_find. Qed.
Lemma contains_enc ph areas : map_contains ph (enc areas) = map_contains ph areas.
Proof. apply mapv_contains. Qed.
Lemma get_enc ph a areas : map_find ph areas = Some a -> get ph (enc areas) = Ok (enc_area ph a).
Proof. intros H. unfold get. now rewrite find_enc, H. Qed.
Lemma get_enc_set ph s r a : map_find s (ar_rasters a) = Some r -> get s (pn_sets (enc_area ph a)) = Ok (enc_set ph s r).
Proof. intros H. unfold get. cbn [enc_area pn_sets]. now rewrite mapv_find, H. Qed.
Lemma get_set_enc ph s r areas : find_raster ph s areas = Some r -> get_set ph s (enc areas) = Ok (enc_set ph s r).
Proof.
  unfold find_raster, get_set. intros H. destruct (map_find ph areas) as [a|] eqn:F; [|discriminate].
  rewrite (get_enc _ _ _ F). cbn [obind]. now apply get_enc_set.
Qed.
Lemma put_set_enc ph s r areas : put_set ph s (enc_set ph s r) (enc areas) = enc (set_raster ph s r areas).
Proof.
  unfold put_set, set_raster. rewrite find_enc. destruct (map_find ph areas) as [a|]; [|reflexivity]. cbn [option_map enc_area pn_ids pn_sets].
  rewrite mapv_update. change (Phen (ar_ids a) (mapv (enc_set ph) (map_update s r (ar_rasters a)))) with (enc_area ph (Area (ar_ids a) (map_update s r (ar_rasters a)))).
  apply mapv_update.
Qed.
Lemma find_set_raster ph s r0 r p t areas : find_raster ph s areas = Some r0 ->
  find_raster p t (set_raster ph s r areas) = if same_text ph p && same_text s t then Some r else find_raster p t areas.
Proof.
  unfold find_raster, set_raster. intros H. destruct (map_find ph areas) as [a|] eqn:F; [|discriminate].
  rewrite map_find_update. destruct (same_text ph p) eqn:Ep; [|reflexivity]. apply same_text_true in Ep. subst p. rewrite F. cbn [ar_rasters andb].
  rewrite map_find_update. destruct (same_text s t) eqn:Et; [|reflexivity]. apply same_text_true in Et. subst t. now rewrite H.
Qed.

(** *** Opening *)
Lemma open_base_enc ph s r a areas : map_find ph areas = Some a -> map_find s (ar_rasters a) = Some r -> good_raster r -> ar_ids a <> [] -> ra_id r = hd 0 (ar_ids a) ->
  open_base origin ph s (enc areas) = Ok (enc_set ph s r, View ph s (ra_id r) (ra_box r) (ra_shape r) None []).
Proof.
  intros F1 F2 [_ G1 G2 _] N I. unfold open_base. rewrite (get_enc _ _ _ F1). cbn [obind]. rewrite (get_enc_set _ _ _ _ F2). cbn [obind].
  unfold first_id. cbn [enc_area pn_ids]. destruct (ar_ids a) as [|id ids]; [congruence|]. cbn [obind]. cbn [hd] in I. rewrite <- I.
  unfold first_box, enc_set at 1. cbn [se_space sp_items].
  destruct (ra_box r) as [|b0 [|b1 [|b2 [|b3 [|]]]]] eqn:EB; try discriminate. destruct (ra_shape r) as [|n0 [|n1 [|]]] eqn:EN; try discriminate.
  change (read_index 0 _ (repeat origin 4)) with (Ok [b0; b1; b2; b3]). cbn [obind].
  unfold get at 1, enc_set at 1. cbn [se_same]. unfold map_find. cbn [find fst snd]. rewrite same_text_refl. cbn [obind np_value]. rewrite EN.
  change (read_index 0 _ (repeat 0 2)) with (Ok [n0; n1]). reflexivity.
Qed.
Lemma filter_all {T} (f : T -> bool) l : (forall x, In x l -> f x = true) -> filter f l = l.
Proof. induction l as [|x l IH]; intros H; [reflexivity|]. cbn. rewrite H by now left. f_equal. apply IH. intros y I. apply H. now right. Qed.
Lemma same_location_refl p : same_location p p = true.
Proof. now apply same_location_true. Qed.
Lemma constant_layers_enc ph s r : ra_time r = None -> constant_layers ph s (enc_set ph s r) = layer_names r.
Proof.
  intros T. unfold constant_layers, enc_set. cbn [se_different]. rewrite T. rewrite filter_all; [apply mapv_names|].
  intros x I. unfold mapv in I. apply in_map_iff in I. destruct I as [y [<- _]]. cbn [snd enc_layer vp_space links_to ln_regular ln_path andb]. apply same_location_refl.
Qed.
Lemma variable_layers_enc ph s r t : ra_time r = Some t -> variable_layers ph s (enc_set ph s r) = layer_names r.
Proof.
  intros T. unfold variable_layers, enc_set. cbn [se_different_constant]. rewrite T. rewrite filter_all; [apply mapv_names|].
  intros x I. unfold mapv in I. apply in_map_iff in I. destruct I as [y [<- _]]. cbn [snd enc_layer vp_space vp_time]. rewrite T. cbn [links_to ln_regular ln_path andb].
  now rewrite !same_location_refl.
Qed.
Lemma open_constant_enc ph s r a areas : map_find ph areas = Some a -> map_find s (ar_rasters a) = Some r -> good_raster r -> ar_ids a <> [] -> ra_id r = hd 0 (ar_ids a) ->
  ra_time r = None -> open_constant origin ph s (enc areas) = Ok (View ph s (ra_id r) (ra_box r) (ra_shape r) None (layer_names r)).
Proof.
  intros F1 F2 G N I T. unfold open_constant. rewrite (open_base_enc _ _ r a) by assumption. cbn [obind rv_id rv_box rv_shape]. now rewrite constant_layers_enc.
Qed.
Lemma open_variable_enc ph s r a areas t : map_find ph areas = Some a -> map_find s (ar_rasters a) = Some r -> good_raster r -> ar_ids a <> [] -> ra_id r = hd 0 (ar_ids a) ->
  ra_time r = Some t -> open_variable origin ph s (enc areas) = Ok (View ph s (ra_id r) (ra_box r) (ra_shape r) (Some t) (layer_names r)).
Proof.
  intros F1 F2 G N I T. unfold open_variable. rewrite (open_base_enc _ _ r a) by assumption. cbn [obind rv_id rv_box rv_shape].
  rewrite (variable_layers_enc _ _ _ t) by assumption. unfold first_time_box, enc_set. cbn [se_time se_same_constant]. rewrite T. cbn [option_map ti_boxes obind]. destruct t as [b n]. cbn [fst].
  unfold get, map_find. cbn [find fst snd]. rewrite same_text_refl. cbn [obind np_value].
  change (read_index 0 _ (repeat 0 1)) with (Ok [n]). reflexivity.
Qed.

(** *** Is there a raster? *)
Lemma contains_raster_enc ph s r a areas : map_find ph areas = Some a -> map_find s (ar_rasters a) = Some r ->
  contains_raster ph s (enc areas) = Ok (Z.of_nat (length (ar_ids a)) =? 1).
Proof.
  intros F1 F2. unfold contains_raster. rewrite (get_enc _ _ _ F1). cbn [obind]. rewrite (get_enc_set _ _ _ _ F2). cbn [obind enc_area pn_ids].
  destruct (Z.of_nat (length (ar_ids a)) =? 1); [|reflexivity]. unfold has_property, is_same, is_constant, get, map_contains, map_find, enc_set. cbn [se_space se_same existsb find fst snd].
  rewrite same_text_refl. reflexivity.
Qed.
Lemma time_space : same_text space_grid_name time_grid_name = false.
Proof. reflexivity. Qed.
Lemma layer_not_reserved r name : good_raster r -> name = time_grid_name \/ name = space_grid_name -> map_find name (ra_layers r) = None.
Proof. intros G H. destruct (map_find name (ra_layers r)) as [[fill cells]|] eqn:F; [|reflexivity]. apply (gd_layers _ G) in F. tauto. Qed.
Lemma has_time_enc ph s r : good_raster r -> has_property time_grid_name (enc_set ph s r) = is_variable r.
Proof.
  intros G. unfold has_property, enc_set, is_variable. cbn [se_same se_same_constant se_different se_different_constant].
  assert (L : map_contains time_grid_name (mapv (enc_layer ph s r) (ra_layers r)) = false).
  { rewrite mapv_contains. apply find_not_contains. apply layer_not_reserved; [exact G|now left]. }
  destruct (ra_time r) as [[b n]|]; [reflexivity|]. rewrite L. reflexivity.
Qed.
Lemma contains_constant_enc ph s r a areas : map_find ph areas = Some a -> map_find s (ar_rasters a) = Some r -> good_raster r ->
  contains_constant ph s (enc areas) = Ok ((Z.of_nat (length (ar_ids a)) =? 1) && Bool.eqb (is_variable r) false).
Proof.
  intros F1 F2 G. unfold contains_constant. rewrite (contains_raster_enc ph s r a) by assumption. cbn [obind]. destruct (Z.of_nat (length (ar_ids a)) =? 1); [|reflexivity].
  rewrite (get_set_enc ph s r) by (unfold find_raster; now rewrite F1). cbn [obind]. rewrite has_time_enc by assumption. now destruct (is_variable r).
Qed.
Lemma contains_variable_enc ph s r a areas : map_find ph areas = Some a -> map_find s (ar_rasters a) = Some r -> good_raster r ->
  contains_variable ph s (enc areas) = Ok ((Z.of_nat (length (ar_ids a)) =? 1) && Bool.eqb (is_variable r) true).
Proof.
  intros F1 F2 G. unfold contains_variable. rewrite (contains_raster_enc ph s r a) by assumption. cbn [obind]. destruct (Z.of_nat (length (ar_ids a)) =? 1); [|reflexivity].
  rewrite (get_set_enc ph s r) by (unfold find_raster; now rewrite F1). cbn [obind]. rewrite has_time_enc by assumption.
  unfold is_same, is_constant, has_constant_shape, get, enc_set, is_variable. cbn [se_same se_same_constant se_different se_different_constant se_time].
  destruct (ra_time r) as [[b n]|]; reflexivity.
Qed.
End Stored.
