(** C64: importing rasters into a LUE dataset and exporting them. *)
From Coq Require Import QArith Qcanon.
From Verif Require Import Common GdalModel GdalSpec TranslateModel TranslateSpec TranslateProofs TranslateProofs2.
Open Scope Z_scope.

(** Importing a band gives a layer with the same values.
    Missing: every band whose natural block is not the whole raster (see the refutations below). *)
Theorem C64_import_partial : forall (E : Type) (zero fill : E) (b : band E), one_block b ->
  exists a, gdal_to_lue zero fill b = Ok a /\ same_values a b.
Proof.
  intros E zero fill b [R [C B]].
  destruct (import_once zero fill b (fst (b_shape b))) as [a [A1 [A2 [A3 A4]]]]; try lia.
  { rewrite B. destruct (b_shape b); reflexivity. }
  exists a. split; [exact A1|]. split; [exact A2|]. split; [exact A3|].
  intros r c I. rewrite (A4 r c I). destruct I as [[_ I] _]. apply Z.ltb_lt in I. rewrite I. reflexivity.
Qed.
Print Assumptions C64_import_partial.

Definition example_band (shape block : pair2) : band Z :=
  {| b_shape := shape; b_block := block; b_type := Int32; b_no_data := 9; b_no_data_set := true;
     b_cell := fun r c => 10 * r + c + 1; b_outside := fun _ _ => 77 |}.
Definition cells_of (a : layer Z) : list (list Z) :=
  map (fun r => map (l_cell a r) (zseq 0 (snd (l_shape a)))) (zseq 0 (fst (l_shape a))).
Definition imported (b : band Z) : outcome (list (list Z)) := obind (gdal_to_lue 0 (-1) b) (fun a => Ok (cells_of a)).

Example C64_import_case : one_block (example_band (2, 3) (2, 3)) /\
  imported (example_band (2, 3) (2, 3)) = Ok [[1; 2; 3]; [11; 12; 13]].
Proof. split; [repeat split|]; reflexivity. Qed.

(** A raster stored as two to ten strips: only the first strip is imported, the rest of the layer is zero.
    With more strips, importing fails. *)
Theorem C64_import_strips_refuted : forall (E : Type) (zero fill : E) (b : band E) rows, strips_of b rows ->
  (fst (b_shape b) <= 10 * rows ->
   exists a, gdal_to_lue zero fill b = Ok a /\
     forall r c, in_shape (b_shape b) r c -> l_cell a r c = if r <? rows then b_cell b r c else zero) /\
  (10 * rows < fst (b_shape b) -> gdal_to_lue zero fill b = Throw).
Proof.
  intros E zero fill b rows [C [R B]]. split; intros T.
  - destruct (import_once zero fill b rows) as [a [A1 [A2 [A3 A4]]]]; try lia; [exact B|]. exists a. auto.
  - apply (import_more zero fill b rows); try lia. exact B.
Qed.
Print Assumptions C64_import_strips_refuted.

Example C64_import_strips_case :
  strips_of (example_band (5, 3) (2, 3)) 2 /\
  imported (example_band (5, 3) (2, 3)) = Ok [[1; 2; 3]; [11; 12; 13]; [0; 0; 0]; [0; 0; 0]; [0; 0; 0]] /\
  strips_of (example_band (22, 3) (2, 3)) 2 /\ imported (example_band (22, 3) (2, 3)) = Throw.
Proof. repeat split; try reflexivity; cbn; lia. Qed.

(** A raster smaller than its natural block (a tile): the values are read past the end of the vector. *)
Theorem C64_import_tile_refuted : forall (E : Type) (zero fill : E) (b : band E),
  0 < fst (b_shape b) <= fst (b_block b) -> 0 < snd (b_shape b) <= snd (b_block b) -> b_block b <> b_shape b ->
  gdal_to_lue zero fill b = UB.
Proof. exact @import_large. Qed.
Print Assumptions C64_import_tile_refuted.

Example C64_import_tile_case : imported (example_band (100, 100) (256, 256)) = UB /\
  (* tiles smaller than the raster: the values end up elsewhere *)
  imported (example_band (2, 4) (2, 2)) = Ok [[1; 2; 11; 12]; [0; 0; 0; 0]].
Proof. split; [|reflexivity]. unfold imported. rewrite import_large; [reflexivity| | |]; cbn; try lia. congruence. Qed.

(** Exporting a layer gives a band with the same values.  Missing: as for importing. *)
Theorem C64_export_partial : forall (E : Type) (zero : E) (a : layer E) (b : band E),
  one_block b -> l_shape a = b_shape b -> b_no_data_set b = false ->
  exists b', lue_to_gdal zero a b = Ok b' /\ b_type b' = b_type b /\ b_block b' = b_block b /\ same_values a b'.
Proof.
  intros E zero a b [R [C B]] S N.
  destruct (export_once zero a b (fst (b_shape b)) S) as [b' [A1 [A2 [A3 [A4 [A5 [A6 A7]]]]]]]; try lia.
  { rewrite B. destruct (b_shape b); reflexivity. }
  exists b'. split; [exact A1|]. split; [exact A4|]. split; [exact A3|]. split; [congruence|]. split.
  - rewrite A5, A6. destruct (l_no_data a); cbn; [reflexivity|]. rewrite N. reflexivity.
  - intros r c I. rewrite A2 in I. rewrite (A7 r c I). destruct I as [[_ I] _]. apply Z.ltb_lt in I. rewrite I. reflexivity.
Qed.
Print Assumptions C64_export_partial.

Definition example_layer : layer Z := {| l_shape := (3, 2); l_no_data := Some 5; l_cell := fun r c => 10 * r + c + 1 |}.
Definition new_band (shape block : pair2) : band Z :=
  {| b_shape := shape; b_block := block; b_type := Int32; b_no_data := 0; b_no_data_set := false;
     b_cell := fun r c => 0; b_outside := fun _ _ => 0 |}.
Definition exported (a : layer Z) (b : band Z) : outcome (list (list Z)) :=
  obind (lue_to_gdal 0 a b) (fun b => Ok (map (fun r => map (b_cell b r) (zseq 0 (snd (b_shape b)))) (zseq 0 (fst (b_shape b))))).

Example C64_export_case : one_block (new_band (3, 2) (3, 2)) /\
  exported example_layer (new_band (3, 2) (3, 2)) = Ok [[1; 2]; [11; 12]; [21; 22]].
Proof. split; [repeat split|]; reflexivity. Qed.

(** A raster written as two to ten strips: only the first strip is written.  With more strips, exporting fails. *)
Theorem C64_export_strips_refuted : forall (E : Type) (zero : E) (a : layer E) (b : band E) rows,
  strips_of b rows -> l_shape a = b_shape b ->
  (fst (b_shape b) <= 10 * rows ->
   exists b', lue_to_gdal zero a b = Ok b' /\
     forall r c, in_shape (b_shape b) r c -> b_cell b' r c = if r <? rows then l_cell a r c else b_cell b r c) /\
  (10 * rows < fst (b_shape b) -> lue_to_gdal zero a b = Throw).
Proof.
  intros E zero a b rows [C [R B]] S. split; intros T.
  - destruct (export_once zero a b rows S) as [b' [A1 [A2 [A3 [A4 [A5 [A6 A7]]]]]]]; try lia; [exact B|]. exists b'. auto.
  - apply (export_more zero a b rows S); try lia. exact B.
Qed.
Print Assumptions C64_export_strips_refuted.

Example C64_export_strips_case :
  exported example_layer (new_band (3, 2) (1, 2)) = Ok [[1; 2]; [0; 0]; [0; 0]] /\
  exported {| l_shape := (11, 2); l_no_data := None; l_cell := fun r c => r + c |} (new_band (11, 2) (1, 2)) = Throw.
Proof. split; reflexivity. Qed.

(** Importing what was exported gives the layer back.  Missing: as for importing. *)
Theorem C64_round_trip_partial : forall (E : Type) (zero fill : E) (a : layer E) (b : band E),
  one_block b -> l_shape a = b_shape b -> b_no_data_set b = false ->
  exists b' a', lue_to_gdal zero a b = Ok b' /\ gdal_to_lue zero fill b' = Ok a' /\
    l_shape a' = l_shape a /\ l_no_data a' = l_no_data a /\
    forall r c, in_shape (l_shape a) r c -> l_cell a' r c = l_cell a r c.
Proof.
  intros E zero fill a b B S N.
  destruct (C64_export_partial E zero a b B S N) as [b' [X1 [X2 [X3 [X4 [X5 X6]]]]]].
  destruct (C64_import_partial E zero fill b') as [a' [Y1 [Y2 [Y3 Y4]]]].
  { destruct B as [B1 [B2 B3]]. rewrite S in X4. unfold one_block. rewrite <- X4, X3. auto. }
  exists b', a'. repeat split; try assumption; try congruence.
  intros r c I. rewrite X4 in I. rewrite (Y4 r c I), (X6 r c I). reflexivity.
Qed.
Print Assumptions C64_round_trip_partial.

Example C64_round_trip_case : l_shape example_layer = b_shape (new_band (3, 2) (3, 2)) /\
  obind (lue_to_gdal 0 example_layer (new_band (3, 2) (3, 2))) imported = Ok (cells_of example_layer).
Proof. split; reflexivity. Qed.

(** Of a raster with several bands, only the first is exported: the others are what GDAL created. *)
Theorem C64_export_bands_refuted : forall (E : Type) (zero : E) layers create names bs,
  export_raster zero layers create names = Ok bs -> names <> [] ->
  tl bs = tl (create (length names)).
Proof.
  intros E zero layers create [|name names] bs H N; [congruence|]. unfold export_raster in H.
  destruct (layers name) as [a|]; [|discriminate].
  destruct (create (length (name :: names))) as [|b bs']; [discriminate|].
  destruct (lue_to_gdal zero a b); cbn [obind] in H; try discriminate. injection H as <-. reflexivity.
Qed.
Print Assumptions C64_export_bands_refuted.

Example C64_export_bands_case : exists bs,
  export_raster 0 (fun _ => Some example_layer) (fun n => repeat (new_band (3, 2) (3, 2)) n) [0%nat; 1%nat] = Ok bs /\
  length bs = 2%nat /\ map (fun b => b_cell b 2 1) bs = [22; 0].
Proof. eexists. repeat split. Qed.

(** The layer named first is exported to the first band, with the same values.  Missing: as for importing. *)
Theorem C64_export_first_band_partial : forall (E : Type) (zero : E) layers create name names (a : layer E) (b : band E) bs,
  layers name = Some a -> create (length (name :: names)) = b :: bs ->
  one_block b -> l_shape a = b_shape b -> b_no_data_set b = false ->
  exists b', export_raster zero layers create (name :: names) = Ok (b' :: bs) /\ b_type b' = b_type b /\ same_values a b'.
Proof.
  intros E zero layers create name names a b bs L C B S N.
  destruct (C64_export_partial E zero a b B S N) as [b' [X1 [X2 [X3 X4]]]]. exists b'.
  unfold export_raster. rewrite L, C, X1. cbn [obind]. auto.
Qed.
Print Assumptions C64_export_first_band_partial.

Example C64_export_first_band_case : exists bs,
  export_raster 0 (fun n => if Nat.eqb n 7 then Some example_layer else None) (fun n => repeat (new_band (3, 2) (3, 2)) n) [7%nat] = Ok bs /\
  map (fun b => map (b_cell b 2) [0; 1]) bs = [[21; 22]] /\ one_block (new_band (3, 2) (3, 2)).
Proof. eexists. repeat split. Qed.

(** Importing several bands: each becomes a layer with the values of its own band, under its own name. *)
Theorem C64_import_bands_partial : forall (E : Type) (zero fill : E) (bands : list (band E)) names,
  Forall one_block bands -> (length names <= length bands)%nat ->
  exists ls, import_raster zero fill bands names = Ok ls /\ map fst ls = names /\
    Forall2 (fun l b => same_values (snd l) b) ls (firstn (length names) bands).
Proof.
  intros E zero fill bands. induction bands as [|b bands IH]; intros [|name names] F L; cbn [length] in L; try lia;
    try (exists []; repeat split; constructor).
  inversion F as [|? ? B F']; subst. cbn [import_raster].
  destruct (C64_import_partial E zero fill b B) as [a [A1 A2]]. rewrite A1. cbn [obind].
  destruct (IH names F' ltac:(lia)) as [ls [L1 [L2 L3]]]. rewrite L1. cbn [obind].
  eexists. split; [reflexivity|]. cbn [map fst length firstn]. split; [congruence|]. constructor; assumption.
Qed.
Print Assumptions C64_import_bands_partial.

Example C64_import_bands_case : exists ls,
  import_raster 0 0 [example_band (2, 2) (2, 2); new_band (2, 2) (2, 2)] [4%nat; 7%nat] = Ok ls /\
  map (fun l => (fst l, l_cell (snd l) 1 1)) ls = [(4%nat, 12); (7%nat, 0)].
Proof. eexists. split; reflexivity. Qed.

(** In exact arithmetic, a north-up raster has the same geo-transform after importing and exporting.
    Missing: rounding of doubles; other rasters (see below). *)
Theorem C64_geo_partial : forall shape g, 0 < fst shape -> 0 < snd shape -> north_up g ->
  obind (box_of_geo shape g) (geo_of_box shape) = Ok g.
Proof.
  intros shape g R C [G1 [G2 [G3 G4]]]. rewrite geo_round_trip by assumption.
  rewrite (qabs_neg _ G4), Qcopp_involutive. destruct g; cbn in *. congruence.
Qed.
Print Assumptions C64_geo_partial.

(** A rotated raster, or one with its rows from south to north, gets another geo-transform. *)
Theorem C64_geo_refuted : forall shape g, 0 < fst shape -> 0 < snd shape -> Qcle (Q2Qc 0) (g_cell_width g) ->
  g_row_rotation g <> Q2Qc 0 \/ Qclt (Q2Qc 0) (g_cell_height g) ->
  exists g', obind (box_of_geo shape g) (geo_of_box shape) = Ok g' /\ g' <> g.
Proof.
  intros shape g R C W H. rewrite geo_round_trip by assumption. eexists. split; [reflexivity|].
  intros Q. destruct H as [H|H].
  - apply H. rewrite <- Q. reflexivity.
  - assert (X : g_cell_height g = Qcopp (qabs (g_cell_height g))) by (rewrite <- Q at 1; reflexivity).
    unfold qabs in X. destruct (Qclt_le_dec (g_cell_height g) (Q2Qc 0)) as [l|l].
    + exact (Qclt_not_eq _ _ (Qclt_trans _ _ _ H l) eq_refl).
    + assert (Y : Qcle (g_cell_height g) (Q2Qc 0)).
      { rewrite X. replace (Q2Qc 0) with (- Q2Qc 0)%Qc by reflexivity. apply Qcopp_le_compat. exact l. }
      exact (Qclt_not_le _ _ H Y).
Qed.
Print Assumptions C64_geo_refuted.

Example C64_geo_case : exists g, north_up g /\ g_cell_width g = Q2Qc (1 # 2) /\
  obind (box_of_geo (3, 4) g) (geo_of_box (3, 4)) = Ok g.
Proof.
  exists {| g_west := Q2Qc 5; g_cell_width := Q2Qc (1 # 2); g_row_rotation := Q2Qc 0; g_north := Q2Qc 9; g_col_rotation := Q2Qc 0;
            g_cell_height := Q2Qc (-1 # 2) |}.
  assert (N : forall g, g = {| g_west := Q2Qc 5; g_cell_width := Q2Qc (1 # 2); g_row_rotation := Q2Qc 0; g_north := Q2Qc 9;
     g_col_rotation := Q2Qc 0; g_cell_height := Q2Qc (-1 # 2) |} -> north_up g).
  { intros g ->. repeat split; unfold Qcle, Qle; cbn; lia. }
  split; [apply N; reflexivity|]. split; [reflexivity|]. apply C64_geo_partial; try (cbn; lia). apply N; reflexivity.
Qed.
