(** C73: views on rasters. *)
From Coq Require Import Ascii String.
From Verif Require Import Common CoreSpec ArraySpec IOModel ValueModel ValueSpec ValidateModel FileNameModel CatalogModel RasterViewModel RasterViewSpec.
From Verif Require Import RasterViewProofs RasterViewProofs2 RasterViewProofs3 RasterViewProofs4 RasterViewProofs5.
Open Scope Z_scope.

Section C73.
Context {E C : Type} (zero : E) (origin : C).

(** All answers a program gets, whatever it does with whatever number of views on whatever number of rasters, are those of the specification *)
Theorem C73_programs : forall ops : list (@op E C), proper_program zero ops nothing -> fst (run zero origin ops new_world) = fst (expect zero ops nothing).
Proof. intros ops P. rewrite (new_world_enc origin). now rewrite (proj1 (run_enc zero origin ops nothing good_nothing P)). Qed.

(** The resulting dataset is accepted by the validation if and only if all rasters are *)
Theorem C73_valid : forall ops : list (@op E C), proper_program zero ops nothing ->
  (assert_is_valid false (to_data_set (wo_store (snd (run zero origin ops new_world)))) = Ok tt <->
   forall ph a s r, map_find ph (st_areas (snd (expect zero ops nothing))) = Some a -> map_find s (ar_rasters a) = Some r -> fine_raster a r).
Proof. exact (programs_valid zero origin). Qed.

(** Which is so when all phenomena are made by creating views *)
Theorem C73_valid_views_only : forall ops : list (@op E C), proper_program zero ops nothing -> Forall views_only ops ->
  assert_is_valid false (to_data_set (wo_store (snd (run zero origin ops new_world)))) = Ok tt.
Proof. exact (programs_views_only zero origin). Qed.

(** In any dataset with space boxes in two dimensions: a property set that is said to contain a raster can be opened *)
Theorem C73_constant_opens : forall ph s (d : @store E C), contains_constant ph s d = Ok true -> (forall v, get_set ph s d = Ok v -> sized_set 4 v) ->
  exists w, open_constant origin ph s d = Ok w.
Proof. exact (contains_constant_opens origin). Qed.
Theorem C73_variable_opens : forall ph s (d : @store E C), contains_variable ph s d = Ok true -> (forall v, get_set ph s d = Ok v -> sized_set 4 v) ->
  exists w, open_variable origin ph s d = Ok w.
Proof. exact (contains_variable_opens origin). Qed.
End C73.
Print Assumptions C73_programs.
Print Assumptions C73_valid.
Print Assumptions C73_valid_views_only.
Print Assumptions C73_constant_opens.
Print Assumptions C73_variable_opens.

Definition t73 (s : string) : text := text_of s.
(** A constant raster, a second view on it, layers with and without a no-data value, and a raster that varies through time *)
Definition p73 : list (@op Z Z) :=
  [CreateConstant (t73 "area") (t73 "static") [2; 2] [0; 0; 20; 20];
   AddLayer 0 (t73 "soil") (Some 255);
   AddLayer 0 (t73 "elevation") None;
   AddLayer 0 (t73 "soil") (Some 1);
   WriteLayer 0 (t73 "elevation") [1; 2; 3; 4];
   OpenConstant (t73 "area") (t73 "static");
   ReadLayer 1 (t73 "soil") 4;
   ReadLayer 1 (t73 "elevation") 4;
   CreateConstant (t73 "area") (t73 "static") [3; 3] [0; 0; 1; 1];
   CreateVariable (t73 "area") (t73 "dynamic") 3 (100, 200) [1; 2] [0; 0; 2; 1];
   AddLayer 2 (t73 "rain") None;
   WriteLayer 2 (t73 "rain") [1; 2; 3; 4; 5; 6];
   OpenVariable (t73 "area") (t73 "dynamic");
   ReadLayer 3 (t73 "rain") 6;
   OpenConstant (t73 "area") (t73 "dynamic");
   OpenConstant (t73 "area") (t73 "elsewhere");
   Look 0]%Z.
Ltac right_number := intros ph s known r H F; vm_compute in H; injection H as <- <- <-; vm_compute in F; injection F as <-; reflexivity.
Ltac proper73 := repeat match goal with
  | |- _ /\ _ => split
  | |- proper_op _ _ => cbn [proper_op]; cbv zeta
  | |- array_extents _ => repeat constructor; lia
  | |- True => exact I
  | |- forall ph, _ => right_number
  | |- _ <> _ => vm_compute; discriminate
  | |- _ = _ => reflexivity
  end.
Example C73_example : proper_program 0 p73 nothing /\ Forall views_only p73 /\
  fst (run 0 0 p73 new_world) =
  [Raster 5 [0; 0; 20; 20] [2; 2] None []; Done; Done; Refused; Done;
   Raster 5 [0; 0; 20; 20] [2; 2] None [t73 "elevation"; t73 "soil"]; Cells [255; 255; 255; 255]; Cells [1; 2; 3; 4]; Refused;
   Raster 5 [0; 0; 2; 1] [1; 2] (Some (100, 200, 3)) []; Done; Done;
   Raster 5 [0; 0; 2; 1] [1; 2] (Some (100, 200, 3)) [t73 "rain"]; Cells [1; 2; 3; 4; 5; 6]; NoRaster; Refused;
   Raster 5 [0; 0; 20; 20] [2; 2] None [t73 "soil"; t73 "elevation"]].
Proof.
  split; [|split; [repeat constructor; cbn; lia|reflexivity]].
  unfold p73. cbn [proper_program]. proper73.
Qed.
Example C73_valid_example : forall d, d = to_data_set (wo_store (snd (run 0 0 p73 new_world))) -> assert_is_valid false d = Ok tt.
Proof. intros d ->. reflexivity. Qed.
Example C73_opens_example : let d := wo_store (snd (run 0 0 p73 new_world)) in
  contains_constant (t73 "area") (t73 "static") d = Ok true /\ (forall v, get_set (t73 "area") (t73 "static") d = Ok v -> sized_set 4 v) /\
  contains_variable (t73 "area") (t73 "dynamic") d = Ok true /\ (forall v, get_set (t73 "area") (t73 "dynamic") d = Ok v -> sized_set 4 v).
Proof.
  cbv zeta. split; [reflexivity|]. split; [|split; [reflexivity|]]; intros v H; vm_compute in H; injection H as <-; repeat split; cbn [se_space se_same se_same_constant];
    try (intros sp [= <-]; reflexivity); try (injection H as <-; reflexivity); intros name p Hp; cbn in Hp; repeat destruct Hp as [[= <- <-]|Hp]; try destruct Hp; reflexivity.
Qed.

(** ** What does not hold *)

(** A layer that is added through one view cannot be read through another one that exists already, nor can it be added to it *)
Theorem C73_other_views_refuted : exists ops : list (@op Z Z), proper_program 0 ops nothing /\
  fst (run 0 0 ops new_world) = [Raster 5 [0; 0; 1; 1] [1; 1] None []; Raster 5 [0; 0; 1; 1] [1; 1] None []; Done; Refused; Refused].
Proof.
  exists [CreateConstant (t73 "a") (t73 "s") [1; 1] [0; 0; 1; 1]; OpenConstant (t73 "a") (t73 "s"); AddLayer 0 (t73 "x") None; ReadLayer 1 (t73 "x") 1; AddLayer 1 (t73 "x") None].
  split; [|reflexivity]. cbn [proper_program]. proper73.
Qed.
Print Assumptions C73_other_views_refuted.

(** Creating a raster that varies through time for an object with another ID than 5, or any raster for more than one object, succeeds and gives a dataset
    that is rejected by the validation; in the latter case there is no raster according to contains_raster *)
Theorem C73_valid_refuted : exists one two : list (@op Z Z), proper_program 0 one nothing /\ proper_program 0 two nothing /\
  fst (run 0 0 one new_world) = [Done; Raster 7 [0; 0; 1; 1] [1; 1] (Some (0, 1, 1)) []] /\
  assert_is_valid false (to_data_set (wo_store (snd (run 0 0 one new_world)))) = Throw /\
  fst (run 0 0 two new_world) = [Done; Raster 5 [0; 0; 1; 1] [1; 1] None []; NoRaster] /\
  assert_is_valid false (to_data_set (wo_store (snd (run 0 0 two new_world)))) = Throw.
Proof.
  exists [AddPhenomenon (t73 "a") [7]; CreateVariable (t73 "a") (t73 "s") 1 (0, 1) [1; 1] [0; 0; 1; 1]],
         [AddPhenomenon (t73 "a") [5; 6]; CreateConstant (t73 "a") (t73 "s") [1; 1] [0; 0; 1; 1]; OpenConstant (t73 "a") (t73 "s")].
  repeat split; try reflexivity; cbn [proper_program]; proper73.
Qed.
Print Assumptions C73_valid_refuted.

(** With a layer that has the name of a discretization property, a raster is no raster anymore; and there can be two properties with the same name *)
Theorem C73_reserved_names_refuted : exists ops : list (@op Z Z),
  fst (run 0 0 ops new_world) = [Raster 5 [0; 0; 1; 1] [1; 1] None []; Done; Done; NoRaster] /\
  exists v, get_set (t73 "a") (t73 "s") (wo_store (snd (run 0 0 ops new_world))) = Ok v /\
    map_contains space_grid_name (se_same v) = true /\ map_contains space_grid_name (se_different v) = true.
Proof.
  exists [CreateConstant (t73 "a") (t73 "s") [1; 1] [0; 0; 1; 1]; AddLayer 0 space_grid_name None; AddLayer 0 time_grid_name None; OpenConstant (t73 "a") (t73 "s")].
  split; [reflexivity|]. eexists. split; [vm_compute; reflexivity|]. split; reflexivity.
Qed.
Print Assumptions C73_reserved_names_refuted.

(** A grid shape with one extent only is read outside of its bounds; of a shape with three extents the last one is not used *)
Theorem C73_grid_shapes_refuted : exists ops : list (@op Z Z),
  fst (run 0 0 ops new_world) = [Undefined; Raster 5 [0; 0; 1; 1] [1; 2] None []].
Proof. exists [CreateConstant (t73 "a") (t73 "s") [1] [0; 0; 1; 1]; CreateConstant (t73 "a") (t73 "t") [1; 2; 3] [0; 0; 1; 1]]. reflexivity. Qed.
Print Assumptions C73_grid_shapes_refuted.

(** With space boxes in three dimensions a property set is said to contain a raster, but opening it writes outside of the bounds of an array *)
Theorem C73_three_dimensions_refuted : exists d : @store Z Z,
  contains_constant (t73 "a") (t73 "s") d = Ok true /\ (forall v, get_set (t73 "a") (t73 "s") d = Ok v -> sized_set 6 v) /\ open_constant 0 (t73 "a") (t73 "s") d = UB.
Proof.
  exists [(t73 "a", Phen [5] [(t73 "s", Set_ (Tracker [] [] []) None (Some (Space false true false (Array (IOModel.Dataset [1; 6] [0; 0; 0; 1; 1; 1]) 0)))
    [(space_grid_name, Numbers (Array (IOModel.Dataset [1; 2] [1; 1]) 0) true false false)] [] [] [])])].
  split; [reflexivity|]. split; [|reflexivity]. intros v H. vm_compute in H. injection H as <-. repeat split; cbn [se_space se_same se_same_constant];
    try (injection H as <-; reflexivity); intros name p Hp; cbn in Hp; repeat destruct Hp as [[= <- <-]|Hp]; try destruct Hp; reflexivity.
Qed.
Print Assumptions C73_three_dimensions_refuted.
