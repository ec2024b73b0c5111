(** Property theorems about operations of lue.pcraster (C69).  [ieee]: float and double are IEEE 754's (PcrFloat.v); [junk]: the
    contents of fresh buffers. *)
From Coq Require Import Lia.
From Flocq Require Import Core BinarySingleNaN.
From Verif Require Import Common CoreSpec DecompSpec ArraySpec DecompModel ArrayModel ArrayRep LocalModel LocalSpec LocalProofs RasterCheck
  PcrModel PcrSpec PcrProofs Float64 PcrFloat PcrFloatProofs.
Open Scope Z_scope.

(** C69: cover gives, in each cell, the value of the first argument that has one there. *)
Theorem C69_cover :
  forall junk cfg a p t e1 e2 es f1 f2 fs,
  clone cfg a p -> stands_for ieee a p t e1 f1 -> stands_for ieee a p t e2 f2 -> typed t e1 e2 -> Forall2 (stands_for ieee a p t) es fs ->
  exists out g, cover ieee junk cfg e1 e2 es = Ok (Arg t (WArray out)) /\ raster_of a p out g /\
    forall c, in_shape a c -> first_valid ieee t (f1 :: f2 :: fs) c (g c).
Proof. intros. apply cover_ok; auto using ieee_proper. Qed.
Print Assumptions C69_cover.

(** C69: max gives the largest of the values in a cell, and no-data if one of these is. *)
Theorem C69_maximum :
  forall junk cfg a p t es e1 e2 fs f1 f2,
  clone cfg a p -> Forall2 (stands_for ieee a p t) es fs -> stands_for ieee a p t e1 f1 -> stands_for ieee a p t e2 f2 -> typed t e1 e2 ->
  exists out g, pcr_max ieee junk cfg (es ++ [e1; e2]) = Ok (Arg t (WArray out)) /\ raster_of a p out g /\
    forall c, in_shape a c -> extreme ieee (at_least ieee) t (fs ++ [f1; f2]) c (g c).
Proof.
  intros junk cfg a p t es e1 e2 fs f1 f2 C H H1 H2 T.
  destruct (select_ok ieee junk ieee_proper GreaterEqual cfg a p t e1 e2 f1 f2 ltac:(discriminate) C H1 H2 T es fs H) as [out [g [E [R G]]]].
  exists out, g. split; [exact E|]. split; [exact R|]. intros c Hc. apply (extreme_weaken ieee (related ieee GreaterEqual)); [intros t' v w; apply (related_at_least ieee junk)|exact (G c Hc)].
Qed.
Print Assumptions C69_maximum.

(** C69: ... and min the smallest. *)
Theorem C69_minimum :
  forall junk cfg a p t es e1 e2 fs f1 f2,
  clone cfg a p -> Forall2 (stands_for ieee a p t) es fs -> stands_for ieee a p t e1 f1 -> stands_for ieee a p t e2 f2 -> typed t e1 e2 ->
  exists out g, pcr_min ieee junk cfg (es ++ [e1; e2]) = Ok (Arg t (WArray out)) /\ raster_of a p out g /\
    forall c, in_shape a c -> extreme ieee (at_most ieee) t (fs ++ [f1; f2]) c (g c).
Proof.
  intros junk cfg a p t es e1 e2 fs f1 f2 C H H1 H2 T.
  destruct (select_ok ieee junk ieee_proper LessEqual cfg a p t e1 e2 f1 f2 ltac:(discriminate) C H1 H2 T es fs H) as [out [g [E [R G]]]].
  exists out, g. split; [exact E|]. split; [exact R|]. intros c Hc. apply (extreme_weaken ieee (related ieee LessEqual)); [intros t' v w; apply (related_at_most ieee junk)|exact (G c Hc)].
Qed.
Print Assumptions C69_minimum.

(** C69: ifthen keeps the values where the condition is true; ifthenelse chooses between two. *)
Theorem C69_ifthen :
  forall junk cfg a p t ec e fc f,
  clone cfg a p -> stands_for ieee a p U8 ec fc -> stands_for ieee a p t e f -> (forall n, e = Value n -> numpy_scalar_type n = Ok t) ->
  exists out g, ifthen ieee junk cfg ec e = Ok (Arg t (WArray out)) /\ raster_of a p out g /\
    forall c, in_shape a c ->
      (~ missing ieee U8 (fc c) -> fc c <> 0 -> ~ missing ieee t (f c) -> g c = f c) /\
      (missing ieee U8 (fc c) \/ fc c = 0 \/ missing ieee t (f c) -> missing ieee t (g c)).
Proof. intros. apply ifthen_ok; auto using ieee_proper. Qed.
Print Assumptions C69_ifthen.

Theorem C69_ifthenelse :
  forall junk cfg a p t ec e1 e2 fc f1 f2,
  clone cfg a p -> stands_for ieee a p U8 ec fc ->
  stands_for ieee a p t e1 f1 -> (forall n, e1 = Value n -> numpy_scalar_type n = Ok t) ->
  stands_for ieee a p t e2 f2 -> (forall n, e2 = Value n -> numpy_scalar_type n = Ok t) ->
  exists out g, ifthenelse ieee junk cfg ec e1 e2 = Ok (Arg t (WArray out)) /\ raster_of a p out g /\
    forall c, in_shape a c -> chosen ieee t fc f1 f2 g c.
Proof. intros. apply ifthenelse_ok; auto using ieee_proper. Qed.
Print Assumptions C69_ifthenelse.

(** C69: boolean tells zero from other values, whatever integer type [first] the intermediate result has. *)
Theorem C69_boolean :
  forall junk first ff a p t x f,
  int_type first -> t <> U8 -> raster_of a p x f ->
  exists out h, boolean ieee junk first ff (Arg t (WArray x)) = Ok (Arg U8 (WArray out)) /\ raster_of a p out h /\
    forall c, in_shape a c -> truth ieee t (f c) (h c).
Proof. intros. apply boolean_array_ok; auto using ieee_proper. Qed.
Print Assumptions C69_boolean.
Theorem C69_boolean_scalar :
  forall junk first ff t v, t <> U8 ->
  exists b, boolean ieee junk first ff (Arg t (WScalar v)) = Ok (Arg U8 (WScalar b)) /\ truth ieee t v b.
Proof. intros. apply boolean_scalar_ok; auto using ieee_proper. Qed.
Print Assumptions C69_boolean_scalar.

(** C69: defined tells where there are values. *)
Theorem C69_defined :
  forall junk a p t (x : parray (@elt b32 t)) f, raster_of a p x f ->
  exists out g, defined ieee junk (@Arg b32 b64 t (WArray x)) = Ok (Arg U8 (WArray out)) /\ raster_of a p out g /\
    forall c, in_shape a c -> (missing ieee t (f c) -> g c = 0) /\ (~ missing ieee t (f c) -> g c = 1).
Proof. intros. apply defined_array_ok; auto. Qed.
Print Assumptions C69_defined.

(** C69: rasters of different types are refused, not converted silently. *)
Theorem C69_different_types_refused :
  forall junk cfg t s (x : where_arg (@elt b32 t)) (y : where_arg (@elt b32 s)) es, t <> s ->
  cover ieee junk cfg (Arg t x) (Arg s y) es = Throw /\ pcr_max ieee junk cfg [Arg t x; Arg s y] = Throw /\ pcr_min ieee junk cfg [Arg t x; Arg s y] = Throw.
Proof.
  intros junk cfg t s x y es N. unfold cover, pcr_max, pcr_min. cbn [select obind]. unfold select2. rewrite !(harmonize_different ieee) by exact N. repeat split.
Qed.
Print Assumptions C69_different_types_refused.

(** C69: the type of a number. *)
Theorem C69_type_of_numbers : forall (n : pyvalue b32 b64) t, numpy_scalar_type n = Ok t <-> type_of_number n t.
Proof.
  intros n t. split.
  - destruct n; cbn; intros H; inversion H; constructor.
  - intros H. destruct H; reflexivity.
Qed.
Print Assumptions C69_type_of_numbers.
(** C69: an integer beside a raster with integers is accepted if it is a value of the type of the raster, and refused otherwise; beside a raster with floats it is rounded. *)
Theorem C69_integers : forall t z,
  (within t z -> load ieee t (@PyInt b32 b64 z) = Ok (of_Z ieee t z)) /\ (~ within t z -> load ieee t (@PyInt b32 b64 z) = Throw) /\
  (forall junk cfg (x : where_arg (@elt b32 t)) es, ~ within t z ->
    cover ieee junk cfg (Arg t x) (Value (PyInt z)) es = Throw /\ pcr_max ieee junk cfg [Arg t x; Value (PyInt z)] = Throw /\ pcr_min ieee junk cfg [Arg t x; Value (PyInt z)] = Throw).
Proof.
  intros t z.
  assert (A : within t z -> load ieee t (@PyInt b32 b64 z) = Ok (of_Z ieee t z)).
  { destruct t; cbn [within load load_integer of_Z]; intros H; try reflexivity; unfold in_range; change (imin u8) with 0; change (imax u8) with 255; change (imin i32) with (-2147483648); change (imax i32) with 2147483647;
      (replace (_ && _) with true; [reflexivity|]); symmetry; apply andb_true_intro; rewrite !Z.leb_le; lia. }
  assert (B : ~ within t z -> load ieee t (@PyInt b32 b64 z) = Throw).
  { destruct t; cbn [within load load_integer of_Z]; intros H; [| |destruct H; exact I]; unfold in_range; change (imin u8) with 0; change (imax u8) with 255; change (imin i32) with (-2147483648); change (imax i32) with 2147483647;
      (replace (_ && _) with false; [reflexivity|]); symmetry; apply Bool.not_true_is_false; rewrite Bool.andb_true_iff, !Z.leb_le; lia. }
  split; [exact A|]. split; [exact B|]. intros junk cfg x es H. unfold cover, pcr_max, pcr_min. cbn [select obind]. unfold select2, harmonize_types, receive. cbn [obind]. rewrite (B H). repeat split.
Qed.
Print Assumptions C69_integers.
Example C69_integers_ex : within U8 255 /\ ~ within U8 256 /\ within I32 (-2147483648).
Proof. cbn. lia. Qed.

(** ** A case *)
Definition pcr_cfg : configuration := Configuration [2; 5] [1; 2] 2.
Lemma pcr_clone : clone pcr_cfg [2; 5] [1; 2].
Proof. unfold clone, pcr_cfg, partition_fits. repeat split; cbn; try (repeat constructor; lia); try lia. Qed.
Definition pcr_raster (f : list Z -> Z) : @expr b32 b64 := Arg I32 (WArray (raster_array [2; 5] [1; 2] f)).
Lemma pcr_raster_ok f : @stands_for b32 b64 ieee [2; 5] [1; 2] I32 (pcr_raster f) f.
Proof. apply an_array. apply raster_array_ok; [discriminate|]. exact (proj1 (proj2 (proj2 (proj2 pcr_clone)))). Qed.
Definition first_raster (c : list Z) : Z := if nth 0 c 0 =? 0 then - 2 ^ 31 else 5.
Definition second_raster (c : list Z) : Z := if nth 1 c 0 =? 0 then - 2 ^ 31 else 10 * nth 0 c 0 + nth 1 c 0.


(** The values, by partition *)
Definition cells_of (r : outcome (@expr b32 b64)) : list (list Z) :=
  match r with
  | Ok (Arg U8 (WArray x)) => map pl_data (pa_parts x)
  | Ok (Arg I32 (WArray x)) => map pl_data (pa_parts x)
  | _ => []
  end.
Definition some_junk (t : dtype) : Z -> @elt b32 t := match t with F32 => fun _ => B754_nan | _ => fun i => i end.

(** Of two rasters and a number, where both rasters are no-data in cell (0, 0) *)
Example C69_case :
  clone pcr_cfg [2; 5] [1; 2] /\
  @stands_for b32 b64 ieee [2; 5] [1; 2] I32 (pcr_raster first_raster) first_raster /\
  stands_for ieee [2; 5] [1; 2] I32 (pcr_raster second_raster) second_raster /\
  typed I32 (pcr_raster first_raster) (pcr_raster second_raster) /\
  Forall2 (stands_for ieee [2; 5] [1; 2] I32) [Value (PyInt 9)] [fun _ => 9] /\
  missing ieee I32 (first_raster [0; 0]) /\ missing ieee I32 (second_raster [0; 0]) /\ ~ missing ieee I32 (second_raster [0; 1]).
Proof.
  split; [exact pcr_clone|]. split; [apply pcr_raster_ok|]. split; [apply pcr_raster_ok|]. split; [exact I|]. split.
  - constructor; [|constructor]. apply a_number with (v := 9); reflexivity.
  - repeat split. discriminate.
Qed.
Example C69_case_cover :
  cells_of (cover ieee some_junk pcr_cfg (pcr_raster first_raster) (pcr_raster second_raster) [Value (PyInt 9)]) = [[9; 1]; [2; 3; 4]; [5; 5]; [5; 5; 5]].
Proof. vm_compute. reflexivity. Qed.
Example C69_case_maximum :
  cells_of (pcr_max ieee some_junk pcr_cfg [Value (PyInt 11); pcr_raster first_raster; pcr_raster second_raster]) =
    [[- 2 ^ 31; - 2 ^ 31]; [- 2 ^ 31; - 2 ^ 31; - 2 ^ 31]; [- 2 ^ 31; 11]; [12; 13; 14]].
Proof. vm_compute. reflexivity. Qed.
Example C69_case_minimum :
  cells_of (pcr_min ieee some_junk pcr_cfg [Value (PyInt 11); pcr_raster second_raster]) = [[- 2 ^ 31; 1]; [2; 3; 4]; [- 2 ^ 31; 11]; [11; 11; 11]].
Proof. vm_compute. reflexivity. Qed.
(** A number as condition; boolean of a raster *)
Example C69_case_ifthenelse :
  stands_for ieee [2; 5] [1; 2] U8 (Value (PyInt 1)) (fun _ => 1) /\
  cells_of (ifthenelse ieee some_junk pcr_cfg (Value (PyInt 1)) (pcr_raster second_raster) (Value (PyInt 7))) = [[- 2 ^ 31; 1]; [2; 3; 4]; [- 2 ^ 31; 11]; [12; 13; 14]] /\
  cells_of (ifthen ieee some_junk pcr_cfg (Value (PyBool false)) (pcr_raster second_raster)) = [[- 2 ^ 31; - 2 ^ 31]; [- 2 ^ 31; - 2 ^ 31; - 2 ^ 31]; [- 2 ^ 31; - 2 ^ 31]; [- 2 ^ 31; - 2 ^ 31; - 2 ^ 31]].
Proof. split; [apply a_number with (v := 1); reflexivity|]. vm_compute. split; reflexivity. Qed.
Example C69_case_boolean :
  cells_of (boolean ieee some_junk (IType 64 true) (fun i => i) (pcr_raster second_raster)) = [[255; 1]; [1; 1; 1]; [255; 1]; [1; 1; 1]] /\
  cells_of (boolean ieee some_junk (IType 64 true) (fun i => i) (pcr_raster (fun c => nth 0 c 0))) = [[0; 0]; [0; 0; 0]; [1; 1]; [1; 1; 1]] /\
  cells_of (defined ieee some_junk (pcr_raster second_raster)) = [[0; 1]; [1; 1; 1]; [0; 1]; [1; 1; 1]].
Proof. vm_compute. repeat split; reflexivity. Qed.
(** float: 2.5 *)
Definition two_and_a_half : b64 := b64_div (b64_of_Z 5) (b64_of_Z 2).
Example C69_case_floats :
  match pcr_max ieee some_junk pcr_cfg [Value (PyFloat two_and_a_half); Value (PyInt 1)] with
  | Ok (Arg F32 (WArray x)) => map (fun q => map B2SF (pl_data q)) (pa_parts x) = map (map B2SF) (map (repeat (b32_of_b64 two_and_a_half)) [2; 3; 2; 3]%nat)
  | _ => False
  end.
Proof. vm_compute. reflexivity. Qed.

(** C69, refuted: the result depends on more than the values: of two numbers the first decides about the type. *)
Theorem C69_order_of_numbers_refuted :
  exists cfg a p x y, clone cfg a p /\
    (forall junk, exists out, pcr_max ieee junk cfg [Value x; Value y] = Ok (Arg F32 (WArray out))) /\
    (forall junk, pcr_max ieee junk cfg [Value y; Value x] = Throw).
Proof.
  exists pcr_cfg, [2; 5], [1; 2], (PyFloat two_and_a_half), (PyInt 1). split; [exact pcr_clone|]. split.
  - intros junk. destruct (C69_maximum junk pcr_cfg [2; 5] [1; 2] F32 [] (Value (PyFloat two_and_a_half)) (Value (PyInt 1)) []
      (fun _ => b32_of_b64 two_and_a_half) (fun _ => b32_of_Z 1) pcr_clone (Forall2_nil _)) as [out [g [E _]]].
    + now apply a_number with (v := b32_of_b64 two_and_a_half).
    + now apply a_number with (v := b32_of_Z 1).
    + reflexivity.
    + exists out. exact E.
  - reflexivity.
Qed.
Print Assumptions C69_order_of_numbers_refuted.

(** C69, refuted: a whole number is accepted beside a raster of floats by cover, max and min, but not by ifthenelse. *)
Theorem C69_number_beside_floats_refuted :
  forall junk cfg a p ec fc x f, clone cfg a p -> stands_for ieee a p U8 ec fc -> raster_of a p x f ->
  ifthenelse ieee junk cfg ec (Arg F32 (WArray x)) (Value (PyInt 0)) = Throw /\
  exists out, cover ieee junk cfg (Arg F32 (WArray x)) (Value (PyInt 0)) [] = Ok (Arg F32 (WArray out)).
Proof.
  intros junk cfg a p ec fc x f C Hc R. split.
  - unfold ifthenelse. destruct (condition_ok ieee junk cfg a p ec fc C Hc) as [z [E _]]. rewrite E. reflexivity.
  - destruct (C69_cover junk cfg a p F32 (Arg F32 (WArray x)) (Value (PyInt 0)) [] f (fun _ => b32_of_Z 0) [] C) as [out [g [E _]]];
      [now apply an_array|now apply a_number with (v := b32_of_Z 0)|exact I|constructor|]. exists out. exact E.
Qed.
Print Assumptions C69_number_beside_floats_refuted.
