(** C78: random values. *)
From Coq Require Import Reals Lra.
From Flocq Require Import Core.
From Flocq Require Import IEEE754.BinarySingleNaN.
From Verif Require Import Common CoreSpec DecompSpec ArraySpec IndexModel DecompModel ArrayModel ArrayRep ArrayProofs RasterCheck LocalModel LocalSpec UniqueModel Float64
  RandomModel RandomSpec RandomProofs RandomProofs2.
Open Scope Z_scope.

(** C78: the arrays.  Each partition has an engine of its own; its cells hold, in row-major order, the values that are drawn with it.  This holds for the
    array that is like another one and for the array that is created given its shape. *)
Theorem C78_successive_draws : forall (G V : Type) (dist : distribution G V) (no_data : V -> bool) (within_domain : V -> V -> bool) (mark : V -> V) (junk : Z -> V) (seeded : list Z -> G) p1 p2,
  d_accepts dist p1 p2 = true ->
  forall a p, exists g : list Z -> V,
    (partition_fits a p -> forall c x, in_shape (parts_shape a p) c -> in_shape (part_extent a p c) x ->
       g (vadd (part_offset p c) x) = nth_draw (d_draw dist p1 p2) (Z.to_nat (rowmaj (part_extent a p c) x)) (seeded (part_offset p c))) /\
    (forall (I : Type) (arr : parray I) f, raster_of a p arr f -> no_data p1 = false -> no_data p2 = false -> within_domain p1 p2 = true ->
       exists out, random_like dist no_data within_domain mark junk seeded arr p1 p2 = Ok out /\ raster_of a p out g) /\
    (forall L, supported L a p -> partition_fits a p -> L <= nr_parts a p -> exists out, random_array dist seeded L a p p1 p2 = Ok out /\ raster_of a p out g).
Proof.
  intros G V dist no_data within_domain mark junk seeded p1 p2 Ac a p. exists (drawn dist seeded a p p1 p2). split; [|split].
  - intros Hf c x Hc Hx. now apply drawn_at.
  - intros I arr f H N1 N2 Wd. now apply (random_like_ok dist no_data within_domain mark junk seeded a p arr f).
  - intros L Sup Hf HL. now apply random_array_ok.
Qed.
Print Assumptions C78_successive_draws.

Lemma all_drawn {V} (P : V -> Prop) a p (g : list Z -> V) : partition_fits a p ->
  (forall c x, in_shape (parts_shape a p) c -> in_shape (part_extent a p c) x -> P (g (vadd (part_offset p c) x))) -> forall y, in_shape a y -> P (g y).
Proof. intros Hf H y Hy. destruct (cell_part a p y Hf Hy) as [c [x [Hc [Hx ->]]]]. auto. Qed.

(** C78: uniform with integers.  [draw] meets the contract of std::uniform_int_distribution; the limits contain data and are in order. *)
Theorem C78_uniform_integers : forall (G : Type) (draw : Z -> Z -> G -> Z * G) (t : itype) (mark : Z -> Z) (junk : Z -> Z) (seeded : list Z -> G) lo hi,
  (forall a b g, a <= b -> a <= fst (draw a b g) <= b) ->
  int_type t -> imin t <= lo <= hi -> hi <= imax t -> lo <> no_data_value t -> hi <> no_data_value t ->
  let no_data v := v =? no_data_value t in
  forall a p,
    (forall (I : Type) (arr : parray I) f, raster_of a p arr f ->
       exists out g, random_like (uniform_int draw) no_data all_within_domain mark junk seeded arr lo hi = Ok out /\ raster_of a p out g /\
         forall x, in_shape a x -> lo <= g x <= hi /\ no_data (g x) = false) /\
    (forall L, supported L a p -> partition_fits a p -> L <= nr_parts a p ->
       exists out g, random_array (uniform_int draw) seeded L a p lo hi = Ok out /\ raster_of a p out g /\
         forall x, in_shape a x -> lo <= g x <= hi /\ no_data (g x) = false) /\
    (exists v, random_scalar (uniform_int draw) no_data mark junk seeded lo hi = Ok v /\ lo <= v <= hi /\ no_data v = false).
Proof.
  intros G draw t mark junk seeded lo hi Hd Ht Hlo Hhi N1 N2 no_data a p.
  assert (Ac : d_accepts (uniform_int draw) lo hi = true) by (cbn; apply Z.leb_le; lia).
  assert (ND : forall v, lo <= v <= hi -> lo <= v <= hi /\ no_data v = false).
  { intros v Hv. split; [assumption|]. unfold no_data. apply Z.eqb_neq. unfold no_data_value in *. destruct (signed t); lia. }
  assert (E1 : no_data lo = false) by (now apply Z.eqb_neq). assert (E2 : no_data hi = false) by (now apply Z.eqb_neq).
  destruct (C78_successive_draws G Z (uniform_int draw) no_data all_within_domain mark junk seeded lo hi Ac a p) as [g [Hg [H1 H2]]].
  split; [|split].
  - intros I arr f H. destruct (H1 I arr f H E1 E2 eq_refl) as [out [E R]]. exists out, g. split; [assumption|]. split; [assumption|]. apply (all_drawn (fun v => lo <= v <= hi /\ no_data v = false) a p g); [apply H|]. intros c x Hc Hx. apply ND.
    rewrite Hg by (try apply H; assumption). unfold nth_draw. apply Hd. lia.
  - intros L Sup Hf HL. destruct (H2 L Sup Hf HL) as [out [E R]]. exists out, g. split; [assumption|]. split; [assumption|]. apply (all_drawn (fun v => lo <= v <= hi /\ no_data v = false) a p g); [assumption|]. intros c x Hc Hx. apply ND.
    rewrite Hg by assumption. unfold nth_draw. apply Hd. lia.
  - unfold random_scalar. rewrite E1, E2, Ac. cbn [orb]. eexists. split; [reflexivity|]. apply ND. apply Hd. lia.
Qed.
Print Assumptions C78_uniform_integers.

(** C78: uniform with floating point numbers, both ends included.  What is missing: the last number is not excluded, see [C78_half_open_refuted]. *)
Theorem C78_uniform_floats_partial : forall (prec emax : Z) (Hprec : Prec_gt_0 prec) (Hemax : Prec_lt_emax prec emax) (G : Type) (canonical : G -> binary_float prec emax * G)
    (mark : binary_float prec emax -> binary_float prec emax) (junk : Z -> binary_float prec emax) (seeded : list Z -> G) lo hi,
  (1 < prec)%Z -> (forall g, in_unit_interval (fst (canonical g))) ->
  is_finite lo = true -> is_finite hi = true -> (B2R lo <= B2R hi)%R -> is_finite (Bminus mode_NE hi lo) = true ->
  forall a p,
    (forall (I : Type) (arr : parray I) f, raster_of a p arr f ->
       exists out g, random_like (uniform_real prec emax Hprec Hemax canonical) is_nan all_within_domain mark junk seeded arr lo hi = Ok out /\ raster_of a p out g /\
         forall x, in_shape a x -> between lo hi (g x)) /\
    (forall L, supported L a p -> partition_fits a p -> L <= nr_parts a p ->
       exists out g, random_array (uniform_real prec emax Hprec Hemax canonical) seeded L a p lo hi = Ok out /\ raster_of a p out g /\
         forall x, in_shape a x -> between lo hi (g x)) /\
    (exists v, random_scalar (uniform_real prec emax Hprec Hemax canonical) is_nan mark junk seeded lo hi = Ok v /\ between lo hi v).
Proof.
  intros prec emax Hprec Hemax G canonical mark junk seeded lo hi Hp1 Hc Flo Fhi Le Fm a p. set (dist := uniform_real prec emax Hprec Hemax canonical).
  assert (Ac : d_accepts dist lo hi = true).
  { cbn. apply andb_true_intro. split; [|assumption]. rewrite Bleb_correct by assumption. now apply Rle_bool_true. }
  assert (B : forall g, between lo hi (fst (d_draw dist lo hi g))) by (intros g; now apply uniform_real_between).
  assert (E1 : is_nan lo = false) by (destruct lo; try reflexivity; discriminate). assert (E2 : is_nan hi = false) by (destruct hi; try reflexivity; discriminate).
  destruct (C78_successive_draws G _ dist is_nan all_within_domain mark junk seeded lo hi Ac a p) as [g [Hg [H1 H2]]].
  split; [|split].
  - intros I arr f H. destruct (H1 I arr f H E1 E2 eq_refl) as [out [E R]]. exists out, g. split; [assumption|]. split; [assumption|]. apply (all_drawn (between lo hi) a p g); [apply H|]. intros c x Hx Hx'.
    rewrite Hg by (try apply H; assumption). apply B.
  - intros L Sup Hf HL. destruct (H2 L Sup Hf HL) as [out [E R]]. exists out, g. split; [assumption|]. split; [assumption|]. apply (all_drawn (between lo hi) a p g); [assumption|]. intros c x Hx Hx'.
    rewrite Hg by assumption. apply B.
  - unfold random_scalar. rewrite E1, E2, Ac. cbn [orb]. eexists. split; [reflexivity|]. apply B.
Qed.
Print Assumptions C78_uniform_floats_partial.

(** 1 - 2^-53, the largest double that is less than 1 *)
Definition almost_one : b64 := @binary_normalize 53 1024 b64_prec_gt_0 b64_prec_lt_emax mode_NE (2 ^ 53 - 1) (-53) false.
Definition canonical_one (g : unit) : b64 * unit := (almost_one, g).
Lemma almost_one_unit : in_unit_interval almost_one.
Proof.
  split; [reflexivity|]. assert (E : B2R almost_one = (9007199254740991 * / 9007199254740992)%R).
  { unfold almost_one. change (B2R (binary_normalize 53 1024 _ _ mode_NE (2 ^ 53 - 1) (-53) false)) with (SF2R radix2 (B2SF (binary_normalize 53 1024 b64_prec_gt_0 b64_prec_lt_emax mode_NE (2 ^ 53 - 1) (-53) false))) || rewrite <- (SF2R_B2SF 53 1024).
    replace (B2SF (binary_normalize 53 1024 b64_prec_gt_0 b64_prec_lt_emax mode_NE (2 ^ 53 - 1) (-53) false)) with (SpecFloat.S754_finite false 9007199254740991 (-53)) by (vm_compute; reflexivity).
    unfold SF2R, F2R. cbn [Fnum Fexp cond_Zopp]. replace (bpow radix2 (-53)) with (/ 9007199254740992)%R; [reflexivity|]. cbn [bpow]. f_equal. }
  rewrite E. lra.
Qed.
(** C78: the documented half open interval is refuted: uniform(array, 1, 2) results in 2, when the largest number less than 1 is drawn. *)
Theorem C78_half_open_refuted : (forall g, in_unit_interval (fst (canonical_one g))) /\
  forall a p (I : Type) (arr : parray I) f mark junk, raster_of a p arr f ->
  exists out g, random_like (uniform_real 53 1024 b64_prec_gt_0 b64_prec_lt_emax canonical_one) is_nan all_within_domain mark junk (fun _ => tt) arr (b64_of_Z 1) (b64_of_Z 2) = Ok out /\
    raster_of a p out g /\ forall x, in_shape a x -> g x = b64_of_Z 2.
Proof.
  split; [intros []; apply almost_one_unit|]. intros a p I arr f mark junk H. set (dist := uniform_real 53 1024 b64_prec_gt_0 b64_prec_lt_emax canonical_one).
  destruct (C78_successive_draws unit _ dist is_nan all_within_domain mark junk (fun _ => tt) (b64_of_Z 1) (b64_of_Z 2)) with (a := a) (p := p) as [g [Hg [H1 _]]]; [vm_compute; reflexivity|].
  destruct (H1 I arr f H) as [out [E R]]; [vm_compute; reflexivity|vm_compute; reflexivity|reflexivity|]. exists out, g. split; [assumption|]. split; [assumption|]. apply (all_drawn (fun v => v = b64_of_Z 2) a p g); [apply H|]. intros c x Hx Hx'.
  rewrite Hg by (try apply H; assumption). unfold nth_draw. match goal with |- fst (d_draw _ _ _ ?s) = _ => destruct s end. apply B2SF_inj. vm_compute. reflexivity.
Qed.
Print Assumptions C78_half_open_refuted.

(** C78: when a parameter does not contain data, or when the parameters are not within the domain, arrays like another one do not contain data. *)
Theorem C78_no_data : forall (G V : Type) (dist : distribution G V) (no_data : V -> bool) (within_domain : V -> V -> bool) (mark : V -> V) (nd : V) (junk : Z -> V) (seeded : list Z -> G) p1 p2,
  (forall v, mark v = nd) ->
  (forall (I : Type) a p (arr : parray I) f, raster_of a p arr f -> no_data p1 = true \/ no_data p2 = true \/ within_domain p1 p2 = false ->
     exists out, random_like dist no_data within_domain mark junk seeded arr p1 p2 = Ok out /\ raster_of a p out (fun _ => nd)) /\
  (no_data p1 = true \/ no_data p2 = true -> random_scalar dist no_data mark junk seeded p1 p2 = Ok nd).
Proof.
  intros G V dist no_data within_domain mark nd junk seeded p1 p2 Hm. split.
  - intros I a p arr f H N. eapply random_like_marked; eassumption.
  - intros N. unfold random_scalar. destruct (no_data p1) eqn:E1; [cbn; now rewrite Hm|]. destruct (no_data p2) eqn:E2; [cbn; now rewrite Hm|]. destruct N; discriminate.
Qed.
Print Assumptions C78_no_data.

(** C78: refuted for arrays that are created given their shape, whatever the engine: uniform(shape, partition_shape, NaN, 1) is undefined, and with integers,
    no-data values are used as numbers: if all numbers from the lowest up to 5 can be drawn, the array can contain any of these. *)
Theorem C78_shape_no_data_refuted :
  (forall (G : Type) (canonical : G -> b64 * G) seeded L a p, supported L a p -> partition_fits a p -> L <= nr_parts a p ->
     random_array (uniform_real 53 1024 b64_prec_gt_0 b64_prec_lt_emax canonical) seeded L a p B754_nan (b64_of_Z 1) = UB) /\
  (let t := IType 32 true in forall a p L, supported L a p -> partition_fits a p -> L <= nr_parts a p ->
     exists out g, random_array (uniform_int (fun a b (n : Z) => (Z.max a (Z.min b n), n))) (fun _ => 3) L a p (no_data_value t) 5 = Ok out /\ raster_of a p out g /\ forall x, in_shape a x -> g x = 3).
Proof.
  split.
  - intros G canonical seeded L a p Sup Hf HL. now apply random_array_ub.
  - intros t a p L Sup Hf HL.
    destruct (C78_successive_draws Z Z (uniform_int (fun a b (n : Z) => (Z.max a (Z.min b n), n))) (fun _ => false) all_within_domain (fun v => v) (fun v => v) (fun _ => 3) (no_data_value t) 5 eq_refl a p) as [g [Hg [_ H2]]].
    destruct (H2 L Sup Hf HL) as [out [E R]]. exists out, g. split; [assumption|]. split; [assumption|]. apply (all_drawn (fun v => v = 3) a p g); [assumption|]. intros c x Hx Hx'. rewrite Hg by assumption.
    unfold nth_draw. cbn [uniform_int d_draw fst]. assert (A : forall n, engine_after (fun n : Z => (Z.max (no_data_value t) (Z.min 5 n), n)) n 3 = 3) by (induction n as [|n IH]; cbn [engine_after snd]; [reflexivity|exact IH]).
    rewrite A. reflexivity.
Qed.
Print Assumptions C78_shape_no_data_refuted.

(** C78: refuted for limits in the wrong order: these are not detected. *)
Theorem C78_limits_refuted : forall (G : Type) (draw : Z -> Z -> G -> Z * G) mark junk (seeded : list Z -> G) lo hi, hi < lo ->
  let no_data v := v =? no_data_value (IType 32 true) in no_data lo = false -> no_data hi = false ->
  random_scalar (uniform_int draw) no_data mark junk seeded lo hi = UB /\
  (forall L a p, supported L a p -> partition_fits a p -> L <= nr_parts a p -> random_array (uniform_int draw) seeded L a p lo hi = UB) /\
  (forall (I : Type) a p (arr : parray I) f, raster_of a p arr f -> random_like (uniform_int draw) no_data all_within_domain mark junk seeded arr lo hi = UB).
Proof.
  intros G draw mark junk seeded lo hi Hlt no_data N1 N2. assert (Ac : d_accepts (uniform_int draw) lo hi = false) by (cbn; apply Z.leb_gt; lia). split; [|split].
  - unfold random_scalar. now rewrite N1, N2, Ac.
  - intros L a p Sup Hf HL. now apply random_array_ub.
  - intros I a p arr f H. unfold random_like. pose proof (raster_length a p arr f H) as Hl. destruct H as [Ha [Hf _]]. destruct (pa_parts arr) as [|q parts].
    + exfalso. cbn in Hl. unfold nr_parts in Hl. pose proof (volume_pos _ (parts_shape_pos a p Hf)). lia.
    + cbn [map sequence]. unfold random_partition at 1. rewrite N1, N2, Ac. reflexivity.
Qed.
Print Assumptions C78_limits_refuted.

(** C78: cells of the array without data get a value: the array's contents do not matter. *)
Theorem C78_no_data_cells_refuted : forall t, int_type t -> forall a p (arr : parray Z) f, raster_of a p arr f -> (forall x, in_shape a x -> f x = no_data_value t) ->
  exists (draw : Z -> Z -> unit -> Z * unit) out, random_like (uniform_int draw) (fun v => v =? no_data_value t) all_within_domain (fun _ => no_data_value t) (fun v => v) (fun _ => tt) arr 0 1 = Ok out /\
    raster_of a p out (fun _ => 1).
Proof.
  intros t Ht a p arr f H _. exists (fun _ b g => (b, g)).
  assert (N0 : no_data_value t <> 0 /\ no_data_value t <> 1).
  { unfold no_data_value, imin, imax, int_type in *. destruct (signed t).
    - pose proof (Z.pow_pos_nonneg 2 (bits t - 1) ltac:(lia) ltac:(lia)). lia.
    - assert (2 ^ 2 <= 2 ^ bits t) by (apply Z.pow_le_mono_r; lia). lia. }
  destruct (C78_successive_draws unit Z (uniform_int (fun _ b g => (b, g))) (fun v => v =? no_data_value t) all_within_domain (fun _ => no_data_value t) (fun v => v) (fun _ => tt) 0 1 eq_refl a p) as [g [Hg [H1 _]]].
  destruct (H1 Z arr f H) as [out [E R]]; [apply Z.eqb_neq; lia|apply Z.eqb_neq; lia|reflexivity|]. exists out. split; [assumption|]. apply (raster_ext a p out g); [|assumption].
  apply (all_drawn (fun v => v = 1) a p g); [apply H|]. intros c x Hx Hx'. rewrite Hg by (try apply H; assumption). reflexivity.
Qed.
Print Assumptions C78_no_data_cells_refuted.

(** C78: normal(array, mean, stddev) with a standard deviation that is not positive does not contain data; with a positive one, each cell holds a number that was drawn. *)
Theorem C78_normal_array : forall (prec emax : Z) (G : Type) (draw : binary_float prec emax -> binary_float prec emax -> G -> binary_float prec emax * G) mark nd junk (seeded : list Z -> G) mean stddev,
  (forall v, mark v = nd) -> is_finite mean = true -> is_finite stddev = true ->
  forall (I : Type) a p (arr : parray I) f, raster_of a p arr f ->
  exists out g, random_like (normal_real prec emax draw) is_nan (normal_domain prec emax) mark junk seeded arr mean stddev = Ok out /\ raster_of a p out g /\
    forall x, in_shape a x -> ((B2R stddev <= 0)%R -> g x = nd) /\ ((0 < B2R stddev)%R -> exists e, g x = fst (draw mean stddev e)).
Proof.
  intros prec emax G draw mark nd junk seeded mean stddev Hm Fm Fs I a p arr f H.
  assert (E1 : is_nan mean = false) by (destruct mean; try reflexivity; discriminate). assert (E2 : is_nan stddev = false) by (destruct stddev; try reflexivity; discriminate).
  assert (C : Bltb (B754_zero false) stddev = Rlt_bool 0 (B2R stddev)) by (rewrite Bltb_correct; [reflexivity|reflexivity|assumption]).
  destruct (Rlt_bool_spec 0 (B2R stddev)) as [L|L].
  - destruct (C78_successive_draws G _ (normal_real prec emax draw) is_nan (normal_domain prec emax) mark junk seeded mean stddev C a p) as [g [Hg [H1 _]]]. destruct (H1 I arr f H E1 E2 C) as [out [E R]].
    exists out, g. split; [assumption|]. split; [assumption|]. apply (all_drawn (fun v => ((B2R stddev <= 0)%R -> v = nd) /\ ((0 < B2R stddev)%R -> exists e, v = fst (draw mean stddev e))) a p g); [apply H|]. intros c x Hx Hx'. split; [intros; lra|]. intros _. rewrite Hg by (try apply H; assumption). unfold nth_draw. eauto.
  - destruct (proj1 (C78_no_data G _ (normal_real prec emax draw) is_nan (normal_domain prec emax) mark nd junk seeded mean stddev Hm) I a p arr f H) as [out [E R]]; [right; right; exact C|].
    exists out, (fun _ => nd). split; [assumption|]. split; [assumption|]. intros x _. split; [reflexivity|]. intros; lra.
Qed.
Print Assumptions C78_normal_array.

(** C78: refuted for normal(mean, stddev) and normal(shape, partition_shape, mean, stddev): a standard deviation of 0 is not detected. *)
Theorem C78_normal_refuted : forall (G : Type) (draw : b64 -> b64 -> G -> b64 * G) mark junk (seeded : list Z -> G),
  random_scalar (normal_real 53 1024 draw) is_nan mark junk seeded (b64_of_Z 0) (b64_of_Z 0) = UB /\
  forall L a p, supported L a p -> partition_fits a p -> L <= nr_parts a p -> random_array (normal_real 53 1024 draw) seeded L a p (b64_of_Z 0) (b64_of_Z 0) = UB.
Proof. intros G draw mark junk seeded. split; [vm_compute; reflexivity|]. intros L a p Sup Hf HL. now apply random_array_ub. Qed.
Print Assumptions C78_normal_refuted.

(** C78: zones.  The value of a cell is the one that was drawn for its zone: number k for zone number k, counted from small to large.  Cells without a zone do not contain data. *)
Theorem C78_zonal : forall (G V : Type) (dist : distribution G V) (mark : V -> V) (nd : V) (junk : Z -> V) (seeded : list Z -> G) (no_data : Z -> bool) p1 p2 a p zones f,
  (forall v, mark v = nd) -> d_accepts dist p1 p2 = true -> raster_of a p zones f ->
  exists out g, zonal_random dist mark junk seeded no_data p1 p2 zones = Ok out /\ raster_of a p out g /\
    forall x, in_shape a x -> (no_data (f x) = true -> g x = nd) /\
      (no_data (f x) = false -> exists k, zone_rank a f (fun v => no_data v = false) (f x) k /\ g x = nth_draw (d_draw dist p1 p2) k (seeded [])).
Proof. intros. now apply zonal_ok. Qed.
Print Assumptions C78_zonal.

(** C78: cells in the same zone have the same value, also when they are in different partitions; given the engine, the result does not depend on the partitions. *)
Theorem C78_zonal_partitions : forall (G V : Type) (dist : distribution G V) (mark : V -> V) (nd : V) (junk junk' : Z -> V) (seeded : list Z -> G) (no_data : Z -> bool) p1 p2 a p p' zones zones' f,
  (forall v, mark v = nd) -> d_accepts dist p1 p2 = true -> raster_of a p zones f -> raster_of a p' zones' f ->
  exists out out' g, zonal_random dist mark junk seeded no_data p1 p2 zones = Ok out /\ zonal_random dist mark junk' seeded no_data p1 p2 zones' = Ok out' /\
    raster_of a p out g /\ raster_of a p' out' g /\
    forall x y, in_shape a x -> in_shape a y -> f x = f y -> g x = g y.
Proof.
  intros G V dist mark nd junk junk' seeded no_data p1 p2 a p p' zones zones' f Hm Ac H H'.
  destruct (C78_zonal G V dist mark nd junk seeded no_data p1 p2 a p zones f Hm Ac H) as [out [g [E [R S]]]].
  destruct (C78_zonal G V dist mark nd junk' seeded no_data p1 p2 a p' zones' f Hm Ac H') as [out' [g' [E' [R' S']]]].
  exists out, out', g. split; [assumption|]. split; [assumption|]. split; [assumption|]. split.
  - apply (raster_ext a p' out' g'); [|assumption]. intros x Hx. destruct (S x Hx) as [A B], (S' x Hx) as [A' B']. destruct (no_data (f x)); [now rewrite A, A'|].
    destruct (B eq_refl) as [k [Rk ->]], (B' eq_refl) as [k' [Rk' ->]]. now rewrite (rank_unique _ _ _ _ _ _ Rk Rk').
  - intros x y Hx Hy Exy. destruct (S x Hx) as [A B], (S y Hy) as [A' B']. rewrite <- Exy in A', B'. destruct (no_data (f x)); [now rewrite A, A'|].
    destruct (B eq_refl) as [k [Rk ->]], (B' eq_refl) as [k' [Rk' ->]]. now rewrite (rank_unique _ _ _ _ _ _ Rk Rk').
Qed.
Print Assumptions C78_zonal_partitions.

(** C78: zonal_uniform results in numbers from 0 up to but not including 1. *)
Theorem C78_zonal_uniform : forall (prec emax : Z) (Hprec : Prec_gt_0 prec) (Hemax : Prec_lt_emax prec emax) (G : Type) (canonical : G -> binary_float prec emax * G)
    (mark : binary_float prec emax -> binary_float prec emax) (junk : Z -> binary_float prec emax) (seeded : list Z -> G) (no_data : Z -> bool) a p zones f,
  (1 < prec)%Z -> (forall g, in_unit_interval (fst (canonical g))) -> (forall v, mark v = B754_nan) -> raster_of a p zones f ->
  exists out g, zonal_random (uniform_real prec emax Hprec Hemax canonical) mark junk seeded no_data (B754_zero false) Bone zones = Ok out /\ raster_of a p out g /\
    forall x, in_shape a x -> (no_data (f x) = true <-> is_nan (g x) = true) /\ (no_data (f x) = false -> in_unit_interval (g x)).
Proof.
  intros prec emax Hprec Hemax G canonical mark junk seeded no_data a p zones f Hp1 Hc Hm H.
  destruct (C78_zonal G _ (uniform_real prec emax Hprec Hemax canonical) mark B754_nan junk seeded no_data (B754_zero false) Bone a p zones f Hm (unit_accepted prec emax Hprec Hemax Hp1 canonical) H) as [out [g [E [R S]]]].
  exists out, g. split; [assumption|]. split; [assumption|]. intros x Hx. destruct (S x Hx) as [A B]. destruct (no_data (f x)) eqn:N.
  - rewrite (A eq_refl). cbn. split; [tauto|discriminate].
  - destruct (B eq_refl) as [k [_ ->]]. unfold nth_draw. destruct (uniform_unit prec emax Hprec Hemax Hp1 canonical (engine_after (d_draw (uniform_real prec emax Hprec Hemax canonical) (B754_zero false) Bone) k (seeded [])) Hc) as [U _].
    split; [|auto]. split; [discriminate|]. destruct U as [F _]. intros N'. destruct (fst _); discriminate.
Qed.
Print Assumptions C78_zonal_uniform.

(** ** The hypotheses hold in concrete cases. *)
(** An engine that counts *)
Definition count_draw (a b n : Z) : Z * Z := (a + n mod (b - a + 1), n + 1).
Definition count_dist : distribution Z Z := uniform_int count_draw.
Definition zones_f (x : list Z) : Z := nth (Z.to_nat (3 * nth 0 x 0 + nth 1 x 0)) [7; 2; 9; 2; -1; 7] 0.
Example C78_example :
  (forall a b g, a <= b -> a <= fst (count_draw a b g) <= b) /\ d_accepts count_dist 10 14 = true /\
  raster_of [2; 3] [1; 2] (raster_array [2; 3] [1; 2] zones_f) zones_f /\ supported 2 [2; 3] [1; 2] /\ partition_fits [2; 3] [1; 2] /\ 2 <= nr_parts [2; 3] [1; 2] /\
  match random_like count_dist (fun v => v =? -1) all_within_domain (fun _ => -1) (fun v => v) (fun o => nth 0 o 0) (raster_array [2; 3] [1; 2] zones_f) 10 14 with
  | Ok out => map pl_data (pa_parts out) = [[10; 11; 12]; [11; 12; 13]] | _ => False end /\
  match random_array count_dist (fun o => 3 * nth 0 o 0) 2 [2; 3] [1; 2] 10 14 with
  | Ok out => map pl_data (pa_parts out) = [[10; 11; 12]; [13; 14; 10]] | _ => False end /\
  random_scalar count_dist (fun v => v =? -1) (fun _ => -1) (fun v => v) (fun _ => 4) 10 14 = Ok 14 /\
  match zonal_random count_dist (fun _ => -1) (fun v => v) (fun _ => 0) (fun v => v =? -1) 10 14 (raster_array [2; 3] [1; 2] zones_f) with
  | Ok out => map pl_data (pa_parts out) = [[11; 10; 12]; [10; -1; 11]] | _ => False end.
Proof.
  split; [|split; [reflexivity|split; [|split; [|split; [|split; [|split; [|split; [|split]]]]]]]]; try (vm_compute; reflexivity).
  - intros a b g H. cbn [count_draw fst]. pose proof (Z.mod_pos_bound g (b - a + 1) ltac:(lia)). lia.
  - apply raster_array_ok; [discriminate|repeat constructor; cbn; lia].
  - repeat split; try discriminate; cbn; lia.
  - repeat constructor; cbn; lia.
  - vm_compute. discriminate.
Qed.
Example C78_floats_example :
  (forall g, in_unit_interval (fst (canonical_one g))) /\ is_finite (b64_of_Z 1) = true /\ is_finite (b64_of_Z 2) = true /\ (B2R (b64_of_Z 1) <= B2R (b64_of_Z 2))%R /\
  is_finite (@Bminus 53 1024 b64_prec_gt_0 b64_prec_lt_emax mode_NE (b64_of_Z 2) (b64_of_Z 1)) = true /\ (0 < B2R (b64_of_Z 1))%R /\ (B2R (b64_of_Z 0) <= 0)%R.
Proof.
  split; [intros []; apply almost_one_unit|]. split; [reflexivity|]. split; [reflexivity|].
  assert (E1 : B2R (b64_of_Z 1) = 1%R). { rewrite <- (SF2R_B2SF 53 1024). replace (B2SF (b64_of_Z 1)) with (SpecFloat.S754_finite false 4503599627370496 (-52)) by (vm_compute; reflexivity). unfold SF2R, F2R. cbn [Fnum Fexp cond_Zopp bpow]. change (Z.pow_pos radix2 52) with 4503599627370496. lra. }
  assert (E2 : B2R (b64_of_Z 2) = 2%R). { rewrite <- (SF2R_B2SF 53 1024). replace (B2SF (b64_of_Z 2)) with (SpecFloat.S754_finite false 4503599627370496 (-51)) by (vm_compute; reflexivity). unfold SF2R, F2R. cbn [Fnum Fexp cond_Zopp bpow]. change (Z.pow_pos radix2 51) with 2251799813685248. lra. }
  rewrite E1, E2. split; [lra|]. split; [vm_compute; reflexivity|]. split; [lra|]. cbn. lra.
Qed.
