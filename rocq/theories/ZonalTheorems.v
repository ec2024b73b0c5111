(** Property theorems about zonal operations (C16, C17). *)
From Verif Require Import Common CoreSpec DecompSpec ArraySpec IndexModel DecompModel ArrayModel ArrayRep
  LocalModel LocalSpec AggregateModel AggregateSpec ZonalModel ZonalSpec ZonalProofs.
Open Scope Z_scope.

(** In all theorems [iter] is the unspecified order in which a hash map's entries are visited
    and [junk] the content of freshly allocated buffers; the partition shape [p] does not
    occur in the conclusion about the values. *)

Theorem C16_zonal_sum :
  forall (t : itype) iter no_data1 no_data2 nd junk a p values zones fv fz,
  int_type t -> (forall m, Permutation (iter m) m) ->
  raster_of a p values fv -> raster_of a p zones fz ->
  (forall c, in_shape a c -> representable t (fv c)) ->
  let pol := ZonalPolicies no_data1 no_data2 (fun _ _ => true) (fun _ => nd) in
  exists out g, zonal_operation iter pol (zonal_sum_aggregator t) junk values zones = Ok out /\ raster_of a p out g /\
    forall c, in_shape a c ->
      let l := zone_values (fun v => negb (no_data1 v)) a fz fv (fz c) in
      (no_data2 (fz c) = false -> l <> [] -> g c = wrap t (sumZ l)) /\
      (no_data2 (fz c) = true \/ l = [] -> g c = nd).
Proof. exact c16_sum. Qed.
Print Assumptions C16_zonal_sum.

Theorem C16_zonal_minimum :
  forall (E : Type) (ltb : E -> E -> bool) iter no_data1 no_data2 (nd : E) junk a p values zones fv fz,
  (forall u v, ltb u v = true -> ltb v u = false) ->
  (forall u v w, ltb u w = true -> ltb u v = true \/ ltb v w = true) ->
  (forall m, Permutation (iter m) m) ->
  raster_of a p values fv -> raster_of a p zones fz ->
  let pol := ZonalPolicies no_data1 no_data2 (fun _ _ => true) (fun _ => nd) in
  exists out g, zonal_operation iter pol (zonal_minimum_aggregator ltb) junk values zones = Ok out /\ raster_of a p out g /\
    forall c, in_shape a c ->
      let l := zone_values (fun v => negb (no_data1 v)) a fz fv (fz c) in
      (no_data2 (fz c) = false -> l <> [] -> least_of ltb l (g c)) /\
      (no_data2 (fz c) = true \/ l = [] -> g c = nd).
Proof. exact c16_min. Qed.
Print Assumptions C16_zonal_minimum.

Theorem C16_zonal_maximum :
  forall (E : Type) (ltb : E -> E -> bool) iter no_data1 no_data2 (nd : E) junk a p values zones fv fz,
  (forall u v, ltb u v = true -> ltb v u = false) ->
  (forall u v w, ltb u w = true -> ltb u v = true \/ ltb v w = true) ->
  (forall m, Permutation (iter m) m) ->
  raster_of a p values fv -> raster_of a p zones fz ->
  let pol := ZonalPolicies no_data1 no_data2 (fun _ _ => true) (fun _ => nd) in
  exists out g, zonal_operation iter pol (zonal_maximum_aggregator ltb) junk values zones = Ok out /\ raster_of a p out g /\
    forall c, in_shape a c ->
      let l := zone_values (fun v => negb (no_data1 v)) a fz fv (fz c) in
      (no_data2 (fz c) = false -> l <> [] -> largest_of ltb l (g c)) /\
      (no_data2 (fz c) = true \/ l = [] -> g c = nd).
Proof. exact c16_max. Qed.
Print Assumptions C16_zonal_maximum.

(** Mean, for exact arithmetic.  C16_zonal_mean_float (ZonalFloatTheorems.v) is about floating point numbers, whose additions are rounded. *)
Theorem C16_zonal_mean_exact_arithmetic :
  forall (E : Type) (zero : E) (plus : E -> E -> E) (divide : E -> Z -> E) iter no_data1 no_data2 (nd : E) junk a p values zones fv fz,
  (forall u, plus u zero = u) -> (forall u v, plus u v = plus v u) -> (forall u v w, plus u (plus v w) = plus (plus u v) w) ->
  (forall m, Permutation (iter m) m) ->
  raster_of a p values fv -> raster_of a p zones fz ->
  let pol := ZonalPolicies no_data1 no_data2 (fun _ _ => true) (fun _ => nd) in
  exists out g, zonal_operation iter pol (zonal_mean_aggregator plus divide) junk values zones = Ok out /\ raster_of a p out g /\
    forall c, in_shape a c ->
      let l := zone_values (fun v => negb (no_data1 v)) a fz fv (fz c) in
      (no_data2 (fz c) = false -> l <> [] -> g c = divide (fold_right plus zero l) (Z.of_nat (length l))) /\
      (no_data2 (fz c) = true \/ l = [] -> g c = nd).
Proof. exact c16_mean. Qed.
Print Assumptions C16_zonal_mean_exact_arithmetic.

Theorem C16_zonal_diversity :
  forall iter no_data1 no_data2 nd junk a p values zones fv fz,
  (forall m, Permutation (iter m) m) ->
  raster_of a p values fv -> raster_of a p zones fz ->
  let pol := ZonalPolicies no_data1 no_data2 (fun _ _ => true) (fun _ => nd) in
  exists out g, zonal_operation iter pol zonal_diversity_aggregator junk values zones = Ok out /\ raster_of a p out g /\
    forall c, in_shape a c ->
      let l := zone_values (fun v => negb (no_data1 v)) a fz fv (fz c) in
      (no_data2 (fz c) = false -> l <> [] -> g c = Z.of_nat (length (nodup Z.eq_dec l))) /\
      (no_data2 (fz c) = true \/ l = [] -> g c = nd).
Proof. exact c16_diversity. Qed.
Print Assumptions C16_zonal_diversity.

Theorem C16_zonal_area :
  forall (t : itype) iter no_data1 no_data2 nd junk a p zones fz,
  int_type t -> (forall m, Permutation (iter m) m) ->
  raster_of a p zones fz -> no_data1 1 = false ->
  let pol := ZonalPolicies no_data1 no_data2 (fun _ _ => true) (fun _ => nd) in
  exists out g, zonal_area iter t pol junk zones = Ok out /\ raster_of a p out g /\
    forall c, in_shape a c ->
      (no_data2 (fz c) = false -> g c = wrap t (Z.of_nat (length (filter (fun c' => fz c' =? fz c) (all_cells a))))) /\
      (no_data2 (fz c) = true -> g c = nd).
Proof. exact c16_area. Qed.
Print Assumptions C16_zonal_area.

(** C17: the largest of the most frequent values. *)
Theorem C17_zonal_majority :
  forall iter iter' no_data1 no_data2 nd junk a p values zones fv fz,
  (forall m, Permutation (iter m) m) -> (forall m, Permutation (iter' m) m) ->
  raster_of a p values fv -> raster_of a p zones fz ->
  let pol := ZonalPolicies no_data1 no_data2 (fun _ _ => true) (fun _ => nd) in
  exists out g, zonal_operation iter pol (zonal_majority_aggregator iter') junk values zones = Ok out /\ raster_of a p out g /\
    forall c, in_shape a c ->
      let l := zone_values (fun v => negb (no_data1 v)) a fz fv (fz c) in
      (no_data2 (fz c) = false -> l <> [] -> majority_of l (g c)) /\
      (no_data2 (fz c) = true \/ l = [] -> g c = nd).
Proof. exact c17. Qed.
Print Assumptions C17_zonal_majority.

Definition example_values : parray Z := PArray [5] [2] [Placed 0 [0] [2] [3; 4]; Placed 1 [2] [3] [4; -9; -5]].
Definition example_zones : parray Z := PArray [5] [2] [Placed 0 [0] [2] [1; 2]; Placed 1 [2] [3] [1; 2; -1]].
Definition example_policies : zonal_policies Z Z := ZonalPolicies (fun v => v =? -9) (fun v => v =? -1) (fun _ _ => true) (fun _ => -9).
Example C16_ex :
  zonal_operation (@rev _) example_policies (zonal_sum_aggregator (IType 32 true)) (fun _ => 0) example_values example_zones =
    Ok (PArray [5] [2] [Placed 0 [0] [2] [7; 4]; Placed 1 [2] [3] [7; 4; -9]]) /\
  zonal_operation (@rev _) example_policies zonal_diversity_aggregator (fun _ => 0) example_values example_zones =
    Ok (PArray [5] [2] [Placed 0 [0] [2] [2; 1]; Placed 1 [2] [3] [2; 1; -9]]) /\
  zonal_area (fun m => m) (IType 32 true) example_policies (fun _ => 0) example_zones =
    Ok (PArray [5] [2] [Placed 0 [0] [2] [2; 2]; Placed 1 [2] [3] [2; 2; -9]]).
Proof. vm_compute. auto. Qed.
Example C16_ex_iter : forall m : zmap Z, Permutation (rev m) m.
Proof. intros. symmetry. apply Permutation_rev. Qed.
Example C17_ex :
  zonal_operation (fun m => m) example_policies (zonal_majority_aggregator (@rev _)) (fun _ => 0) example_values example_zones =
    Ok (PArray [5] [2] [Placed 0 [0] [2] [4; 4]; Placed 1 [2] [3] [4; 4; -9]]).
Proof. vm_compute. auto. Qed.
