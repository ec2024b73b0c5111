(** Property theorems about local operations (C13, C29, C30, C37, C38). *)
From Coq Require Import Reals.
From Flocq Require Import Core BinarySingleNaN.
From Verif Require Import Common CoreSpec DecompSpec ArraySpec Float64 IndexModel DecompModel ArrayModel ArrayRep
  LocalModel LocalSpec LocalProofs LocalProofs2.
Open Scope Z_scope.

(** C13: the result in a cell is a function of the arguments in that cell, no-data if an argument
    is no-data, not in the domain, or the result is out of range.  [junk] is the content of
    the freshly allocated buffers. *)
Theorem C13_unary_cellwise :
  forall (I O : Type) (pol : unary_policies I O) (functor : I -> O) (nd : O) (junk : Z -> O) a p x f,
  (forall o, u_mark pol o = nd) ->
  raster_of a p x f ->
  exists out g, unary_local_operation pol functor junk x = Ok out /\ raster_of a p out g /\
    forall c, in_shape a c ->
      (u_no_data pol (f c) = false -> u_domain pol (f c) = true -> u_range pol (f c) (functor (f c)) = true ->
         g c = functor (f c)) /\
      (u_no_data pol (f c) = true \/ u_domain pol (f c) = false \/ u_range pol (f c) (functor (f c)) = false ->
         g c = nd).
Proof. exact @c13_unary. Qed.
Print Assumptions C13_unary_cellwise.

Theorem C13_binary_cellwise :
  forall (I1 I2 O : Type) (pol : binary_policies I1 I2 O) (functor : I1 -> I2 -> O) (nd : O) (junk : Z -> O) a p x y f1 f2,
  (forall o, b_mark pol o = nd) ->
  raster_of a p x f1 -> raster_of a p y f2 ->
  exists out g, binary_local_operation pol functor junk x y = Ok out /\ raster_of a p out g /\
    forall c, in_shape a c ->
      (b_no_data1 pol (f1 c) = false -> b_no_data2 pol (f2 c) = false -> b_domain pol (f1 c) (f2 c) = true ->
       b_range pol (f1 c) (f2 c) (functor (f1 c) (f2 c)) = true -> g c = functor (f1 c) (f2 c)) /\
      (b_no_data1 pol (f1 c) = true \/ b_no_data2 pol (f2 c) = true \/ b_domain pol (f1 c) (f2 c) = false \/
       b_range pol (f1 c) (f2 c) (functor (f1 c) (f2 c)) = false -> g c = nd).
Proof. exact @c13_binary. Qed.
Print Assumptions C13_binary_cellwise.

Theorem C13_binary_array_scalar_cellwise :
  forall (I1 I2 O : Type) (pol : binary_policies I1 I2 O) (functor : I1 -> I2 -> O) (nd : O) (junk : Z -> O) a p x s f1,
  (forall o, b_mark pol o = nd) ->
  raster_of a p x f1 ->
  exists out g, binary_local_operation_scalar2 pol functor junk x s = Ok out /\ raster_of a p out g /\
    forall c, in_shape a c ->
      (b_no_data1 pol (f1 c) = false -> b_no_data2 pol s = false -> b_domain pol (f1 c) s = true ->
       b_range pol (f1 c) s (functor (f1 c) s) = true -> g c = functor (f1 c) s) /\
      (b_no_data1 pol (f1 c) = true \/ b_no_data2 pol s = true \/ b_domain pol (f1 c) s = false \/
       b_range pol (f1 c) s (functor (f1 c) s) = false -> g c = nd).
Proof. exact @c13_scalar2. Qed.
Print Assumptions C13_binary_array_scalar_cellwise.

Theorem C13_binary_scalar_array_cellwise :
  forall (I1 I2 O : Type) (pol : binary_policies I1 I2 O) (functor : I1 -> I2 -> O) (nd : O) (junk : Z -> O) a p s y f2,
  (forall o, b_mark pol o = nd) ->
  raster_of a p y f2 ->
  exists out g, binary_local_operation_scalar1 pol functor junk s y = Ok out /\ raster_of a p out g /\
    forall c, in_shape a c ->
      (b_no_data1 pol s = false -> b_no_data2 pol (f2 c) = false -> b_domain pol s (f2 c) = true ->
       b_range pol s (f2 c) (functor s (f2 c)) = true -> g c = functor s (f2 c)) /\
      (b_no_data1 pol s = true \/ b_no_data2 pol (f2 c) = true \/ b_domain pol s (f2 c) = false \/
       b_range pol s (f2 c) (functor s (f2 c)) = false -> g c = nd).
Proof. exact @c13_scalar1. Qed.
Print Assumptions C13_binary_scalar_array_cellwise.

(** C13: the partitioning does not matter. *)
Theorem C13_binary_partitioning_irrelevant :
  forall (I1 I2 O : Type) (pol : binary_policies I1 I2 O) (functor : I1 -> I2 -> O) (nd : O) (junk junk' : Z -> O)
    a p p' x y x' y' f1 f2,
  (forall o, b_mark pol o = nd) ->
  raster_of a p x f1 -> raster_of a p y f2 -> raster_of a p' x' f1 -> raster_of a p' y' f2 ->
  exists out out' g, binary_local_operation pol functor junk x y = Ok out /\
    binary_local_operation pol functor junk' x' y' = Ok out' /\
    raster_of a p out g /\ raster_of a p' out' g.
Proof. exact @c13_repartition. Qed.
Print Assumptions C13_binary_partitioning_irrelevant.

(** C13: arrays that differ in shape are rejected. *)
Theorem C13_different_shapes_rejected :
  forall (I1 I2 O : Type) (pol : binary_policies I1 I2 O) (functor : I1 -> I2 -> O) (junk : Z -> O) a a' p p' x y f1 f2,
  raster_of a p x f1 -> raster_of a' p' y f2 -> a <> a' ->
  binary_local_operation pol functor junk x y = Throw.
Proof. exact @c13_shapes. Qed.
Print Assumptions C13_different_shapes_rejected.

(** C13, false as stated: two arrays with the same shape and the same number of partitions, but
    differently sized partitions, are accepted and the cells are combined wrongly (the
    assertion that the partitions match is not there in release builds). *)
Definition unequal_partitions_x : parray Z :=
  PArray [10] [2] [Placed 0 [0] [4] [0; 1; 2; 3]; Placed 0 [4] [6] [4; 5; 6; 7; 8; 9]].
Definition unequal_partitions_y : parray Z :=
  PArray [10] [2] [Placed 0 [0] [5] [0; 1; 2; 3; 4]; Placed 0 [5] [5] [5; 6; 7; 8; 9]].
Theorem C13_unequal_partitions_not_rejected_refuted :
  raster_of [10] [4] unequal_partitions_x (fun c => nth 0 c 0) /\
  raster_of [10] [5] unequal_partitions_y (fun c => nth 0 c 0) /\
  binary_local_operation (arith_policies (IType 32 true) Add) (arith_functor (IType 32 true) Add) (fun _ => 0)
    unequal_partitions_x unequal_partitions_y = UB.
Proof. exact c13_unequal. Qed.
Print Assumptions C13_unequal_partitions_not_rejected_refuted.

Example C13_ex : binary_local_operation (arith_policies (IType 8 true) Add) (arith_functor (IType 8 true) Add) (fun _ => 77)
    (PArray [5] [2] [Placed 0 [0] [2] [1; -128]; Placed 1 [2] [3] [100; 4; 5]])
    (PArray [5] [2] [Placed 0 [0] [2] [10; 20]; Placed 1 [2] [3] [100; 40; -128]]) =
  Ok (PArray [5] [2] [Placed 0 [0] [2] [11; -128]; Placed 1 [2] [3] [-128; 44; -128]]).
Proof. vm_compute. reflexivity. Qed.
Example C13_ex_raster : raster_of [10] [4] unequal_partitions_x (fun c => nth 0 c 0).
Proof. exact (proj1 c13_unequal). Qed.

(** C29.  An argument is an array that holds the raster, or a scalar. *)
Definition argument_holds {E} (a p : list Z) (x : where_arg E) (f : list Z -> E) : Prop :=
  match x with WArray x => raster_of a p x f | WScalar v => forall c, f c = v end.

Theorem C29_where_selects_partial :
  forall (E : Type) (pol : where_policies E) (nd : E) (junk : Z -> E) a p condition t f fc ft ff,
  (forall o, w_mark pol o = nd) ->
  (** missing: without this the statement is false when the true argument is a scalar *)
  (match t with WArray _ => True | WScalar _ => forall v, w_no_data2 pol v = w_no_data3 pol v end) ->
  raster_of a p condition fc -> argument_holds a p t ft -> argument_holds a p f ff ->
  exists out g, where3 pol junk condition t f = Ok out /\ raster_of a p out g /\
    forall c, in_shape a c ->
      (w_no_data1 pol (fc c) = true -> g c = nd) /\
      (w_no_data1 pol (fc c) = false -> fc c <> 0 -> w_no_data2 pol (ft c) = true -> g c = nd) /\
      (w_no_data1 pol (fc c) = false -> fc c <> 0 -> w_no_data2 pol (ft c) = false -> g c = ft c) /\
      (w_no_data1 pol (fc c) = false -> fc c = 0 -> w_no_data3 pol (ff c) = true -> g c = nd) /\
      (w_no_data1 pol (fc c) = false -> fc c = 0 -> w_no_data3 pol (ff c) = false -> g c = ff c).
Proof. exact @c29. Qed.
Print Assumptions C29_where_selects_partial.

(** C29, false as stated: a true scalar is tested with the no-data policy of the false argument.
    Here -1 marks no-data in the true argument and -2 in the false argument. *)
Definition c29_policies : where_policies Z :=
  WherePolicies (fun v => v =? 255) (fun v => v =? -1) (fun v => v =? -2) (fun _ => -9).
Theorem C29_where_scalar_policies_swapped_refuted :
  where3 c29_policies (fun _ => 0) (PArray [2] [1] [Placed 0 [0] [2] [1; 0]]) (WScalar (-1)) (WScalar 5)
    = Ok (PArray [2] [1] [Placed 0 [0] [2] [-1; 5]]) /\
  where3 c29_policies (fun _ => 0) (PArray [2] [1] [Placed 0 [0] [2] [1; 0]])
    (WArray (PArray [2] [1] [Placed 0 [0] [2] [-1; -1]])) (WScalar 5)
    = Ok (PArray [2] [1] [Placed 0 [0] [2] [-9; 5]]).
Proof. vm_compute. auto. Qed.
Print Assumptions C29_where_scalar_policies_swapped_refuted.

Theorem C29_where_without_false_selects :
  forall (E : Type) (pol : where_policies E) (nd : E) (junk : Z -> E) a p condition t fc ft,
  (forall o, w_mark pol o = nd) ->
  raster_of a p condition fc -> raster_of a p t ft ->
  exists out g, where2 pol junk condition t = Ok out /\ raster_of a p out g /\
    forall c, in_shape a c ->
      (w_no_data1 pol (fc c) = false -> fc c <> 0 -> w_no_data2 pol (ft c) = false -> g c = ft c) /\
      (w_no_data1 pol (fc c) = true \/ fc c = 0 \/ w_no_data2 pol (ft c) = true -> g c = nd).
Proof. exact @c29_where2. Qed.
Print Assumptions C29_where_without_false_selects.

Example C29_ex : where3 (WherePolicies (fun v => v =? 255) (fun v => v =? -1) (fun v => v =? -1) (fun _ => -1)) (fun _ => 0)
    (PArray [4] [2] [Placed 0 [0] [2] [1; 0]; Placed 1 [2] [2] [255; 1]])
    (WArray (PArray [4] [2] [Placed 0 [0] [2] [10; 11]; Placed 1 [2] [2] [12; -1]])) (WScalar 7)
  = Ok (PArray [4] [2] [Placed 0 [0] [2] [10; 7]; Placed 1 [2] [2] [-1; -1]]).
Proof. vm_compute. reflexivity. Qed.

(** C30.  The lookup table is a map: no key occurs twice. *)
Theorem C30_reclassify_maps_by_table :
  forall (V : Type) (no_data : Z -> bool) (mark : V -> V) (nd : V) (junk : Z -> V) table a p x f,
  (forall o, mark o = nd) -> NoDup (map fst table) ->
  raster_of a p x f ->
  exists out g, reclassify no_data mark junk table x = Ok out /\ raster_of a p out g /\
    forall c, in_shape a c ->
      (forall v, no_data (f c) = false -> In (f c, v) table -> g c = v) /\
      (no_data (f c) = true \/ (forall v, ~ In (f c, v) table) -> g c = nd).
Proof. exact @c30. Qed.
Print Assumptions C30_reclassify_maps_by_table.
Example C30_ex : NoDup (map fst [(3, 30); (5, 50)]) /\
  reclassify (fun v => v =? -1) (fun _ => -7) (fun _ => 0) [(3, 30); (5, 50)]
    (PArray [4] [2] [Placed 0 [0] [2] [5; -1]; Placed 0 [2] [2] [4; 3]])
  = Ok (PArray [4] [2] [Placed 0 [0] [2] [50; -7]; Placed 0 [2] [2] [-7; 30]]).
Proof. split; [repeat constructor; cbn; intuition discriminate|vm_compute; reflexivity]. Qed.

(** C37: integer arithmetic with the default value policies gives the exact result or no-data. *)
Theorem C37_integer_arithmetic_exact_or_no_data :
  forall (t : itype) (op : arith_op) (junk : Z -> Z) a p x y f1 f2,
  int_type t ->
  raster_of a p x f1 -> raster_of a p y f2 ->
  (forall c, in_shape a c -> representable t (f1 c) /\ representable t (f2 c)) ->
  exists out g, binary_local_operation (arith_policies t op) (arith_functor t op) junk x y = Ok out /\ raster_of a p out g /\
    forall c, in_shape a c ->
      (forall r, ~ is_no_data t (f1 c) -> ~ is_no_data t (f2 c) -> exact op (f1 c) (f2 c) r -> representable t r -> g c = r) /\
      (is_no_data t (f1 c) \/ is_no_data t (f2 c) \/ (forall r, exact op (f1 c) (f2 c) r -> ~ representable t r) -> is_no_data t (g c)).
Proof. exact c37. Qed.
Print Assumptions C37_integer_arithmetic_exact_or_no_data.
Example C37_ex : int_type (IType 8 false) /\ exact Divide (-7) 2 (-3) /\ exact Modulus (-7) 2 (-1) /\
  arith_functor (IType 8 false) Add 200 100 = 44.
Proof. unfold int_type, exact. cbn. intuition try lia. exists (-3). reflexivity. Qed.

Theorem C37_abs_negate_exact_or_no_data :
  forall (t : itype) (junk : Z -> Z) a p x f,
  int_type t -> signed t = true ->
  raster_of a p x f -> (forall c, in_shape a c -> representable t (f c)) ->
  exists out1 out2 g1 g2,
    unary_local_operation (abs_policies t) (abs_functor t) junk x = Ok out1 /\ raster_of a p out1 g1 /\
    unary_local_operation (negate_policies t) (negate_functor t) junk x = Ok out2 /\ raster_of a p out2 g2 /\
    forall c, in_shape a c ->
      (is_no_data t (f c) -> is_no_data t (g1 c) /\ is_no_data t (g2 c)) /\
      (~ is_no_data t (f c) -> g1 c = Z.abs (f c) /\ g2 c = - f c).
Proof. exact c37_abs. Qed.
Print Assumptions C37_abs_negate_exact_or_no_data.

(** C38: casting gives the same value or no-data. *)
Theorem C38_integer_cast_exact_or_no_data :
  forall (from to : itype) (junk : Z -> Z) a p x f,
  int_type from -> int_type to ->
  raster_of a p x f -> (forall c, in_shape a c -> representable from (f c)) ->
  exists out g, unary_local_operation (cast_policies from to) (cast_functor to) junk x = Ok out /\ raster_of a p out g /\
    forall c, in_shape a c ->
      (~ is_no_data from (f c) -> representable to (f c) -> g c = f c) /\
      (is_no_data from (f c) \/ ~ representable to (f c) -> is_no_data to (g c)).
Proof. exact c38. Qed.
Print Assumptions C38_integer_cast_exact_or_no_data.
Example C38_ex : int_type (IType 32 true) /\ int_type (IType 8 false) /\
  unary_local_operation (cast_policies (IType 32 true) (IType 8 false)) (cast_functor (IType 8 false)) (fun _ => 9)
    (PArray [4] [2] [Placed 0 [0] [2] [-1; 254]; Placed 0 [2] [2] [256; -2147483648]])
  = Ok (PArray [4] [2] [Placed 0 [0] [2] [255; 254]; Placed 0 [2] [2] [255; 255]]).
Proof. unfold int_type. cbn. split; [lia|split; [lia|vm_compute; reflexivity]]. Qed.

(** C38: from double to an integer type the value is truncated if it is in the type's range.
    Missing: 64-bit types, for which it is false. *)
Theorem C38_float_cast_truncates_or_no_data_partial :
  forall (unspecified : b64 -> Z) (to : itype) (junk : Z -> Z) a p x (f : list Z -> b64),
  int_type to -> bits to <= 53 ->
  raster_of a p x f ->
  exists out g, unary_local_operation (cast_f64_policies to) (cast_f64_functor unspecified to) junk x = Ok out /\
    raster_of a p out g /\
    forall c, in_shape a c ->
      (is_finite (f c) = true -> (IZR (imin to) <= B2R (f c) <= IZR (imax to))%R -> g c = Ztrunc (B2R (f c))) /\
      (is_finite (f c) = false \/ (B2R (f c) < IZR (imin to))%R \/ (IZR (imax to) < B2R (f c))%R -> is_no_data to (g c)).
Proof. exact c38_float. Qed.
Print Assumptions C38_float_cast_truncates_or_no_data_partial.

(** C38: 2^63 is accepted for a 64-bit signed integer: its value is not representable and the
    result is whatever the conversion happens to give. *)
Theorem C38_float_cast_accepts_too_large_refuted :
  (B2R (b64_of_Z (2 ^ 63)) > IZR (imax (IType 64 true)))%R /\
  forall unspecified junk,
    unary_local_operation (cast_f64_policies (IType 64 true)) (cast_f64_functor unspecified (IType 64 true)) junk
      (PArray [1] [1] [Placed 0 [0] [1] [b64_of_Z (2 ^ 63)]])
    = Ok (PArray [1] [1] [Placed 0 [0] [1] [unspecified (b64_of_Z (2 ^ 63))]]).
Proof. exact c38_float_64. Qed.
Print Assumptions C38_float_cast_accepts_too_large_refuted.
