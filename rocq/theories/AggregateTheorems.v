(** Property theorems about global aggregates (C14, C15). *)
From Verif Require Import Common CoreSpec DecompSpec ArraySpec IndexModel DecompModel ArrayModel ArrayRep
  LocalModel LocalSpec AggregateModel AggregateSpec AggregateProofs.
Open Scope Z_scope.

(** [all_cells] lists each cell of the array once. *)
Theorem all_cells_enumerates_each_cell_once : forall a, NoDup (all_cells a) /\ forall x, In x (all_cells a) <-> in_shape a x.
Proof. exact all_cells_spec. Qed.
Print Assumptions all_cells_enumerates_each_cell_once.

(** C14: minimum and maximum.  [ltb] is the element type's <. *)
Theorem C14_minimum_maximum :
  forall (E : Type) (ltb : E -> E -> bool) (extreme marker : E) (no_data : E -> bool) a p (x : parray E) f,
  (forall u v, ltb u v = true -> ltb v u = false) ->
  (forall u v w, ltb u w = true -> ltb u v = true \/ ltb v w = true) ->
  no_data marker = true ->
  let pol := AggPolicies no_data (fun _ => true) (fun _ => marker) no_data in
  raster_of a p x f ->
  let least := unary_aggregate_operation pol (minimum_functor ltb extreme) x in
  let largest := unary_aggregate_operation pol (maximum_functor ltb extreme) x in
  ((exists c, in_shape a c /\ no_data (f c) = false) ->
     (exists c, in_shape a c /\ no_data (f c) = false /\ f c = least) /\
     (exists c, in_shape a c /\ no_data (f c) = false /\ f c = largest) /\
     (forall c, in_shape a c -> no_data (f c) = false -> ltb (f c) least = false /\ ltb largest (f c) = false)) /\
  ((forall c, in_shape a c -> no_data (f c) = true) -> least = marker /\ largest = marker).
Proof. exact c14_minmax. Qed.
Print Assumptions C14_minimum_maximum.
Example C14_minimum_ex :
  unary_aggregate_operation (int_agg_policies (IType 8 true)) (minimum_functor Z.ltb 127)
    (PArray [5] [2] [Placed 0 [0] [2] [-128; -128]; Placed 1 [2] [3] [7; -128; 4]]) = 4.
Proof. vm_compute. reflexivity. Qed.

(** C14: sum of integers.  Proved if no sum of a part of the values can reach the limits of the element type. *)
Theorem C14_sum_partial :
  forall (t : itype) a p x f,
  int_type t -> raster_of a p x f -> (forall c, in_shape a c -> representable t (f c)) ->
  let values := valid_values (fun v => negb (v =? no_data_value t)) a f in
  sumZ (map Z.abs values) < imax t ->
  (values <> [] -> unary_aggregate_operation (int_agg_policies t) (sum_functor t) x = sumZ values) /\
  (values = [] -> unary_aggregate_operation (int_agg_policies t) (sum_functor t) x = no_data_value t).
Proof. exact c14_sum. Qed.
Print Assumptions C14_sum_partial.
Example C14_sum_ex :
  let x := PArray [5] [2] [Placed 0 [0] [2] [-128; 20]; Placed 1 [2] [3] [7; -128; 4]] in
  unary_aggregate_operation (int_agg_policies (IType 8 true)) (sum_functor (IType 8 true)) x = 31 /\
  sumZ (map Z.abs (valid_values (fun v => negb (v =? -128)) [5] (fun c => nth (Z.to_nat (nth 0 c 0)) [-128; 20; 7; -128; 4] 0))) < 127.
Proof. vm_compute. auto. Qed.

(** C14, false in general: the sum of a partition that happens to equal the no-data marker is
    dropped, so the result depends on the partitioning although nothing overflows. *)
Theorem C14_sum_depends_on_partitioning_refuted :
  let f := fun c => nth (Z.to_nat (nth 0 c 0)) [-100; -28; 30; 20] 0 in
  let x1 := PArray [4] [1] [Placed 0 [0] [4] [-100; -28; 30; 20]] in
  let x2 := PArray [4] [2] [Placed 0 [0] [2] [-100; -28]; Placed 0 [2] [2] [30; 20]] in
  raster_of [4] [4] x1 f /\ raster_of [4] [2] x2 f /\
  unary_aggregate_operation (int_agg_policies (IType 8 true)) (sum_functor (IType 8 true)) x1 = -78 /\
  unary_aggregate_operation (int_agg_policies (IType 8 true)) (sum_functor (IType 8 true)) x2 = 50.
Proof. exact c14_sum_refuted. Qed.
Print Assumptions C14_sum_depends_on_partitioning_refuted.

(** C15: all, any, none. *)
Theorem C15_all_any_none :
  forall (t : itype) a p x f,
  int_type t -> raster_of a p x f -> (forall c, in_shape a c -> representable t (f c)) ->
  let valid c := in_shape a c /\ f c <> no_data_value t in
  let all := unary_aggregate_operation (int_agg_policies t) all_functor x in
  let any := unary_aggregate_operation (int_agg_policies t) any_functor x in
  let none := unary_aggregate_operation (int_agg_policies t) none_functor x in
  ((exists c, valid c) ->
     (all <> 0 <-> forall c, valid c -> f c <> 0) /\
     (any <> 0 <-> exists c, valid c /\ f c <> 0) /\
     (none <> 0 <-> ~ exists c, valid c /\ f c <> 0) /\
     all <> no_data_value t /\ any <> no_data_value t /\ none <> no_data_value t) /\
  ((forall c, ~ valid c) -> all = no_data_value t /\ any = no_data_value t /\ none = no_data_value t).
Proof. exact c15. Qed.
Print Assumptions C15_all_any_none.
Example C15_ex :
  let x := PArray [4] [2] [Placed 0 [0] [2] [255; 0]; Placed 1 [2] [2] [1; 255]] in
  map (fun fn => unary_aggregate_operation (int_agg_policies (IType 8 false)) fn x) [all_functor; any_functor; none_functor] = [0; 1; 0].
Proof. vm_compute. reflexivity. Qed.
