(** Property theorems: routes along cells in decreasing order of value. *)
From Coq Require Import Reals.
From Flocq Require Import Core BinarySingleNaN.
From Verif Require Import Common CommonProofs CoreSpec Float64 DecompSpec ArraySpec AggregateSpec IndexModel DecompModel ArrayModel ArrayRep RasterCheck ZonalModel OrderModel OrderSpec
  OrderProofs5 OrderCheck.
Local Open Scope Z_scope.

Lemma c25_zonal {V} (ltb eqb : V -> V -> bool) (min_value : V) (comparable : V -> Prop) : weak_order ltb eqb comparable ->
  (forall v, comparable v -> ltb v min_value = false) ->
  forall sort, sorts ltb comparable sort ->
  forall zone_nd value_nd a p zone value fz fv mx, raster_of a p zone fz -> raster_of a p value fv ->
    (forall x, in_shape a x -> zone_nd (fz x) = false -> value_nd (fv x) = false -> comparable (fv x)) ->
  routes_from_high_to_low ltb eqb min_value mx a value fv (zone_cells zone_nd value_nd a fz fv)
    (decreasing_order sort value_nd zone_nd zone value).
Proof.
  intros Hord Hmin sort Hsort zone_nd value_nd a p zone value fz fv mx Hz Hv Hc. eexists. eexists. split.
  - exact (order_start ltb min_value comparable sort Hsort zone_nd value_nd a p fz fv value Hv Hc zone Hz).
  - intros ks st. exact (order_all ltb eqb min_value mx comparable sort Hord Hsort zone_nd value_nd a p fz fv value Hv Hc Hmin ks st).
Qed.
Lemma c25_global {V} (ltb eqb : V -> V -> bool) (min_value : V) (comparable : V -> Prop) : weak_order ltb eqb comparable ->
  (forall v, comparable v -> ltb v min_value = false) ->
  forall sort, sorts ltb comparable sort ->
  forall value_nd a p value fv mx, raster_of a p value fv -> (exists x, in_shape a x /\ value_nd (fv x) = false) ->
    (forall x, in_shape a x -> value_nd (fv x) = false -> comparable (fv x)) ->
  routes_from_high_to_low ltb eqb min_value mx a value fv (zone_cells (fun _ => false) value_nd a (fun _ => 0) fv)
    (decreasing_order_global sort value_nd value).
Proof.
  intros Hord Hmin sort Hsort value_nd a p value fv mx Hv Hx Hc.
  pose proof (raster_array_ok a p (fun _ => 0) (proj1 Hv) (proj1 (proj2 Hv))) as Hz.
  rewrite (order_global_start ltb min_value comparable sort Hsort value_nd a p fv value Hv Hc _ Hz Hx).
  apply (c25_zonal ltb eqb min_value comparable Hord Hmin sort Hsort _ _ a p); try assumption. intros x H _. now apply Hc.
Qed.

(** What a route visits is determined by the route. *)
Theorem C25_visits_unique : forall r id cells cells', visits r id cells -> visits r id cells' -> cells = cells'.
Proof. exact visits_unique. Qed.
Print Assumptions C25_visits_unique.

(** C25 for integral element types: numeric_limits::min() is the smallest of all values. *)
Theorem C25_decreasing_order_integers :
  forall min_value sort, sorts Z.ltb (fun v => min_value <= v) sort ->
  forall (zone_nd value_nd : Z -> bool) a p zone value fz fv max_nr_cells,
    raster_of a p zone fz -> raster_of a p value fv -> (forall x, min_value <= fv x) ->
  routes_from_high_to_low Z.ltb Z.eqb min_value max_nr_cells a value fv (zone_cells zone_nd value_nd a fz fv)
    (decreasing_order sort value_nd zone_nd zone value).
Proof.
  intros m sort Hs znd vnd a p zone value fz fv mx Hz Hv Hm.
  apply (c25_zonal Z.ltb Z.eqb m (fun v => m <= v)) with (p := p); auto using weak_order_Z. intros v. rewrite Z.ltb_ge. lia.
Qed.
Print Assumptions C25_decreasing_order_integers.

(** The same for the overload without zones, if there is at least one valid cell.  Its only route has ID 0. *)
Theorem C25_decreasing_order_global_integers_partial :
  forall min_value sort, sorts Z.ltb (fun v => min_value <= v) sort ->
  forall (value_nd : Z -> bool) a p value fv max_nr_cells,
    raster_of a p value fv -> (forall x, min_value <= fv x) -> (exists x, in_shape a x /\ value_nd (fv x) = false) ->
  routes_from_high_to_low Z.ltb Z.eqb min_value max_nr_cells a value fv (zone_cells (fun _ => false) value_nd a (fun _ => 0) fv)
    (decreasing_order_global sort value_nd value).
Proof.
  intros m sort Hs vnd a p value fv mx Hv Hm Hx.
  apply (c25_global Z.ltb Z.eqb m (fun v => m <= v)) with (p := p); auto using weak_order_Z. intros v. rewrite Z.ltb_ge. lia.
Qed.
Print Assumptions C25_decreasing_order_global_integers_partial.
(** Otherwise the first element of an empty collection is accessed. *)
Theorem C25_decreasing_order_global_refuted :
  exists a p value fv, raster_of a p value fv /\
    decreasing_order_global (sort_down Z.ltb) (fun v => v =? 255) value = UB.
Proof.
  exists [2; 2], [1; 2], (raster_array [2; 2] [1; 2] (fun _ => 255)), (fun _ => 255). split; [|vm_compute; reflexivity].
  apply raster_array_ok; [discriminate|repeat constructor; lia].
Qed.
Print Assumptions C25_decreasing_order_global_refuted.

(** C25 for doubles: if no value is smaller than the smallest positive normal number. *)
Theorem C25_decreasing_order_floats_partial :
  forall sort, sorts b64_ltb (fun v => b64_is_nan v = false /\ b64_ltb v b64_min = false) sort ->
  forall (zone_nd : Z -> bool) a p zone value fz fv max_nr_cells,
    raster_of a p zone fz -> raster_of a p value fv -> (forall x, b64_ltb (fv x) b64_min = false) ->
  routes_from_high_to_low b64_ltb b64_eqb b64_min max_nr_cells a value fv (zone_cells zone_nd b64_is_nan a fz fv)
    (decreasing_order sort b64_is_nan zone_nd zone value).
Proof.
  intros sort Hs znd a p zone value fz fv mx Hz Hv Hm.
  apply (c25_zonal b64_ltb b64_eqb b64_min (fun v => b64_is_nan v = false /\ b64_ltb v b64_min = false)) with (p := p); auto.
  - apply weak_order_b64. tauto.
  - tauto.
Qed.
Print Assumptions C25_decreasing_order_floats_partial.

(** Otherwise cells are missing from the route: numeric_limits<double>::min() is positive, and the cells of the last partition that
    still has cells are only added if their values are not smaller.  Here, a single cell with value -1: the route that may visit 1
    cell is finished, but empty. *)
Lemma single_low_cell {V} (ltb eqb : V -> V -> bool) (min_value v : V) (nd : V -> bool) : eqb v v = true -> ltb v min_value = true -> nd v = false ->
  ~ routes_from_high_to_low ltb eqb min_value 1 [1] (raster_array [1] [1] (fun _ => v)) (fun _ => v) (zone_cells (fun _ => false) nd [1] (fun _ => 7) (fun _ => v))
    (decreasing_order (sort_down ltb) nd (fun _ => false) (raster_array [1] [1] (fun _ => 7)) (raster_array [1] [1] (fun _ => v))).
Proof.
  intros Ev Elt Hnd [starts [first [E H]]].
  assert (decreasing_order (sort_down ltb) nd (fun _ => false) (raster_array [1] [1] (fun _ => 7)) (raster_array [1] [1] (fun _ => v)) =
    Ok ([(7, 0)], OrderState [Component [(7, [(v, 0)])] [] 0] [RecordFragment 0 7 [(v, 0)] 0])) as E' by (vm_compute; rewrite Hnd; vm_compute; reflexivity).
  rewrite E' in E. injection E as <- <-.
  destruct (H [0%nat] (OrderState [Component [] [(7, [Fragment [] None])] 1] [])) as [_ [_ H2]].
  - eapply order_run_cons; [|constructor]. vm_compute. rewrite Ev, Elt. vm_compute. reflexivity.
  - destruct (H2 eq_refl) as [_ H3]. destruct (H3 7) as [cells [Vc [_ [_ [_ [L _]]]]]].
    assert (cells = []) as ->.
    { eapply C25_visits_unique; [exact Vc|]. exists [(0, [])]. split; [|constructor]. split; [reflexivity|]. split; [constructor; [vm_compute; split; [discriminate|reflexivity]|constructor]|].
      intros [|[|k]] q Hq; vm_compute in Hq; try discriminate. injection Hq as <-. vm_compute. reflexivity. }
    vm_compute in L. rewrite Hnd in L. vm_compute in L. discriminate.
Qed.
Theorem C25_decreasing_order_floats_refuted :
  ~ forall (zone_nd : Z -> bool) a p zone value fz fv max_nr_cells,
    raster_of a p zone fz -> raster_of a p value fv -> (forall x, b64_is_nan (fv x) = false) ->
  routes_from_high_to_low b64_ltb b64_eqb b64_min max_nr_cells a value fv (zone_cells zone_nd b64_is_nan a fz fv)
    (decreasing_order (sort_down b64_ltb) b64_is_nan zone_nd zone value).
Proof.
  intros H. apply (single_low_cell b64_ltb b64_eqb b64_min (b64_of_Z (-1)) b64_is_nan); [vm_compute; reflexivity..|].
  apply (H (fun _ => false) [1] [1] (raster_array [1] [1] (fun _ => 7)) (raster_array [1] [1] (fun _ => b64_of_Z (-1))) (fun _ => 7) (fun _ => b64_of_Z (-1)) 1).
  - apply raster_array_ok; [discriminate|repeat constructor; lia].
  - apply raster_array_ok; [discriminate|repeat constructor; lia].
  - intros x. lazy. reflexivity.
Qed.
Print Assumptions C25_decreasing_order_floats_refuted.

(** A 4 x 4 array in 2 x 2 partitions with two zones and a cell without data: two orders of the tasks, the same routes. *)
Definition ex_zone (x : list Z) : Z := match x with [0; _] => 1 | [1; _] => 1 | _ => 2 end.
Definition ex_value (x : list Z) : Z :=
  match x with
  | [r; c] => nth (Z.to_nat (4 * r + c)) [3; 12; 7; 9;   6; 12; 255; 1;   20; 5; 5; 30;   10; 8; 25; 2] 0
  | _ => 0
  end.
Definition ex_routes (mx : Z) (pick : nat -> nat -> nat) : option (nat * zmap Z * list (zmap (list fragment))) :=
  match decreasing_order (sort_down Z.ltb) (fun v => v =? 255) (fun _ => false) (raster_array [4; 4] [2; 2] ex_zone) (raster_array [4; 4] [2; 2] ex_value) with
  | Ok (starts, st) => option_map (fun '(n, s) => (n, starts, map pl_data (rt_parts (order_result (raster_array [4; 4] [2; 2] ex_value) starts s))))
      (order_drive Z.ltb Z.eqb 0 mx pick 16 st)
  | _ => None
  end.
Example C25_ex :
  sorts Z.ltb (fun v => 0 <= v) (sort_down Z.ltb) /\ sorts b64_ltb (fun v => b64_is_nan v = false /\ b64_ltb v b64_min = false) (sort_down b64_ltb) /\
  raster_of [4; 4] [2; 2] (raster_array [4; 4] [2; 2] ex_zone) ex_zone /\ raster_of [4; 4] [2; 2] (raster_array [4; 4] [2; 2] ex_value) ex_value /\
  ex_routes 5 (fun _ _ => 0%nat) = Some (7%nat, [(1, 0); (2, 3)],
    [[(1, [Fragment [3; 1] (Some 1); Fragment [2] None])]; [(1, [Fragment [1; 0] (Some 0)])];
     [(2, [Fragment [0; 2; 3] None])]; [(2, [Fragment [1; 2] (Some 2)])]]) /\
  ex_routes 5 (fun _ n => (n - 1)%nat) = ex_routes 5 (fun _ _ => 0%nat) /\
  option_map (fun x => fst (fst x)) (ex_routes 100 (fun _ _ => 0%nat)) = Some 7%nat.
Proof.
  split; [apply (sort_down_sorts _ Z.eqb), weak_order_Z|]. split; [apply (sort_down_sorts _ b64_eqb), weak_order_b64; tauto|].
  split; [apply raster_array_ok; [discriminate|repeat constructor; lia]|]. split; [apply raster_array_ok; [discriminate|repeat constructor; lia]|].
  split; [vm_compute; reflexivity|]. split; vm_compute; reflexivity.
Qed.
