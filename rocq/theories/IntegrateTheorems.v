(** Property theorems: accumulating values along routes. *)
From Verif Require Import Common CommonProofs CoreSpec DecompSpec ArraySpec AggregateSpec IndexModel DecompModel ArrayModel ArrayRep RasterCheck ZonalModel OrderModel OrderSpec OrderProofs5
  OrderCheck WalkModel WalkSpec WalkProofs4 WalkTheorems IntegrateModel IntegrateSpec IntegrateProofs2.

(** C66.  Full claim: whatever the order in which the tasks run, integrate delivers each partition of its result once, and the result is, in each of the
    first [n] cells of a route, the sum of the valid values from the start of the route up to and including that cell, and no-data in the other cells and where
    the value itself is no-data.
    Proved: the number of tasks is bounded, and once no task is left the result is as claimed.  A task only fails if it is a call to
    result_partition for a partition that was walked to the end before the call.  Missing: that such a call does not happen; it can,
    see C66_integrate_refuted. *)
Theorem C66_integrate_partial :
  forall (E : Type) (zero : E) plus is_no_data no_data n a p r integrand g, well_formed_route a p r -> visited_once r -> raster_of a p integrand g ->
  exists bound, forall ks st, integrate_run zero plus is_no_data n r integrand (integrate no_data r) ks st ->
    (length ks <= bound)%nat /\
    (forall k o, integrate_step zero plus is_no_data n r integrand k st = Some o -> (exists st', o = Ok st') \/
      (o = Throw /\ exists q w, nth_error (is_tasks st) k = Some (AskResult q) /\ nth_z q (is_integrators st) = Some w /\ ig_ready w = 1)) /\
    (is_tasks st = [] -> (forall w, In w (is_integrators st) -> ig_ready w = 1) /\
      exists f, raster_of a p (integrate_result r st) f /\ forall x, integral_at zero plus is_no_data no_data r n g x (f x)).
Proof. intros E zero plus nd no_data n a p r integrand g W O Hg. exact (integrate_ok zero plus nd no_data n a p r W integrand g Hg O). Qed.
Print Assumptions C66_integrate_partial.

(** Routes along decreasing values, here for integral element types, visit each cell once. *)
Theorem C66_decreasing_order_visits_once :
  forall min_value sort, sorts Z.ltb (fun v => min_value <= v) sort ->
  forall (zone_nd value_nd : Z -> bool) a p zone value fz fv max_nr_cells,
    raster_of a p zone fz -> raster_of a p value fv -> (forall x, min_value <= fv x) ->
  exists starts first, decreasing_order sort value_nd zone_nd zone value = Ok (starts, first) /\
    forall ks st, order_run Z.ltb Z.eqb min_value max_nr_cells first ks st -> os_tasks st = [] ->
      well_formed_route a p (order_result value starts st) /\ visited_once (order_result value starts st).
Proof.
  intros m sort Hs znd vnd a p zone value fz fv mx Hz Hv Hm.
  destruct (C26_decreasing_order_routes_can_be_walked m sort Hs znd vnd a p zone value fz fv mx Hz Hv Hm) as [starts [first [E F]]].
  exists starts, first. split; [assumption|]. intros ks st R T. destruct (F ks st R T) as [Wf V]. split; [assumption|].
  intros id id' cells cells' k k' x V1 V2 K1 K2. destruct (V id) as [c1 [A1 B1]], (V id') as [c2 [A2 B2]].
  rewrite (visits_unique _ _ _ _ V1 A1) in *. rewrite (visits_unique _ _ _ _ V2 A2) in *. destruct B1 as [N1 [I1 _]], B2 as [_ [I2 _]].
  assert (Ei : id = id').
  { pose proof (I1 x (nth_error_In _ _ K1)) as X1. pose proof (I2 x (nth_error_In _ _ K2)) as X2. apply filter_In in X1, X2. destruct X1 as [_ X1], X2 as [_ X2].
    apply andb_prop in X1, X2. destruct X1 as [X1 _], X2 as [X2 _]. apply andb_prop in X1, X2. destruct X1 as [X1 _], X2 as [X2 _]. apply Z.eqb_eq in X1, X2. congruence. }
  split; [assumption|]. subst id'. rewrite (visits_unique _ _ _ _ A2 A1) in K2. apply (proj1 (NoDup_nth_error c1) N1); [apply nth_error_Some; congruence|congruence].
Qed.
Print Assumptions C66_decreasing_order_visits_once.

Lemma route3_hops_cells id cells : visits route3 id cells -> (id = 7 /\ cells = [[2]; [0]; [1]]) \/ (id <> 7 /\ cells = []).
Proof.
  intros V. destruct (Z.eqb_spec id 7) as [->|Hne].
  - left. split; [reflexivity|]. apply (visits_unique route3 7); [assumption|]. exists [(1, [0]); (0, [0; 1])]. split; [split; [reflexivity|split]|].
    + repeat constructor; cbn; lia.
    + intros [|[|k]] q H; cbn in H; try (inversion H; reflexivity). destruct k; discriminate.
    + constructor; [|constructor; [|constructor; [|constructor]]].
      * exists (Placed 0 [2] [2] [(7, [Fragment [0] (Some 0)])]), [0]. (repeat split; try reflexivity; repeat constructor; lia).
      * exists (Placed 0 [0] [2] [(7, [Fragment [0; 1] None])]), [0]. (repeat split; try reflexivity; repeat constructor; lia).
      * exists (Placed 0 [0] [2] [(7, [Fragment [0; 1] None])]), [1]. (repeat split; try reflexivity; repeat constructor; lia).
  - right. split; [assumption|]. destruct V as [hops [[A _] B]]. cbn [route3 rt_starts zfind] in A. destruct (Z.eqb_spec 7 id); [congruence|]. destruct hops; [|discriminate]. inversion B. reflexivity.
Qed.
Lemma route3_visited_once : visited_once route3.
Proof.
  intros id id' cells cells' k k' x V V' K K'. apply route3_hops_cells in V, V'. destruct V as [[-> ->]|[_ ->]]; [|destruct k; discriminate]. destruct V' as [[-> ->]|[_ ->]]; [|destruct k'; discriminate].
  split; [reflexivity|]. apply (proj1 (NoDup_nth_error [[2]; [0]; [1]])); [|apply nth_error_Some; congruence|congruence]. repeat constructor; cbn; intuition discriminate.
Qed.
(** Values 5, no-data, 7, 9 in the four cells; -1 is no-data *)
Definition values4 : parray Z := PArray [4] [2] [Placed 0 [0] [2] [5; -1]; Placed 0 [2] [2] [7; 9]].
Definition value4 (x : list Z) : Z := nth (Z.to_nat (hd 0 x)) [5; -1; 7; 9] 0.
Lemma values4_raster : raster_of [4] [2] values4 value4.
Proof. apply raster_of_listed; [discriminate|repeat constructor; lia|reflexivity|reflexivity|vm_compute; reflexivity]. Qed.

(** The walk through the second partition ends before that partition is asked for: the promise is set for the second time. *)
Theorem C66_integrate_refuted :
  ~ forall (zero : Z) plus is_no_data no_data n a p r integrand g, well_formed_route a p r -> visited_once r -> raster_of a p integrand g ->
    forall ks st, integrate_run zero plus is_no_data n r integrand (integrate no_data r) ks st ->
    forall k o, integrate_step zero plus is_no_data n r integrand k st = Some o -> exists st', o = Ok st'.
Proof.
  intros H. destruct (H 0 Z.add (Z.eqb (-1)) (-1) 2 [4] [2] route3 values4 value4 route3_well_formed route3_visited_once values4_raster [2%nat]
    (IntegrateState [Integrator [(7, 0)] [-1; -1] 0; Integrator [] [7; -1] 1] [AskResult 0; AskResult 1; Integrate 0 7 (WalkData 1 [(7, 7)])])
    ltac:(eapply integrate_run_cons; [vm_compute; reflexivity|constructor]) 1%nat Throw) as [st E]; [vm_compute; reflexivity|discriminate].
Qed.
Print Assumptions C66_integrate_refuted.

Fixpoint drive_integrate (n : Z) (ks : list nat) (st : integrate_state Z) : option (integrate_state Z) :=
  match ks with
  | [] => Some st
  | k :: ks' => match integrate_step 0 Z.add (Z.eqb (-1)) n route3 values4 k st with Some (Ok st') => drive_integrate n ks' st' | _ => None end
  end.
(** All three cells of the route, cell 1 having no value; and the first two only *)
Example C66_ex :
  well_formed_route [4] [2] route3 /\ visited_once route3 /\ raster_of [4] [2] values4 value4 /\
  drive_integrate 3 [0; 0; 0; 0]%nat (integrate (-1) route3) = Some (IntegrateState [Integrator [] [12; -1] 1; Integrator [] [7; -1] 1] []) /\
  drive_integrate 1 [1; 1; 0; 0]%nat (integrate (-1) route3) = Some (IntegrateState [Integrator [] [-1; -1] 1; Integrator [] [7; -1] 1] []) /\
  sum_valid 0 Z.add (Z.eqb (-1)) value4 [[2]; [0]] = 12.
Proof.
  split; [exact route3_well_formed|]. split; [exact route3_visited_once|]. split; [exact values4_raster|]. repeat split; vm_compute; reflexivity.
Qed.
