(** Property theorems: the first cells along routes. *)
From Verif Require Import Common CommonProofs CoreSpec DecompSpec ArraySpec AggregateSpec IndexModel DecompModel ArrayModel ArrayRep RasterCheck ZonalModel OrderModel OrderSpec OrderProofs5
  OrderCheck WalkModel WalkSpec WalkProofs4.

(** C26.  Full claim: whatever the order in which the tasks run, first_n delivers each partition of its result once, and the result is 1 exactly
    in the first [n] cells of each of the routes.
    Proved: the number of tasks is bounded, and once no task is left the result is as claimed.  A task only fails if it is a call to
    result_partition for a partition that was walked to the end before the call.  Missing: that such a call does not happen; it can,
    see C26_first_n_refuted. *)
Theorem C26_first_n_partial :
  forall no_data n a p r, well_formed_route a p r ->
  exists bound, forall ks st, walk_run n r (first_n no_data r) ks st ->
    (length ks <= bound)%nat /\
    (forall k o, walk_step n r k st = Some o -> (exists st', o = Ok st') \/
      (o = Throw /\ exists q w, nth_error (ws_tasks st) k = Some (ResultPartition q) /\ nth_z q (ws_walkers st) = Some w /\ wk_ready w = 1)) /\
    (ws_tasks st = [] -> (forall w, In w (ws_walkers st) -> wk_ready w = 1) /\
      exists f, raster_of a p (first_n_result r st) f /\ forall x, (among_first r n x /\ f x = 1) \/ (~ among_first r n x /\ f x = no_data)).
Proof.
  intros no_data n a p r W. destruct (first_n_ok no_data n a p r W) as [b F]. exists b. intros ks st R. destruct (F ks st R) as [A [_ [B C]]]. auto.
Qed.
Print Assumptions C26_first_n_partial.

(** If each partition is asked for before walks pass through it, then no task fails. *)
Theorem C26_first_n_after_results_never_fails :
  forall no_data n a p r, well_formed_route a p r ->
  forall ks st, ordered_run no_data n r (first_n no_data r) ks st -> forall k o, walk_step n r k st = Some o -> exists st', o = Ok st'.
Proof. exact ordered_never_fails. Qed.
Print Assumptions C26_first_n_after_results_never_fails.

(** Routes along decreasing values can be walked, here for integral element types. *)
Theorem C26_decreasing_order_routes_can_be_walked :
  forall min_value sort, sorts Z.ltb (fun v => min_value <= v) sort ->
  forall (zone_nd value_nd : Z -> bool) a p zone value fz fv max_nr_cells,
    raster_of a p zone fz -> raster_of a p value fv -> (forall x, min_value <= fv x) ->
  exists starts first, decreasing_order sort value_nd zone_nd zone value = Ok (starts, first) /\
    forall ks st, order_run Z.ltb Z.eqb min_value max_nr_cells first ks st -> os_tasks st = [] ->
      well_formed_route a p (order_result value starts st) /\
      forall z, exists cells, visits (order_result value starts st) z cells /\ highest_first Z.ltb fv (zone_cells zone_nd value_nd a fz fv z) max_nr_cells cells.
Proof.
  intros m sort Hs znd vnd a p zone value fz fv mx Hz Hv Hm.
  apply (order_well_formed Z.ltb Z.eqb m mx (fun v => m <= v)); auto using weak_order_Z. intros v. rewrite Z.ltb_ge. lia.
Qed.
Print Assumptions C26_decreasing_order_routes_can_be_walked.

(** An array with 4 cells in 2 partitions, and a route through its cells 2, 0, 1 *)
Definition route3 : serial_route :=
  SerialRoute [4] [2] [(7, 1)] [Placed 0 [0] [2] [(7, [Fragment [0; 1] None])]; Placed 0 [2] [2] [(7, [Fragment [0] (Some 0)])]].
Lemma route3_visits id : exists cells, visits route3 id cells.
Proof.
  destruct (Z.eqb_spec id 7) as [E|E].
  - subst. exists [[2]; [0]; [1]]. exists [(1, [0]); (0, [0; 1])]. split; [split; [reflexivity|split]|].
    + repeat constructor; cbn; lia.
    + intros [|[|k]] q H; cbn in H; try (inversion H; reflexivity). destruct k; discriminate.
    + constructor; [|constructor; [|constructor; [|constructor]]].
      * exists (Placed 0 [2] [2] [(7, [Fragment [0] (Some 0)])]), [0]. (repeat split; try reflexivity; repeat constructor; lia).
      * exists (Placed 0 [0] [2] [(7, [Fragment [0; 1] None])]), [0]. (repeat split; try reflexivity; repeat constructor; lia).
      * exists (Placed 0 [0] [2] [(7, [Fragment [0; 1] None])]), [1]. (repeat split; try reflexivity; repeat constructor; lia).
  - exists []. exists []. split; [split; [|split]|constructor].
    + cbn [route3 rt_starts zfind]. destruct (Z.eqb_spec 7 id); [congruence|reflexivity].
    + constructor.
    + assert (7 =? id = false) as E7 by (apply Z.eqb_neq; congruence).
      intros [|[|k]] q H; cbn in H; try (inversion H; subst q; cbn [pl_data zfind]; rewrite E7; reflexivity). destruct k; discriminate.
Qed.
Lemma route3_well_formed : well_formed_route [4] [2] route3.
Proof.
  split; [discriminate|]. split; [repeat constructor; lia|]. split; [reflexivity|]. split; [reflexivity|]. split; [vm_compute; reflexivity|].
  split; [repeat constructor; intros []|]. split; [|exact route3_visits].
  intros q [<-|[<-|[]]]; (split; [repeat constructor; intros []|]); intros id; cbn [pl_data zfind]; destruct (7 =? id); discriminate.
Qed.

(** The walk through the route ends before the second partition is asked for: the second promise is set for the second time. *)
Theorem C26_first_n_refuted :
  ~ forall no_data n a p r, well_formed_route a p r -> forall ks st, walk_run n r (first_n no_data r) ks st ->
    forall k o, walk_step n r k st = Some o -> exists st', o = Ok st'.
Proof.
  intros H. destruct (H 255 2 [4] [2] route3 route3_well_formed [2%nat]
    (WalkState [Walker [(7, 0)] [255; 255] 0; Walker [] [1; 255] 1] [ResultPartition 0; ResultPartition 1; WalkRoute 0 7 1])
    ltac:(eapply walk_run_cons; [vm_compute; reflexivity|constructor]) 1%nat Throw) as [st E]; [vm_compute; reflexivity|discriminate].
Qed.
Print Assumptions C26_first_n_refuted.

Fixpoint drive (n : Z) (r : serial_route) (ks : list nat) (st : walk_state) : option walk_state :=
  match ks with
  | [] => Some st
  | k :: ks' => match walk_step n r k st with Some (Ok st') => drive n r ks' st' | _ => None end
  end.
Example C26_ex :
  well_formed_route [4] [2] route3 /\
  drive 2 route3 [0; 0; 0; 0]%nat (first_n 255 route3) = Some (WalkState [Walker [] [1; 255] 1; Walker [] [1; 255] 1] []) /\
  drive 1 route3 [1; 1; 0; 0]%nat (first_n 255 route3) = Some (WalkState [Walker [] [255; 255] 1; Walker [] [1; 255] 1] []) /\
  result_first (first_n 255 route3) 0 /\ ~ result_first (first_n 255 route3) 2.
Proof.
  split; [exact route3_well_formed|]. split; [vm_compute; reflexivity|]. split; [vm_compute; reflexivity|]. split; [exact I|].
  intros H. apply H. right. left. reflexivity.
Qed.
