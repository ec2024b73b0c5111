(** Property theorems: routing material through a network. *)
From Coq Require Import QArith Qcanon.
From Verif Require Import Common CoreSpec DecompSpec ArraySpec DecompModel ArrayModel ArrayRep RasterCheck FlowSpec AccuSpec FlowModel RouterModel RouterSpec AccuModel
  FlowCheck AccuCheck AccuProofs3 AccuProofs4.
Local Open Scope Z_scope.

(** C21, for partitions with at least two rows and columns: there is one raster, the flow accumulation, which is the result for
    all partitionings and all orders in which tasks do their work ([routes_to]). *)
Theorem C21_accu_partial :
  forall a0 a1 (nd : Z -> bool) (f : list Z -> Z) (m : list Z -> option Qc),
  valid_network a0 a1 nd (by_cell f) -> acyclic a0 a1 nd (by_cell f) ->
  exists g, accu_spec a0 a1 nd (by_cell f) (by_cell m) (by_cell g) /\
    forall p0 p1 flow_direction material, 2 <= p0 -> 2 <= p1 ->
      raster_of [a0; a1] [p0; p1] flow_direction f -> raster_of [a0; a1] [p0; p1] material m ->
      routes_to accu nd a0 a1 p0 p1 flow_direction material g.
Proof. exact accu_ok. Qed.
Print Assumptions C21_accu_partial.

(** The 4 x 6 network of [ex_flow], with 1, 2, .. 6 units of material in the columns: two partitionings, and two orders. *)
Definition shown {X} (show : X -> Z) (o : outcome (nat * bool * list (list X))) : option (bool * list (list Z)) :=
  match o with Ok (_, finished, l) => Some (finished, map (map show) l) | _ => None end.
Example C21_ex :
  valid_network 4 6 ex_no_data (by_cell ex_flow) /\ acyclic 4 6 ex_no_data (by_cell ex_flow) /\
  raster_of [4; 6] [2; 2] (raster_array [4; 6] [2; 2] ex_flow) ex_flow /\
  raster_of [4; 6] [2; 2] (raster_array [4; 6] [2; 2] ex_material) ex_material /\
  shown show1 (route accu ex_no_data 2 3 (fun l => l) (raster_array [4; 6] [2; 2] ex_flow) (raster_array [4; 6] [2; 2] ex_material)) =
    Some (true, [[1; 7; 4; 2]; [10; -1; 3; 19]; [5; 11; 5; 6]; [1; 2; 1; 3]; [22; 29; 6; 10]; [56; 12; 67; 62]]) /\
  shown show1 (route accu ex_no_data 2 3 (@rev _) (raster_array [4; 6] [2; 2] ex_flow) (raster_array [4; 6] [2; 2] ex_material)) =
    Some (true, [[1; 7; 4; 2]; [10; -1; 3; 19]; [5; 11; 5; 6]; [1; 2; 1; 3]; [22; 29; 6; 10]; [56; 12; 67; 62]]) /\
  shown show1 (route accu ex_no_data 2 2 (@rev _) (raster_array [4; 6] [2; 3] ex_flow) (raster_array [4; 6] [2; 3] ex_material)) =
    Some (true, [[1; 7; 10; 4; 2; 3]; [-1; 5; 11; 19; 5; 6]; [1; 2; 22; 1; 3; 6]; [29; 56; 12; 10; 67; 62]]).
Proof.
  split; [exact (proj1 ex_network)|]. split; [exact (proj2 ex_network)|].
  split; [apply raster_array_ok; [discriminate|repeat constructor; cbn; lia]|].
  split; [apply raster_array_ok; [discriminate|repeat constructor; cbn; lia]|]. vm_compute. repeat split; reflexivity.
Qed.

(** C21: routing that satisfies [routes_to] can be completed from each state that is reached. *)
Theorem C21_routing_finishes :
  forall (A X M : Type) (ac : accumulator A X M) nd a0 a1 p0 p1 flow_direction args g,
  routes_to ac nd a0 a1 p0 p1 flow_direction args g ->
  exists st0, router_start ac nd flow_direction args = Ok st0 /\
    forall steps st, run ac nd (a0 / p0) (a1 / p1) st0 steps st ->
      exists steps' st', run ac nd (a0 / p0) (a1 / p1) st steps' st' /\ finished (a0 / p0) (a1 / p1) st' = true.
Proof. exact @routing_finishes. Qed.
Print Assumptions C21_routing_finishes.
Example C21_routing_finishes_ex : exists g, routes_to accu ex_no_data 4 6 2 2 (raster_array [4; 6] [2; 2] ex_flow) (raster_array [4; 6] [2; 2] ex_material) g.
Proof.
  destruct (C21_accu_partial 4 6 ex_no_data ex_flow ex_material (proj1 ex_network) (proj2 ex_network)) as [g [_ H]]. exists g.
  apply H; [lia|lia|apply raster_array_ok; [discriminate|repeat constructor; cbn; lia]..].
Qed.

(** C21, false for partitions of one row: all partitions finish, and the result is wrong. *)
Theorem C21_single_row_refuted :
  exists g st0 steps st out g',
  accu_spec 1 3 ex_no_data (by_cell row_flow) (by_cell ex_material) (by_cell g) /\ by_cell g (0, 1) = Some (Q2Qc 3) /\
  router_start accu ex_no_data (raster_array [1; 3] [1; 3] row_flow) (raster_array [1; 3] [1; 3] ex_material) = Ok st0 /\
  run accu ex_no_data 1 1 st0 steps st /\ finished 1 1 st = true /\
  router_results (raster_array [1; 3] [1; 3] row_flow) st = Ok out /\ raster_of [1; 3] [1; 3] out g' /\ by_cell g' (0, 1) = Some (Q2Qc 1).
Proof. exact c21_refuted. Qed.
Print Assumptions C21_single_row_refuted.

(** C22: what leaves the network is what was put in. *)
Theorem C22_accu_conserves_mass_partial :
  forall a0 a1 (nd : Z -> bool) (f : list Z -> Z) (m : list Z -> option Qc),
  valid_network a0 a1 nd (by_cell f) -> acyclic a0 a1 nd (by_cell f) ->
  (forall x, in_network a0 a1 nd (by_cell f) x -> usable (by_cell m x)) ->
  exists g,
    (forall p0 p1 flow_direction material, 2 <= p0 -> 2 <= p1 ->
      raster_of [a0; a1] [p0; p1] flow_direction f -> raster_of [a0; a1] [p0; p1] material m ->
      routes_to accu nd a0 a1 p0 p1 flow_direction material g) /\
    (exists C O, lists (in_network a0 a1 nd (by_cell f)) C /\ lists (outlet a0 a1 nd (by_cell f)) O) /\
    forall C O, lists (in_network a0 a1 nd (by_cell f)) C -> lists (outlet a0 a1 nd (by_cell f)) O ->
      sum_of (fun x => amount (by_cell g x)) O = sum_of (fun x => amount (by_cell m x)) C.
Proof. exact c22. Qed.
Print Assumptions C22_accu_conserves_mass_partial.
Lemma ex_material_usable : forall x, in_network 4 6 ex_no_data (by_cell ex_flow) x -> usable (by_cell ex_material x).
Proof.
  intros [r c] [[_ Hc] _]. cbn [fst snd] in Hc. eexists. split; [reflexivity|]. cbn [fst snd nth].
  assert (c = 0 \/ c = 1 \/ c = 2 \/ c = 3 \/ c = 4 \/ c = 5) as [->|[->|[->|[->|[->| ->]]]]] by lia; vm_compute; discriminate.
Qed.
Example C22_ex : valid_network 4 6 ex_no_data (by_cell ex_flow) /\ acyclic 4 6 ex_no_data (by_cell ex_flow) /\
  forall x, in_network 4 6 ex_no_data (by_cell ex_flow) x -> usable (by_cell ex_material x).
Proof. split; [exact (proj1 ex_network)|]. split; [exact (proj2 ex_network)|exact ex_material_usable]. Qed.

(** C23: the four ways to divide the water of a cell in outflow and storage ([splits_into]). *)
Theorem C23_accu_threshold_partial :
  forall a0 a1 nd f (m : list Z -> option Qc * option Qc), valid_network a0 a1 nd (by_cell f) -> acyclic a0 a1 nd (by_cell f) ->
  splits_into accu_threshold (fun threshold => Q2Qc 0 <= threshold)%Qc over_threshold a0 a1 nd f m.
Proof. exact c23_threshold. Qed.
Print Assumptions C23_accu_threshold_partial.
Theorem C23_accu_capacity_partial :
  forall a0 a1 nd f (m : list Z -> option Qc * option Qc), valid_network a0 a1 nd (by_cell f) -> acyclic a0 a1 nd (by_cell f) ->
  splits_into accu_capacity (fun capacity => Q2Qc 0 <= capacity)%Qc up_to_capacity a0 a1 nd f m.
Proof. exact c23_capacity. Qed.
Print Assumptions C23_accu_capacity_partial.
Theorem C23_accu_fraction_partial :
  forall a0 a1 nd f (m : list Z -> option Qc * option Qc), valid_network a0 a1 nd (by_cell f) -> acyclic a0 a1 nd (by_cell f) ->
  splits_into accu_fraction (fun fraction => Q2Qc 0 <= fraction /\ fraction <= Q2Qc 1)%Qc by_fraction a0 a1 nd f m.
Proof. exact c23_fraction. Qed.
Print Assumptions C23_accu_fraction_partial.
Theorem C23_accu_trigger_partial :
  forall a0 a1 nd f (m : list Z -> option Qc * option Qc), valid_network a0 a1 nd (by_cell f) -> acyclic a0 a1 nd (by_cell f) ->
  splits_into accu_trigger (fun trigger => Q2Qc 0 <= trigger)%Qc all_or_nothing a0 a1 nd f m.
Proof. exact c23_trigger. Qed.
Print Assumptions C23_accu_trigger_partial.
(** Outflow, with storage in the thousandths *)
Definition show2 (v : option Qc * option Qc) : Z := show1 (fst v) * 1000 + show1 (snd v).
Definition ex_split (ac : accumulator (option Qc * option Qc) (option Qc * option Qc) (option Qc)) (p : Qc) : option (bool * list (list Z)) :=
  shown show2 (route ac ex_no_data 2 3 (fun l => l) (raster_array [4; 6] [2; 2] ex_flow) (raster_array [4; 6] [2; 2] (ex_pair p))).
Example C23_ex :
  ex_split accu_threshold (Q2Qc 3) =
    Some (true, [[1; 2; 1; 2]; [3; -1001; 3; 3003]; [2003; 5003; 2003; 3003]; [1; 2; 1; 2]; [3003; 4003; 3; 1003]; [13003; 6003; 18003; 16003]]) /\
  ex_split accu_capacity (Q2Qc 3) =
    Some (true, [[1000; 3003; 3001; 2000]; [3003; -1001; 3000; 3007]; [3002; 3006; 3002; 3003]; [1000; 2000; 1000; 3000]; [3003; 3007; 3003; 3004]; [3011; 3006; 3005; 3006]]) /\
  ex_split accu_trigger (Q2Qc 3) =
    Some (true, [[1; 2; 1; 2]; [3000; -1001; 3000; 12000]; [5000; 11000; 5000; 6000]; [1; 2; 1; 2]; [15000; 22000; 3000; 7000]; [46000; 12000; 57000; 52000]]) /\
  (* outflow, in units of 2^-12 *)
  shown (fun v => show1 (option_map (fun q => q * Q2Qc (inject_Z 4096))%Qc (fst v)))
    (route accu_fraction ex_no_data 2 3 (fun l => l) (raster_array [4; 6] [2; 2] ex_flow) (raster_array [4; 6] [2; 2] (ex_pair (Q2Qc (1 # 2))))) =
    Some (true, [[2048; 7680; 5120; 4096]; [9984; -1; 6144; 18304]; [10240; 17408; 10240; 12288]; [2048; 4096; 2048; 5120]; [15296; 18912; 8704; 12544]; [35184; 18432; 25180; 29880]]).
Proof. vm_compute. repeat split; reflexivity. Qed.
