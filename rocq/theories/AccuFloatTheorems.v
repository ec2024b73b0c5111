(** Property theorems: flow accumulation in floating point arithmetic. *)
From Coq Require Import Reals Lra.
From Flocq Require Import Core.
From Flocq Require Import IEEE754.BinarySingleNaN.
From Verif Require Import Common CoreSpec DecompSpec ArraySpec DecompModel ArrayModel ArrayRep RasterCheck FlowSpec AccuSpec FlowModel RouterModel RouterSpec FlowCheck
  AccuFloatModel AccuFloatSpec AccuFloatProofs2 AccuFloatProofs3 Float64.
Local Open Scope Z_scope.

(** C61, for partitions with at least two rows and columns and material without infinite amounts: whatever the partitioning and the
    order in which tasks do their work, the result is the flow accumulation with a bounded rounding error, and no-data where it has to be. *)
Theorem C61_accu_rounding_partial :
  forall prec emax (Hprec : Prec_gt_0 prec) (Hemax : Prec_lt_emax prec emax) a0 a1 (nd : Z -> bool) (f : list Z -> Z) (m : list Z -> binary_float prec emax),
  valid_network a0 a1 nd (by_cell f) -> acyclic a0 a1 nd (by_cell f) -> (forall x, inside a0 a1 x -> by_cell m x <> B754_infinity false) ->
  forall p0 p1 flow_direction material, 2 <= p0 -> 2 <= p1 -> raster_of [a0; a1] [p0; p1] flow_direction f -> raster_of [a0; a1] [p0; p1] material m ->
  routes_all (accu_f prec emax Hprec Hemax) nd a0 a1 p0 p1 flow_direction material (fun g => accu_rounded a0 a1 nd (by_cell f) (by_cell m) (by_cell g)).
Proof. intros. now apply rounding_ok. Qed.
Print Assumptions C61_accu_rounding_partial.

(** C61, idem: amounts that are whole numbers of units of size 2^e are added without rounding, as long as there are at most 2^prec units. *)
Theorem C61_accu_whole_numbers_partial :
  forall prec emax (Hprec : Prec_gt_0 prec) (Hemax : Prec_lt_emax prec emax) e a0 a1 (nd : Z -> bool) (f : list Z -> Z) (m : list Z -> binary_float prec emax),
  valid_network a0 a1 nd (by_cell f) -> acyclic a0 a1 nd (by_cell f) -> (forall x, inside a0 a1 x -> by_cell m x <> B754_infinity false) -> 3 - emax - prec <= e ->
  forall p0 p1 flow_direction material, 2 <= p0 -> 2 <= p1 -> raster_of [a0; a1] [p0; p1] flow_direction f -> raster_of [a0; a1] [p0; p1] material m ->
  routes_all (accu_f prec emax Hprec Hemax) nd a0 a1 p0 p1 flow_direction material (fun g => accu_whole e a0 a1 nd (by_cell f) (by_cell m) (by_cell g)).
Proof. intros. now apply whole_ok. Qed.
Print Assumptions C61_accu_whole_numbers_partial.

(** The hypotheses, for the network in which the water of three cells meets, with amounts 1, 2^-53 and 2^-53 *)
Example C61_ex :
  valid_network 4 4 ex_no_data (by_cell meet_flow) /\ acyclic 4 4 ex_no_data (by_cell meet_flow) /\ (forall x, inside 4 4 x -> by_cell meet_material x <> B754_infinity false) /\
  raster_of [4; 4] [2; 2] meet_flow_array meet_flow /\ raster_of [4; 4] [2; 2] meet_material_array meet_material /\ 3 - 1024 - 53 <= -53.
Proof. split; [apply meet_network|]. split; [apply meet_network|]. split; [intros; apply meet_finite|]. split; [apply arrays_ok|]. split; [apply arrays_ok|lia]. Qed.
(** Its results, for two orders of tasks *)
Example C61_ex_results :
  observe (fun l => l) = Some (true, Some [[sf_0; sf_0; sf_0; sf_one]; [sf_0; sf_0; sf_small; sf_0]; [sf_0; sf_small; sf_0; sf_0]; [sf_more; sf_0; sf_0; sf_0]]) /\
  observe messages_reversed = Some (true, Some [[sf_0; sf_0; sf_0; sf_one]; [sf_0; sf_0; sf_small; sf_0]; [sf_0; sf_small; sf_0; sf_0]; [sf_one; sf_0; sf_0; sf_0]]).
Proof. split; [exact observe_1|exact observe_2]. Qed.

(** C61, false: the result of accu is the same for all orders in which tasks do their work.  Double precision, 4 x 4 cells, 2 x 2 partitions, one
    array: two ways to complete the routing that result in different amounts in a cell. *)
Theorem C61_reproducible_refuted :
  exists (f : list Z -> Z) (m : list Z -> b64) flow_direction material st0 steps1 st1 out1 g1 steps2 st2 out2 g2,
  valid_network 4 4 ex_no_data (by_cell f) /\ acyclic 4 4 ex_no_data (by_cell f) /\ (forall x, inside 4 4 x -> f_usable (by_cell m x)) /\
  raster_of [4; 4] [2; 2] flow_direction f /\ raster_of [4; 4] [2; 2] material m /\
  router_start accu_64 ex_no_data flow_direction material = Ok st0 /\
  (run accu_64 ex_no_data 2 2 st0 steps1 st1 /\ finished 2 2 st1 = true /\ router_results flow_direction st1 = Ok out1 /\ raster_of [4; 4] [2; 2] out1 g1) /\
  (run accu_64 ex_no_data 2 2 st0 steps2 st2 /\ finished 2 2 st2 = true /\ router_results flow_direction st2 = Ok out2 /\ raster_of [4; 4] [2; 2] out2 g2) /\
  B2R (g1 [2; 2]) <> B2R (g2 [2; 2]).
Proof. exact not_reproducible. Qed.
Print Assumptions C61_reproducible_refuted.
