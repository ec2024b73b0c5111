(** Property theorems: routing water with the kinematic wave. *)
From Coq Require Import Reals Lra.
From Verif Require Import Common CoreSpec DecompSpec ArraySpec DecompModel ArrayModel ArrayRep RasterCheck FlowSpec AccuSpec FlowModel RouterModel RouterSpec FlowCheck
  KinematicModel KinematicSpec KinematicSolver KinematicProofs KinematicProofs2 KinematicProofs3.
Local Open Scope R_scope.

(** C67: the problem handed to the root finder is well-posed, for all amounts of water and positive parameters.  The guess is positive; the
    functions given are a function and its derivative; there is one solution, it is the solution of the kinematic wave equation, and it is between the
    discharge at the start and what enters the cell. *)
Theorem C67_one_solution :
  forall min_discharge up old lateral alpha beta dt dx, 0 < min_discharge ->
  0 <= up -> 0 <= old -> 0 <= lateral -> 0 < alpha -> 0 < beta -> 0 < dt -> 0 < dx -> 0 < up + old + lateral ->
  exists w, make_wave up old lateral alpha beta dt dx = Ok w /\ (exists g, guess min_discharge w = Ok g /\ 0 < g) /\
    (exists F F', forall q, 0 < q -> fq w q = Ok (F q) /\ dfq w q = Ok (F' q) /\ derivable_pt_lim F q (F' q) /\ 0 < F' q) /\
    exists q, 0 < q /\ fq w q = Ok 0 /\ wave_equation up old lateral alpha beta dt dx q /\ Rmin old (up + dx * lateral) <= q <= Rmax old (up + dx * lateral) /\
      forall q', 0 <= q' -> wave_equation up old lateral alpha beta dt dx q' -> q' = q.
Proof. exact equation_ok. Qed.
Print Assumptions C67_one_solution.
(** beta = 3/5: the case in which the guess needs the power of zero *)
Example C67_one_solution_ex : exists w, make_wave 0 0 1 2 (3 / 5) 15 10 = Ok w /\ exists q, fq w q = Ok 0 /\ 0 < q <= 10.
Proof.
  destruct (C67_one_solution 1 0 0 1 2 (3 / 5) 15 10) as [w [MW [_ [_ [q [Hq [E [_ [[_ B] _]]]]]]]]]; try lra.
  exists w. split; [exact MW|]. exists q. split; [exact E|]. split; [exact Hq|]. rewrite Rmax_right in B by lra. lra.
Qed.

(** C67: more water, from upstream, at the start or from the side, does not result in a smaller discharge *)
Theorem C67_monotone :
  forall up up' old old' lateral lateral' alpha beta dt dx q q', 0 < alpha -> 0 < beta -> 0 < dt -> 0 < dx -> 0 <= old -> 0 <= q -> 0 <= q' ->
  up <= up' -> old <= old' -> lateral <= lateral' -> wave_equation up old lateral alpha beta dt dx q -> wave_equation up' old' lateral' alpha beta dt dx q' -> q <= q'.
Proof. exact equation_monotone. Qed.
Print Assumptions C67_monotone.
Example C67_monotone_ex : wave_equation 1 1 0 1 1 1 1 1 /\ wave_equation 3 1 0 1 1 1 1 2.
Proof. unfold wave_equation. rewrite !power_pos by lra. rewrite !Rpower_1 by lra. split; lra. Qed.

(** C67: the new discharge of a cell, also if water is extracted (negative inflow): what is available of what is asked is taken. *)
Theorem C67_extraction_partial :
  forall min_discharge eps solve, 0 < min_discharge -> 0 <= eps <= 1 -> solves eps solve ->
  forall up old lateral alpha beta dt dx, 0 <= up -> 0 <= old -> 0 < alpha -> 0 < beta -> 0 < dt -> 0 < dx ->
  exists q exact, iterate_to_new_discharge min_discharge solve up old lateral alpha beta dt dx = Ok (Rmax 0 (q - dx * Rmax 0 (- lateral))) /\
    0 <= q /\ 0 <= exact /\ within eps q exact /\ wave_equation up old (Rmax 0 lateral) alpha beta dt dx exact.
Proof. exact iterate_ok. Qed.
Print Assumptions C67_extraction_partial.

(** C67, for partitions with at least two rows and columns and positive parameters, real arithmetic and a root finder that finds the solution up to a relative error
    [eps]: whatever the partitioning and the order in which tasks do their work, the result is the same, and in each cell it is the solution of the
    equation for what the cells upstream of it discharge, up to the error, or no-data. *)
Theorem C67_kinematic_wave_partial :
  forall min_discharge eps solve, 0 < min_discharge -> 0 <= eps <= 1 -> solves eps solve ->
  forall a0 a1 (nd : Z -> bool) (f : list Z -> Z) (k : list Z -> cell_args),
  valid_network a0 a1 nd (by_cell f) -> acyclic a0 a1 nd (by_cell f) ->
  let current x := ka_current (by_cell k x) in let inflow x := ka_inflow (by_cell k x) in let alpha x := ka_alpha (by_cell k x) in
  let beta x := ka_beta (by_cell k x) in let dt x := ka_duration (by_cell k x) in let dx x := ka_length (by_cell k x) in
  (forall x, inside a0 a1 x -> positive_parameters alpha beta dt x) ->
  exists g, kinematic_spec a0 a1 nd (by_cell f) current inflow alpha beta dt dx eps (by_cell g) /\
    forall p0 p1 flow_direction args, (2 <= p0)%Z -> (2 <= p1)%Z -> raster_of [a0; a1] [p0; p1] flow_direction f -> raster_of [a0; a1] [p0; p1] args k ->
      routes_to (kinematic min_discharge solve value_domain) nd a0 a1 p0 p1 flow_direction args g.
Proof.
  intros m eps solve Hm He HS a0 a1 nd f k V AC current inflow alpha beta dt dx HP. exists (g m solve a0 a1 nd f k). split.
  - now apply g_spec.
  - intros. now apply (kinematic_routes m eps solve).
Qed.
Print Assumptions C67_kinematic_wave_partial.

(** C67, idem: if the root finder finds the solution and all arguments are usable, no water gets lost: what is in the channels at the end and what has left the network is what was in the
    channels at the start and what was added. *)
Theorem C67_balance_partial :
  forall a0 a1 (nd : Z -> bool) (f : cell -> Z) (current inflow alpha beta dt dx g : cell -> option R), valid_network a0 a1 nd f -> acyclic a0 a1 nd f ->
  (forall x, in_network a0 a1 nd f x -> cell_usable current inflow alpha beta dt dx x) ->
  forall t C O, kinematic_spec a0 a1 nd f current inflow alpha beta dt dx 0 g -> (forall x, in_network a0 a1 nd f x -> dt x = Some t) ->
  lists (in_network a0 a1 nd f) C -> lists (outlet a0 a1 nd f) O ->
  rsum (fun x => volume alpha beta dx x (rvalue (g x))) C + t * rsum (fun x => rvalue (g x)) O =
  rsum (fun x => volume alpha beta dx x (rvalue (current x))) C + rsum (added inflow dt dx) C.
Proof. exact balance_ok. Qed.
Print Assumptions C67_balance_partial.

(** The hypotheses, for a network of 4 x 6 cells, and a root finder that finds the solution *)
Example C67_ex :
  solves 0 exact_solve /\ valid_network 4 6 ex_no_data (by_cell ex_flow) /\ acyclic 4 6 ex_no_data (by_cell ex_flow) /\
  (forall x, args_positive (ex_args x)) /\ (forall x, inside 4 6 x -> args_usable (by_cell ex_args x)) /\
  raster_of [4; 6]%Z [2; 3]%Z (raster_array [4; 6] [2; 3] ex_flow)%Z ex_flow /\ raster_of [4; 6]%Z [2; 3]%Z (raster_array [4; 6] [2; 3] ex_args)%Z ex_args.
Proof.
  split; [exact exact_solves|]. split; [apply ex_network|]. split; [apply ex_network|]. split; [exact ex_args_positive|]. split; [exact ex_args_usable|].
  split; apply raster_array_ok; try discriminate; repeat constructor; cbn; lia.
Qed.
(** ... so there is a result in which water is conserved *)
Example C67_balance_ex :
  exists g, kinematic_spec 4 6 ex_no_data (by_cell ex_flow) (fun x => ka_current (by_cell ex_args x)) (fun x => ka_inflow (by_cell ex_args x)) (fun x => ka_alpha (by_cell ex_args x))
    (fun x => ka_beta (by_cell ex_args x)) (fun x => ka_duration (by_cell ex_args x)) (fun x => ka_length (by_cell ex_args x)) 0 (by_cell g).
Proof.
  destruct (C67_kinematic_wave_partial 1 0 exact_solve ltac:(lra) ltac:(lra) exact_solves 4 6 ex_no_data ex_flow ex_args (proj1 ex_network) (proj2 ex_network)) as [g [S _]]; [intros x _; apply ex_args_positive|].
  exists g. exact S.
Qed.

(** C67, false: values that kinematic_wave cannot handle result in no-data.  All arguments are within the domain of the operation ("what about domain of alpha
    and beta? time step duration?"), one of them, alpha, is zero, and an assertion fails. *)
Theorem C67_domain_refuted :
  exists (f : list Z -> Z) (a : cell_args), valid_network 2 2 ex_no_data (by_cell f) /\ acyclic 2 2 ex_no_data (by_cell f) /\
  usable_args (ka_current a) (ka_inflow a) (ka_alpha a) (ka_beta a) (ka_duration a) (ka_length a) /\
  forall min_discharge solve, exists flow_direction args st0 l,
  raster_of [2; 2]%Z [2; 2]%Z flow_direction f /\ raster_of [2; 2]%Z [2; 2]%Z args (fun _ => a) /\
  router_start (kinematic min_discharge solve value_domain) ex_no_data flow_direction args = Ok st0 /\
  step (kinematic min_discharge solve value_domain) ex_no_data 1 1 l st0 = Some UB.
Proof.
  exists pits, zero_alpha. split; [apply pits_network|]. split; [apply pits_network|]. split.
  - exists 1, 0, 0, 1, 1, 1. repeat (split; [reflexivity|]). lra.
  - intros m solve. destruct (fails_at_once (kinematic m solve value_domain) zero_alpha (zero_alpha_fails m solve)) as [st0 [S0 [l E]]].
    exists (raster_array [2; 2] [2; 2] pits)%Z, (raster_array [2; 2] [2; 2] (fun _ => zero_alpha))%Z, st0, l.
    split; [apply raster_array_ok; [discriminate|repeat constructor; cbn; lia]|]. split; [apply raster_array_ok; [discriminate|repeat constructor; cbn; lia]|]. split; assumption.
Qed.
Print Assumptions C67_domain_refuted.

(** C67, false: water can be extracted from cells with a negative inflow (definition/kinematic_wave.hpp:162-173).  With the default policies, an assertion fails in the first cell; with the value policies negative
    inflow is outside of the domain. *)
Theorem C67_extraction_refuted :
  exists a : cell_args, ka_inflow a = Some (-1) /\ positive_parameters (fun _ => ka_alpha a) (fun _ => ka_beta a) (fun _ => ka_duration a) (0, 0)%Z /\
  forall min_discharge solve, ac_enter_cell (kinematic min_discharge solve any_domain) a (Some 0) = UB /\ ac_enter_cell (kinematic min_discharge solve value_domain) a (Some 0) = Ok None.
Proof.
  exists (CellArgs (Some 1) (Some (-1)) (Some 1) (Some 1) (Some 1) (Some 1)). split; [reflexivity|]. split; [repeat split; intros v E; injection E as <-; lra|]. intros m solve. split.
  - apply negative_inflow_fails.
  - apply enter_unusable. intros [old [lat [al [be [t [l [E1 [E2 [E3 [E4 [E5 [E6 [Ho [Hl Hx]]]]]]]]]]]]]]. cbn in E2. injection E2 as <-. lra.
Qed.
Print Assumptions C67_extraction_refuted.
