(** Two orders of tasks with different results in double precision *)
From Coq Require Import Reals Lra Floats.SpecFloat.
From Flocq Require Import Core.
From Flocq Require Import IEEE754.BinarySingleNaN.
From Verif Require Import Common CommonProofs CoreSpec DecompSpec ArraySpec DecompModel ArrayModel ArrayRep RasterCheck StreamProofs FlowSpec AccuSpec FlowModel RouterModel RouterSpec
  FlowCheck AccuCheck AccuProofs4 AccuFloatModel AccuFloatSpec AccuFloatProofs AccuFloatProofs2 Float64.
Local Open Scope Z_scope.

Notation accu_64 := (accu_f 53 1024 b64_prec_gt_0 b64_prec_lt_emax).
(** Three cells, each in another partition, drain into (2, 2); all other cells are sinks. *)
Definition meet_flow (x : list Z) : Z :=
  nth (Z.to_nat (nth 0 x 0 * 4 + nth 1 x 0)) [5; 5; 5; 5;  5; 3; 2; 5;  5; 6; 5; 5;  5; 5; 5; 5] 5.
Definition meet_material (x : list Z) : b64 :=
  let small := binary_normalize 53 1024 b64_prec_gt_0 b64_prec_lt_emax mode_NE 1 (-53) false in
  let c := nth 0 x 0 * 4 + nth 1 x 0 in
  if c =? 5 then b64_of_Z 1 else if (c =? 6) || (c =? 9) then small else B754_zero false.
Lemma meet_network : valid_network 4 4 ex_no_data (by_cell meet_flow) /\ acyclic 4 4 ex_no_data (by_cell meet_flow).
Proof. apply (network_check_ok 4 4 ex_no_data _ (fun x => - (fst x + snd x))). vm_compute. reflexivity. Qed.
Definition meet_flow_array := raster_array [4; 4] [2; 2] meet_flow.
Definition meet_material_array := raster_array [4; 4] [2; 2] meet_material.

Definition observe (pick : list label -> list label) : option (bool * option (list (list spec_float))) :=
  match router_start accu_64 ex_no_data meet_flow_array meet_material_array with
  | Ok st0 => match run_some accu_64 ex_no_data 2 2 100 pick st0 with
              | Ok (_, st) => Some (finished 2 2 st, match router_results meet_flow_array st with Ok out => Some (map (fun q => map B2SF (pl_data q)) (pa_parts out)) | _ => None end)
              | _ => None
              end
  | _ => None
  end.
Definition sf_one : spec_float := S754_finite false (2 ^ 52) (-52).
Definition sf_more : spec_float := S754_finite false (2 ^ 52 + 1) (-52).
Definition sf_small : spec_float := S754_finite false (2 ^ 52) (-105).
Definition sf_0 : spec_float := S754_zero false.
Lemma observe_1 : observe (fun l => l) = Some (true, Some [[sf_0; sf_0; sf_0; sf_one]; [sf_0; sf_0; sf_small; sf_0]; [sf_0; sf_small; sf_0; sf_0]; [sf_more; sf_0; sf_0; sf_0]]).
Proof. vm_compute. reflexivity. Qed.
Definition messages_reversed (l : list label) : list label :=
  filter (fun x => match x with Intra _ _ => true | _ => false end) l ++ rev (filter (fun x => match x with Intra _ _ => false | _ => true end) l).
Lemma observe_2 : observe messages_reversed = Some (true, Some [[sf_0; sf_0; sf_0; sf_one]; [sf_0; sf_0; sf_small; sf_0]; [sf_0; sf_small; sf_0; sf_0]; [sf_one; sf_0; sf_0; sf_0]]).
Proof. vm_compute. reflexivity. Qed.

Lemma observed pick l : observe pick = Some (true, Some l) ->
  exists st0 steps st out, router_start accu_64 ex_no_data meet_flow_array meet_material_array = Ok st0 /\ run accu_64 ex_no_data 2 2 st0 steps st /\ finished 2 2 st = true /\
    router_results meet_flow_array st = Ok out /\ map (fun q => map B2SF (pl_data q)) (pa_parts out) = l.
Proof.
  unfold observe. destruct (router_start _ _ _ _) as [st0| |] eqn:E0; try discriminate. destruct (run_some _ _ _ _ _ _ _) as [[steps st]| |] eqn:E1; try discriminate.
  destruct (router_results _ _) as [out| |] eqn:E2; try discriminate. intros E. injection E as E3 E4. exists st0, steps, st, out. split; [reflexivity|]. split; [exact (run_some_run _ _ _ _ _ _ _ _ _ E1)|]. auto.
Qed.
Lemma arrays_ok : raster_of [4; 4] [2; 2] meet_flow_array meet_flow /\ raster_of [4; 4] [2; 2] meet_material_array meet_material.
Proof. split; (apply raster_array_ok; [discriminate|repeat constructor; cbn; lia]). Qed.
Lemma meet_finite x : meet_material x <> B754_infinity false.
Proof.
  intros E. apply (f_equal B2SF) in E. unfold meet_material in E. cbv zeta in E.
  destruct (_ =? 5); [vm_compute in E; discriminate E|]. destruct (_ || _); [vm_compute in E; discriminate E|discriminate E].
Qed.
Lemma meet_value pick l : observe pick = Some (true, Some l) -> forall a0 a1 a2 a3 a4, l = [a0; a1; a2; a3 :: a4] ->
  exists st0 steps st out g, router_start accu_64 ex_no_data meet_flow_array meet_material_array = Ok st0 /\ run accu_64 ex_no_data 2 2 st0 steps st /\ finished 2 2 st = true /\
    router_results meet_flow_array st = Ok out /\ raster_of [4; 4] [2; 2] out g /\ B2SF (g [2; 2]) = a3.
Proof.
  intros HO a0 a1 a2 a3 a4 El. destruct (observed pick l HO) as [st0 [steps [st [out [E0 [HR [F [E2 E3]]]]]]]].
  destruct (rounding_ok (Hprec := b64_prec_gt_0) (Hemax := b64_prec_lt_emax) 4 4 ex_no_data meet_flow meet_material (proj1 meet_network) (proj2 meet_network) ltac:(intros x _; apply meet_finite) 2 2
    meet_flow_array meet_material_array ltac:(lia) ltac:(lia) (proj1 arrays_ok) (proj2 arrays_ok)) as [st0' [E0' R]].
  assert (st0' = st0) by congruence. subst st0'. destruct (R steps st HR) as [_ [_ [_ D]]]. destruct (D F) as [out' [g [O1 [O2 _]]]]. assert (out' = out) by congruence. subst out'.
  exists st0, steps, st, out, g. split; [exact E0|]. split; [exact HR|]. split; [exact F|]. split; [exact E2|]. split; [exact O2|].
  pose proof (raster_listed _ _ _ _ O2) as RL. apply (f_equal (map (fun x => map B2SF (snd x)))) in RL. rewrite map_map in RL. cbn [snd] in RL. rewrite E3, El in RL.
  replace (map (fun x => map B2SF (snd x)) (listed_parts [4; 4] [2; 2] g)) with (map (map (fun x => B2SF (g x))) [[[0;0];[0;1];[1;0];[1;1]]; [[0;2];[0;3];[1;2];[1;3]]; [[2;0];[2;1];[3;0];[3;1]]; [[2;2];[2;3];[3;2];[3;3]]]) in RL by reflexivity. cbn [map] in RL. injection RL as _ _ _ X _. symmetry. exact X.
Qed.
Lemma not_reproducible :
  exists (f : list Z -> Z) (m : list Z -> b64) flow_direction material st0 steps1 st1 out1 g1 steps2 st2 out2 g2,
  valid_network 4 4 ex_no_data (by_cell f) /\ acyclic 4 4 ex_no_data (by_cell f) /\ (forall x, inside 4 4 x -> f_usable (by_cell m x)) /\
  raster_of [4; 4] [2; 2] flow_direction f /\ raster_of [4; 4] [2; 2] material m /\
  router_start accu_64 ex_no_data flow_direction material = Ok st0 /\
  (run accu_64 ex_no_data 2 2 st0 steps1 st1 /\ finished 2 2 st1 = true /\ router_results flow_direction st1 = Ok out1 /\ raster_of [4; 4] [2; 2] out1 g1) /\
  (run accu_64 ex_no_data 2 2 st0 steps2 st2 /\ finished 2 2 st2 = true /\ router_results flow_direction st2 = Ok out2 /\ raster_of [4; 4] [2; 2] out2 g2) /\
  B2R (g1 [2; 2]) <> B2R (g2 [2; 2]).
Proof.
  destruct (meet_value _ _ observe_1 _ _ _ _ _ eq_refl) as [st0 [steps1 [st1 [out1 [g1 [A1 [A2 [A3 [A4 [A5 A6]]]]]]]]]].
  destruct (meet_value _ _ observe_2 _ _ _ _ _ eq_refl) as [st0' [steps2 [st2 [out2 [g2 [B1 [B2 [B3 [B4 [B5 B6]]]]]]]]]].
  assert (st0' = st0) by congruence. subst st0'.
  exists meet_flow, meet_material, meet_flow_array, meet_material_array, st0, steps1, st1, out1, g1, steps2, st2, out2, g2.
  split; [apply meet_network|]. split; [apply meet_network|]. split.
  { intros x _. unfold by_cell, meet_material. cbv zeta. destruct (_ =? 5); [|destruct (_ || _)].
    - split; [vm_compute; reflexivity|]. pose proof (ge0_finite (b64_of_Z 1) ltac:(vm_compute; reflexivity)) as G. apply G. vm_compute. reflexivity.
    - split; [vm_compute; reflexivity|]. pose proof (ge0_finite (binary_normalize 53 1024 b64_prec_gt_0 b64_prec_lt_emax mode_NE 1 (-53) false) ltac:(vm_compute; reflexivity)) as G. apply G. vm_compute. reflexivity.
    - split; [reflexivity|]. cbn [B2R]. lra. }
  split; [apply arrays_ok|]. split; [apply arrays_ok|]. split; [exact A1|]. split; [auto|]. split; [auto|].
  rewrite <- !SF2R_B2SF, A6, B6. unfold sf_more, sf_one, SF2R, F2R. cbn [Fnum Fexp cond_Zopp]. intros E. apply Rmult_eq_reg_r in E; [|apply Rgt_not_eq, bpow_gt_0]. apply eq_IZR in E. discriminate E.
Qed.
