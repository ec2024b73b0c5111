(** accu_info: a network of which the class of a cell depends on the order in which messages are received. *)
From Verif Require Import Common CommonProofs CoreSpec DecompSpec ArraySpec IndexModel DecompModel ArrayModel ArrayRep RasterCheck GridModel FlowSpec AccuSpec FlowModel RouterModel
  FlowCheck AccuCheck StreamProofs AccuInfoModel AccuInfoSpec AccuInfoProofs AccuInfoProofs2 AccuInfoProofs3.

(** Do steps until there are none left; [pick]: the order in which labels are tried *)
Fixpoint info_some (nd : Z -> bool) (n0 n1 : Z) (fuel : nat) (pick : list label -> list label) (st : info_state) : outcome (list label * info_state) :=
  match fuel with
  | O => UB
  | S fuel' =>
      match find (fun l => match info_step nd n0 n1 l st with Some _ => true | None => false end) (pick (all_labels n0 n1)) with
      | None => Ok ([], st)
      | Some l => match info_step nd n0 n1 l st with
                  | Some (Ok st') => obind (info_some nd n0 n1 fuel' pick st') (fun '(ls, st'') => Ok (l :: ls, st''))
                  | _ => UB
                  end
      end
  end.
Lemma info_some_run nd n0 n1 pick n : forall st ls st', info_some nd n0 n1 n pick st = Ok (ls, st') -> info_run nd n0 n1 st ls st'.
Proof.
  induction n as [|n IH]; intros st ls st' H; [discriminate H|]. cbn [info_some] in H. destruct (find _ _) as [l|] eqn:F.
  - destruct (info_step nd n0 n1 l st) as [[st1| |]|] eqn:S1; try discriminate H.
    destruct (info_some nd n0 n1 n pick st1) as [[ls1 st2]| |] eqn:R; try discriminate H. cbn [obind] in H. injection H as <- <-. econstructor; [exact S1|]. now apply IH.
  - injection H as <- <-. constructor.
Qed.

Definition messages_last_first (l : list label) : list label :=
  filter (fun x => match x with Intra _ _ => true | _ => false end) l ++ rev (filter (fun x => match x with Intra _ _ => false | _ => true end) l).
Definition no_units (x : list Z) : unit := tt.

(** The classes of the cells, by partition *)
Definition info_observe (nd : Z -> bool) (n0 n1 : Z) (flow : parray Z) (units : parray unit) (pick : list label -> list label) : option (bool * option (list (list Z))) :=
  match info_start nd flow units with
  | Ok st0 => match info_some nd n0 n1 1000 pick st0 with
              | Ok (_, st) => Some (info_finished n0 n1 st, match info_results flow st with Ok out => Some (map (fun q => pl_data q) (pa_parts out)) | _ => None end)
              | _ => None
              end
  | _ => None
  end.
Lemma info_observed nd n0 n1 flow units pick l : info_observe nd n0 n1 flow units pick = Some (true, Some l) ->
  exists st0 steps st out, info_start nd flow units = Ok st0 /\ info_run nd n0 n1 st0 steps st /\ info_finished n0 n1 st = true /\
    info_results flow st = Ok out /\ map (fun q => pl_data q) (pa_parts out) = l.
Proof.
  unfold info_observe. destruct (info_start _ _ _) as [st0| |] eqn:E0; try discriminate. destruct (info_some _ _ _ _ _ _) as [[steps st]| |] eqn:E1; try discriminate.
  destruct (info_results _ _) as [out| |] eqn:E2; try discriminate. intros E. injection E as E3 E4. exists st0, steps, st, out. split; [reflexivity|]. split; [exact (info_some_run _ _ _ _ _ _ _ _ E1)|]. auto.
Qed.

(** Cell (3, 2) receives water of the partition in the west, and water of the partition in the north by way of cell (2, 2). *)
Definition both_flow (x : list Z) : Z :=
  nth (Z.to_nat (nth 0 x 0 * 4 + nth 1 x 0)) [5; 5; 5; 5;  5; 5; 2; 5;  5; 5; 2; 5;  5; 6; 6; 5] 0.
Lemma both_network : valid_network 4 4 ex_no_data (by_cell both_flow) /\ acyclic 4 4 ex_no_data (by_cell both_flow).
Proof. apply (network_check_ok 4 4 ex_no_data _ (fun x => - (fst x + snd x))). vm_compute. reflexivity. Qed.
Definition both_array : parray Z := raster_array [4; 4] [2; 2] both_flow.
Definition both_units : parray unit := raster_array [4; 4] [2; 2] no_units.
Lemma both_rasters : raster_of [4; 4] [2; 2] both_array both_flow /\ raster_of [4; 4] [2; 2] both_units no_units.
Proof. split; (apply raster_array_ok; [discriminate|repeat constructor; cbn; lia]). Qed.
Lemma both_1 : info_observe ex_no_data 2 2 both_array both_units (fun l => l) =
  Some (true, Some [[11; 11; 11; 11]; [11; 11; 11; 11]; [11; 11; 11; 11]; [14; 11; 14; 17]]).
Proof. vm_compute. reflexivity. Qed.
Lemma both_2 : info_observe ex_no_data 2 2 both_array both_units messages_last_first =
  Some (true, Some [[11; 11; 11; 11]; [11; 11; 11; 11]; [11; 11; 11; 11]; [14; 11; 16; 17]]).
Proof. vm_compute. reflexivity. Qed.

Lemma both_value pick l : info_observe ex_no_data 2 2 both_array both_units pick = Some (true, Some l) -> forall a0 a1 a2 b0 b1 b2 b3, l = [a0; a1; a2; [b0; b1; b2; b3]] ->
  exists st0 steps st out g, info_start ex_no_data both_array both_units = Ok st0 /\ info_run ex_no_data 2 2 st0 steps st /\ info_finished 2 2 st = true /\
    info_results both_array st = Ok out /\ raster_of [4; 4] [2; 2] out g /\ by_cell g (3, 2) = b2.
Proof.
  intros HO a0 a1 a2 b0 b1 b2 b3 El. destruct (info_observed _ _ _ _ _ pick l HO) as [st0 [steps [st [out [E0 [HR [F [E2 E3]]]]]]]].
  destruct (info_ok 4 4 2 2 ex_no_data (by_cell both_flow) ltac:(lia) ltac:(lia) (proj1 both_network) (proj2 both_network) both_array both_flow (proj1 both_rasters) eq_refl both_units no_units (proj2 both_rasters)) as [st0' [E0' R]].
  assert (st0' = st0) by congruence. subst st0'. destruct (R steps st HR) as [_ [_ [_ D]]]. destruct (D F) as [out' [g [O1 [O2 _]]]]. assert (out' = out) by congruence. subst out'.
  exists st0, steps, st, out, g. split; [exact E0|]. split; [exact HR|]. split; [exact F|]. split; [exact E2|]. split; [exact O2|].
  pose proof (raster_listed _ _ _ _ O2) as RL. apply (f_equal (map (fun x => snd x))) in RL. rewrite map_map in RL. cbn [snd] in RL. rewrite E3, El in RL.
  replace (map (fun x => snd x) (listed_parts [4; 4] [2; 2] g)) with (map (map g) [[[0;0];[0;1];[1;0];[1;1]]; [[0;2];[0;3];[1;2];[1;3]]; [[2;0];[2;1];[3;0];[3;1]]; [[2;2];[2;3];[3;2];[3;3]]]) in RL by reflexivity.
  cbn [map] in RL. unfold by_cell. cbn [fst snd]. congruence.
Qed.

Lemma depends_on_order :
  exists (f : list Z -> Z) flow units st0 steps1 st1 out1 g1 steps2 st2 out2 g2,
  valid_network 4 4 ex_no_data (by_cell f) /\ acyclic 4 4 ex_no_data (by_cell f) /\
  raster_of [4; 4] [2; 2] flow f /\ raster_of [4; 4] [2; 2] units no_units /\
  info_start ex_no_data flow units = Ok st0 /\
  (info_run ex_no_data 2 2 st0 steps1 st1 /\ info_finished 2 2 st1 = true /\ info_results flow st1 = Ok out1 /\ raster_of [4; 4] [2; 2] out1 g1) /\
  (info_run ex_no_data 2 2 st0 steps2 st2 /\ info_finished 2 2 st2 = true /\ info_results flow st2 = Ok out2 /\ raster_of [4; 4] [2; 2] out2 g2) /\
  by_cell g1 (3, 2) = partition_input_cell /\ by_cell g2 (3, 2) = inter_partition_stream_cell.
Proof.
  destruct (both_value _ _ both_1 _ _ _ _ _ _ _ eq_refl) as [st0 [steps1 [st1 [out1 [g1 [A1 [A2 [A3 [A4 [A5 A6]]]]]]]]]].
  destruct (both_value _ _ both_2 _ _ _ _ _ _ _ eq_refl) as [st0' [steps2 [st2 [out2 [g2 [B1 [B2 [B3 [B4 [B5 B6]]]]]]]]]].
  assert (st0' = st0) by congruence. subst st0'.
  exists both_flow, both_array, both_units, st0, steps1, st1, out1, g1, steps2, st2, out2, g2.
  split; [apply both_network|]. split; [apply both_network|]. split; [apply both_rasters|]. split; [apply both_rasters|]. split; [exact A1|]. auto 10.
Qed.
