(** The property theorems about routing. *)
From Coq Require Import QArith Qcanon.
From Verif Require Import Common CommonProofs CoreSpec DecompSpec ArraySpec IndexModel DecompModel ArrayModel ArrayRep RasterCheck GridModel FlowSpec AccuSpec FlowModel
  RouterModel RouterSpec AccuModel AccuProofs AccuProofs2 AccuProofs3 RouterProofs FlowCheck AccuCheck.

Lemma run_app {A X M} (ac : accumulator A X M) nd n0 n1 st s1 st1 s2 st2 :
  run ac nd n0 n1 st s1 st1 -> run ac nd n0 n1 st1 s2 st2 -> run ac nd n0 n1 st (s1 ++ s2) st2.
Proof. induction 1 as [|st l st' ls st'' S R IH]; intros H; [exact H|]. cbn [app]. econstructor; [exact S|]. now apply IH. Qed.

Lemma routing_finishes {A X M} (ac : accumulator A X M) nd a0 a1 p0 p1 flow args g :
  routes_to ac nd a0 a1 p0 p1 flow args g ->
  exists st0, router_start ac nd flow args = Ok st0 /\
    forall steps st, run ac nd (a0 / p0) (a1 / p1) st0 steps st ->
      exists steps' st', run ac nd (a0 / p0) (a1 / p1) st steps' st' /\ finished (a0 / p0) (a1 / p1) st' = true.
Proof.
  intros [st0 [E H]]. exists st0. split; [exact E|].
  assert (Q : forall n steps st, run ac nd (a0 / p0) (a1 / p1) st0 steps st -> (2 * Z.to_nat (a0 * a1) < length steps + n)%nat ->
    exists steps' st', run ac nd (a0 / p0) (a1 / p1) st steps' st' /\ finished (a0 / p0) (a1 / p1) st' = true).
  { induction n as [|n IH]; intros steps st R L.
    - destruct (H _ _ R) as [L' _]. exfalso. clear - L L'. lia.
    - destruct (finished (a0 / p0) (a1 / p1) st) eqn:F; [exists [], st; split; [constructor|exact F]|].
      destruct (H _ _ R) as [_ [_ [Pr _]]]. destruct (Pr F) as [l [st1 S1]].
      destruct (IH (steps ++ [l]) st1) as [steps' [st' [R' F']]].
      + eapply run_app; [exact R|]. econstructor; [exact S1|constructor].
      + rewrite app_length. cbn [length]. clear - L. lia.
      + exists (l :: steps'), st'. split; [|exact F']. econstructor; eassumption. }
  intros steps st R. apply (Q (S (2 * Z.to_nat (a0 * a1))) steps st R). clear. lia.
Qed.

Lemma run_some_run {A X M} (ac : accumulator A X M) nd n0 n1 pick n : forall st ls st', run_some ac nd n0 n1 n pick st = Ok (ls, st') -> run ac nd n0 n1 st ls st'.
Proof.
  induction n as [|n IH]; intros st ls st' H; [discriminate H|]. cbn [run_some] in H. destruct (find _ _) as [l|] eqn:F.
  - destruct (step ac nd n0 n1 l st) as [[st1| |]|] eqn:S1; try discriminate H.
    destruct (run_some ac nd n0 n1 n pick st1) as [[ls1 st2]| |] eqn:R; try discriminate H. cbn [obind] in H. injection H as <- <-. econstructor; [exact S1|]. now apply IH.
  - injection H as <- <-. constructor.
Qed.

Definition row_steps : list label := match router_start accu ex_no_data (raster_array [1; 3] [1; 3] row_flow) (raster_array [1; 3] [1; 3] ex_material) with
  | Ok st => match run_some accu ex_no_data 1 1 10 (fun l => l) st with Ok (ls, _) => ls | _ => [] end | _ => [] end.

Lemma c21_refuted : exists g st0 steps st out g',
  accu_spec 1 3 ex_no_data (by_cell row_flow) (by_cell ex_material) (by_cell g) /\ by_cell g (0, 1)%Z = Some (Q2Qc 3) /\
  router_start accu ex_no_data (raster_array [1; 3] [1; 3] row_flow) (raster_array [1; 3] [1; 3] ex_material) = Ok st0 /\
  run accu ex_no_data 1 1 st0 steps st /\ finished 1 1 st = true /\
  router_results (raster_array [1; 3] [1; 3] row_flow) st = Ok out /\ raster_of [1; 3] [1; 3] out g' /\ by_cell g' (0, 1)%Z = Some (Q2Qc 1).
Proof.
  destruct (row_network : valid_network 1 3 ex_no_data (by_cell row_flow) /\ acyclic 1 3 ex_no_data (by_cell row_flow)) as [V AC].
  destruct (accu_ok 1 3 ex_no_data row_flow ex_material V AC) as [g [S _]]. exists g.
  destruct (router_start accu ex_no_data (raster_array [1; 3] [1; 3] row_flow) (raster_array [1; 3] [1; 3] ex_material)) as [st0| |] eqn:E0.
  2,3: exfalso; vm_compute in E0; discriminate E0.
  exists st0. assert (E1 : exists ls st, run_some accu ex_no_data 1 1 10 (fun l => l) st0 = Ok (ls, st) /\ finished 1 1 st = true /\
    match router_results (raster_array [1; 3] [1; 3] row_flow) st with Ok out => pa_shape out = [1; 3]%Z /\ pa_sip out = [1; 1]%Z /\ map (fun q => (pl_offset q, pl_shape q, pl_data q)) (pa_parts out) = [([0; 0]%Z, [1; 3]%Z, [Some (Q2Qc 1); Some (Q2Qc 1); Some (Q2Qc 0)])] | _ => False end).
  { vm_compute in E0. injection E0 as <-. eexists. eexists. split; [vm_compute; reflexivity|]. split; [vm_compute; reflexivity|]. vm_compute. repeat split; reflexivity. }
  destruct E1 as [ls [st [E1 [E2 E3]]]]. exists ls, st. destruct (router_results _ st) as [out| |] eqn:E4; try contradiction E3.
  exists out. exists (fun x => nth (Z.to_nat (nth 1 x 0%Z)) [Some (Q2Qc 1); Some (Q2Qc 1); Some (Q2Qc 0)] None).
  split; [exact S|]. split.
  - assert (HU : forall x, in_network 1 3 ex_no_data (by_cell row_flow) x -> usable (by_cell ex_material x)).
    { intros [r c] [[_ Hc] _]. cbn [fst snd] in Hc. eexists. split; [reflexivity|]. cbn [snd fst nth]. assert (c = 0 \/ c = 1 \/ c = 2)%Z as [->|[->| ->]] by lia; vm_compute; discriminate. }
    pose proof (accu_spec_recurrence _ _ _ _ _ _ V AC S HU) as RC.
    assert (N0 : in_network 1 3 ex_no_data (by_cell row_flow) (0, 0)%Z) by (split; [split; cbn; lia|reflexivity]).
    assert (N1 : in_network 1 3 ex_no_data (by_cell row_flow) (0, 1)%Z) by (split; [split; cbn; lia|reflexivity]).
    pose proof (RC _ N1) as R1. pose proof (RC _ N0) as R0.
    change (upstream 1 3 ex_no_data (by_cell row_flow) (0, 1)%Z) with (@cons cell (0, 0)%Z nil) in R1. change (upstream 1 3 ex_no_data (by_cell row_flow) (0, 0)%Z) with (@nil cell) in R0.
    rewrite sum_cons, R0 in R1. destruct S as [_ S]. destruct (S _ N1) as [L [HL [H1 _]]].
    rewrite H1 in R1 |- * by (intros y Hy; apply HU; apply HL in Hy; now apply path_start in Hy). f_equal. cbn [amount] in R1. rewrite R1. vm_compute. reflexivity.
  - split; [reflexivity|]. split; [now apply run_some_run in E1|]. split; [exact E2|]. split; [reflexivity|]. split; [|reflexivity].
    destruct E3 as [E5 [E6 E7]]. apply raster_of_listed; [discriminate|repeat constructor; cbn; lia|exact E5|exact E6|]. rewrite E7. reflexivity.
Qed.

Lemma c22 a0 a1 nd f m : valid_network a0 a1 nd (by_cell f) -> acyclic a0 a1 nd (by_cell f) ->
  (forall x, in_network a0 a1 nd (by_cell f) x -> usable (by_cell m x)) ->
  exists g, (forall p0 p1 flow args, (2 <= p0)%Z -> (2 <= p1)%Z -> raster_of [a0; a1] [p0; p1] flow f -> raster_of [a0; a1] [p0; p1] args m ->
      routes_to accu nd a0 a1 p0 p1 flow args g) /\
    (exists C O, lists (in_network a0 a1 nd (by_cell f)) C /\ lists (outlet a0 a1 nd (by_cell f)) O) /\
    forall C O, lists (in_network a0 a1 nd (by_cell f)) C -> lists (outlet a0 a1 nd (by_cell f)) O ->
      sum_of (fun x => amount (by_cell g x)) O = sum_of (fun x => amount (by_cell m x)) C.
Proof.
  intros V AC HU. destruct (accu_ok a0 a1 nd f m V AC) as [g [S R]]. exists g. split; [exact R|]. split.
  - destruct (network_listed a0 a1 nd (by_cell f)) as [C HC]. destruct (outlets_listed a0 a1 nd (by_cell f)) as [O' HO]. eauto.
  - intros C O' HC HO. exact (conservation a0 a1 nd _ _ _ C O' V AC S HU HC HO).
Qed.

(** The accumulators that split *)
Lemma c23 domain (domainP : Qc -> Prop) split_ (rule : Qc -> Qc -> Qc -> Qc -> Prop) a0 a1 nd f (m : list Z -> option Qc * option Qc) :
  (forall q, domain q = true <-> domainP q) ->
  (forall t p, (Q2Qc 0 <= t)%Qc -> domain p = true -> (Q2Qc 0 <= fst (split_ t p))%Qc) ->
  (forall t p, rule t p (fst (split_ t p)) (snd (split_ t p))) ->
  (forall t p o s, rule t p o s -> (o + s = t)%Qc) ->
  valid_network a0 a1 nd (by_cell f) -> acyclic a0 a1 nd (by_cell f) ->
  exists g : list Z -> option Qc * option Qc,
    (forall p0 p1 flow args, (2 <= p0)%Z -> (2 <= p1)%Z -> raster_of [a0; a1] [p0; p1] flow f -> raster_of [a0; a1] [p0; p1] args m ->
      routes_to (split_accumulator domain split_) nd a0 a1 p0 p1 flow args g) /\
    split_spec a0 a1 nd (by_cell f) domainP rule (fun x => fst (by_cell m x)) (fun x => snd (by_cell m x)) (fun x => fst (by_cell g x)) (fun x => snd (by_cell g x)) /\
    ((forall x, in_network a0 a1 nd (by_cell f) x -> usable (fst (by_cell m x)) /\ exists q, snd (by_cell m x) = Some q /\ domainP q) ->
     forall C O, lists (in_network a0 a1 nd (by_cell f)) C -> lists (outlet a0 a1 nd (by_cell f)) O ->
      (sum_of (fun x => amount (fst (by_cell g x))) O + sum_of (fun x => amount (snd (by_cell g x))) C = sum_of (fun x => amount (fst (by_cell m x))) C)%Qc).
Proof.
  intros HD HS HR HB V AC. destruct (split_ok domain domainP split_ rule a0 a1 nd f m HD HS HR V AC) as [g [S R]]. exists g. split; [exact R|]. split; [exact S|].
  intros HU C O' HC HO. exact (split_conservation a0 a1 nd _ _ rule _ _ _ _ C O' V AC HB S HU HC HO).
Qed.
Lemma c23_threshold : forall a0 a1 nd f (m : list Z -> option Qc * option Qc), valid_network a0 a1 nd (by_cell f) -> acyclic a0 a1 nd (by_cell f) ->
  splits_into accu_threshold (fun threshold => Q2Qc 0 <= threshold)%Qc over_threshold a0 a1 nd f m.
Proof. intros. apply c23; try assumption; [apply qc_le_spec|apply threshold_nonneg|apply threshold_rule|now intros ? ? ? ? [? _]]. Qed.
Lemma c23_capacity : forall a0 a1 nd f (m : list Z -> option Qc * option Qc), valid_network a0 a1 nd (by_cell f) -> acyclic a0 a1 nd (by_cell f) ->
  splits_into accu_capacity (fun capacity => Q2Qc 0 <= capacity)%Qc up_to_capacity a0 a1 nd f m.
Proof. intros. apply c23; try assumption; [apply qc_le_spec|apply capacity_nonneg|apply capacity_rule|now intros ? ? ? ? [? _]]. Qed.
Lemma c23_fraction : forall a0 a1 nd f (m : list Z -> option Qc * option Qc), valid_network a0 a1 nd (by_cell f) -> acyclic a0 a1 nd (by_cell f) ->
  splits_into accu_fraction (fun fraction => Q2Qc 0 <= fraction /\ fraction <= Q2Qc 1)%Qc by_fraction a0 a1 nd f m.
Proof. intros. apply c23; try assumption; [intros q; rewrite andb_true_iff, !qc_le_spec; tauto|apply fraction_nonneg|apply fraction_rule|now intros ? ? ? ? [? _]]. Qed.
Lemma c23_trigger : forall a0 a1 nd f (m : list Z -> option Qc * option Qc), valid_network a0 a1 nd (by_cell f) -> acyclic a0 a1 nd (by_cell f) ->
  splits_into accu_trigger (fun trigger => Q2Qc 0 <= trigger)%Qc all_or_nothing a0 a1 nd f m.
Proof. intros. apply c23; try assumption; [apply qc_le_spec|apply trigger_nonneg|apply trigger_rule|now intros ? ? ? ? [? _]]. Qed.
