(** accu_info: the start, the result, and a network of which the classes depend on the order of the tasks. *)
From Verif Require Import Common CommonProofs CoreSpec DecompSpec ArraySpec IndexModel DecompModel ArrayModel ArrayRep ArrayProofs RasterCheck GridModel GridProofs GridRaster FlowSpec AccuSpec FlowModel RouterModel
  FlowProofs FlowProofs2 FlowProofs3 FlowProofs4 RouterProofs RouterProofs2 RouterProofs3 RouterProofs4 RouterProofs5 AccuInfoModel AccuInfoSpec AccuInfoProofs AccuInfoProofs2.

Section Result.
Context (a0 a1 p0 p1 : Z) (nd : Z -> bool) (f : cell -> Z).
Context (P0 : 2 <= p0 <= a0) (P1 : 2 <= p1 <= a1).
Context (V : valid_network a0 a1 nd f) (AC : acyclic a0 a1 nd f).
Context (flow : parray Z) (fl : list Z -> Z) (HR : raster_of [a0; a1] [p0; p1] flow fl) (Hfl : f = fun x => fl [fst x; snd x]).
Context (units : parray unit) (ul : list Z -> unit) (HU : raster_of [a0; a1] [p0; p1] units ul).

Notation glob := (glob p0 p1). Notation e0 := (e0 a0 p0). Notation e1 := (e1 a1 p1).
Notation M0 := (M0 a0 p0). Notation M1 := (M1 a1 p1). Notation part_ok := (part_ok a0 a1 p0 p1).
Notation lf := (lf p0 p1 f). Notation srcs := (srcs a0 a1 p0 p1 nd f). Notation input_of := (input_of a0 a1 p0 p1 f).
Notation prow := (prow a0 p0). Notation pcol := (pcol a1 p1). Notation loc := (loc a0 a1 p0 p1).
Notation up := (upstream a0 a1 nd f). Notation valid := (valid a0 a1 nd f).
Notation cnt := (cnt a0 a1 nd f).
Notation Cls := (Cls a0 a1 p0 p1 nd f). Notation good := (good a0 a1 p0 p1 nd f). Notation info_inv := (info_inv a0 a1 p0 p1 nd f).
Notation finish r c := (finish (e0 r) (e1 c) (lf r c)).
Notation gm r c := (gm (e0 r) (e1 c)).
Notation class_of := (class_of a0 a1 p0 p1 nd f).
Notation weight := (weight a0 a1 p0 p1).

Lemma info_started : exists st cl, info_start nd flow units = Ok (st, cl) /\ info_inv (st, cl) /\ (weight st <= 2 * Z.to_nat (a0 * a1))%nat.
Proof.
  destruct (start_ok a0 a1 p0 p1 nd f P0 P1 V AC no_material (fun x => ul [fst x; snd x]) flow fl HR Hfl units ul HU eq_refl) as [st [E HS]].
  assert (HS' : forall r c, part_ok r c -> st r c = start_part a0 a1 p0 p1 nd f no_material (fun _ => tt) r c).
  { intros r c HP. rewrite HS by exact HP. unfold start_part. f_equal. apply gmake_ext. intros i j _ _. now destruct (ul _). }
  unfold info_start. rewrite E, obind_Ok. eexists st, _. split; [reflexivity|].
  pose proof (start_Inv a0 a1 p0 p1 nd f no_material (fun _ _ => tt) (fun _ _ => tt) (fun _ => tt) st HS') as I.
  split; [|apply (start_weight a0 a1 p0 p1 nd f P0 P1 no_material (fun _ => tt)); assumption].
  split; [eexists _, _; exact I|]. cbn [fst snd]. intros r c HP. rewrite (HS' r c HP). cbn [start_part ps_flow].
  exists (fun t => cnt (fun _ => false) (glob r c t)), (fun _ => 0). split; [reflexivity|]. split; [reflexivity|]. split.
  - intros _ d Hd. cbn [start_part ps_inputs]. rewrite nth_directions by exact Hd. apply map_length.
  - intros t It. cbn [start_part ps_todo]. assert (IN : In t (cells2 0 (e0 r) 0 (e1 c))) by (destruct t; apply in_cells2'; unfold inside in It; cbn [fst snd] in *; lia).
    split; [intros _ N; contradiction|]. split; [intros _ _ N; contradiction|]. split; [|discriminate].
    intros Hne Hc. exfalso. unfold RouterProofs2.cnt in Hc. rewrite filter_all in Hc by reflexivity. destruct (up (glob r c t)); [contradiction|cbn [length] in Hc; lia].
Qed.

Lemma passing r c t : part_ok r c -> inside (e0 r) (e1 c) t -> forall w, w <> partition_output_cell ->
  let x := glob r c t in
  (ends f x -> finish r c w t = sink_cell) /\ (leaves a0 a1 p0 p1 f x -> finish r c w t = partition_output_cell) /\
  (~ ends f x -> ~ leaves a0 a1 p0 p1 f x -> finish r c w t = w).
Proof.
  intros HP It w Hw x. pose proof (finish_leaves a0 a1 p0 p1 f P0 P1 r c t w HP It Hw) as FL. fold x in FL.
  assert (EE : ends f x <-> cell_eqb (dest (lf r c) t) t = true).
  { unfold ends, x. rewrite <- glob_dest, cell_eqb_spec. split; [apply glob_inj|now intros ->]. }
  split; [|split].
  - intros H. apply EE in H. unfold AccuInfoProofs.finish. now rewrite H.
  - apply FL.
  - intros N1 N2. unfold AccuInfoProofs.finish in *. destruct (cell_eqb _ t) eqn:E; [exfalso; apply N1; now apply EE|].
    destruct (insideb _ _ _); [reflexivity|]. exfalso. apply N2. now apply FL.
Qed.

Lemma good_class r c t k : part_ok r c -> inside (e0 r) (e1 c) t -> nd (f (glob r c t)) = false -> up (glob r c t) <> [] -> good r c t k ->
  class_of (glob r c t) k.
Proof.
  intros HP It Hn Hu HG. destruct (glob_inside a0 a1 p0 p1 P0 P1 r c t HP It) as [Ix _].
  pose proof (passing r c t HP It intra_partition_stream_cell ltac:(discriminate)) as P12. pose proof (passing r c t HP It inter_partition_stream_cell ltac:(discriminate)) as P16.
  pose proof (finish_leaves a0 a1 p0 p1 f P0 P1 r c t inter_partition_stream_cell HP It ltac:(discriminate)) as FL.
  set (x := glob r c t) in *. cbv zeta in P12, P16.
  assert (NS : ~ source a0 a1 nd f x).
  { intros S. destruct (up x) as [|y l] eqn:E; [now apply Hu|]. apply (S y). apply in_upstream. rewrite E. now left. }
  assert (RF : receives a0 a1 p0 p1 nd f x -> foreign a0 a1 p0 p1 nd f x) by (apply receives_foreign; now split).
  assert (Q : (~ foreign a0 a1 p0 p1 nd f x /\ reached_within a0 a1 p0 p1 nd f x k) \/
              (foreign a0 a1 p0 p1 nd f x /\ reached_within a0 a1 p0 p1 nd f x k /\ (receives a0 a1 p0 p1 nd f x -> may_be_last a0 a1 p0 p1 nd f x)) \/
              (receives a0 a1 p0 p1 nd f x /\ reached_from_outside a0 a1 p0 p1 f x k)).
  { unfold AccuInfoProofs2.good in HG. fold x in HG. destruct HG as [[N ->]|[[F [-> M]]|[R ->]]].
    - left. split; [exact N|]. destruct P12 as [A [B C]]. repeat split; auto. intros; contradiction.
    - right. left. split; [exact F|]. split; [|exact M]. destruct P16 as [A [B C]]. repeat split; auto. intros; contradiction.
    - right. right. split; [exact R|]. unfold outside_class. split; intros L.
      + apply FL in L. now rewrite L.
      + destruct (Z.eqb_spec (finish r c inter_partition_stream_cell t) partition_output_cell) as [E|E]; [apply FL in E; contradiction|reflexivity]. }
  unfold AccuInfoSpec.class_of. rewrite Hn. split; [discriminate|]. split; [intros _ S; contradiction|].
  split; [|split]; intros _; tauto.
Qed.

Lemma info_classes st cl : info_inv (st, cl) -> info_finished M0 M1 (st, cl) = true ->
  exists out g, info_results flow (st, cl) = Ok out /\ raster_of [a0; a1] [p0; p1] out g /\ forall x, inside a0 a1 x -> class_of x (by_cell g x).
Proof.
  intros [[dn [ar I]] HC] HF. cbn [fst snd] in *. unfold info_finished in HF. cbn [fst] in HF.
  pose proof (finished_done a0 a1 p0 p1 nd f P0 P1 V AC no_material (fun _ _ => tt) (fun _ _ => tt) (fun _ => tt) dn ar st I HF) as HD.
  assert (HF' := HF). rewrite finished_spec in HF'.
  assert (I0 := I). destruct I0 as [I1 [I2 I3]].
  set (val := fun x : cell => match gget (cl (prow x) (pcol x)) (fst (loc x)) (snd (loc x)) with Ok k => k | _ => 0 end).
  assert (EC : forall r c, part_ok r c -> cl r c = gm r c (fun t => val (glob r c t)) /\ forall t, inside (e0 r) (e1 c) t -> class_of (glob r c t) (val (glob r c t))).
  { intros r c HP. destruct (HC r c HP) as [k [h [Ek [Eg [_ H]]]]].
    assert (EV : forall t, inside (e0 r) (e1 c) t -> val (glob r c t) = h t).
    { intros t It. unfold val. destruct (glob_inside a0 a1 p0 p1 P0 P1 r c t HP It) as [_ [-> ->]]. unfold loc.
      destruct (glob_inside a0 a1 p0 p1 P0 P1 r c t HP It) as [_ [-> ->]]. rewrite local_glob, Eg, gm_get by exact It. reflexivity. }
    split.
    - rewrite Eg. unfold AccuInfoProofs.gm. apply gmake_ext. intros i j Hi Hj. symmetry. apply EV. now split.
    - intros t It. rewrite EV by exact It. destruct (H t It) as [C1 [C2 [C3 C4]]]. rewrite (proj1 (HF' r c HP)) in C1, C2.
      destruct (glob_inside a0 a1 p0 p1 P0 P1 r c t HP It) as [Ix _].
      destruct (nd (f (glob r c t))) eqn:En.
      + unfold AccuInfoSpec.class_of. rewrite En. split; [intros _; now apply C1|]. repeat split; discriminate.
      + destruct (up (glob r c t)) as [|y l] eqn:EU.
        * unfold AccuInfoSpec.class_of. rewrite En. split; [discriminate|]. split; [intros _ _; now apply C2|].
          assert (NS : forall y, ~ drains a0 a1 nd f y (glob r c t)) by (intros y D; apply in_upstream in D; rewrite EU in D; destruct D).
          split; [|split]; intros _; [intros NS'; exfalso; apply NS'; exact NS| |]; intros [y [D _]]; exfalso; exact (NS y D).
        * apply good_class; try assumption; [rewrite EU; discriminate|]. apply C3; [discriminate|].
          rewrite (count_is a0 a1 p0 p1 nd f dn ar r c (st r c) k t (I1 r c HP) Ek It). apply cnt_zero. apply (g_ups _ _ _ _ _ _ _ _ _ _ I2); [now split|now apply HD]. }
  destruct (flow_parts_ok a0 a1 p0 p1 nd f V AC flow fl HR Hfl) as [locality EP]. unfold info_results. rewrite EP.
  set (parts := gmake M0 M1 _). change (g0 parts) with M0. change (g1 parts) with M1. cbn [fst snd].
  rewrite (gbuild_ok _ _ _ (fun r c => Placed (locality r c) [r * p0; c * p1] [e0 r; e1 c] (gmake (e0 r) (e1 c) (fun i j => val (glob r c (i, j)))))).
  2:{ intros r c Hr Hc. assert (HP : part_ok r c) by now split. unfold parts. rewrite gget_make by assumption. rewrite obind_Ok.
      pose proof (I1 r c HP) as PR. destruct (outs_spec a0 a1 p0 p1 nd f P0 P1 r c HP) as [_ OI].
      rewrite (pr_outputs _ _ _ _ _ _ _ _ _ _ _ _ _ _ _ PR), filter_none.
      2:{ intros t Ht. apply OI in Ht. rewrite HD; [reflexivity|]. now apply (glob_inside a0 a1 p0 p1 P0 P1 r c t HP). }
      cbn [map]. rewrite (proj1 (EC r c HP)). reflexivity. }
  rewrite obind_Ok. eexists _, (fun x => val (nth 0 x 0, nth 1 x 0)). split; [reflexivity|]. split.
  - assert (H' := HR). destruct H' as [_ [_ [Es [Ep _]]]]. rewrite Es, Ep. apply grid_raster; try lia.
    intros r c Hr Hc. split; [reflexivity|]. split; [reflexivity|]. cbn [pl_data]. apply gmake_ext. intros i j Hi Hj. unfold FlowProofs3.glob. cbn [fst snd nth]. reflexivity.
  - intros x Ix. unfold by_cell. cbn [nth]. rewrite <- surjective_pairing. destruct (loc_inside a0 a1 p0 p1 P0 P1 x Ix) as [HP [HL G]]. rewrite <- G. now apply EC.
Qed.

Lemma info_ok : classifies nd a0 a1 p0 p1 flow units class_of.
Proof.
  destruct info_started as [st [cl [E [HI HW]]]]. exists (st, cl). split; [exact E|]. intros ls [st' cl'] R.
  destruct (info_run_ok a0 a1 p0 p1 nd f P0 P1 V AC _ _ _ R HI) as [I W]. cbn [fst] in W. split; [lia|]. split; [|split].
  - intros l o Hs. destruct (info_step_ok a0 a1 p0 p1 nd f P0 P1 V AC st' cl' l o I Hs) as [st2 [cl2 [-> _]]]. eauto.
  - intros HF. destruct I as [[dn [ar I]] HC]. cbn [fst snd] in I, HC. unfold info_finished in HF. cbn [fst] in HF.
    destruct (progress a0 a1 p0 p1 nd f P0 P1 V AC no_material (fun _ _ => tt) (fun _ _ => tt) (fun _ => tt) dn ar st' I HF) as [l [o Hs]].
    destruct (info_step nd M0 M1 l (st', cl')) as [o'|] eqn:Es; [|apply info_step_none in Es; congruence].
    destruct (info_step_ok a0 a1 p0 p1 nd f P0 P1 V AC st' cl' l o' (conj (ex_intro _ dn (ex_intro _ ar I)) HC) Es) as [st2 [cl2 [-> _]]]. eauto.
  - intros HF. now apply info_classes.
Qed.
End Result.
