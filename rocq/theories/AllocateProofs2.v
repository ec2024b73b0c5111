(** Proofs about the allocation of crops: the walks follow those of first_n, with a maximum of zero cells if somewhere demand is not met, and more cells than
    any route has if demand is met everywhere. *)
From Coq Require Import Lia.
From Flocq Require Import Core BinarySingleNaN.
From Verif Require Import Common CommonProofs CoreSpec DecompSpec ArraySpec AggregateSpec IndexModel IndexProofs DecompModel DecompProofs ArrayModel ArrayRep ArrayProofs LocalProofs AggregateProofs ZonalModel ZonalProofs
  RasterCheck FlowProofs StreamProofs OrderModel OrderSpec OrderProofs OrderProofs2 OrderProofs3 OrderProofs4 OrderProofs5 WalkModel WalkSpec WalkProofs WalkProofs2 WalkProofs3 WalkProofs4
  IntegrateModel IntegrateProofs Float64 AllocateModel AllocateSpec AllocateProofs.
Open Scope Z_scope.

Definition pick (t : b64) (v : Z) : b64 := if v =? 1 then t else fnan.
Definition painted (targets : list b64) (out : list Z) : list (list b64) := map (fun t => map (pick t) out) targets.
Definition targets (nr : nat) : list b64 := match nr with O => [] | S m => fone :: repeat fzero m end.
Lemma targets_length nr : length (targets nr) = nr.
Proof. destruct nr; [reflexivity|]. cbn. now rewrite repeat_length. Qed.

Lemma upd_z_map {A B} (f : A -> B) i x l l' : upd_z i x l = Some l' -> upd_z i (f x) (map f l) = Some (map f l').
Proof.
  unfold upd_z. destruct (i <? 0); [discriminate|]. generalize (Z.to_nat i). intros k. revert l l'. induction k as [|k IH]; intros [|y l] l' E; cbn in E |- *; try discriminate.
  - inversion E. reflexivity.
  - destruct (upd_nth k x l) eqn:E'; [|discriminate]. inversion E. rewrite (IH _ _ E'). reflexivity.
Qed.
Lemma write_painted i crops ts out out' : map (fun c => fplus (cr_fraction c) (cr_extra c)) crops = ts -> upd_z i 1 out = Some out' ->
  write_fractions i crops (painted ts out) = Ok (painted ts out').
Proof.
  intros <- U. induction crops as [|c crops IH]; [reflexivity|]. cbn [map painted write_fractions]. pose proof (upd_z_map (pick (fplus (cr_fraction c) (cr_extra c))) _ _ _ _ U) as E. change (pick ?t 1) with t in E. rewrite E.
  fold (painted (map (fun c => fplus (cr_fraction c) (cr_extra c)) crops) out). rewrite IH. reflexivity.
Qed.

(** The crops of a cell whose demand is met *)
Lemma zseq_nth_in i lo n : In i (zseq lo n) -> lo <= i < lo + n.
Proof. apply in_zseq. Qed.
Definition no_crop := Crop fzero fzero fzero fzero fzero true fzero.
Definition made (cur sdp yld ext dem pro : list b64) (k : Z) : crop :=
  let n := Z.to_nat k in Crop (nth n cur fzero) (nth n sdp fzero) (nth n yld fzero) (nth n dem fzero) (nth n pro fzero) true (nth n ext fzero).
Lemma at_z_nth {T} (l : list T) k d : 0 <= k < Z.of_nat (length l) -> at_z l k = Ok (nth (Z.to_nat k) l d).
Proof. intros H. unfold at_z, nth_z. destruct (Z.ltb_spec k 0); [lia|]. now rewrite (nth_error_nth' l d) by lia. Qed.
Lemma nth_repeat' {A} (a d : A) m k : (k < m)%nat -> nth k (repeat a m) d = a.
Proof. revert k. induction m as [|m IH]; intros [|k] L; try lia; cbn; [reflexivity|apply IH; lia]. Qed.

Lemma two_length {A B} (R : A -> B -> Prop) l l' : Forall2 R l l' -> length l = length l'.
Proof. induction 1; cbn; congruence. Qed.

(** What must be known about the zone *)
Definition zone_ready (nr : nat) (d : alloc_data) (zone : Z) : Prop :=
  (0 < nr)%nat /\ zfind (ad_met d) zone = Some (repeat true nr) /\ (exists l, zfind (ad_demand d) zone = Some l /\ length l = nr) /\ (exists l, zfind (ad_production d) zone = Some l /\ length l = nr).
Lemma crops_made nr d zone cur sdp yld ext : zone_ready nr d zone -> length cur = nr -> length sdp = nr -> length yld = nr -> length ext = nr ->
  exists dem pro, sequence (map (crop_of d zone cur sdp yld ext) (zseq 0 (Z.of_nat nr))) = Ok (map (made cur sdp yld ext dem pro) (zseq 0 (Z.of_nat nr))).
Proof.
  intros (_ & M & [dem [D Ld]] & [pro [P Lp]]) L1 L2 L3 L4. exists dem, pro. apply sequence_all. intros k Hk. apply in_zseq in Hk. unfold crop_of, at_zone, made. rewrite M, D, P.
  rewrite (at_z_nth cur k fzero), (at_z_nth sdp k fzero), (at_z_nth yld k fzero), (at_z_nth ext k fzero), (at_z_nth dem k fzero), (at_z_nth pro k fzero) by lia.
  rewrite (at_z_nth (repeat true nr) k true) by (rewrite repeat_length; lia). rewrite nth_repeat' by lia. reflexivity.
Qed.
Lemma update_ready nr d zone crops : zone_ready nr d zone -> length crops = nr -> zone_ready nr (update_production d zone crops) zone /\ ad_met (update_production d zone crops) = ad_met d.
Proof.
  intros (N & M & D & [pro [P Lp]]) L. unfold update_production. rewrite P. split; [|reflexivity]. repeat split; try assumption. cbn [ad_production]. eexists. rewrite zfind_set, Z.eqb_refl. split; [reflexivity|].
  rewrite app_length, map_length, skipn_length. lia.
Qed.

(** The input partitions *)
Section Inputs.
Context (a p : list Z) (r : serial_route) (W : well_formed_route a p r).
Definition holds (q : Z) (l : list b64) (f : list Z -> b64) : Prop := forall i x, route_cell r (q, i) x -> nth_z i l = Some (f x).
Lemma array_at q arr f : raster_of a p arr f -> 0 <= q < Z.of_nat (length (rt_parts r)) -> exists pq, nth_z q (pa_parts arr) = Some pq /\ holds q (pl_data pq) f.
Proof.
  intros R Hq. destruct (nth_z_range q (pa_parts arr)) as [pq E]; [rewrite (parts_len a p arr f R); unfold cells_lists; rewrite map_length, <- (wf_len a p r W); assumption|].
  exists pq. split; [exact E|]. intros i x Hx. destruct (integrand_at a p r W arr f R q i x Hx) as [gq [E1 E2]]. congruence.
Qed.
Lemma arrays_at q arrs fs : Forall2 (raster_of a p) arrs fs -> 0 <= q < Z.of_nat (length (rt_parts r)) -> exists ls, partitions_at q arrs = Ok ls /\ Forall2 (holds q) ls fs.
Proof.
  intros F Hq. induction F as [|arr f arrs fs R F [ls [IH1 IH2]]]; [exists []; split; [reflexivity|constructor]|].
  destruct (array_at q arr f R Hq) as [pq [E1 E2]]. exists (pl_data pq :: ls). split; [|constructor; assumption].
  unfold partitions_at in *. cbn [map sequence]. unfold at_z at 1. rewrite E1. cbn [obind]. rewrite IH1. reflexivity.
Qed.
Lemma cell_at q i x ls fs : Forall2 (holds q) ls fs -> route_cell r (q, i) x -> cell_of ls i = Ok (map (fun f => f x) fs).
Proof.
  intros F Hx. induction F as [|l f ls fs R F IH]; [reflexivity|]. unfold cell_of in *. cbn [map sequence]. unfold at_z at 1. rewrite (R i x Hx). cbn [obind]. rewrite IH. reflexivity.
Qed.
Lemma valid_at x fs : Forall (fun f : list Z -> b64 => is_nan (f x) = false) fs -> existsb is_nan (map (fun f => f x) fs) = false.
Proof. induction 1 as [|f fs H F IH]; [reflexivity|]. cbn [map existsb]. rewrite H, IH. reflexivity. Qed.
End Inputs.

Section Sim.
Context (a p : list Z) (r : serial_route) (W : well_formed_route a p r).
Context (sdp yld cur : list (parray b64)) (irr : parray b64) (fsdp fyld fcur : list (list Z -> b64)) (firr : list Z -> b64).
Context (Rs : Forall2 (raster_of a p) sdp fsdp) (Ry : Forall2 (raster_of a p) yld fyld) (Rc : Forall2 (raster_of a p) cur fcur) (Ri : raster_of a p irr firr).
Context (Ls : length sdp = length cur) (Ly : length yld = length cur).
Context (H : Z -> list (Z * list Z)) (C : Z -> list (list Z)).
Context (Hr : forall z, route_hops r z (H z)) (HC : forall z, Forall2 (route_cell r) (hop_cells (H z)) (C z)).
Context (n : Z) (keep : bool).
Notation nr := (nr_crops cur).
Let Hmap := proj1 (proj2 (proj2 (proj2 (proj2 (proj2 (proj2 W)))))).

Definition fine : Prop :=
  (keep = false /\ n = 0) \/
  (keep = true /\ (forall z, Z.of_nat (length (hop_cells (H z))) < n) /\
   forall z x, In x (C z) -> is_zero (firr x) /\ Forall (fun f => is_nan (f x) = false) (fsdp ++ fyld ++ fcur)).
Context (Fine : fine).

Definition zone_fine (d : alloc_data) (z : Z) : Prop := keep_allocating d = keep /\ (keep = true -> zone_ready nr d z).
Definition walker_rel (w : walker) (iw : allocator) : Prop :=
  al_idxs iw = wk_idxs w /\ al_ready iw = wk_ready w /\ al_fractions iw = painted (targets nr) (wk_output w).
Definition task_rel (t : walk_task) (it : alloc_task) : Prop :=
  match t, it with
  | ResultPartition q, AskResults q' => q = q'
  | WalkRoute q z v, Allocate q' z' d => q = q' /\ z = z' /\ zone_fine d z
  | SkipRoute q z, SkipAllocating q' z' => q = q' /\ z = z'
  | _, _ => False
  end.
Definition state_rel (st : walk_state) (ist : alloc_state) : Prop :=
  length (as_allocators ist) = length (ws_walkers st) /\
  (forall q w iw, nth_z q (ws_walkers st) = Some w -> nth_z q (as_allocators ist) = Some iw -> walker_rel w iw) /\
  Forall2 task_rel (ws_tasks st) (as_tasks ist).

Definition extra_fine (ext : list b64) : Prop := length ext = nr /\ Forall (fun e => e = fzero) (tl ext) /\ (hd fzero ext = fzero \/ hd fzero ext = fone).
Lemma cells_sim z q inputs cells : forall out v out' v' d ext, 0 <= v -> 0 <= q < Z.of_nat (length (rt_parts r)) ->
  inputs_at sdp yld cur irr q = Ok inputs -> v + Z.of_nat (length cells) <= Z.of_nat (length (hop_cells (H z))) ->
  (forall m i, nth_error cells m = Some i -> nth_error (hop_cells (H z)) (Z.to_nat v + m) = Some (q, i)) ->
  zone_fine d z -> (keep = true -> extra_fine ext) -> mark_cells n cells out v = Ok (out', v') ->
  exists d', allocate_cells inputs z cells (painted (targets nr) out) d ext = Ok (painted (targets nr) out', d') /\ zone_fine d' z /\ (v' <? n) = keep.
Proof.
  induction cells as [|i cells IH]; intros out v out' v' d ext Hv Hq Ein Hlen Hpos Zf Xf M; cbn [mark_cells allocate_cells] in *.
  - inversion M; subst. exists d. split; [reflexivity|]. split; [exact Zf|]. destruct Fine as [[-> ->]|[-> [B _]]]; [apply Z.ltb_ge; lia|]. apply Z.ltb_lt. specialize (B z). cbn in Hlen. lia.
  - destruct Zf as [K Zr]. unfold keep_walking in M. destruct Fine as [[Kf En]|[Kt [B Val]]].
    + rewrite K, Kf. rewrite En in M |- *. destruct (Z.ltb_spec v 0); [lia|]. inversion M; subst. exists d. split; [reflexivity|]. split; [split; [congruence|intros; congruence]|]. apply Z.ltb_ge. lia.
    + assert (keep_allocating d = true) as -> by congruence. pose proof (B z) as Bz. cbn [length] in Hlen. destruct (Z.ltb_spec v n) as [L|L]; [|lia]. destruct (upd_z i 1 out) as [out1|] eqn:Eu; [|discriminate].
      pose proof (Hpos 0%nat i eq_refl) as P0. rewrite Nat.add_0_r in P0. destruct (Forall2_nth_l _ _ _ _ _ (HC z) P0) as [x [Ex Rx]].
      destruct (Val z x ltac:(eapply nth_error_In; exact Ex)) as [Zi Vx]. rewrite !Forall_app in Vx. destruct Vx as [V1 [V2 V3]].
      destruct (arrays_at a p r W q sdp fsdp Rs Hq) as [ls1 [A1 H1]]. destruct (arrays_at a p r W q yld fyld Ry Hq) as [ls2 [A2 H2]]. destruct (arrays_at a p r W q cur fcur Rc Hq) as [ls3 [A3 H3]].
      destruct (array_at a p r W q irr firr Ri Hq) as [iq [A4 H4]]. pose proof Ein as Ein'. unfold inputs_at in Ein'. rewrite A1, A2, A3 in Ein'. cbn [obind] in Ein'. unfold at_z in Ein'. rewrite A4 in Ein'. cbn [obind] in Ein'. inversion Ein'; subst inputs. clear Ein'.
      cbn [ai_sdp ai_yield ai_current ai_irrigated]. rewrite (cell_at r q i x ls1 fsdp H1 Rx), (cell_at r q i x ls2 fyld H2 Rx), (cell_at r q i x ls3 fcur H3 Rx). cbn [obind].
      unfold at_z at 1. rewrite (H4 i x Rx). cbn [obind]. rewrite (valid_at x fsdp V1), (valid_at x fyld V2), (valid_at x fcur V3). assert (is_nan (firr x) = false) as -> by (destruct Zi as [-> | ->]; reflexivity). cbn [orb].
      assert (Lp : length (painted (targets nr) out) = nr) by (unfold painted; rewrite map_length; apply targets_length). rewrite Lp.
      specialize (Zr Kt). destruct (Xf Kt) as [X1 [X2 X3]].
      destruct (crops_made nr d z (map (fun f => f x) fcur) (map (fun f => f x) fsdp) (map (fun f => f x) fyld) ext Zr) as [dem [pro Ecr]]; try (rewrite map_length); try assumption.
      { unfold nr_crops. symmetry. exact (two_length _ _ _ Rc). }
      { unfold nr_crops. rewrite <- Ls. symmetry. exact (two_length _ _ _ Rs). }
      { unfold nr_crops. rewrite <- Ly. symmetry. exact (two_length _ _ _ Ry). }
      rewrite Ecr. cbn [obind]. set (crops := map _ (zseq 0 (Z.of_nat nr))).
      destruct (met_cell (firr x) crops) as (crops' & -> & L' & F' & E' & G').
      { pose proof (proj1 Zr). unfold crops. rewrite zseq_cons by lia. discriminate. }
      { unfold crops. apply Forall_map'. apply Forall_forall. intros; reflexivity. }
      cbn [obind]. assert (Lc : length crops = nr) by (unfold crops; rewrite map_length, zseq_length; lia).
      assert (G : cr_extra (hd no_crop crops') = fone).
      { apply G'; [exact Zi|]. pose proof (proj1 Zr). unfold crops. rewrite zseq_cons by lia. cbn [map hd made cr_extra Z.to_nat]. destruct ext; [cbn in X1; lia|exact X3]. }
      assert (T : map (fun c => fplus (cr_fraction c) (cr_extra c)) crops' = targets nr).
      { rewrite <- Lc, <- L'. destruct crops' as [|g cs]; [pose proof (proj1 Zr); cbn in L'; lia|]. cbn [map targets length hd tl] in *. inversion F' as [|? ? Fg Fcs]; subst. rewrite Fg, G, zero_plus_one. f_equal.
        clear - Fcs E'. induction cs as [|c cs IHc]; [reflexivity|]. inversion Fcs; inversion E'; subst. cbn [map length repeat]. f_equal; [|now apply IHc]. rewrite H1, H5. apply zero_plus_fzero. }
      rewrite (write_painted i crops' _ out out1 T Eu). cbn [obind].
      destruct (update_ready nr d z crops' Zr ltac:(congruence)) as [U1 U2].
      refine (IH out1 (v + 1) out' v' _ _ _ Hq Ein _ _ _ _ M).
      * lia.
      * lia.
      * intros m i0 Hm. replace (Z.to_nat (v + 1) + m)%nat with (Z.to_nat v + S m)%nat by lia. now apply Hpos.
      * split; [|intros; exact U1]. unfold keep_allocating. rewrite U2. exact K.
      * intros _. split; [rewrite map_length; congruence|]. destruct crops' as [|g cs]; [cbn in L'; pose proof (proj1 Zr); lia|]. cbn [map tl hd] in *. split; [|now right]. apply Forall_map'. exact E'.
Qed.

Lemma advance_sim w iw id i nf out : walker_rel w iw ->
  match advance w id i nf out with Ok w' => exists iw', next_allocation iw id i nf (painted (targets nr) out) = Ok iw' /\ walker_rel w' iw' | Throw => next_allocation iw id i nf (painted (targets nr) out) = Throw | UB => True end.
Proof.
  intros [A [B _]]. unfold advance, next_allocation, finish_if_walked, hand_over_if_walked, finish_partition, hand_over. cbn [wk_idxs al_idxs wk_ready al_ready wk_output al_fractions]. rewrite A, B.
  destruct (i =? nf).
  - destruct (is_nil (zerase (wk_idxs w) id)); [destruct (0 <? wk_ready w); [reflexivity|]|]; eexists; (split; [reflexivity|]); repeat split; cbn; reflexivity.
  - eexists. split; [reflexivity|]. repeat split; cbn; reflexivity.
Qed.

Notation Hcells := (Hcells a p r W H C HC).
Lemma walk_bound K st q z v w pq fs fi f : winv 0 n r H K st -> In (WalkRoute q z v) (ws_tasks st) -> nth_z q (rt_parts r) = Some pq -> nth_z q (ws_walkers st) = Some w ->
  zfind (pl_data pq) z = Some fs -> zfind (wk_idxs w) z = Some fi -> at_z fs fi = Ok f ->
  v + Z.of_nat (length (fr_cells f)) <= Z.of_nat (length (hop_cells (H z))).
Proof.
  intros I Hin Epq Hw Efs Efi Ef. pose proof (wi_zone _ _ _ _ K st I z) as Zw.
  assert (Hzt : In (WalkRoute q z v) (ztasks z (ws_tasks st))) by (apply filter_In; split; [assumption|cbn; apply Z.eqb_refl]).
  pose proof (zw_tasks _ _ _ _ _ _ _ Zw) as T. destruct (skipn (K z) (H z)) as [|[p' c] h2] eqn:Hk; [rewrite T in Hzt; destruct Hzt|].
  destruct T as [[T Tc]|[T _]]; rewrite T in Hzt; destruct Hzt as [Et|[]]; [|discriminate]. inversion Et; subst p' v. clear Et.
  destruct (firstn_hop r H Hr Hcells _ _ _ _ _ Hk) as [F1 [F2 [F3 F4]]]. pose proof (nth_z_in _ _ _ Epq) as [_ Hq].
  pose proof (zw_idxs _ _ _ _ _ _ _ Zw q Hq) as Ei. unfold idxs_of in Ei. rewrite Hw, Efi in Ei.
  destruct (cnt q (firstn (K z) (H z)) <? cnt q (H z)); [|discriminate]. inversion Ei; subst fi. clear Ei.
  rewrite (part_fragments r H Hr Hmap q pq z Epq) in Efs. pose proof (hop_fragments_nth None q c (firstn (K z) (H z)) h2) as En. rewrite <- F2 in En.
  destruct (hop_fragments None q (H z)) as [|f0 fs0]; [discriminate|]. cbn [opt_list] in Efs. inversion Efs; subst fs. unfold at_z in Ef. rewrite En in Ef. inversion Ef; subst f. cbn [fr_cells].
  rewrite F2. unfold hop_cells. rewrite flat_map_app. fold (hop_cells (firstn (K z) (H z))). fold (walked H (K z) z). cbn [flat_map]. rewrite !app_length, map_length. lia.
Qed.

Definition outcome_rel (o : outcome walk_state) (o' : outcome alloc_state) : Prop :=
  match o, o' with Ok st, Ok ist => state_rel st ist | Throw, Throw => True | UB, _ => True | _, _ => False end.

Lemma step_sim K st ist k o : winv 0 n r H K st -> state_rel st ist -> walk_step n r k st = Some o ->
  exists o', alloc_step r sdp yld cur irr k ist = Some o' /\ outcome_rel o o'.
Proof.
  intros I [Lw [Rw Rt]] Hs. unfold walk_step in Hs. unfold alloc_step. destruct (nth_error (ws_tasks st) k) as [t|] eqn:Ht; [|discriminate]. cbv zeta in Hs.
  destruct (Forall2_nth_l _ _ _ _ _ Rt Ht) as [it [Hit Tr]]. rewrite Hit. cbv zeta.
  assert (Ep : alloc_task_partition it = walk_task_partition t) by (destruct t, it; cbn in Tr |- *; try contradiction; intuition congruence). rewrite Ep.
  eexists. split; [reflexivity|]. inversion Hs; subst o. clear Hs.
  destruct (nth_z (walk_task_partition t) (rt_parts r)) as [pq|] eqn:Epq; [|exact Logic.I].
  destruct (nth_z (walk_task_partition t) (ws_walkers st)) as [w|] eqn:Ew; [|exact Logic.I].
  pose proof (nth_z_in _ _ _ Ew) as [_ Hq]. pose proof (nth_z_in _ _ _ Epq) as [_ Hq2].
  destruct (nth_z_range (walk_task_partition t) (as_allocators ist)) as [iw Eiw]; [lia|].
  assert (exists inputs, inputs_at sdp yld cur irr (walk_task_partition t) = Ok inputs) as [inputs Ein].
  { destruct (arrays_at a p r W _ sdp fsdp Rs Hq2) as [ls1 [A1 _]]. destruct (arrays_at a p r W _ yld fyld Ry Hq2) as [ls2 [A2 _]]. destruct (arrays_at a p r W _ cur fcur Rc Hq2) as [ls3 [A3 _]].
    destruct (array_at a p r W _ irr firr Ri Hq2) as [iq [A4 _]]. unfold inputs_at. rewrite A1, A2, A3. cbn [obind]. unfold at_z. rewrite A4. cbn [obind]. eauto. }
  rewrite Ein, Eiw. cbn [obind]. pose proof (Rw _ _ _ Ew Eiw) as Rq.
  assert (Main : match run_walk_task n t pq w with
                 | Ok (w', sp) => exists iw' isp, run_alloc_task nr it pq inputs iw = Ok (iw', isp) /\ walker_rel w' iw' /\ Forall2 task_rel sp isp
                 | Throw => run_alloc_task nr it pq inputs iw = Throw
                 | UB => True end).
  { destruct t as [q|q z v|q z], it as [q'|q' z' d|q' z']; cbn [task_rel] in Tr; try contradiction; cbn [run_walk_task run_alloc_task walk_task_partition] in *.
    - unfold result_partition, finish_if_walked, hand_over_if_walked, finish_partition, hand_over. destruct Rq as [A [B R]]. rewrite A, B.
      destruct (is_nil (wk_idxs w)); [destruct (0 <? wk_ready w); [reflexivity|]|]; cbn [obind]; eexists _, _; (split; [reflexivity|]); (split; [|constructor]); repeat split; cbn; try assumption; try (now rewrite ?B).
    - destruct Tr as [<- [<- Zf]]. unfold walk, allocate_walk. pose proof Rq as [A [B R]]. rewrite A. destruct (zfind (pl_data pq) z) as [fs|] eqn:Efs; [|exact Logic.I]. destruct (zfind (wk_idxs w) z) as [fi|] eqn:Efi; [|exact Logic.I].
      destruct (at_z fs fi) as [f| |] eqn:Ef; cbn [obind]; [|reflexivity|exact Logic.I].
      pose proof (nth_error_In _ _ Ht) as Hin.
      destruct (walk_position Z.add (Z.eqb 0) 0 n a p r W H C Hr HC K st q z v w pq fs fi f I Hin Epq Ew Efs Efi Ef) as [Hv Hpos].
      pose proof (walk_bound K st q z v w pq fs fi f I Hin Epq Ew Efs Efi Ef) as Hb.
      destruct (mark_cells n (fr_cells f) (wk_output w) v) as [[out' v']| |] eqn:Em; cbn [obind]; [| |exact Logic.I].
      + assert (Xf : keep = true -> extra_fine (repeat fzero nr)).
        { intros _. split; [apply repeat_length|]. destruct nr; cbn [repeat tl hd]; [split; [constructor|auto]|]. split; [|auto]. apply Forall_forall. intros e He. now apply repeat_spec in He. }
        destruct (cells_sim z q inputs (fr_cells f) (wk_output w) v out' v' d (repeat fzero nr) Hv Hq2 Ein Hb Hpos Zf Xf Em) as [d' [Ei [Zf' Kv]]].
        rewrite R, Ei. cbn [obind]. pose proof (advance_sim w iw z (fi + 1) (Z.of_nat (length fs)) out' Rq) as Ad.
        destruct (fr_next f) as [p1|].
        * destruct (advance w z (fi + 1) (Z.of_nat (length fs)) out') as [w'| |]; cbn [obind].
          -- destruct Ad as [iw' [-> Rw']]. cbn [obind]. eexists _, _. split; [reflexivity|]. split; [assumption|]. constructor; [|constructor]. unfold keep_walking. rewrite Kv. rewrite (proj1 Zf'). destruct keep; cbn [task_rel]; auto.
          -- now rewrite Ad.
          -- exact Logic.I.
        * destruct (_ =? _); [|exact Logic.I]. destruct (advance w z (fi + 1) (Z.of_nat (length fs)) out') as [w'| |]; cbn [obind].
          -- destruct Ad as [iw' [-> Rw']]. cbn [obind]. eexists _, _. split; [reflexivity|]. split; [assumption|constructor].
          -- now rewrite Ad.
          -- exact Logic.I.
      + exfalso. clear - Em. revert Em. generalize (wk_output w) v. induction (fr_cells f) as [|i l IH]; intros o v0; cbn [mark_cells]; [discriminate|].
        destruct (keep_walking n v0); [|discriminate]. destruct (upd_z i 1 o); [apply IH|discriminate].
    - destruct Tr as [<- <-]. unfold skip_walking_route_fragments, allocate_skip. pose proof Rq as [A [B R]]. rewrite A. destruct (zfind (pl_data pq) z) as [fs|] eqn:Efs; [|exact Logic.I]. destruct (zfind (wk_idxs w) z) as [fi|] eqn:Efi; [|exact Logic.I].
      destruct (at_z fs fi) as [f| |] eqn:Ef; cbn [obind]; [|reflexivity|exact Logic.I].
      pose proof (advance_sim w iw z (fi + 1) (Z.of_nat (length fs)) (wk_output w) Rq) as Ad. rewrite <- R in Ad. destruct (advance w z (fi + 1) (Z.of_nat (length fs)) (wk_output w)) as [w'| |]; cbn [obind].
      + destruct Ad as [iw' [-> Rw']]. cbn [obind]. eexists _, _. split; [reflexivity|]. split; [assumption|]. destruct (fr_next f); [|constructor]. constructor; [cbn; auto|constructor].
      + now rewrite Ad.
      + exact Logic.I. }
  destruct (run_walk_task n t pq w) as [[w' sp]| |]; cbn [obind]; [| |exact Logic.I].
  - destruct Main as [iw' [isp [-> [Rw' Rsp]]]]. cbn [obind]. destruct (upd_z_some _ w' _ _ Ew) as [ws Eu]. destruct (upd_z_some _ iw' _ _ Eiw) as [iws Eiu]. rewrite Eu, Eiu.
    cbn [outcome_rel]. split; [cbn [as_allocators ws_walkers]; rewrite (upd_z_length _ _ _ _ Eu), (upd_z_length _ _ _ _ Eiu); assumption|]. split; cbn [ws_walkers as_allocators ws_tasks as_tasks].
    + intros q1 w1 iw1 E1 E2. rewrite (nth_z_upd _ _ _ _ _ Eu) in E1. rewrite (nth_z_upd _ _ _ _ _ Eiu) in E2. destruct (Z.eqb_spec q1 (walk_task_partition t)) as [->|]; [|now apply (Rw q1)].
      inversion E1; inversion E2; subst. assumption.
    + apply Forall2_app; [now apply Forall2_firstn'|]. apply Forall2_app; [exact (Forall2_skipn _ _ _ (S k) Rt)|assumption].
  - rewrite Main. exact Logic.I.
Qed.
End Sim.
