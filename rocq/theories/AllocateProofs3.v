(** Proofs about the allocation of crops, continued: runs, the arrays that result, and the productions. *)
From Coq Require Import Lia.
From Flocq Require Import Core BinarySingleNaN.
From Verif Require Import Common CommonProofs CoreSpec DecompSpec ArraySpec AggregateSpec IndexModel IndexProofs DecompModel DecompProofs ArrayModel ArrayRep ArrayProofs LocalProofs AggregateProofs ZonalModel ZonalProofs
  RasterCheck FlowProofs StreamProofs OrderModel OrderSpec OrderProofs OrderProofs2 OrderProofs3 OrderProofs4 OrderProofs5 WalkModel WalkSpec WalkProofs WalkProofs2 WalkProofs3 WalkProofs4
  IntegrateModel IntegrateProofs Float64 AllocateModel AllocateSpec AllocateProofs AllocateProofs2.
Open Scope Z_scope.

Section Ends.
Context (a p : list Z) (r : serial_route) (W : well_formed_route a p r).
Context (sdp yld cur : list (parray b64)) (irr : parray b64) (fsdp fyld fcur : list (list Z -> b64)) (firr : list Z -> b64).
Context (Rs : Forall2 (raster_of a p) sdp fsdp) (Ry : Forall2 (raster_of a p) yld fyld) (Rc : Forall2 (raster_of a p) cur fcur) (Ri : raster_of a p irr firr).
Context (Ls : length sdp = length cur) (Ly : length yld = length cur).

Lemma run_sim H C (Hr : forall z, route_hops r z (H z)) (HC : forall z, Forall2 (route_cell r) (hop_cells (H z)) (C z)) n keep st0 ist0 ks ist :
  fine fsdp fyld fcur firr H C n keep -> alloc_run r sdp yld cur irr ist0 ks ist -> forall K0, winv 0 n r H K0 st0 -> state_rel cur keep st0 ist0 ->
  exists st K, walk_run n r st0 ks st /\ winv 0 n r H K st /\ state_rel cur keep st ist.
Proof.
  intros Fi R. revert st0. induction R as [ist|ist k ist1 ks ist2 Hs R IH]; intros st0 K0 I Rel; [exists st0, K0; split; [constructor|auto]|].
  pose proof (Hcells a p r W H C HC) as Hcl.
  assert (exists o, walk_step n r k st0 = Some o) as [o Ho].
  { unfold alloc_step in Hs. unfold walk_step. destruct (nth_error (as_tasks ist) k) as [it|] eqn:Ei; [|discriminate].
    destruct (Forall2_nth_r _ _ _ _ _ (proj2 (proj2 Rel)) Ei) as [t [-> _]]. eauto. }
  destruct (step_sim a p r W sdp yld cur irr fsdp fyld fcur firr Rs Ry Rc Ri Ls Ly H C Hr HC n keep Fi K0 st0 ist k o I Rel Ho) as [o' [Eo' Ro]]. rewrite Hs in Eo'. inversion Eo'; subst o'.
  destruct (step_cases 0 n r H Hr (proj1 (proj2 (proj2 (proj2 (proj2 (proj2 (proj2 W))))))) (proj1 (proj2 (proj2 (proj2 (proj2 (proj2 W)))))) Hcl K0 st0 k o I Ho) as [[st1 [K1 [-> [I1 _]]]]|[-> _]]; [|destruct Ro].
  destruct (IH st1 K1 I1 Ro) as [st [K [A [B D]]]]. exists st, K. split; [econstructor; eassumption|auto].
Qed.

Lemma init_rel keep d : (forall z q, In (z, q) (rt_starts r) -> zone_fine cur keep d z) ->
  state_rel cur keep (first_n 0 r) (AllocState (map (allocator_of (nr_crops cur)) (rt_parts r)) (map AskResults (zseq 0 (Z.of_nat (length (rt_parts r)))) ++ map (fun '(id, p) => Allocate p id d) (rt_starts r))).
Proof.
  intros Hd. split; [cbn; now rewrite !map_length|]. split; cbn [first_n ws_walkers as_allocators ws_tasks as_tasks].
  - intros q w iw Ew Ei. rewrite nth_z_map in Ew. rewrite nth_z_map in Ei. destruct (nth_z q (rt_parts r)) as [pq|]; [|discriminate]. inversion Ew; inversion Ei; subst. repeat split. cbn [walker_of allocator_of wk_output al_fractions].
    unfold painted. rewrite <- (targets_length (nr_crops cur)) at 1. induction (targets (nr_crops cur)) as [|t ts IH]; [reflexivity|]. cbn [length repeat map]. f_equal; [|exact IH]. rewrite map_map. apply map_ext. reflexivity.
  - apply Forall2_app.
    + induction (zseq 0 (Z.of_nat (length (rt_parts r)))); constructor; [reflexivity|assumption].
    + revert Hd. generalize (rt_starts r). intros l0. induction l0 as [|[z q] l IH]; intros Hd; constructor; [|apply IH; intros; eapply Hd; right; eassumption]. cbn [task_rel]. split; [reflexivity|split; [reflexivity|eapply Hd; left; reflexivity]].
Qed.

Lemma painted_nth k ts out d : (k < length ts)%nat -> nth k (painted ts out) [] = map (pick (nth k ts d)) out.
Proof. revert k. induction ts as [|t ts IH]; intros [|k] L; cbn in L; try lia; [reflexivity|]. cbn [painted map nth]. apply IH. lia. Qed.

(** What a run ends with, given a choice of routes *)
Definition ends (n : Z) (d : alloc_data) : Prop :=
  exists bound, forall ks ist, alloc_run r sdp yld cur irr (AllocState (map (allocator_of (nr_crops cur)) (rt_parts r))
      (map AskResults (zseq 0 (Z.of_nat (length (rt_parts r)))) ++ map (fun '(id, p) => Allocate p id d) (rt_starts r))) ks ist ->
    (length ks <= bound)%nat /\
    (forall k o, alloc_step r sdp yld cur irr k ist = Some o -> (exists ist', o = Ok ist') \/
      (o = Throw /\ exists q w, nth_error (as_tasks ist) k = Some (AskResults q) /\ nth_z q (as_allocators ist) = Some w /\ al_ready w = 1)) /\
    (as_tasks ist = [] -> (forall w, In w (as_allocators ist) -> al_ready w = 1) /\
      forall k, (k < length cur)%nat -> exists f, raster_of a p (fractions_result r k ist) f /\
        forall x, (among_first r n x /\ f x = nth k (targets (length cur)) fzero) \/ (~ among_first r n x /\ f x = fnan)).
Lemma run_ends H C (Hr : forall z, route_hops r z (H z)) (HC : forall z, Forall2 (route_cell r) (hop_cells (H z)) (C z)) n keep d :
  fine fsdp fyld fcur firr H C n keep -> (forall z q, In (z, q) (rt_starts r) -> zone_fine cur keep d z) -> ends n d.
Proof.
  intros Fi Hd. pose proof W as [Ha [Hfit [_ [_ [_ [Hstarts [Hmap Hvis]]]]]]].
  pose proof (Hcells a p r W H C HC) as Hcl.
  pose proof (init_winv 0 n r H Hr Hmap Hstarts Hcl (wf_shape a p r W)) as I0.
  destruct (first_n_ok 0 n a p r W) as [bound F]. exists bound. intros ks ist Hrun.
  destruct (run_sim H C Hr HC n keep _ _ _ _ Fi Hrun _ I0 (init_rel keep d Hd)) as [st [K [R1 [I Rel]]]].
  destruct (F ks st R1) as [B [_ [St En]]]. split; [assumption|]. pose proof Rel as [Lw [Rw Rt]]. split.
  - intros k o Ho. assert (exists t it, nth_error (ws_tasks st) k = Some t /\ nth_error (as_tasks ist) k = Some it /\ task_rel cur keep t it) as [t [it [Et [Eit Tr]]]].
    { unfold alloc_step in Ho. destruct (nth_error (as_tasks ist) k) as [it|] eqn:Ei; [|discriminate]. destruct (Forall2_nth_r _ _ _ _ _ Rt Ei) as [t [Et Tr]]. eauto. }
    assert (exists o1, walk_step n r k st = Some o1) as [o1 Ho1] by (unfold walk_step; rewrite Et; eauto).
    destruct (step_sim a p r W sdp yld cur irr fsdp fyld fcur firr Rs Ry Rc Ri Ls Ly H C Hr HC n keep Fi K st ist k o1 I Rel Ho1) as [o' [Eo' Ro]]. rewrite Ho in Eo'. inversion Eo'; subst o'.
    destruct (St k o1 Ho1) as [[st' ->]|[-> [q [w [E1 [E2 E3]]]]]].
    + left. destruct o; try contradiction. eauto.
    + right. destruct o; try contradiction. split; [reflexivity|]. rewrite Et in E1. inversion E1; subst t. destruct it as [q'| |]; try contradiction. cbn in Tr. subst q'.
      destruct (nth_z_range q (as_allocators ist)) as [iw Eiw]; [pose proof (nth_z_in _ _ _ E2); lia|]. exists q, iw. repeat split; try assumption. destruct (Rw _ _ _ E2 Eiw) as [_ [-> _]]. assumption.
  - intros Ht. assert (Ht' : ws_tasks st = []) by (rewrite Ht in Rt; inversion Rt; reflexivity). destruct (En Ht') as [Rd [f [Rf Vf]]]. split.
    + intros iw Hw. apply In_nth_error in Hw. destruct Hw as [k Hk]. assert (Zk : nth_z (Z.of_nat k) (as_allocators ist) = Some iw) by (unfold nth_z; destruct (Z.ltb_spec (Z.of_nat k) 0); [lia|]; now rewrite Nat2Z.id).
      destruct (nth_z_range (Z.of_nat k) (ws_walkers st)) as [w Ew]; [pose proof (nth_z_in _ _ _ Zk); lia|]. destruct (Rw _ _ _ Ew Zk) as [_ [-> _]]. apply Rd. now apply nth_z_in in Ew.
    + intros k Hk. set (t := nth k (targets (length cur)) fzero). exists (fun x => pick t (f x)). split.
      * apply raster_of_listed; try assumption; [apply W|apply W|]. cbn [fractions_result pa_parts]. rewrite map_map2. unfold listed_parts. apply map2_ext_nth.
        -- apply (wf_len a p r W).
        -- pose proof (wi_len _ _ _ _ _ _ I). pose proof (wf_len a p r W). lia.
        -- intros j q iw c Eq Eiw Ec. destruct (wf_part a p r W _ _ Eq) as [c' [Ec' [Hc [Eo Es]]]]. rewrite Ec in Ec'. inversion Ec'; subst c'. cbn [pl_offset pl_shape pl_data]. rewrite Eo, Es. f_equal.
           assert (Ziw : nth_z (Z.of_nat j) (as_allocators ist) = Some iw) by (unfold nth_z; destruct (Z.ltb_spec (Z.of_nat j) 0); [lia|]; now rewrite Nat2Z.id).
           destruct (nth_z_range (Z.of_nat j) (ws_walkers st)) as [w Zw]; [pose proof (nth_z_in _ _ _ Ziw); lia|]. destruct (Rw _ _ _ Zw Ziw) as [_ [_ ->]].
           rewrite (painted_nth k _ _ fzero) by (rewrite targets_length; exact Hk). fold (nr_crops cur) in t. fold t. 
           pose proof (raster_nth a p _ f j Rf) as Rn. cbn [first_n_result pa_parts] in Rn. rewrite Ec in Rn.
           destruct (nth_error (map2 _ (rt_parts r) (ws_walkers st)) j) as [q'|] eqn:Eq'; [|contradiction]. destruct Rn as [_ [_ [_ Dq]]].
           assert (pl_data q' = wk_output w) as Dw.
           { clear - Eq' Eq Zw. unfold nth_z in Zw. destruct (Z.of_nat j <? 0); [discriminate|]. rewrite Nat2Z.id in Zw. revert Eq' Eq Zw. generalize (rt_parts r) (ws_walkers st). intros l l'. revert j l'. induction l as [|x l IH]; intros [|j] [|y l']; cbn; try discriminate.
             - intros E1 E2 E3. inversion E1; inversion E2; inversion E3; subst. reflexivity.
             - apply IH. }
           rewrite <- Dw, Dq. unfold part_cells. rewrite !map_map. reflexivity.
      * intros x. destruct (Vf x) as [[A ->]|[A ->]]; [left|right]; (split; [exact A|reflexivity]).
Qed.
End Ends.

(** ** Demand exceeds production in one of the zones *)
Lemma in_firstn_len {A} (l : list A) n x : Z.of_nat (length l) < n -> In x l -> In x (firstn (Z.to_nat n) l).
Proof. intros L. rewrite firstn_all2 by lia. auto. Qed.

Lemma unmet_ok a p r (sdp yld cur : list (parray b64)) (irr : parray b64) (fsdp fyld fcur : list (list Z -> b64)) (firr : list Z -> b64) demand production zone dz pz st :
  well_formed_route a p r -> Forall2 (raster_of a p) sdp fsdp -> Forall2 (raster_of a p) yld fyld -> Forall2 (raster_of a p) cur fcur -> raster_of a p irr firr ->
  integrate_and_allocate r sdp yld cur demand production = Ok st ->
  zfind demand zone = Some dz -> zfind production zone = Some pz -> demand_exceeds dz pz ->
  exists bound, forall ks st', alloc_run r sdp yld cur irr st ks st' ->
    (length ks <= bound)%nat /\
    (forall k o, alloc_step r sdp yld cur irr k st' = Some o -> (exists st'', o = Ok st'') \/
      (o = Throw /\ exists q w, nth_error (as_tasks st') k = Some (AskResults q) /\ nth_z q (as_allocators st') = Some w /\ al_ready w = 1)) /\
    (as_tasks st' = [] -> (forall w, In w (as_allocators st') -> al_ready w = 1) /\
      forall k, (k < length cur)%nat -> raster_of a p (fractions_result r k st') (fun _ => fnan)).
Proof.
  intros W Rs Ry Rc Ri E D P X. unfold integrate_and_allocate in E. destruct (Nat.eqb (length sdp) (nr_crops cur) && Nat.eqb (length yld) (nr_crops cur)) eqn:L; [|discriminate].
  apply andb_true_iff in L. destruct L as [L1 L2]. apply Nat.eqb_eq in L1, L2. destruct (data_of demand production) as [d| |] eqn:Ed; try discriminate. cbn [obind] in E. inversion E; subst st. clear E.
  pose proof (data_unmet _ _ _ _ _ _ Ed D P X) as Kf.
  pose proof W as [Ha [Hfit [_ [_ [_ [Hstarts [Hmap Hvis]]]]]]]. destruct (visits_choice r Hvis) as [H [C [Hr [HC HC0]]]].
  destruct (run_ends a p r W sdp yld cur irr fsdp fyld fcur firr Rs Ry Rc Ri L1 L2 H C Hr HC 0 false d) as [bound F]; [left; auto|intros z q _; split; [exact Kf|discriminate]|].
  exists bound. intros ks st' R. destruct (F ks st' R) as [A [B Cc]]. split; [exact A|]. split; [exact B|]. intros T. destruct (Cc T) as [C1 C2]. split; [exact C1|]. intros k Hk. destruct (C2 k Hk) as [f [Rf Vf]].
  assert (Ef : forall x, f x = fnan). { intros x. destruct (Vf x) as [[[id [cells [_ Hin]]] _]|[_ Ex]]; [cbn in Hin; destruct Hin|exact Ex]. }
  apply raster_of_listed; try assumption; [apply W|apply W|]. pose proof (raster_listed _ _ _ _ Rf) as RL. rewrite RL. unfold listed_parts. apply map_ext. intros c. f_equal. apply map_ext. intros x. apply Ef.
Qed.

(** ** All demands are met *)
Lemma met_ok a p r (sdp yld cur : list (parray b64)) (irr : parray b64) (fsdp fyld fcur : list (list Z -> b64)) (firr : list Z -> b64) demand production :
  well_formed_route a p r -> Forall2 (raster_of a p) sdp fsdp -> Forall2 (raster_of a p) yld fyld -> Forall2 (raster_of a p) cur fcur -> raster_of a p irr firr ->
  length sdp = length cur -> length yld = length cur -> cur <> [] ->
  NoDup (map fst demand) ->
  (forall zone dz, zfind demand zone = Some dz -> exists pz, zfind production zone = Some pz /\ length pz = length dz /\ demand_is_met dz pz) ->
  (forall zone q, zfind (rt_starts r) zone = Some q -> exists dz, zfind demand zone = Some dz /\ length dz = length cur) ->
  (forall x, on_route r x -> is_zero (firr x) /\ Forall (fun f => is_nan (f x) = false) (fsdp ++ fyld ++ fcur)) ->
  exists st, integrate_and_allocate r sdp yld cur demand production = Ok st /\
  exists bound, forall ks st', alloc_run r sdp yld cur irr st ks st' ->
    (length ks <= bound)%nat /\
    (forall k o, alloc_step r sdp yld cur irr k st' = Some o -> (exists st'', o = Ok st'') \/
      (o = Throw /\ exists q w, nth_error (as_tasks st') k = Some (AskResults q) /\ nth_z q (as_allocators st') = Some w /\ al_ready w = 1)) /\
    (as_tasks st' = [] -> (forall w, In w (as_allocators st') -> al_ready w = 1) /\
      forall k, (k < length cur)%nat -> exists f, raster_of a p (fractions_result r k st') f /\
        forall x, (on_route r x /\ f x = if Nat.eqb k 0 then fone else fzero) \/ (~ on_route r x /\ f x = fnan)).
Proof.
  intros W Rs Ry Rc Ri L1 L2 N ND M Z V. destruct (data_met demand production ND M) as (d & Ed & Kd & Dd & Dp & Dm).
  unfold integrate_and_allocate. assert (Nat.eqb (length sdp) (nr_crops cur) && Nat.eqb (length yld) (nr_crops cur) = true) as EL by (apply andb_true_iff; split; now apply Nat.eqb_eq). eexists. split; [rewrite EL, Ed; reflexivity|].
  pose proof W as [Ha [Hfit [_ [_ [_ [Hstarts [Hmap Hvis]]]]]]]. destruct (visits_choice r Hvis) as [H [C [Hr [HC HC0]]]].
  assert (VC : forall z, visits r z (C z)) by (intros z; exists (H z); split; [apply Hr|apply HC]).
  set (n := 1 + Z.of_nat (list_max (map (fun e => length (C (fst e))) (rt_starts r)))).
  assert (Bn : forall z, Z.of_nat (length (C z)) < n).
  { intros z. destruct (in_dec Z.eq_dec z (map fst (rt_starts r))) as [Hz|Hz]; [|rewrite (HC0 z Hz); unfold n; cbn [length]; pose proof (Nat2Z.is_nonneg (list_max (map (fun e => length (C (fst e))) (rt_starts r)))); lia]. apply in_map_iff in Hz. destruct Hz as [e [<- He]].
    pose proof (proj1 (list_max_le (map (fun e => length (C (fst e))) (rt_starts r)) (list_max (map (fun e => length (C (fst e))) (rt_starts r)))) (Nat.le_refl _)) as Lm. rewrite Forall_forall in Lm.
    assert (length (C (fst e)) <= list_max (map (fun e => length (C (fst e))) (rt_starts r)))%nat by (apply Lm; apply in_map_iff; eauto). unfold n. lia. }
  destruct (run_ends a p r W sdp yld cur irr fsdp fyld fcur firr Rs Ry Rc Ri L1 L2 H C Hr HC n true d) as [bound F].
  { right. split; [reflexivity|]. split; [intros z; rewrite (two_length _ _ _ (HC z)); apply Bn|]. intros z x Hx. apply V. exists z, (C z). auto. }
  { intros z q Hz. split; [exact Kd|]. intros _. assert (Ez : exists q', zfind (rt_starts r) z = Some q').
    { clear - Hz. induction (rt_starts r) as [|[k v] l IH]; [destruct Hz|]. cbn [zfind]. destruct (Z.eqb_spec k z) as [->|Hne]; [eauto|]. destruct Hz as [Hz|Hz]; [inversion Hz; congruence|]. now apply IH. }
    destruct Ez as [q' Ez]. destruct (Z z q' Ez) as [dz [E1 E2]]. destruct (M z dz E1) as [pz [E3 [E4 _]]]. unfold zone_ready. split; [destruct cur; [congruence|cbn; lia]|].
    split; [rewrite (Dm z dz E1); f_equal; unfold nr_crops; rewrite <- E2; clear; induction dz; cbn; congruence|]. rewrite Dd, Dp. split; eexists; (split; [eassumption|]); unfold nr_crops; congruence. }
  exists bound. intros ks st' R. destruct (F ks st' R) as [A [B Cc]]. split; [exact A|]. split; [exact B|]. intros T. destruct (Cc T) as [C1 C2]. split; [exact C1|]. intros k Hk. destruct (C2 k Hk) as [f [Rf Vf]].
  exists f. split; [exact Rf|]. intros x. assert (Et : nth k (targets (length cur)) fzero = if Nat.eqb k 0 then fone else fzero).
  { destruct (length cur) as [|m]; [lia|]. destruct k as [|k]; [reflexivity|]. cbn [targets nth Nat.eqb]. destruct (Nat.lt_ge_cases k m); [now apply nth_repeat'|]. apply nth_overflow. rewrite repeat_length. lia. }
  rewrite <- Et. destruct (Vf x) as [[[id [cells [Vi Hi]]] E]|[Na E]]; [left|right]; (split; [|exact E]).
  - exists id, cells. split; [exact Vi|]. clear - Hi. revert Hi. generalize (Z.to_nat n). intros m. revert cells. induction m as [|m IH]; intros [|y l]; cbn; try tauto. intros [E|E]; [now left|right; now apply IH].
  - intros [id [cells [Vi Hi]]]. apply Na. exists id, cells. split; [exact Vi|]. apply in_firstn_len; [|exact Hi]. rewrite (visits_unique r id cells (C id) Vi (VC id)). apply Bn.
Qed.

(** ** Productions *)
Definition zeros (m : zmap (list b64)) : Prop := Forall (fun e => Forall (fun v => v = fzero) (snd e)) m.
Definition silent (w : allocator) : Prop := zeros (al_productions w) /\ zeros (al_delivered w).
Lemma hand_over_silent w w' : silent w -> hand_over_if_walked w = Ok w' -> silent w'.
Proof.
  intros [A B]. unfold hand_over_if_walked, hand_over. destruct (is_nil (al_idxs w)); [|intros E; inversion E; subst; split; assumption].
  destruct (0 <? al_ready w); [discriminate|]. intros E. inversion E; subst. split; cbn; [constructor|exact A].
Qed.
Lemma next_silent w id i nf fr w' : silent w -> next_allocation w id i nf fr = Ok w' -> silent w'.
Proof.
  intros S. unfold next_allocation. destruct (i =? nf); [apply hand_over_silent; exact S|]. intros E. inversion E; subst. exact S.
Qed.
Lemma task_silent nr t q inputs w w' sp : silent w -> run_alloc_task nr t q inputs w = Ok (w', sp) -> silent w'.
Proof.
  intros S. destruct t as [q'|q' id d|q' id]; cbn [run_alloc_task].
  - destruct (hand_over_if_walked w) as [w1| |] eqn:E; try discriminate. cbn [obind]. intros E'. inversion E'; subst. eapply hand_over_silent; eassumption.
  - unfold allocate_walk. destruct (zfind (pl_data q) id); [|discriminate]. destruct (zfind (al_idxs w) id); [|discriminate]. destruct (at_z _ _) as [f| |]; try discriminate. cbn [obind].
    destruct (allocate_cells _ _ _ _ _ _) as [[fr d']| |]; try discriminate. cbn [obind]. destruct (fr_next f).
    + destruct (next_allocation _ _ _ _ _) as [w1| |] eqn:E; try discriminate. cbn [obind]. intros E'. inversion E'; subst. eapply next_silent; eassumption.
    + destruct (_ =? _); [|discriminate]. destruct (next_allocation _ _ _ _ _) as [w1| |] eqn:E; try discriminate. cbn [obind]. intros E'. inversion E'; subst. eapply next_silent; eassumption.
  - unfold allocate_skip. destruct (zfind (pl_data q) id); [|discriminate]. destruct (zfind (al_idxs w) id); [|discriminate]. destruct (at_z _ _) as [f| |]; try discriminate. cbn [obind].
    destruct (next_allocation _ _ _ _ _) as [w1| |] eqn:E; try discriminate. cbn [obind]. intros E'. inversion E'; subst. eapply next_silent; eassumption.
Qed.
Lemma Forall_upd {A} (P : A -> Prop) i x l l' : Forall P l -> P x -> upd_z i x l = Some l' -> Forall P l'.
Proof.
  unfold upd_z. destruct (i <? 0); [discriminate|]. generalize (Z.to_nat i). intros k F Px. revert k l'. induction F as [|y l Py F IH]; intros [|k] l' E; cbn in E; try discriminate.
  - inversion E. constructor; assumption.
  - destruct (upd_nth k x l) eqn:E'; [|discriminate]. inversion E. constructor; [exact Py|eapply IH; exact E'].
Qed.
Lemma step_silent r sdp yld cur irr k st st' : Forall silent (as_allocators st) -> alloc_step r sdp yld cur irr k st = Some (Ok st') -> Forall silent (as_allocators st').
Proof.
  intros S. unfold alloc_step. destruct (nth_error (as_tasks st) k) as [t|]; [|discriminate]. cbv zeta. destruct (nth_z _ (rt_parts r)) as [q|]; [|discriminate]. destruct (nth_z _ (as_allocators st)) as [w|] eqn:Ew; [|discriminate].
  destruct (inputs_at _ _ _ _ _) as [i| |]; try discriminate. cbn [obind]. destruct (run_alloc_task _ _ _ _ _) as [[w' sp]| |] eqn:E; try discriminate. cbn [obind]. destruct (upd_z _ _ _) as [al|] eqn:Eu; [|discriminate]. intros X. inversion X; subst. cbn [as_allocators].
  eapply Forall_upd; [exact S| |exact Eu]. eapply task_silent; [|exact E]. rewrite Forall_forall in S. apply S. now apply nth_z_in in Ew.
Qed.
Lemma zeros_set m k v : zeros m -> Forall (fun x => x = fzero) v -> zeros (zset_map m k v).
Proof.
  intros Zm Zv. induction Zm as [|[k' v'] m Z1 Zm IH]; cbn [zset_map]; [constructor; [exact Zv|constructor]|]. destruct (_ =? _); constructor; cbn; assumption.
Qed.
Lemma merge_zeros l : forall m, zeros m -> zeros l -> zeros (fold_left merge_productions l m).
Proof.
  induction l as [|[k v] l IH]; intros m Zm Zl; [exact Zm|]. inversion Zl; subst. cbn [fold_left]. apply IH; [|assumption]. unfold merge_productions. cbn [fst snd] in *. destruct (zfind m k) as [u|] eqn:E.
  - apply zeros_set; [exact Zm|]. apply zfind_In in E. unfold zeros in Zm. rewrite Forall_forall in Zm. specialize (Zm _ E). cbn in Zm. clear - Zm H1. revert v H1. induction Zm as [|x u Hx Zm IH]; intros [|y v] Hv; cbn [map2]; try constructor.
    + inversion Hv; subst. reflexivity.
    + inversion Hv; subst. now apply IH.
  - apply zeros_set; assumption.
Qed.
Lemma productions_zero r sdp yld cur irr demand production st ks st' zone l :
  integrate_and_allocate r sdp yld cur demand production = Ok st -> alloc_run r sdp yld cur irr st ks st' -> zfind (productions_result st') zone = Some l -> Forall (fun v => v = fzero) l.
Proof.
  intros E R F. assert (S0 : Forall silent (as_allocators st)).
  { unfold integrate_and_allocate in E. destruct (_ && _); [|discriminate]. destruct (data_of _ _); try discriminate. inversion E; subst. cbn [as_allocators]. apply Forall_map'. apply Forall_forall. intros q _. split; [|constructor].
    cbn [allocator_of al_productions]. apply Forall_map'. apply Forall_forall. intros [id fs] _. cbn. apply Forall_forall. intros v Hv. now apply repeat_spec in Hv. }
  assert (S1 : Forall silent (as_allocators st')). { clear E F. induction R as [st|st k st1 ks st2 Hs R IH]; [exact S0|]. apply IH. eapply step_silent; eassumption. }
  assert (Zr : zeros (productions_result st')).
  { unfold productions_result. revert S1. generalize (as_allocators st'). intros ws S1. assert (G : forall m, zeros m -> zeros (fold_left (fun result w => fold_left merge_productions (al_delivered w) result) ws m)); [|apply G; constructor].
    induction S1 as [|w ws [_ Sw] S1 IH]; intros m Zm; [exact Zm|]. cbn [fold_left]. apply IH. now apply merge_zeros. }
  unfold zeros in Zr. rewrite Forall_forall in Zr. apply zfind_In in F. exact (Zr _ F).
Qed.
