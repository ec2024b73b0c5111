(** Proofs about integration along routes, continued: runs, and the array that results. *)
From Verif Require Import Common CommonProofs CoreSpec DecompSpec ArraySpec AggregateSpec IndexModel IndexProofs DecompModel DecompProofs ArrayModel ArrayRep ArrayProofs LocalProofs AggregateProofs ZonalModel ZonalProofs
  RasterCheck FlowProofs StreamProofs OrderModel OrderSpec OrderProofs OrderProofs2 OrderProofs3 OrderProofs4 OrderProofs5 WalkModel WalkSpec WalkProofs WalkProofs2 WalkProofs3 WalkProofs4
  IntegrateModel IntegrateSpec IntegrateProofs.

Fixpoint position (x : list Z) (l : list (list Z)) : option nat :=
  match l with [] => None | y :: l' => if list_eq_dec Z.eq_dec x y then Some 0%nat else option_map S (position x l') end.
Lemma position_some x l k : position x l = Some k -> nth_error l k = Some x.
Proof.
  revert k. induction l as [|y l IH]; intros k Hk; cbn [position] in Hk; [discriminate|]. destruct (list_eq_dec Z.eq_dec x y) as [->|]; [inversion Hk; reflexivity|].
  destruct (position x l); [|discriminate]. inversion Hk. now apply IH.
Qed.
Lemma position_none x l : position x l = None -> ~ In x l.
Proof.
  induction l as [|y l IH]; cbn [position]; [auto|]. destruct (list_eq_dec Z.eq_dec x y) as [->|Hne]; [discriminate|]. destruct (position x l); [discriminate|]. intros _ [E|E]; [congruence|]. now apply IH.
Qed.

Section Ends.
Context {E : Type} (zero : E) (plus : E -> E -> E) (nd : E -> bool) (no_data : E) (n : Z).
Context (a p : list Z) (r : serial_route) (W : well_formed_route a p r) (integrand : parray E) (g : list Z -> E) (Hg : raster_of a p integrand g) (Once : visited_once r).

Lemma run_sim H C (Hr : forall z, route_hops r z (H z)) (HC : forall z, Forall2 (route_cell r) (hop_cells (H z)) (C z)) st0 ist0 ks ist :
  integrate_run zero plus nd n r integrand ist0 ks ist -> forall K0, winv 0 n r H K0 st0 -> state_rel zero plus nd no_data g H C st0 ist0 ->
  exists st K, walk_run n r st0 ks st /\ winv 0 n r H K st /\ state_rel zero plus nd no_data g H C st ist.
Proof.
  intros R. revert st0. induction R as [ist|ist k ist1 ks ist2 Hs R IH]; intros st0 K0 I Rel; [exists st0, K0; split; [constructor|auto]|].
  pose proof (Hcells a p r W H C HC) as Hcl.
  assert (exists o, walk_step n r k st0 = Some o) as [o Ho].
  { unfold integrate_step in Hs. unfold walk_step. destruct (nth_error (is_tasks ist) k) as [it|] eqn:Ei; [|discriminate].
    destruct (Forall2_nth_r _ _ _ _ _ (proj2 (proj2 Rel)) Ei) as [t [-> _]]. eauto. }
  destruct (step_sim zero plus nd no_data n a p r W integrand g Hg Once H C Hr HC K0 st0 ist k o I Rel Ho) as [o' [Eo' Ro]]. rewrite Hs in Eo'. inversion Eo'; subst o'.
  destruct (step_cases 0 n r H Hr (proj1 (proj2 (proj2 (proj2 (proj2 (proj2 (proj2 W))))))) (proj1 (proj2 (proj2 (proj2 (proj2 (proj2 W)))))) Hcl K0 st0 k o I Ho) as [[st1 [K1 [-> [I1 _]]]]|[-> _]]; [|destruct Ro].
  destruct (IH st1 K1 I1 Ro) as [st [K [A [B D]]]]. exists st, K. split; [econstructor; eassumption|auto].
Qed.

Lemma integrate_ok :
  exists bound, forall ks ist, integrate_run zero plus nd n r integrand (integrate no_data r) ks ist ->
    (length ks <= bound)%nat /\
    (forall k o, integrate_step zero plus nd n r integrand k ist = Some o -> (exists ist', o = Ok ist') \/
      (o = Throw /\ exists q w, nth_error (is_tasks ist) k = Some (AskResult q) /\ nth_z q (is_integrators ist) = Some w /\ ig_ready w = 1)) /\
    (is_tasks ist = [] -> (forall w, In w (is_integrators ist) -> ig_ready w = 1) /\
      exists f, raster_of a p (integrate_result r ist) f /\ forall x, integral_at zero plus nd no_data r n g x (f x)).
Proof.
  pose proof W as [Ha [Hfit [_ [_ [_ [Hstarts [Hmap Hvis]]]]]]]. destruct (visits_choice r Hvis) as [H [C [Hr [HC HC0]]]].
  pose proof (Hcells a p r W H C HC) as Hcl.
  pose proof (init_winv 0 n r H Hr Hmap Hstarts Hcl (wf_shape a p r W)) as I0.
  destruct (first_n_ok 0 n a p r W) as [bound F]. exists bound. intros ks ist Hrun.
  destruct (run_sim H C Hr HC _ _ _ _ Hrun _ I0 (init_rel zero plus nd no_data r g H C)) as [st [K [R1 [I Rel]]]].
  destruct (F ks st R1) as [B [_ [St En]]]. split; [assumption|]. pose proof Rel as [Lw [Rw Rt]]. split.
  - intros k o Ho. assert (exists t it, nth_error (ws_tasks st) k = Some t /\ nth_error (is_tasks ist) k = Some it /\ task_rel zero plus nd g C t it) as [t [it [Et [Eit Tr]]]].
    { unfold integrate_step in Ho. destruct (nth_error (is_tasks ist) k) as [it|] eqn:Ei; [|discriminate]. destruct (Forall2_nth_r _ _ _ _ _ Rt Ei) as [t [Et Tr]]. eauto. }
    assert (exists o1, walk_step n r k st = Some o1) as [o1 Ho1] by (unfold walk_step; rewrite Et; eauto).
    destruct (step_sim zero plus nd no_data n a p r W integrand g Hg Once H C Hr HC K st ist k o1 I Rel Ho1) as [o' [Eo' Ro]]. rewrite Ho in Eo'. inversion Eo'; subst o'.
    destruct (St k o1 Ho1) as [[st' ->]|[-> [q [w [E1 [E2 E3]]]]]].
    + left. destruct o; try contradiction. eauto.
    + right. destruct o; try contradiction. split; [reflexivity|]. rewrite Et in E1. inversion E1; subst t. destruct it as [q'| |]; try contradiction. cbn in Tr. subst q'.
      destruct (nth_z_range q (is_integrators ist)) as [iw Eiw]; [pose proof (nth_z_in _ _ _ E2); lia|]. exists q, iw. repeat split; try assumption. destruct (Rw _ _ _ E2 Eiw) as [_ [-> _]]. assumption.
  - intros Ht. assert (Ht' : ws_tasks st = []) by (rewrite Ht in Rt; inversion Rt; reflexivity). destruct (En Ht') as [Rd _]. split.
    + intros iw Hw. apply In_nth_error in Hw. destruct Hw as [k Hk]. assert (Zk : nth_z (Z.of_nat k) (is_integrators ist) = Some iw) by (unfold nth_z; destruct (Z.ltb_spec (Z.of_nat k) 0); [lia|]; now rewrite Nat2Z.id).
      destruct (nth_z_range (Z.of_nat k) (ws_walkers st)) as [w Ew]; [pose proof (nth_z_in _ _ _ Zk); lia|]. destruct (Rw _ _ _ Ew Zk) as [_ [-> _]]. apply Rd. now apply nth_z_in in Ew.
    + assert (HK : forall z, K z = length (H z)).
      { eapply end_winv; eauto using (wf_shape a p r W). }
      set (f := fun x => match find (fun e => match position x (C (fst e)) with Some k => Z.of_nat k <? n | None => false end) (rt_starts r) with
                         | Some e => match position x (C (fst e)) with Some k => expected zero plus nd no_data g C (fst e) k x | None => no_data end
                         | None => no_data end).
      assert (VC : forall z, visits r z (C z)) by (intros z; exists (H z); split; [apply Hr|apply HC]).
      assert (Fin : forall z k x, nth_error (C z) k = Some x -> Z.of_nat k < n -> f x = expected zero plus nd no_data g C z k x).
      { intros z k x Hk Hkn. unfold f. destruct (find _ (rt_starts r)) as [e|] eqn:Ef.
        - apply find_some in Ef. destruct Ef as [_ Ef]. destruct (position x (C (fst e))) as [k'|] eqn:Ek; [|discriminate]. apply position_some in Ek.
          destruct (Once (fst e) z (C (fst e)) (C z) k' k x (VC _) (VC _) Ek Hk) as [-> ->]. reflexivity.
        - exfalso. destruct (in_dec Z.eq_dec z (map fst (rt_starts r))) as [Hz|Hz]; [|rewrite (HC0 z Hz) in Hk; destruct k; discriminate].
          apply in_map_iff in Hz. destruct Hz as [e [<- He]]. pose proof (find_none _ _ Ef e He) as Fe. cbn beta in Fe. destruct (position x (C (fst e))) as [k'|] eqn:Ek.
          + apply position_some in Ek. destruct (Once _ _ _ _ _ _ _ (VC (fst e)) (VC (fst e)) Ek Hk) as [_ ->]. apply Z.ltb_ge in Fe. lia.
          + apply position_none in Ek. apply Ek. eapply nth_error_In; exact Hk. }
      assert (Fout : forall x, (forall z k, nth_error (C z) k = Some x -> ~ Z.of_nat k < n) -> f x = no_data).
      { intros x Hx. unfold f. destruct (find _ (rt_starts r)) as [e|] eqn:Ef; [|reflexivity]. apply find_some in Ef. destruct Ef as [_ Ef]. destruct (position x (C (fst e))) as [k'|] eqn:Ek; [|reflexivity].
        exfalso. apply position_some in Ek. apply (Hx _ _ Ek). now apply Z.ltb_lt. }
      exists f. split.
      * apply raster_of_listed; try assumption.
        -- apply W.
        -- apply W.
        -- cbn [integrate_result pa_parts]. rewrite map_map2. unfold listed_parts. apply map2_ext_nth.
           ++ apply (wf_len a p r W).
           ++ pose proof (wi_len _ _ _ _ _ _ I). pose proof (wf_len a p r W). lia.
           ++ intros k q iw c Eq Eiw Ec. destruct (wf_part a p r W _ _ Eq) as [c' [Ec' [Hc [Eo Es]]]]. rewrite Ec in Ec'. inversion Ec'; subst c'. cbn [pl_offset pl_shape pl_data]. rewrite Eo, Es. f_equal.
              assert (Zq : nth_z (Z.of_nat k) (rt_parts r) = Some q) by (unfold nth_z; destruct (Z.ltb_spec (Z.of_nat k) 0); [lia|]; now rewrite Nat2Z.id).
              assert (Ziw : nth_z (Z.of_nat k) (is_integrators ist) = Some iw) by (unfold nth_z; destruct (Z.ltb_spec (Z.of_nat k) 0); [lia|]; now rewrite Nat2Z.id).
              destruct (nth_z_range (Z.of_nat k) (ws_walkers st)) as [w Zw]; [pose proof (nth_z_in _ _ _ Ziw); lia|].
              destruct (wi_out _ _ _ _ _ _ I _ q w Zq Zw) as [Lo Ho]. rewrite Es in Lo, Ho. destruct (Rw _ _ _ Zw Ziw) as [_ [_ [Li Ro]]].
              rewrite <- (map_map (vadd (part_offset p c)) f). fold (part_cells a p c).
              pose proof (nr_elements_cells a p c Ha Hfit Hc) as Ln. rewrite Ln in Lo, Ho.
              apply nth_error_ext. intros i. rewrite nth_error_map. destruct (nth_error (part_cells a p c) i) as [x|] eqn:Ex; cbn [option_map].
              ** assert (Hi : (i < length (part_cells a p c))%nat) by (apply nth_error_Some; congruence).
                 assert (Hcell : route_cell r (Z.of_nat k, Z.of_nat i) x).
                 { destruct (part_cells_nth a p c (Z.of_nat i) x) as [y [Y1 [Y2 Y3]]]; [unfold nth_z; destruct (Z.ltb_spec (Z.of_nat i) 0); [lia|]; now rewrite Nat2Z.id|].
                   exists q, y. rewrite Es, Eo. auto. }
                 assert (En' : nth_z (Z.of_nat i) (ig_output iw) = nth_error (ig_output iw) i) by (unfold nth_z; destruct (Z.ltb_spec (Z.of_nat i) 0); [lia|]; now rewrite Nat2Z.id).
                 rewrite <- En'. destruct (Ro (Z.of_nat i)) as [O0 [O1 _]]. destruct (Ho (Z.of_nat i) ltac:(lia)) as [[M Eout]|[M Eout]].
                 --- destruct M as [z Hz]. unfold walked in Hz. rewrite HK, firstn_all in Hz. apply In_nth_error in Hz. destruct Hz as [j Hj].
                     assert (Hjn : (j < Z.to_nat n)%nat /\ nth_error (hop_cells (H z)) j = Some (Z.of_nat k, Z.of_nat i)).
                     { destruct (Nat.lt_ge_cases j (Z.to_nat n)) as [L|L].
                       - split; [assumption|]. rewrite <- Hj. clear - L. revert j L. generalize (Z.to_nat n) (hop_cells (H z)). intros m. induction m as [|m IH]; intros [|y l] [|j] L; cbn; try reflexivity; try lia. apply IH. lia.
                       - exfalso. assert (nth_error (firstn (Z.to_nat n) (hop_cells (H z))) j = None) as X by (apply nth_error_None; rewrite firstn_length; lia). congruence. }
                     destruct Hjn as [Hjn Hj']. destruct (Forall2_nth_l _ _ _ _ _ (HC z) Hj') as [x' [Ex' Rx']].
                     assert (x' = x) as ->.
                     { destruct Hcell as [q1 [y1 [A1 [A2 [A3 A4]]]]], Rx' as [q2 [y2 [B1 [B2 [B3 B4]]]]]. rewrite A1 in B1. inversion B1; subst q2. subst x x'. f_equal. apply (rowmaj_inj (pl_shape q1)); congruence. }
                     rewrite (O1 Eout z j x Hj' Ex'). f_equal. symmetry. apply Fin; [assumption|lia].
                 --- rewrite (O0 Eout). f_equal. symmetry. apply Fout. intros z j Hj Hjn. apply M. exists z. unfold walked. rewrite HK, firstn_all.
                     destruct (Forall2_nth_r _ _ _ _ _ (HC z) Hj) as [at_ [Hat Rat]]. rewrite (route_cell_inj a p r W _ _ _ Hcell Rat).
                     apply nth_error_In with j. clear - Hat Hjn. assert (L : (j < Z.to_nat n)%nat) by lia. clear Hjn. revert j L Hat. generalize (Z.to_nat n) (hop_cells (H z)). intros m. induction m as [|m IH]; intros [|y l] [|j] L Hj; cbn in *; try assumption; try lia; try discriminate. apply IH; [lia|assumption].
              ** apply nth_error_None. apply nth_error_None in Ex. lia.
      * intros x. destruct (find (fun e => match position x (C (fst e)) with Some k => Z.of_nat k <? n | None => false end) (rt_starts r)) as [e|] eqn:Ef.
        -- apply find_some in Ef. destruct Ef as [_ Ef]. destruct (position x (C (fst e))) as [k|] eqn:Ek; [|discriminate]. apply position_some in Ek. apply Z.ltb_lt in Ef.
           rewrite (Fin _ _ _ Ek Ef). unfold expected, acc. destruct (nd (g x)) eqn:End; [right|left].
           ++ split; [intros; assumption|reflexivity].
           ++ exists (fst e), (C (fst e)), k. auto.
        -- right. assert (Hno : forall z k, nth_error (C z) k = Some x -> ~ Z.of_nat k < n).
           { intros z k Hk Hkn. destruct (in_dec Z.eq_dec z (map fst (rt_starts r))) as [Hz|Hz]; [|rewrite (HC0 z Hz) in Hk; destruct k; discriminate].
             apply in_map_iff in Hz. destruct Hz as [e [<- He]]. pose proof (find_none _ _ Ef e He) as Fe. cbn beta in Fe. destruct (position x (C (fst e))) as [k'|] eqn:Ek.
             + apply position_some in Ek. destruct (Once _ _ _ _ _ _ _ (VC (fst e)) (VC (fst e)) Ek Hk) as [_ ->]. apply Z.ltb_ge in Fe. lia.
             + apply position_none in Ek. apply Ek. eapply nth_error_In; exact Hk. }
           split; [|now apply Fout]. intros id cells k V Hk Hkn. exfalso. rewrite (visits_unique r id cells (C id) V (VC id)) in Hk. now apply (Hno _ _ Hk).
Qed.
End Ends.
