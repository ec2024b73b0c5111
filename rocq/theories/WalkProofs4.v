(** Proofs about walks along routes, continued: walks after the partitions have been asked for, and routes along decreasing values. *)
From Verif Require Import Common CommonProofs CoreSpec DecompSpec ArraySpec AggregateSpec IndexModel IndexProofs DecompModel DecompProofs ArrayModel ArrayRep ArrayProofs AggregateProofs ZonalModel ZonalProofs
  RasterCheck FlowProofs StreamProofs OrderModel OrderSpec OrderProofs OrderProofs2 OrderProofs3 OrderProofs4 OrderProofs5 WalkModel WalkSpec WalkProofs WalkProofs2 WalkProofs3.

Definition not_delivered (st : walk_state) : Prop := forall q w, In (ResultPartition q) (ws_tasks st) -> nth_z q (ws_walkers st) = Some w -> wk_ready w = 0.
Lemma spawned_no_result n t q w w' spawned p : run_walk_task n t q w = Ok (w', spawned) -> ~ In (ResultPartition p) spawned.
Proof.
  destruct t as [p0|p0 id v|p0 id]; cbn [run_walk_task].
  - unfold result_partition. destruct (finish_if_walked w); cbn [obind]; intros E; [|discriminate..]. inversion E. intros [].
  - unfold walk. destruct (zfind (pl_data q) id) as [fs|]; [|discriminate]. destruct (zfind (wk_idxs w) id) as [i|]; [|discriminate]. destruct (at_z fs i) as [f| |]; cbn [obind]; [|discriminate..].
    destruct (mark_cells n (fr_cells f) (wk_output w) v) as [[out v']| |]; cbn [obind]; [|discriminate..]. destruct (fr_next f) as [p1|].
    + destruct (advance _ _ _ _ _); cbn [obind]; intros E; [|discriminate..]. inversion E. intros [E'|[]]. destruct (keep_walking n v'); discriminate.
    + destruct (_ =? _); [|discriminate]. destruct (advance _ _ _ _ _); cbn [obind]; intros E; [|discriminate..]. inversion E. intros [].
  - unfold skip_walking_route_fragments. destruct (zfind (pl_data q) id) as [fs|]; [|discriminate]. destruct (zfind (wk_idxs w) id) as [i|]; [|discriminate]. destruct (at_z fs i) as [f| |]; cbn [obind]; [|discriminate..].
    destruct (advance _ _ _ _ _); cbn [obind]; intros E; [|discriminate..]. inversion E. destruct (fr_next f); [intros [E'|[]]; discriminate|intros []].
Qed.
Lemma results_nodup_split (ts : list walk_task) k p : nth_error ts k = Some (ResultPartition p) -> NoDup (filter is_result ts) -> ~ In (ResultPartition p) (firstn k ts ++ skipn (S k) ts).
Proof.
  intros E ND. pose proof (split_nth _ _ _ E) as S. rewrite S in ND. rewrite filter_app in ND. cbn [filter is_result] in ND. apply NoDup_remove_2 in ND. intros Hin. apply ND.
  apply in_app_iff in Hin. apply in_app_iff. destruct Hin; [left|right]; apply filter_In; auto.
Qed.
Lemma ordered_step n r k st st' : NoDup (filter is_result (ws_tasks st)) -> not_delivered st -> result_first st k -> walk_step n r k st = Some (Ok st') -> not_delivered st'.
Proof.
  intros ND Hnd Hrf Hs. unfold walk_step in Hs. unfold result_first in Hrf. destruct (nth_error (ws_tasks st) k) as [t|] eqn:Et; [|discriminate]. cbv zeta in Hs.
  destruct (nth_z (walk_task_partition t) (rt_parts r)) as [q|]; [|discriminate]. destruct (nth_z (walk_task_partition t) (ws_walkers st)) as [w|] eqn:Ew; [|discriminate].
  destruct (run_walk_task n t q w) as [[w' spawned]| |] eqn:Er; cbn [obind] in Hs; [|discriminate..].
  destruct (upd_z (walk_task_partition t) w' (ws_walkers st)) as [walkers|] eqn:Eu; [|discriminate]. inversion Hs; subst st'. clear Hs.
  intros q1 w1 Hin Hw1. cbn [ws_tasks ws_walkers] in *. rewrite (nth_z_upd _ _ _ _ q1 Eu) in Hw1.
  assert (Hin' : In (ResultPartition q1) (firstn k (ws_tasks st) ++ skipn (S k) (ws_tasks st))).
  { rewrite app_assoc in Hin. apply in_app_iff in Hin. destruct Hin as [Hin|Hin]; [assumption|]. exfalso. eapply spawned_no_result; eassumption. }
  assert (Hin2 : In (ResultPartition q1) (ws_tasks st)).
  { rewrite (split_nth _ _ _ Et). apply in_app_iff in Hin'. apply in_app_iff. cbn [In]. tauto. }
  destruct (Z.eqb_spec q1 (walk_task_partition t)) as [E|E]; [|now apply (Hnd q1)].
  exfalso. subst q1. destruct t as [p|p id v|p id]; cbn [walk_task_partition] in *; [|contradiction..]. now apply (results_nodup_split _ _ _ Et ND).
Qed.

Lemma first_n_ok no_data n a p r : well_formed_route a p r ->
  exists bound, forall ks st, walk_run n r (first_n no_data r) ks st ->
    (length ks <= bound)%nat /\ NoDup (filter is_result (ws_tasks st)) /\
    (forall k o, walk_step n r k st = Some o -> (exists st', o = Ok st') \/
      (o = Throw /\ exists q w, nth_error (ws_tasks st) k = Some (ResultPartition q) /\ nth_z q (ws_walkers st) = Some w /\ wk_ready w = 1)) /\
    (ws_tasks st = [] -> (forall w, In w (ws_walkers st) -> wk_ready w = 1) /\
      exists f, raster_of a p (first_n_result r st) f /\ forall x, (among_first r n x /\ f x = 1) \/ (~ among_first r n x /\ f x = no_data)).
Proof.
  intros W. pose proof W as [Ha [Hfit [_ [_ [_ [Hstarts [Hmap Hvis]]]]]]]. destruct (visits_choice r Hvis) as [H [C [Hr [HC HC0]]]].
  assert (Hcells : forall z q i, In (q, i) (hop_cells (H z)) -> exists pq, nth_z q (rt_parts r) = Some pq /\ 0 <= i < nr_elements (pl_shape pq)).
  { intros z q i Hin. destruct (forall2_in_l _ _ _ _ (HC z) Hin) as [x [_ Hx]]. now apply (route_cell_range a p r W) in Hx. }
  pose proof (init_winv no_data n r H Hr Hmap Hstarts Hcells (wf_shape a p r W)) as I0.
  exists (sum_starts r (fun z => length (H z)) + pending (first_n no_data r))%nat. intros ks st Hrun.
  destruct (run_winv no_data n r H Hr Hmap Hstarts Hcells _ _ _ _ I0 Hrun) as [K [I M]]. pose proof (sum_bound no_data n r H K st I) as B.
  split; [|split; [apply (wi_results _ _ _ _ _ _ I)|split]].
  - lia.
  - intros k o Ho. destruct (step_cases no_data n r H Hr Hmap Hstarts Hcells K st k o I Ho) as [[st' [K' [E _]]]|E]; [left; eauto|right; assumption].
  - intros Ht. assert ((forall w, In w (ws_walkers st) -> wk_ready w = 1) /\ forall z, K z = length (H z)) as [R HK] by (eapply end_winv; eauto using (wf_shape a p r W)). split; [assumption|]. exact (result_raster a p r W no_data n H C Hr HC HC0 K st I HK).
Qed.
Lemma ordered_is_run no_data n r st ks st' : ordered_run no_data n r st ks st' -> walk_run n r st ks st'.
Proof. induction 1; econstructor; eauto. Qed.
Lemma first_not_delivered no_data r : not_delivered (first_n no_data r).
Proof. intros q w _ Hw. cbn [first_n ws_walkers] in Hw. rewrite nth_z_map in Hw. destruct (nth_z q (rt_parts r)); [|discriminate]. inversion Hw. reflexivity. Qed.
Lemma walk_run_app n r st ks st' ks' st'' : walk_run n r st ks st' -> walk_run n r st' ks' st'' -> walk_run n r st (ks ++ ks') st''.
Proof. induction 1; intros; [assumption|]. cbn. econstructor; eauto. Qed.
Lemma ordered_never_fails no_data n a p r : well_formed_route a p r ->
  forall ks st, ordered_run no_data n r (first_n no_data r) ks st -> forall k o, walk_step n r k st = Some o -> exists st', o = Ok st'.
Proof.
  intros W. destruct (first_n_ok no_data n a p r W) as [bound F].
  assert (G : forall st ks st', ordered_run no_data n r st ks st' -> forall ks0, walk_run n r (first_n no_data r) ks0 st -> not_delivered st -> not_delivered st').
  { induction 1 as [|st k st1 ks st2 Hrf Hs Ho IH]; intros ks0 Hr0 Hnd; [assumption|]. apply (IH (ks0 ++ [k])).
    - eapply walk_run_app; [exact Hr0|]. econstructor; [exact Hs|constructor].
    - eapply ordered_step; [|exact Hnd|exact Hrf|exact Hs]. destruct (F _ _ Hr0) as [_ [ND _]]. exact ND. }
  intros ks st Ho k o Hs. pose proof (G _ _ _ Ho [] ltac:(constructor) (first_not_delivered no_data r)) as Hnd.
  destruct (F _ _ (ordered_is_run _ _ _ _ _ _ Ho)) as [_ [_ [St _]]]. destruct (St k o Hs) as [E|[_ [q [w [E1 [E2 E3]]]]]]; [assumption|].
  apply nth_error_In in E1. rewrite (Hnd q w E1 E2) in E3. discriminate.
Qed.

(** Routes along decreasing values are well formed. *)
Definition good_map (m : zmap (list fragment)) : Prop := NoDup (map fst m) /\ forall id, zfind m id <> Some [].
Lemma good_push m z f : good_map m -> good_map (zpush m z f).
Proof.
  intros [A B]. split; [unfold zpush; now apply zset_nodup|]. intros id. unfold zpush. rewrite zfind_set. destruct (z =? id); [|apply B]. destruct (zfind m z) as [[|]|]; discriminate.
Qed.
Section Good.
Context {V : Type} (ltb eqb : V -> V -> bool) (min_value : V) (mx : Z).
Definition good_state (st : order_state V) : Prop := forall c, In c (os_components st) -> good_map (cm_fragments c).
Lemma good_finish (c : component V) : good_map (cm_fragments c) -> good_map (cm_fragments (finish_if_done c)).
Proof. unfold finish_if_done. destruct (is_nil (cm_local c)); auto. Qed.
Lemma good_task t (c c' : component V) sp : run_task ltb eqb min_value mx t c = Ok (c', sp) -> good_map (cm_fragments c) -> good_map (cm_fragments c').
Proof.
  destruct t as [p z maxima cur|p z]; cbn [run_task].
  - unfold record_route_fragment. intros E G. destruct (zfind (cm_local c) z) as [[|[lv li] local]|]; [discriminate| |destruct maxima; discriminate].
    destruct maxima as [|[mv id] down]; [discriminate|]. destruct (negb (eqb mv lv)); [discriminate|]. destruct (negb (id =? p)); [discriminate|].
    match type of E with (if ?b then _ else _) = _ => destruct b; [discriminate|] end.
    destruct (take_local _ _ _ _ _) as [[cells local'] cur']. cbv zeta in E.
    destruct (if cur' <? mx then down else []) as [|[v q] rest].
    + destruct (existsb _ down); [discriminate|]. inversion E; subst. apply good_finish. cbn. now apply good_push.
    + destruct local' as [|[nm ni] local']; [inversion E; subst; apply good_finish; cbn; now apply good_push|].
      destruct (negb (ltb nm v)); [discriminate|]. inversion E; subst; apply good_finish; cbn; now apply good_push.
  - unfold skip_recording_route_fragments. destruct (zfind (cm_local c) z); cbn [obind]; [|discriminate]. intros E G. inversion E; subst. apply good_finish. assumption.
Qed.
Lemma good_step k st st' : order_step ltb eqb min_value mx k st = Some (Ok st') -> good_state st -> good_state st'.
Proof.
  unfold order_step. destruct (nth_error (os_tasks st) k) as [t|]; [|discriminate]. destruct (nth_z (task_partition t) (os_components st)) as [c|] eqn:Ec; [|discriminate].
  destruct (run_task ltb eqb min_value mx t c) as [[c' sp]| |] eqn:Er; cbn [obind]; [|discriminate..]. destruct (upd_z (task_partition t) c' (os_components st)) as [cs|] eqn:Eu; [|discriminate].
  intros E G. inversion E; subst. intros c1 Hc1. cbn [os_components] in Hc1. apply In_nth_error in Hc1. destruct Hc1 as [j Hj].
  assert (Hz : nth_z (Z.of_nat j) cs = Some c1) by (unfold nth_z; destruct (Z.ltb_spec (Z.of_nat j) 0); [lia|]; now rewrite Nat2Z.id).
  rewrite (nth_z_upd _ _ _ _ (Z.of_nat j) Eu) in Hz. destruct (Z.of_nat j =? task_partition t).
  - inversion Hz; subst. eapply good_task; [exact Er|]. apply G. apply nth_z_in in Ec. apply Ec.
  - apply G. apply nth_z_in in Hz. apply Hz.
Qed.
Lemma good_run st ks st' : order_run ltb eqb min_value mx st ks st' -> good_state st -> good_state st'.
Proof. induction 1; intros; [assumption|]. eauto using good_step. Qed.
End Good.

Lemma order_well_formed {V} (ltb eqb : V -> V -> bool) (min_value : V) mx comparable sort zone_nd value_nd a p fz fv (value : parray V) (zone : parray Z) :
  weak_order ltb eqb comparable -> sorts ltb comparable sort -> raster_of a p value fv -> raster_of a p zone fz ->
  (forall x, in_shape a x -> zone_nd (fz x) = false -> value_nd (fv x) = false -> comparable (fv x)) -> (forall v, comparable v -> ltb v min_value = false) ->
  exists starts first, decreasing_order sort value_nd zone_nd zone value = Ok (starts, first) /\
    forall ks st, order_run ltb eqb min_value mx first ks st -> os_tasks st = [] -> well_formed_route a p (order_result value starts st) /\
      forall z, exists cells, visits (order_result value starts st) z cells /\ highest_first ltb fv (zone_cells zone_nd value_nd a fz fv z) mx cells.
Proof.
  intros Hord Hsort Hv Hz Hcmp Hmin.
  pose proof (raster_comparable comparable zone_nd value_nd a p fz fv value Hv Hcmp) as RC.
  exists (starts0 min_value sort zone_nd value_nd fz fv (cells_lists a p)), (state0 min_value sort zone_nd value_nd fz fv (cells_lists a p)).
  split; [exact (order_start ltb min_value comparable sort Hsort zone_nd value_nd a p fz fv value Hv Hcmp zone Hz)|].
  intros ks st Hrun Ht. destruct (order_all ltb eqb min_value mx comparable sort Hord Hsort zone_nd value_nd a p fz fv value Hv Hcmp Hmin ks st Hrun) as [_ [_ F]]. destruct (F Ht) as [_ F2].
  split; [|assumption].
  assert (G : good_state st).
  { eapply good_run; [exact Hrun|]. intros c Hc. cbn [state0 os_components] in Hc. apply in_map_iff in Hc. destruct Hc as [Y [<- _]].
    unfold comp0. apply good_finish. split; [constructor|]. intros id. discriminate. }
  assert (L : length (os_components st) = length (pa_parts value)).
  { rewrite (parts_len a p value fv Hv).
    assert (Gl : forall st1 ks1 st2, order_run ltb eqb min_value mx st1 ks1 st2 -> length (os_components st2) = length (os_components st1)).
    { clear. induction 1 as [|st k st' ks st'' Hs Hr IH]; [reflexivity|]. rewrite IH. unfold order_step in Hs. destruct (nth_error (os_tasks st) k) as [t|]; [|discriminate].
      destruct (nth_z _ _) as [c|]; [|discriminate]. destruct (run_task _ _ _ _ _ _) as [[c' sp]| |]; cbn [obind] in Hs; [|discriminate..].
      destruct (upd_z _ _ _) as [cs|] eqn:Eu; [|discriminate]. inversion Hs; subst. cbn. clear - Eu. unfold upd_z in Eu. destruct (_ <? 0); [discriminate|].
      revert cs Eu. generalize (Z.to_nat (task_partition t)). generalize (os_components st). induction l as [|x l IH]; intros [|k] cs E; cbn in E; try discriminate.
      - inversion E. reflexivity.
      - destruct (upd_nth k c' l) eqn:E'; [|discriminate]. inversion E. cbn. f_equal. eauto. }
    rewrite (Gl _ _ _ Hrun). cbn [state0 os_components]. now rewrite map_length. }
  pose proof Hv as [Ha [Hfit [Es [Ei _]]]]. repeat split; try assumption.
  - cbn [order_result rt_parts]. rewrite map_map2. apply map2_ext_nth.
    + rewrite (parts_len a p value fv Hv). unfold cells_lists. now rewrite map_length.
    + rewrite L, (parts_len a p value fv Hv). unfold cells_lists. now rewrite map_length.
    + intros k q c d Eq Ec Ed. cbn [pl_offset pl_shape]. pose proof (raster_nth a p value fv k Hv) as R. rewrite Eq, Ed in R. destruct R as [_ [-> [-> _]]]. reflexivity.
  - cbn [order_result rt_starts]. unfold starts0. rewrite keys_map. apply maxima0_nodup.
  - cbn [order_result rt_parts] in H. apply In_nth_error in H. destruct H as [k Hk]. rewrite map2_nth in Hk. destruct (nth_error (pa_parts value) k); [|discriminate].
    destruct (nth_error (os_components st) k) as [c|] eqn:Ec; [|discriminate]. inversion Hk; subst q. cbn [pl_data]. apply nth_error_In in Ec. apply (G c Ec).
  - cbn [order_result rt_parts] in H. apply In_nth_error in H. destruct H as [k Hk]. rewrite map2_nth in Hk. destruct (nth_error (pa_parts value) k); [|discriminate].
    destruct (nth_error (os_components st) k) as [c|] eqn:Ec; [|discriminate]. inversion Hk; subst q. cbn [pl_data]. apply nth_error_In in Ec. apply (G c Ec).
  - intros id. destruct (F2 id) as [cells [Vc _]]. eauto.
Qed.
