(** Proofs about walks along routes, continued: the first state, the last one, and the result. *)
From Verif Require Import Common CommonProofs CoreSpec DecompSpec ArraySpec AggregateSpec IndexModel IndexProofs DecompModel DecompProofs ArrayModel ArrayRep ArrayProofs AggregateProofs ZonalModel ZonalProofs
  RasterCheck FlowProofs StreamProofs OrderModel OrderSpec OrderProofs OrderProofs2 OrderProofs3 OrderProofs4 OrderProofs5 WalkModel WalkSpec WalkProofs.

Section Ends.
Context (no_data n : Z) (r : serial_route) (H : Z -> list (Z * list Z)).
Context (Hr : forall z, route_hops r z (H z)).
Context (Hmap : forall q, In q (rt_parts r) -> NoDup (map fst (pl_data q)) /\ forall id, zfind (pl_data q) id <> Some []).
Context (Hstarts : NoDup (map fst (rt_starts r))).
Context (Hcells : forall z p i, In (p, i) (hop_cells (H z)) -> exists q, nth_z p (rt_parts r) = Some q /\ 0 <= i < nr_elements (pl_shape q)).
Context (Hshape : forall q, In q (rt_parts r) -> 0 <= nr_elements (pl_shape q)).

Lemma nth_z_map {A B} (f : A -> B) l i : nth_z i (map f l) = option_map f (nth_z i l).
Proof. unfold nth_z. destruct (i <? 0); [reflexivity|]. apply nth_error_map. Qed.

Lemma starts_tasks z : ztasks z (map (fun '(id, p) => WalkRoute p id 0) (rt_starts r)) = match zfind (rt_starts r) z with Some p => [WalkRoute p z 0] | None => [] end.
Proof.
  revert Hstarts. generalize (rt_starts r). clear. intros l ND. induction l as [|[k p] l IH]; [reflexivity|]. cbn [map fst] in ND. inversion ND as [|? ? Hk ND']; subst.
  cbn [map]. unfold ztasks in *. cbn [filter zone_of zfind]. destruct (Z.eqb_spec k z) as [->|Hne]; [|now apply IH].
  f_equal. rewrite IH by assumption. destruct (zfind l z) as [p'|] eqn:E; [|reflexivity]. apply (zfind_in l z p' ND') in E. exfalso. apply Hk. apply in_map_iff. exists (z, p'). auto.
Qed.

Lemma init_winv : winv no_data n r H (fun _ => 0%nat) (first_n no_data r).
Proof.
  constructor; cbn [first_n ws_walkers ws_tasks].
  - now rewrite map_length.
  - intros z. constructor.
    + lia.
    + cbn [skipn]. rewrite ztasks_app, starts_tasks.
      assert (ztasks z (map ResultPartition (zseq 0 (Z.of_nat (length (rt_parts r))))) = []) as -> by (induction (zseq 0 (Z.of_nat (length (rt_parts r)))); [reflexivity|assumption]).
      cbn [app]. destruct (Hr z) as [E _]. rewrite E. destruct (H z) as [|[p c] h]; cbn [next_partition hd_error option_map fst]; [reflexivity|]. left. split; [reflexivity|now right].
    + intros q Hq. cbn [firstn]. change (cnt q []) with 0. unfold idxs_of. rewrite nth_z_map. destruct (nth_z_range q (rt_parts r) Hq) as [pq Epq]. rewrite Epq. cbn [option_map walker_of wk_idxs].
      rewrite (zfind_map (fun _ => 0)). rewrite (part_fragments r H Hr Hmap q pq z Epq). rewrite <- (hop_fragments_len None q (H z)).
      destruct (hop_fragments None q (H z)); [reflexivity|]. cbn [opt_list option_map length]. destruct (Z.ltb_spec 0 (Z.of_nat (S (length l)))); [reflexivity|lia].
  - intros q pq w Epq Ew. rewrite nth_z_map, Epq in Ew. cbn in Ew. inversion Ew; subst w. cbn [walker_of wk_output]. rewrite map_length, zseq_length.
    pose proof (Hshape pq (proj1 (nth_z_in _ _ _ Epq))) as Hn. split; [lia|]. intros i Hi. right. split; [intros [z Hz]; cbn in Hz; now rewrite firstn_nil in Hz|].
    rewrite nth_z_map. destruct (nth_z_range i (zseq 0 (nr_elements (pl_shape pq)))) as [x ->]; [rewrite zseq_length; lia|reflexivity].
  - intros q pq w Epq Ew. rewrite nth_z_map, Epq in Ew. cbn in Ew. inversion Ew; subst w. cbn [walker_of wk_idxs wk_ready]. right. split; [reflexivity|]. intros E. split; [destruct (pl_data pq); [reflexivity|discriminate]|].
    apply in_app_iff. left. apply in_map. apply nth_z_in in Epq. apply in_zseq. lia.
  - split.
    + rewrite filter_app. assert (filter is_result (map (fun '(id, p) => WalkRoute p id 0) (rt_starts r)) = []) as ->.
      { generalize (rt_starts r). intros l. induction l as [|[? ?] l IH]; [reflexivity|exact IH]. }
      rewrite app_nil_r. assert (filter is_result (map ResultPartition (zseq 0 (Z.of_nat (length (rt_parts r))))) = map ResultPartition (zseq 0 (Z.of_nat (length (rt_parts r))))) as ->.
      { induction (zseq 0 (Z.of_nat (length (rt_parts r)))) as [|x l IH]; [reflexivity|]. cbn. now rewrite IH. }
      apply FinFun.Injective_map_NoDup; [intros x y E; now inversion E|apply zseq_NoDup].
    + intros q Hq. apply in_app_iff in Hq. destruct Hq as [Hq|Hq]; apply in_map_iff in Hq; [destruct Hq as [x [E Hx]]; inversion E; subst; apply in_zseq in Hx; lia|destruct Hq as [[? ?] [E _]]; discriminate].
Qed.

Lemma run_winv st ks st' K : winv no_data n r H K st -> walk_run n r st ks st' ->
  exists K', winv no_data n r H K' st' /\ (sum_starts r K' + pending st = length ks + sum_starts r K + pending st')%nat.
Proof.
  intros I Hrun. revert K I. induction Hrun as [st|st k st1 ks st2 Hs Hrun IH]; intros K I; [exists K; split; [assumption|cbn; lia]|].
  destruct (step_cases no_data n r H Hr Hmap Hstarts Hcells K st k _ I Hs) as [[st1' [K1 [E [I1 M1]]]]|[E _]]; [|discriminate]. inversion E; subst st1'.
  destruct (IH K1 I1) as [K2 [I2 M2]]. exists K2. split; [assumption|]. cbn [length]. lia.
Qed.
Lemma sum_bound K st : winv no_data n r H K st -> (sum_starts r K <= sum_starts r (fun z => length (H z)))%nat.
Proof.
  intros I. assert (L : forall z, (K z <= length (H z))%nat) by (intros z; apply (zw_le _ _ _ _ _ _ _ (wi_zone _ _ _ _ K st I z))). unfold sum_starts, list_sum. clear - L.
  generalize (rt_starts r). intros l0. induction l0 as [|[z p] l IH]; cbn [map fold_right fst]; [apply le_n|]. specialize (L z). lia.
Qed.

Lemma end_winv K st : winv no_data n r H K st -> ws_tasks st = [] ->
  (forall w, In w (ws_walkers st) -> wk_ready w = 1) /\ forall z, K z = length (H z).
Proof.
  intros I Ht.
  assert (HK : forall z, K z = length (H z)).
  { intros z. pose proof (wi_zone _ _ _ _ K st I z) as [Le T _]. rewrite Ht in T. destruct (skipn (K z) (H z)) as [|[p c] h] eqn:E; [|destruct T as [[T _]|[T _]]; discriminate].
    apply (f_equal (@length _)) in E. rewrite skipn_length in E. cbn in E. lia. }
  split; [|assumption]. intros w Hw. apply In_nth_error in Hw. destruct Hw as [k Hk].
  assert (Hkn : (k < length (ws_walkers st))%nat) by (apply nth_error_Some; congruence). pose proof (wi_len _ _ _ _ K st I) as L.
  assert (Ew : nth_z (Z.of_nat k) (ws_walkers st) = Some w) by (unfold nth_z; destruct (Z.ltb_spec (Z.of_nat k) 0); [lia|]; now rewrite Nat2Z.id).
  destruct (nth_z_range (Z.of_nat k) (rt_parts r)) as [pq Epq]; [lia|].
  assert (Ei : wk_idxs w = []).
  { apply zfind_all_none. intros z. pose proof (zw_idxs _ _ _ _ _ _ _ (wi_zone _ _ _ _ K st I z) (Z.of_nat k) ltac:(lia)) as E. unfold idxs_of in E. rewrite Ew in E. rewrite E, HK, firstn_all.
    rewrite Z.ltb_irrefl. reflexivity. }
  destruct (wi_ready _ _ _ _ K st I _ pq w Epq Ew) as [[R _]|[_ R]]; [assumption|]. exfalso. destruct (R Ei) as [_ R2]. now rewrite Ht in R2.
Qed.
End Ends.
