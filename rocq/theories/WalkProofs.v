(** Proofs about walks along routes. *)
From Verif Require Import Common CommonProofs CoreSpec DecompSpec ArraySpec IndexModel DecompModel ArrayModel ArrayRep ZonalModel ZonalProofs FlowProofs OrderModel OrderSpec
  OrderProofs OrderProofs2 OrderProofs3 OrderProofs4 OrderProofs5 WalkModel WalkSpec.

Definition cnt (q : Z) (hops : list (Z * list Z)) : Z := Z.of_nat (length (filter (fun h => fst h =? q) hops)).
Lemma cnt_app q h h' : cnt q (h ++ h') = cnt q h + cnt q h'.
Proof. unfold cnt. rewrite filter_app, app_length. lia. Qed.
Lemma cnt_cons q h h' : cnt q (h :: h') = (if fst h =? q then 1 else 0) + cnt q h'.
Proof. unfold cnt. cbn [filter]. destruct (fst h =? q); cbn [length]; lia. Qed.
Lemma cnt_nonneg q h : 0 <= cnt q h. Proof. unfold cnt. lia. Qed.
Lemma hop_fragments_len last q hops : Z.of_nat (length (hop_fragments last q hops)) = cnt q hops.
Proof. induction hops as [|[p c] hops IH]; [reflexivity|]. rewrite cnt_cons. cbn [hop_fragments fst]. destruct (p =? q); cbn [length]; lia. Qed.
Lemma hop_fragments_nth last p c h1 h2 :
  nth_z (cnt p h1) (hop_fragments last p (h1 ++ (p, c) :: h2)) = Some (Fragment c (match h2 with [] => last | (q, _) :: _ => Some q end)).
Proof.
  unfold nth_z. pose proof (cnt_nonneg p h1). destruct (Z.ltb_spec (cnt p h1) 0); [lia|]. unfold cnt. rewrite Nat2Z.id.
  induction h1 as [|[q d] h1 IH]; cbn [app hop_fragments filter fst].
  - rewrite Z.eqb_refl. reflexivity.
  - destruct (q =? p); cbn [length nth_error]; apply IH; apply cnt_nonneg || (pose proof (cnt_nonneg p h1); lia).
Qed.

Lemma prod_eq_dec {A B} (da : forall x y : A, {x = y} + {x <> y}) (db : forall x y : B, {x = y} + {x <> y}) : forall x y : A * B, {x = y} + {x <> y}.
Proof. decide equality. Qed.

Section Mark.
Context (n : Z).
Lemma mark_cells_ok cells : forall out v, Forall (fun i => 0 <= i < Z.of_nat (length out)) cells ->
  exists out', mark_cells n cells out v = Ok (out', v + Z.of_nat (length (firstn (Z.to_nat (n - v)) cells))) /\ length out' = length out /\
    forall i, (In i (firstn (Z.to_nat (n - v)) cells) /\ nth_z i out' = Some 1) \/ (~ In i (firstn (Z.to_nat (n - v)) cells) /\ nth_z i out' = nth_z i out).
Proof.
  induction cells as [|i cells IH]; intros out v F.
  - exists out. rewrite firstn_nil. cbn [mark_cells length]. rewrite Z.add_0_r. repeat split. intros i. right. split; [intros []|reflexivity].
  - inversion F as [|? ? Hi F']; subst. cbn [mark_cells]. unfold keep_walking. destruct (Z.ltb_spec v n) as [L|L].
    + destruct (nth_z_range i out Hi) as [e He]. destruct (upd_z_some i 1 e out He) as [out1 E1]. rewrite E1.
      assert (L1 : length out1 = length out).
      { clear - E1. unfold upd_z in E1. destruct (i <? 0); [discriminate|]. revert out out1 E1. induction (Z.to_nat i) as [|k IH]; intros [|x out] out1 E; cbn in E; try discriminate.
        - inversion E. reflexivity.
        - destruct (upd_nth k 1 out) eqn:E'; [|discriminate]. inversion E. cbn. f_equal. now apply IH. }
      destruct (IH out1 (v + 1)) as [out' [E2 [L2 H2]]]; [rewrite L1; assumption|]. exists out'.
      replace (Z.to_nat (n - v)) with (S (Z.to_nat (n - (v + 1)))) by lia. cbn [firstn length]. rewrite E2. split; [f_equal; f_equal; lia|]. split; [congruence|].
      intros j. pose proof (nth_z_upd i 1 out out1 j E1) as N. destruct (H2 j) as [[A B]|[A B]].
      * left. split; [now right|assumption].
      * destruct (Z.eqb_spec j i) as [Eji|Hne].
        -- left. split; [now left|]. congruence.
        -- right. split; [intros [E|E]; [congruence|contradiction]|congruence].
    + exists out. replace (Z.to_nat (n - v)) with 0%nat by lia. cbn [firstn length]. rewrite Z.add_0_r. repeat split. intros j. right. split; [intros []|reflexivity].
Qed.
End Mark.

Section Run.
Context (no_data n : Z) (r : serial_route) (H : Z -> list (Z * list Z)).
Let N := Z.of_nat (length (rt_parts r)).
Context (Hr : forall z, route_hops r z (H z)).
Context (Hmap : forall q, In q (rt_parts r) -> NoDup (map fst (pl_data q)) /\ forall id, zfind (pl_data q) id <> Some []).
Context (Hstarts : NoDup (map fst (rt_starts r))).
Context (Hcells : forall z p i, In (p, i) (hop_cells (H z)) -> exists q, nth_z p (rt_parts r) = Some q /\ 0 <= i < nr_elements (pl_shape q)).

Definition zone_of (t : walk_task) : option Z := match t with ResultPartition _ => None | WalkRoute _ z _ => Some z | SkipRoute _ z => Some z end.
Definition is_result (t : walk_task) : bool := match t with ResultPartition _ => true | _ => false end.
Definition ztasks (z : Z) (ts : list walk_task) : list walk_task := filter (fun t => match zone_of t with Some z' => z' =? z | None => false end) ts.
Definition walked (k : nat) (z : Z) : list (Z * Z) := hop_cells (firstn k (H z)).
Definition marked (K : Z -> nat) (q i : Z) : Prop := exists z, In (q, i) (firstn (Z.to_nat n) (walked (K z) z)).
Definition sum_starts (K : Z -> nat) : nat := list_sum (map (fun e => K (fst e)) (rt_starts r)).

Record zone_walk (z : Z) (k : nat) (ts : list walk_task) (idxs : Z -> option Z) : Prop := {
  zw_le : (k <= length (H z))%nat;
  zw_tasks : match skipn k (H z) with
             | [] => ts = []
             | (p, _) :: _ => (ts = [WalkRoute p z (Z.of_nat (length (walked k z)))] /\ (Z.of_nat (length (walked k z)) < n \/ walked k z = [])) \/
                              (ts = [SkipRoute p z] /\ n <= Z.of_nat (length (walked k z)))
             end;
  zw_idxs : forall q, 0 <= q < N -> idxs q = if cnt q (firstn k (H z)) <? cnt q (H z) then Some (cnt q (firstn k (H z))) else None }.

Definition idxs_of (ws : list walker) (z q : Z) : option Z := match nth_z q ws with Some w => zfind (wk_idxs w) z | None => None end.

Record winv (K : Z -> nat) (st : walk_state) : Prop := {
  wi_len : Z.of_nat (length (ws_walkers st)) = N;
  wi_zone : forall z, zone_walk z (K z) (ztasks z (ws_tasks st)) (idxs_of (ws_walkers st) z);
  wi_out : forall q pq w, nth_z q (rt_parts r) = Some pq -> nth_z q (ws_walkers st) = Some w ->
    Z.of_nat (length (wk_output w)) = nr_elements (pl_shape pq) /\
    forall i, 0 <= i < nr_elements (pl_shape pq) ->
      (marked K q i /\ nth_z i (wk_output w) = Some 1) \/ (~ marked K q i /\ nth_z i (wk_output w) = Some no_data);
  wi_ready : forall q pq w, nth_z q (rt_parts r) = Some pq -> nth_z q (ws_walkers st) = Some w ->
    (wk_ready w = 1 /\ wk_idxs w = [] /\ (pl_data pq = [] -> ~ In (ResultPartition q) (ws_tasks st))) \/
    (wk_ready w = 0 /\ (wk_idxs w = [] -> pl_data pq = [] /\ In (ResultPartition q) (ws_tasks st)));
  wi_results : NoDup (filter is_result (ws_tasks st)) /\ forall q, In (ResultPartition q) (ws_tasks st) -> 0 <= q < N }.

Lemma in_starts z : H z <> [] -> exists p, zfind (rt_starts r) z = Some p.
Proof. intros Hne. destruct (Hr z) as [E _]. rewrite E. destruct (H z) as [|[p c] h]; [contradiction|]. cbn. eauto. Qed.
Lemma sum_step K z : H z <> [] -> sum_starts (fun z' => if z' =? z then S (K z') else K z') = S (sum_starts K).
Proof.
  intros Hne. destruct (in_starts z Hne) as [p Ep]. apply (zfind_in _ _ _ Hstarts) in Ep. unfold sum_starts. revert Hstarts Ep. generalize (rt_starts r). intros l ND Hin.
  induction l as [|[z' p'] l IH]; [destruct Hin|]. cbn [map fst] in ND. inversion ND as [|? ? Hn ND']; subst. cbn [map list_sum fold_right fst].
  destruct Hin as [E|Hin].
  - inversion E; subst. rewrite Z.eqb_refl.
    assert (map (fun e => if fst e =? z then S (K (fst e)) else K (fst e)) l = map (fun e => K (fst e)) l) as ->; [|unfold list_sum; lia].
    apply map_ext_in. intros [z1 p1] H1. cbn [fst]. destruct (Z.eqb_spec z1 z) as [->|]; [|reflexivity]. exfalso. apply Hn. apply in_map_iff. exists (z, p1). auto.
  - specialize (IH ND' Hin). unfold list_sum in *. cbn [fst]. destruct (Z.eqb_spec z' z) as [->|]; [|lia]. exfalso. apply Hn. apply in_map_iff. exists (z, p). auto.
Qed.

Lemma part_some q : 0 <= q < N -> exists pq, nth_z q (rt_parts r) = Some pq /\ In pq (rt_parts r).
Proof. intros Hq. destruct (nth_z_range q (rt_parts r) Hq) as [pq E]. exists pq. split; [assumption|]. apply (nth_z_in _ _ _ E). Qed.
Lemma part_fragments q pq z : nth_z q (rt_parts r) = Some pq -> zfind (pl_data pq) z = opt_list (hop_fragments None q (H z)).
Proof.
  intros E. destruct (nth_z_in _ _ _ E) as [Hin Hq]. destruct (Hmap pq Hin) as [_ Hne]. destruct (Hr z) as [_ [_ F]].
  unfold nth_z in E. destruct (Z.ltb_spec q 0); [discriminate|]. specialize (F _ _ E). rewrite Z2Nat.id in F by assumption.
  specialize (Hne z). destruct (zfind (pl_data pq) z) as [l|]; rewrite <- F; [destruct l; [congruence|reflexivity]|reflexivity].
Qed.

Lemma firstn_hop k z p c h2 : skipn k (H z) = (p, c) :: h2 -> firstn (S k) (H z) = firstn k (H z) ++ [(p, c)] /\ H z = firstn k (H z) ++ (p, c) :: h2 /\ skipn (S k) (H z) = h2 /\ (S k <= length (H z))%nat.
Proof.
  intros E. assert (E2 : H z = firstn k (H z) ++ (p, c) :: h2) by (rewrite <- E; symmetry; apply firstn_skipn).
  assert (L : (k < length (H z))%nat).
  { destruct (Nat.lt_ge_cases k (length (H z))); [assumption|]. rewrite skipn_all2 in E by assumption. discriminate. }
  assert (Lk : length (firstn k (H z)) = k) by (rewrite firstn_length; lia).
  repeat split; try assumption.
  - rewrite E2 at 1. rewrite firstn_app, Lk. replace (S k - k)%nat with 1%nat by lia. rewrite (firstn_all2 (firstn k (H z))) by lia. reflexivity.
  - rewrite E2. rewrite skipn_app, Lk. replace (S k - k)%nat with 1%nat by lia. rewrite (skipn_all2 (firstn k (H z))) by lia. reflexivity.
Qed.
Lemma walked_S k z p c h2 : skipn k (H z) = (p, c) :: h2 -> walked (S k) z = walked k z ++ map (pair p) c.
Proof. intros E. unfold walked. rewrite (proj1 (firstn_hop k z p c h2 E)). unfold hop_cells. rewrite flat_map_app. cbn [flat_map]. now rewrite app_nil_r. Qed.

Lemma advance_ok w z i nr out : wk_ready w = 0 -> exists w', advance w z i nr out = Ok w' /\
  (forall z', zfind (wk_idxs w') z' = if z =? z' then (if i =? nr then None else Some i) else zfind (wk_idxs w) z') /\
  wk_output w' = out /\ wk_ready w' = (if is_nil (wk_idxs w') then 1 else 0).
Proof.
  intros Hw. unfold advance. destruct (i =? nr).
  - unfold finish_if_walked, finish_partition. cbn [wk_idxs wk_ready]. rewrite Hw. cbn [Z.ltb Z.compare Z.add]. destruct (is_nil (zerase (wk_idxs w) z)) eqn:E.
    + eexists. split; [reflexivity|]. cbn [wk_idxs wk_ready wk_output]. rewrite E. repeat split. intros z'. rewrite zfind_erase. destruct (z =? z'); reflexivity.
    + eexists. split; [reflexivity|]. cbn [wk_idxs wk_ready wk_output]. rewrite E. repeat split. intros z'. rewrite zfind_erase. destruct (z =? z'); reflexivity.
  - eexists. split; [reflexivity|]. cbn [wk_idxs wk_ready wk_output]. split; [|split; [reflexivity|]].
    + intros z'. apply zfind_set.
    + assert (zfind (zset_map (wk_idxs w) z i) z = Some i) as E by (rewrite zfind_set, Z.eqb_refl; reflexivity). rewrite (zfind_nonnil _ _ _ E). assumption.
Qed.

Lemma ztasks_app z l l' : ztasks z (l ++ l') = ztasks z l ++ ztasks z l'. Proof. apply filter_app. Qed.
Definition bump (K : Z -> nat) (z z' : Z) : nat := if z' =? z then S (K z') else K z'.

Lemma zone_step K st kk t z p c h2 spawned out w : winv K st -> nth_error (ws_tasks st) kk = Some t -> zone_of t = Some z ->
  skipn (K z) (H z) = (p, c) :: h2 -> nth_z p (ws_walkers st) = Some w ->
  length out = length (wk_output w) ->
  (forall i, (In (p, i) (firstn (Z.to_nat n) (walked (S (K z)) z)) /\ nth_z i out = Some 1) \/ (~ In (p, i) (firstn (Z.to_nat n) (walked (S (K z)) z)) /\ nth_z i out = nth_z i (wk_output w))) ->
  (match h2 with [] => spawned = [] | (p, _) :: _ => (spawned = [WalkRoute p z (Z.of_nat (length (walked (S (K z)) z)))] /\ (Z.of_nat (length (walked (S (K z)) z)) < n \/ walked (S (K z)) z = [])) \/
                              (spawned = [SkipRoute p z] /\ n <= Z.of_nat (length (walked (S (K z)) z))) end) ->
  exists w' walkers, advance w z (cnt p (firstn (K z) (H z)) + 1) (cnt p (H z)) out = Ok w' /\ upd_z p w' (ws_walkers st) = Some walkers /\
    winv (bump K z) (WalkState walkers (firstn kk (ws_tasks st) ++ skipn (S kk) (ws_tasks st) ++ spawned)).
Proof.
  intros I Ht Hz Hs Hw Lo Ho Hsp. destruct (firstn_hop _ _ _ _ _ Hs) as [F1 [F2 [F3 F4]]].
  pose proof (nth_z_in _ _ _ Hw) as [_ Hp]. rewrite (wi_len K st I) in Hp. destruct (part_some p Hp) as [pq [Epq Hpq]].
  assert (C1 : cnt p (firstn (S (K z)) (H z)) = cnt p (firstn (K z) (H z)) + 1) by (rewrite F1, cnt_app, cnt_cons; cbn [fst]; rewrite Z.eqb_refl; unfold cnt at 2; cbn; lia).
  assert (C2 : cnt p (H z) = cnt p (firstn (K z) (H z)) + 1 + cnt p h2) by (rewrite F2 at 1; rewrite cnt_app, cnt_cons; cbn [fst]; rewrite Z.eqb_refl; lia).
  assert (Ei : zfind (wk_idxs w) z = Some (cnt p (firstn (K z) (H z)))).
  { pose proof (zw_idxs _ _ _ _ (wi_zone K st I z) p Hp) as E. unfold idxs_of in E. rewrite Hw in E. rewrite E.
    pose proof (cnt_nonneg p h2). destruct (Z.ltb_spec (cnt p (firstn (K z) (H z))) (cnt p (H z))); [reflexivity|lia]. }
  assert (R0 : wk_ready w = 0).
  { destruct (wi_ready K st I p pq w Epq Hw) as [[_ [E _]]|[E _]]; [rewrite E in Ei; discriminate|assumption]. }
  assert (D : pl_data pq <> []).
  { intros E. pose proof (part_fragments p pq z Epq) as E2. rewrite E in E2. cbn in E2. pose proof (hop_fragments_len None p (H z)) as L. pose proof (cnt_nonneg p (firstn (K z) (H z))). pose proof (cnt_nonneg p h2).
    destruct (hop_fragments None p (H z)); [cbn in L; lia|discriminate]. }
  destruct (advance_ok w z (cnt p (firstn (K z) (H z)) + 1) (cnt p (H z)) out R0) as [w' [E1 [E2 [E3 E4]]]].
  destruct (upd_z_some p w' w _ Hw) as [walkers Eu]. exists w', walkers. split; [assumption|]. split; [assumption|].
  pose proof (split_nth _ _ _ Ht) as Hsplit.
  assert (Hins : forall q, In (ResultPartition q) (firstn kk (ws_tasks st) ++ skipn (S kk) (ws_tasks st) ++ spawned) <-> In (ResultPartition q) (ws_tasks st)).
  { intros q. rewrite Hsplit at 3. rewrite !in_app_iff. cbn [In].
    assert (~ In (ResultPartition q) spawned) by (destruct h2 as [|[p' c'] h2]; [subst; intros []|destruct Hsp as [[-> _]|[-> _]]; intros [E|[]]; discriminate]).
    assert (t <> ResultPartition q) by (intros ->; discriminate). intuition. }
  assert (Lw : length walkers = length (ws_walkers st)).
  { assert (forall q, (exists x, nth_z q walkers = Some x) <-> exists x, nth_z q (ws_walkers st) = Some x) as Hq.
    { intros q. rewrite (nth_z_upd p w' _ _ q Eu). destruct (Z.eqb_spec q p) as [->|]; [|reflexivity]. split; intros _; eauto. }
    destruct (Nat.lt_trichotomy (length walkers) (length (ws_walkers st))) as [L|[L|L]]; [|assumption|]; exfalso.
    - destruct (proj2 (Hq (Z.of_nat (length walkers)))) as [x Hx]; [apply nth_z_range; lia|]. apply nth_z_in in Hx. lia.
    - destruct (proj1 (Hq (Z.of_nat (length (ws_walkers st))))) as [x Hx]; [apply nth_z_range; lia|]. apply nth_z_in in Hx. lia. }
  constructor; cbn [ws_walkers ws_tasks].
  - rewrite Lw. apply (wi_len K st I).
  - intros z'. pose proof (wi_zone K st I z') as Z'. rewrite !ztasks_app. assert (Zt : ztasks z' (ws_tasks st) = ztasks z' (firstn kk (ws_tasks st)) ++ (if z =? z' then [t] else []) ++ ztasks z' (skipn (S kk) (ws_tasks st))).
    { rewrite Hsplit at 1. rewrite ztasks_app. f_equal. unfold ztasks. cbn [filter]. rewrite Hz. destruct (z =? z'); reflexivity. }
    unfold bump. destruct (Z.eqb_spec z' z) as [->|Hne].
    + rewrite Z.eqb_refl in Zt.
      assert (Zs : ztasks z (firstn kk (ws_tasks st)) = [] /\ ztasks z (skipn (S kk) (ws_tasks st)) = []).
      { pose proof (zw_tasks _ _ _ _ Z') as T. rewrite Hs in T.
        assert (Le : length (ztasks z (ws_tasks st)) = 1%nat) by (destruct T as [[-> _]|[-> _]]; reflexivity).
        rewrite Zt, !app_length in Le. cbn [length] in Le. split; apply length_zero_iff_nil; lia. }
      destruct Zs as [-> ->]. cbn [app]. constructor.
      * assumption.
      * rewrite F3. destruct h2 as [|[p' c'] h2]; [subst; reflexivity|]. destruct Hsp as [[-> Hs2]|[-> Hs2]]; [left|right]; unfold ztasks; cbn [filter zone_of]; rewrite Z.eqb_refl; auto.
      * intros q Hq. unfold idxs_of. rewrite (nth_z_upd p w' _ _ q Eu). destruct (Z.eqb_spec q p) as [->|Hqp].
        -- rewrite E2, Z.eqb_refl, C1. pose proof (cnt_nonneg p h2). destruct (Z.eqb_spec (cnt p (firstn (K z) (H z)) + 1) (cnt p (H z))), (Z.ltb_spec (cnt p (firstn (K z) (H z)) + 1) (cnt p (H z))); try reflexivity; lia.
        -- pose proof (zw_idxs _ _ _ _ Z' q Hq) as E. unfold idxs_of in E. rewrite E. rewrite F1, cnt_app, cnt_cons. cbn [fst]. destruct (Z.eqb_spec p q) as [->|]; [contradiction|].
           change (cnt q []) with 0. rewrite !Z.add_0_r. reflexivity.
    + assert (ztasks z' spawned = []) as ->.
      { destruct h2 as [|[p' c'] h2]; [subst; reflexivity|]. destruct Hsp as [[-> _]|[-> _]]; unfold ztasks; cbn [filter zone_of]; destruct (Z.eqb_spec z z'); try reflexivity; congruence. }
      destruct (Z.eqb_spec z z') as [->|_]; [congruence|]. cbn [app] in Zt. rewrite app_nil_r, <- Zt. constructor; try apply Z'.
      intros q Hq. rewrite <- (zw_idxs _ _ _ _ Z' q Hq). unfold idxs_of. rewrite (nth_z_upd p w' _ _ q Eu). destruct (Z.eqb_spec q p) as [->|]; [|reflexivity].
      rewrite E2, Hw. destruct (Z.eqb_spec z z') as [->|_]; [congruence|reflexivity].
  - assert (M : forall q i, marked (bump K z) q i <-> marked K q i \/ In (q, i) (firstn (Z.to_nat n) (walked (S (K z)) z))).
    { intros q i. unfold marked, bump. split.
      - intros [z' Hin]. destruct (Z.eqb_spec z' z) as [Ez|]; [right; now rewrite Ez in Hin|left; eauto].
      - intros [[z' Hin]|Hin].
        + exists z'. destruct (Z.eqb_spec z' z) as [Ez|]; [|assumption]. rewrite Ez in *. rewrite (walked_S _ _ _ _ _ Hs), firstn_app. apply in_app_iff. now left.
        + exists z. rewrite Z.eqb_refl. assumption. }
    assert (Mo : forall q i, q <> p -> In (q, i) (firstn (Z.to_nat n) (walked (S (K z)) z)) -> marked K q i).
    { intros q i Hqp Hin. exists z. rewrite (walked_S _ _ _ _ _ Hs), firstn_app in Hin. apply in_app_iff in Hin. destruct Hin as [Hin|Hin]; [assumption|].
      exfalso. apply Hqp. assert (In (q, i) (map (pair p) c)) as Hm.
      { rewrite <- (firstn_skipn (Z.to_nat n - length (walked (K z) z)) (map (pair p) c)). apply in_app_iff. now left. }
      apply in_map_iff in Hm. destruct Hm as [? [E _]]. now inversion E. }
    intros q pq' w'' Eq Ew. rewrite (nth_z_upd p w' _ _ q Eu) in Ew. destruct (Z.eqb_spec q p) as [->|Hqp].
    + inversion Ew; subst w''. rewrite Epq in Eq. inversion Eq; subst pq'. destruct (wi_out K st I p pq w Epq Hw) as [L O1]. rewrite E3, Lo. split; [assumption|].
      intros i Hi. rewrite M. destruct (Ho i) as [[A B]|[A B]]; [left; auto|]. rewrite B. destruct (O1 i Hi) as [[A1 B1]|[A1 B1]]; [left; auto|right; tauto].
    + destruct (wi_out K st I q pq' w'' Eq Ew) as [L O1]. split; [assumption|]. intros i Hi. rewrite M. destruct (O1 i Hi) as [[A1 B1]|[A1 B1]]; [left; auto|right].
      split; [|assumption]. intros [C|C]; [contradiction|]. apply A1. now apply (Mo q i).
  - intros q pq' w'' Eq Ew. rewrite (nth_z_upd p w' _ _ q Eu) in Ew. rewrite !Hins. destruct (Z.eqb_spec q p) as [->|Hqp].
    + inversion Ew; subst w''. rewrite Epq in Eq. inversion Eq; subst pq'. rewrite E4. destruct (wk_idxs w') as [|e l]; cbn [is_nil].
      * left. repeat split; try reflexivity. intros; contradiction.
      * right. split; [reflexivity|discriminate].
    + apply (wi_ready K st I); assumption.
  - destruct (wi_results K st I) as [ND Rg]. split.
    + assert (filter is_result (firstn kk (ws_tasks st) ++ skipn (S kk) (ws_tasks st) ++ spawned) = filter is_result (ws_tasks st)) as ->; [|assumption].
      rewrite Hsplit at 3. rewrite !filter_app. cbn [filter].
      assert (filter is_result spawned = []) as -> by (destruct h2 as [|[p' c'] h2]; [subst; reflexivity|destruct Hsp as [[-> _]|[-> _]]; reflexivity]).
      assert (is_result t = false) as -> by (destruct t; [discriminate|reflexivity|reflexivity]). now rewrite app_nil_r.
    + intros q. rewrite Hins. apply Rg.
Qed.

Definition pending (st : walk_state) : nat := length (filter is_result (ws_tasks st)).
Lemma pending_same st kk t spawned ws : nth_error (ws_tasks st) kk = Some t -> is_result t = false -> filter is_result spawned = [] ->
  pending (WalkState ws (firstn kk (ws_tasks st) ++ skipn (S kk) (ws_tasks st) ++ spawned)) = pending st.
Proof.
  intros Ht Hf Hs. unfold pending. cbn [ws_tasks]. rewrite (split_nth _ _ _ Ht) at 3. rewrite !filter_app. cbn [filter]. rewrite Hf, Hs, app_nil_r. reflexivity.
Qed.
Lemma firstn_map {A B} (f : A -> B) k l : firstn k (map f l) = map f (firstn k l).
Proof. revert l. induction k as [|k IH]; intros [|x l]; cbn; try reflexivity. now rewrite IH. Qed.

Lemma step_cases K st kk o : winv K st -> walk_step n r kk st = Some o ->
  (exists st' K', o = Ok st' /\ winv K' st' /\ (sum_starts K' + pending st = S (sum_starts K + pending st'))%nat) \/
  (o = Throw /\ exists p w, nth_error (ws_tasks st) kk = Some (ResultPartition p) /\ nth_z p (ws_walkers st) = Some w /\ wk_ready w = 1).
Proof.
  intros I Hs. unfold walk_step in Hs. destruct (nth_error (ws_tasks st) kk) as [t|] eqn:Ht; [|discriminate]. cbv zeta in Hs.
  assert (Hin : In t (ws_tasks st)) by (eapply nth_error_In; exact Ht).
  destruct t as [p|p z v|p z]; cbn [walk_task_partition run_walk_task] in Hs.
  - (* result *)
    pose proof (proj2 (wi_results K st I) p Hin) as Hp. destruct (part_some p Hp) as [pq [Epq Hpq]]. rewrite Epq in Hs.
    destruct (nth_z_range p (ws_walkers st)) as [w Hw]; [rewrite (wi_len K st I); assumption|]. rewrite Hw in Hs.
    unfold result_partition, finish_if_walked, finish_partition in Hs.
    set (tasks' := firstn kk (ws_tasks st) ++ skipn (S kk) (ws_tasks st) ++ []) in *.
    pose proof (split_nth _ _ _ Ht) as Hsplit.
    assert (Hres : forall w' walkers, upd_z p w' (ws_walkers st) = Some walkers -> wk_idxs w' = wk_idxs w -> wk_output w' = wk_output w ->
      wk_ready w' = (if is_nil (wk_idxs w) then 1 else 0) -> (wk_idxs w = [] -> wk_ready w = 0) -> winv K (WalkState walkers tasks') /\ S (pending (WalkState walkers tasks')) = pending st).
    { intros w' walkers Eu Ei Eo Er R0.
      destruct (wi_results K st I) as [ND Rg].
      assert (Hfil : filter is_result (ws_tasks st) = filter is_result (firstn kk (ws_tasks st)) ++ ResultPartition p :: filter is_result (skipn (S kk) (ws_tasks st))).
      { rewrite Hsplit at 1. rewrite filter_app. cbn [filter is_result]. reflexivity. }
      assert (Hfil' : filter is_result tasks' = filter is_result (firstn kk (ws_tasks st)) ++ filter is_result (skipn (S kk) (ws_tasks st))).
      { unfold tasks'. rewrite !filter_app. cbn [filter]. now rewrite app_nil_r. }
      rewrite Hfil in ND. pose proof (NoDup_remove_1 _ _ _ ND) as ND1. pose proof (NoDup_remove_2 _ _ _ ND) as ND2.
      assert (Hinr : forall q, In (ResultPartition q) tasks' <-> In (ResultPartition q) (ws_tasks st) /\ q <> p).
      { intros q. assert (X : forall l, In (ResultPartition q) l <-> In (ResultPartition q) (filter is_result l)) by (intros l; rewrite filter_In; cbn; tauto).
        rewrite (X tasks'), (X (ws_tasks st)), Hfil, Hfil', !in_app_iff. cbn [In]. rewrite in_app_iff in ND2. split.
        - intros Hq. split; [tauto|]. intros ->. tauto.
        - intros [[Hq|[Hq|Hq]] Hne]; [tauto|inversion Hq; congruence|tauto]. }
      assert (Lw : length walkers = length (ws_walkers st)).
      { assert (forall q, (exists x, nth_z q walkers = Some x) <-> exists x, nth_z q (ws_walkers st) = Some x) as Hq.
        { intros q. rewrite (nth_z_upd p w' _ _ q Eu). destruct (Z.eqb_spec q p) as [->|]; [|reflexivity]. split; intros _; eauto. }
        destruct (Nat.lt_trichotomy (length walkers) (length (ws_walkers st))) as [L|[L|L]]; [|assumption|]; exfalso.
        - destruct (proj2 (Hq (Z.of_nat (length walkers)))) as [x Hx]; [apply nth_z_range; lia|]. apply nth_z_in in Hx. lia.
        - destruct (proj1 (Hq (Z.of_nat (length (ws_walkers st))))) as [x Hx]; [apply nth_z_range; lia|]. apply nth_z_in in Hx. lia. }
      split; [constructor; cbn [ws_walkers ws_tasks]|].
      - rewrite Lw. apply (wi_len K st I).
      - intros z. pose proof (wi_zone K st I z) as Z'.
        assert (ztasks z tasks' = ztasks z (ws_tasks st)) as ->.
        { unfold tasks'. rewrite Hsplit at 3. rewrite !ztasks_app. cbn [app]. unfold ztasks. cbn [filter zone_of]. now rewrite app_nil_r. }
        constructor; try apply Z'. intros q Hq. rewrite <- (zw_idxs _ _ _ _ Z' q Hq). unfold idxs_of. rewrite (nth_z_upd p w' _ _ q Eu).
        destruct (Z.eqb_spec q p) as [->|]; [now rewrite Hw, Ei|reflexivity].
      - intros q pq' w'' Eq Ew. rewrite (nth_z_upd p w' _ _ q Eu) in Ew. destruct (Z.eqb_spec q p) as [->|]; [|now apply (wi_out K st I)].
        inversion Ew; subst w''. rewrite Eo. now apply (wi_out K st I).
      - intros q pq' w'' Eq Ew. rewrite (nth_z_upd p w' _ _ q Eu) in Ew. rewrite !Hinr. destruct (Z.eqb_spec q p) as [->|Hqp].
        + inversion Ew; subst w''. rewrite Er, Ei. destruct (wk_idxs w) as [|e l]; cbn [is_nil]; [left; repeat split; try reflexivity; tauto|right; split; [reflexivity|discriminate]].
        + pose proof (wi_ready K st I q pq' w'' Eq Ew). tauto.
      - split; [now rewrite Hfil'|]. intros q Hq. apply Hinr in Hq. now apply Rg.
      - unfold pending. cbn [ws_tasks]. rewrite Hfil, Hfil', !app_length. cbn [length]. lia. }
    destruct (is_nil (wk_idxs w)) eqn:En.
    + assert (Ei : wk_idxs w = []) by (destruct (wk_idxs w); [reflexivity|discriminate]).
      destruct (wi_ready K st I p pq w Epq Hw) as [[R1 _]|[R0 _]].
      * rewrite R1 in Hs. cbn in Hs. right. inversion Hs. split; [reflexivity|]. exists p, w. auto.
      * rewrite R0 in Hs. cbn [Z.ltb Z.compare Z.add] in Hs. rewrite obind_Ok in Hs. cbn [obind] in Hs. left.
        destruct (upd_z_some p (Walker (wk_idxs w) (wk_output w) 1) w _ Hw) as [walkers Eu]. rewrite Eu in Hs. inversion Hs. exists (WalkState walkers tasks'), K. split; [reflexivity|].
        destruct (Hres _ _ Eu eq_refl eq_refl) as [A B]; cbn [wk_ready]; [reflexivity|auto|]. split; [assumption|]. rewrite <- B. lia.
    + rewrite obind_Ok in Hs. cbn [obind] in Hs. left. destruct (upd_z_some p w w _ Hw) as [walkers Eu]. rewrite Eu in Hs. inversion Hs. exists (WalkState walkers tasks'), K. split; [reflexivity|].
      destruct (wi_ready K st I p pq w Epq Hw) as [[_ [E _]]|[R0 _]]; [rewrite E in En; discriminate|].
      destruct (Hres _ _ Eu eq_refl eq_refl) as [A B]; [assumption|auto|]. split; [assumption|]. rewrite <- B. lia.
  - (* walk *)
    left. pose proof (wi_zone K st I z) as Zw.
    assert (Hzt : In (WalkRoute p z v) (ztasks z (ws_tasks st))) by (apply filter_In; split; [assumption|cbn; apply Z.eqb_refl]).
    pose proof (zw_tasks _ _ _ _ Zw) as T. destruct (skipn (K z) (H z)) as [|[p' c] h2] eqn:Hk; [rewrite T in Hzt; destruct Hzt|].
    destruct T as [[T Tc]|[T _]]; rewrite T in Hzt; destruct Hzt as [E|[]]; [|discriminate]. inversion E; subst p' v. clear E.
    destruct (firstn_hop _ _ _ _ _ Hk) as [F1 [F2 [F3 F4]]].
    assert (Hp : 0 <= p < N).
    { destruct (Hr z) as [_ [Fp _]]. rewrite F2 in Fp. apply Forall_app in Fp. destruct Fp as [_ Fp]. inversion Fp. assumption. }
    destruct (part_some p Hp) as [pq [Epq Hpq]]. rewrite Epq in Hs.
    destruct (nth_z_range p (ws_walkers st)) as [w Hw]; [rewrite (wi_len K st I); assumption|]. rewrite Hw in Hs.
    unfold walk in Hs. rewrite (part_fragments p pq z Epq) in Hs.
    pose proof (zw_idxs _ _ _ _ Zw p Hp) as Ei. unfold idxs_of in Ei. rewrite Hw in Ei.
    assert (C2 : cnt p (H z) = cnt p (firstn (K z) (H z)) + 1 + cnt p h2) by (rewrite F2 at 1; rewrite cnt_app, cnt_cons; cbn [fst]; rewrite Z.eqb_refl; lia).
    pose proof (cnt_nonneg p h2) as C3. destruct (Z.ltb_spec (cnt p (firstn (K z) (H z))) (cnt p (H z))); [|lia]. rewrite Ei in Hs.
    pose proof (hop_fragments_nth None p c (firstn (K z) (H z)) h2) as En. rewrite <- F2 in En. pose proof (hop_fragments_len None p (H z)) as Ln.
    destruct (hop_fragments None p (H z)) as [|f0 fs]; [pose proof (cnt_nonneg p (firstn (K z) (H z))); cbn [length Z.of_nat] in Ln; lia|]. cbn [opt_list] in Hs. unfold at_z in Hs. rewrite En in Hs. rewrite obind_Ok in Hs. cbn [fr_cells fr_next] in Hs.
    destruct (wi_out K st I p pq w Epq Hw) as [Lo _].
    destruct (mark_cells_ok n c (wk_output w) (Z.of_nat (length (walked (K z) z)))) as [out' [E1 [L1 H1]]].
    { apply Forall_forall. intros i Hi. rewrite Lo. destruct (Hcells z p i) as [q' [Eq' Hi']]; [|congruence].
      unfold hop_cells. rewrite F2. rewrite flat_map_app. apply in_app_iff. right. cbn [flat_map]. apply in_app_iff. left. now apply in_map. }
    rewrite E1, obind_Ok in Hs. cbv zeta in Hs. rewrite Ln in Hs.
    assert (Wn : Z.of_nat (length (walked (S (K z)) z)) = Z.of_nat (length (walked (K z) z)) + Z.of_nat (length c)) by (rewrite (walked_S _ _ _ _ _ Hk), app_length, map_length; lia).
    set (v := Z.of_nat (length (walked (K z) z))) in *.
    assert (Hmk : forall i, (In (p, i) (firstn (Z.to_nat n) (walked (S (K z)) z)) /\ nth_z i out' = Some 1) \/ (~ In (p, i) (firstn (Z.to_nat n) (walked (S (K z)) z)) /\ nth_z i out' = nth_z i (wk_output w))).
    { intros i. rewrite (walked_S _ _ _ _ _ Hk), firstn_app. replace (Z.to_nat n - length (walked (K z) z))%nat with (Z.to_nat (n - v)) by (unfold v; lia).
      rewrite firstn_map. 
      assert (Hold : In (p, i) (firstn (Z.to_nat n) (walked (K z) z)) -> nth_z i (wk_output w) = Some 1).
      { intros Hin'. assert (Hi : 0 <= i < nr_elements (pl_shape pq)).
        { destruct (Hcells z p i) as [q' [Eq' Hi']]; [|congruence]. rewrite F2. unfold hop_cells. rewrite flat_map_app. apply in_app_iff. left.
          fold (hop_cells (firstn (K z) (H z))). fold (walked (K z) z). rewrite <- (firstn_skipn (Z.to_nat n) (walked (K z) z)). apply in_app_iff. now left. }
        destruct (proj2 (wi_out K st I p pq w Epq Hw) i Hi) as [[_ X]|[X _]]; [assumption|]. exfalso. apply X. exists z. assumption. }
      assert (Hm : In (p, i) (map (pair p) (firstn (Z.to_nat (n - v)) c)) <-> In i (firstn (Z.to_nat (n - v)) c)).
      { rewrite in_map_iff. split; [intros [j [E Hj]]; apply (f_equal snd) in E; cbn in E; now subst j|intros Hi; exists i; auto]. }
      rewrite in_app_iff, Hm. destruct (H1 i) as [[A B]|[A B]]; [left; auto|].
      destruct (in_dec (prod_eq_dec Z.eq_dec Z.eq_dec) (p, i) (firstn (Z.to_nat n) (walked (K z) z))) as [D|D].
      - left. split; [now left|]. rewrite B. now apply Hold.
      - right. split; [tauto|assumption]. }
    assert (Hv : keep_walking n (v + Z.of_nat (length (firstn (Z.to_nat (n - v)) c))) = true ->
                 v + Z.of_nat (length (firstn (Z.to_nat (n - v)) c)) = Z.of_nat (length (walked (S (K z)) z)) /\ Z.of_nat (length (walked (S (K z)) z)) < n).
    { unfold keep_walking. rewrite Z.ltb_lt, firstn_length. rewrite Wn. intros X. assert (0 <= v) by (unfold v; lia). assert (v + Z.of_nat (length c) < n) by lia. lia. }
    assert (Hv' : keep_walking n (v + Z.of_nat (length (firstn (Z.to_nat (n - v)) c))) = false -> n <= Z.of_nat (length (walked (S (K z)) z))).
    { unfold keep_walking. rewrite Z.ltb_ge, firstn_length, Wn. lia. }
    set (spawned := match h2 with [] => [] | (q, _) :: _ => [if keep_walking n (v + Z.of_nat (length (firstn (Z.to_nat (n - v)) c))) then WalkRoute q z (v + Z.of_nat (length (firstn (Z.to_nat (n - v)) c))) else SkipRoute q z] end).
    destruct (zone_step K st kk (WalkRoute p z v) z p c h2 spawned out' w I Ht eq_refl Hk Hw L1 Hmk) as [w' [walkers [A1 [A2 A3]]]].
    { unfold spawned. destruct h2 as [|[q c2] h2]; [reflexivity|]. destruct (keep_walking n _); [left|right]; [|auto].
      destruct (Hv eq_refl) as [-> ?]. auto. }
    exists (WalkState walkers (firstn kk (ws_tasks st) ++ skipn (S kk) (ws_tasks st) ++ spawned)), (bump K z).
    assert (Sp : filter is_result spawned = []) by (unfold spawned; destruct h2 as [|[q c2] h2]; [reflexivity|]; destruct (keep_walking n _); reflexivity).
    split; [|split; [assumption|]].
    + destruct h2 as [|[q c2] h2].
      * assert (cnt p (firstn (K z) (H z)) + 1 =? cnt p (H z) = true) as Ec by (rewrite C2; change (cnt p []) with 0; rewrite Z.add_0_r; apply Z.eqb_refl).
        rewrite Ec, A1, obind_Ok in Hs. cbn [obind] in Hs. rewrite A2 in Hs. inversion Hs. reflexivity.
      * rewrite A1, obind_Ok in Hs. cbn [obind] in Hs. rewrite A2 in Hs. inversion Hs. reflexivity.
    + rewrite (pending_same st kk _ spawned walkers Ht eq_refl Sp). unfold bump. rewrite sum_step; [lia|]. rewrite F2. destruct (firstn (K z) (H z)); discriminate.
  - (* skip *)
    left. pose proof (wi_zone K st I z) as Zw.
    assert (Hzt : In (SkipRoute p z) (ztasks z (ws_tasks st))) by (apply filter_In; split; [assumption|cbn; apply Z.eqb_refl]).
    pose proof (zw_tasks _ _ _ _ Zw) as T. destruct (skipn (K z) (H z)) as [|[p' c] h2] eqn:Hk; [rewrite T in Hzt; destruct Hzt|].
    destruct T as [[T _]|[T Tc]]; rewrite T in Hzt; destruct Hzt as [E|[]]; [discriminate|]. inversion E; subst p'. clear E.
    destruct (firstn_hop _ _ _ _ _ Hk) as [F1 [F2 [F3 F4]]].
    assert (Hp : 0 <= p < N).
    { destruct (Hr z) as [_ [Fp _]]. rewrite F2 in Fp. apply Forall_app in Fp. destruct Fp as [_ Fp]. inversion Fp. assumption. }
    destruct (part_some p Hp) as [pq [Epq Hpq]]. rewrite Epq in Hs.
    destruct (nth_z_range p (ws_walkers st)) as [w Hw]; [rewrite (wi_len K st I); assumption|]. rewrite Hw in Hs.
    unfold skip_walking_route_fragments in Hs. rewrite (part_fragments p pq z Epq) in Hs.
    pose proof (zw_idxs _ _ _ _ Zw p Hp) as Ei. unfold idxs_of in Ei. rewrite Hw in Ei.
    assert (C2 : cnt p (H z) = cnt p (firstn (K z) (H z)) + 1 + cnt p h2) by (rewrite F2 at 1; rewrite cnt_app, cnt_cons; cbn [fst]; rewrite Z.eqb_refl; lia).
    pose proof (cnt_nonneg p h2) as C3. destruct (Z.ltb_spec (cnt p (firstn (K z) (H z))) (cnt p (H z))); [|lia]. rewrite Ei in Hs.
    pose proof (hop_fragments_nth None p c (firstn (K z) (H z)) h2) as En. rewrite <- F2 in En. pose proof (hop_fragments_len None p (H z)) as Ln.
    destruct (hop_fragments None p (H z)) as [|f0 fs]; [pose proof (cnt_nonneg p (firstn (K z) (H z))); cbn [length Z.of_nat] in Ln; lia|]. cbn [opt_list] in Hs. unfold at_z in Hs. rewrite En in Hs. rewrite obind_Ok in Hs. cbn [fr_cells fr_next] in Hs.
    rewrite Ln in Hs.
    assert (Wn : Z.of_nat (length (walked (S (K z)) z)) = Z.of_nat (length (walked (K z) z)) + Z.of_nat (length c)) by (rewrite (walked_S _ _ _ _ _ Hk), app_length, map_length; lia).
    assert (Hmk : forall i, (In (p, i) (firstn (Z.to_nat n) (walked (S (K z)) z)) /\ nth_z i (wk_output w) = Some 1) \/ (~ In (p, i) (firstn (Z.to_nat n) (walked (S (K z)) z)) /\ nth_z i (wk_output w) = nth_z i (wk_output w))).
    { intros i. rewrite (walked_S _ _ _ _ _ Hk), firstn_app. replace (Z.to_nat n - length (walked (K z) z))%nat with 0%nat by lia. cbn [firstn]. rewrite app_nil_r.
      destruct (in_dec (prod_eq_dec Z.eq_dec Z.eq_dec) (p, i) (firstn (Z.to_nat n) (walked (K z) z))) as [D|D]; [left|right; auto]. split; [assumption|].
      assert (Hi : 0 <= i < nr_elements (pl_shape pq)).
      { destruct (Hcells z p i) as [q' [Eq' Hi']]; [|congruence]. rewrite F2. unfold hop_cells. rewrite flat_map_app. apply in_app_iff. left.
        fold (hop_cells (firstn (K z) (H z))). fold (walked (K z) z). rewrite <- (firstn_skipn (Z.to_nat n) (walked (K z) z)). apply in_app_iff. now left. }
      destruct (proj2 (wi_out K st I p pq w Epq Hw) i Hi) as [[_ X]|[X _]]; [assumption|]. exfalso. apply X. exists z. assumption. }
    set (spawned := match h2 with [] => [] | (q, _) :: _ => [SkipRoute q z] end).
    destruct (zone_step K st kk (SkipRoute p z) z p c h2 spawned (wk_output w) w I Ht eq_refl Hk Hw eq_refl Hmk) as [w' [walkers [A1 [A2 A3]]]].
    { unfold spawned. destruct h2 as [|[q c2] h2]; [reflexivity|]. right. split; [reflexivity|lia]. }
    exists (WalkState walkers (firstn kk (ws_tasks st) ++ skipn (S kk) (ws_tasks st) ++ spawned)), (bump K z).
    assert (Sp : filter is_result spawned = []) by (unfold spawned; destruct h2 as [|[q c2] h2]; reflexivity).
    split; [|split; [assumption|]].
    + rewrite A1, obind_Ok in Hs. cbn [obind] in Hs. rewrite A2 in Hs. inversion Hs. unfold spawned. destruct h2 as [|[q c2] h2]; reflexivity.
    + rewrite (pending_same st kk _ spawned walkers Ht eq_refl Sp). unfold bump. rewrite sum_step; [lia|]. rewrite F2. destruct (firstn (K z) (H z)); discriminate.
Qed.
End Run.
