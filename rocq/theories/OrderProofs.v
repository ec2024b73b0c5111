(** Proofs about the recording of routes: the invariant of a zone. *)
From Verif Require Import Common CommonProofs CoreSpec DecompModel ArrayModel LocalModel ZonalModel ZonalProofs AggregateProofs OrderModel OrderSpec.

Lemma zfind_erase {S} (m : zmap S) k z : zfind (zerase m k) z = if k =? z then None else zfind m z.
Proof.
  induction m as [|[k' s] m IH]; cbn [zerase zfind]; [now destruct (k =? z)|].
  destruct (Z.eqb_spec k' k); cbn [zfind].
  - rewrite IH. destruct (Z.eqb_spec k z), (Z.eqb_spec k' z); congruence || lia.
  - rewrite IH. destruct (Z.eqb_spec k z), (Z.eqb_spec k' z); congruence || lia.
Qed.
Lemma zfind_all_none {S} (m : zmap S) : (forall z, zfind m z = None) -> m = [].
Proof. destruct m as [|[k s] m]; [reflexivity|]. intros H. specialize (H k). cbn [zfind] in H. rewrite Z.eqb_refl in H. discriminate. Qed.
Lemma zfind_nonnil {S} (m : zmap S) z s : zfind m z = Some s -> is_nil m = false.
Proof. destruct m; [discriminate|reflexivity]. Qed.
Definition frag_list (o : option (list fragment)) : list fragment := match o with Some l => l | None => [] end.
Lemma zfind_push {S} (m : zmap (list S)) k s z :
  match zfind (zpush m k s) z with Some l => l | None => [] end = match zfind m z with Some l => l | None => [] end ++ if k =? z then [s] else [].
Proof.
  unfold zpush. rewrite zfind_set. destruct (Z.eqb_spec k z) as [->|]; [destruct (zfind m z); reflexivity|now rewrite app_nil_r].
Qed.
Lemma zfind_push_other {S} (m : zmap (list S)) k s z : k <> z -> zfind (zpush m k s) z = zfind m z.
Proof. intros H. unfold zpush. rewrite zfind_set. destruct (Z.eqb_spec k z); [contradiction|reflexivity]. Qed.

Lemma hop_fragments_snoc last p hops q cells : hop_fragments last p (hops ++ [(q, cells)]) =
  hop_fragments (Some q) p hops ++ if q =? p then [Fragment cells last] else [].
Proof.
  induction hops as [|[q' c'] hops IH]; [cbn; now destruct (q =? p)|].
  cbn [app hop_fragments]. rewrite IH.
  assert (E : match hops ++ [(q, cells)] with [] => last | (q'', _) :: _ => Some q'' end = match hops with [] => Some q | (q'', _) :: _ => Some q'' end) by now destruct hops as [|[]].
  rewrite E. destruct (q' =? p); reflexivity.
Qed.
Lemma next_partition_snoc hops q c c' x : next_partition ((hops ++ [(q, c)]) ++ x) = next_partition (hops ++ [(q, c')]).
Proof. destruct hops as [|[]]; reflexivity. Qed.

Section Flat.
Context {V : Type} (n : Z).
Definition tag (q : Z) (e : V * Z) : V * (Z * Z) := (fst e, (q, snd e)).
Definition flat (R : Z -> list (V * Z)) : list (V * (Z * Z)) := flat_map (fun q => map (tag q) (R q)) (zseq 0 n).
Definition put (R : Z -> list (V * Z)) p l q := if q =? p then l else R q.
Definition opt_list {A} (l : list A) : option (list A) := match l with [] => None | _ => Some l end.

Lemma in_flat R e : In e (flat R) <-> exists q i, 0 <= q < n /\ snd e = (q, i) /\ In (fst e, i) (R q).
Proof.
  unfold flat. rewrite in_flat_map. split.
  - intros [q [Hq He]]. apply in_map_iff in He. destruct He as [[v i] [<- He]]. exists q, i. apply in_zseq in Hq. repeat split; [lia|lia|exact He].
  - intros [q [i [Hq [E He]]]]. exists q. split; [apply in_zseq; lia|]. apply in_map_iff. exists (fst e, i). split; [|exact He].
    unfold tag. cbn. rewrite <- E. now destruct e.
Qed.
Lemma flat_split R p l : 0 <= p < n -> Permutation (flat (put R p l)) (map (tag p) l ++ flat (put R p [])).
Proof.
  intros Hp. unfold flat.
  assert (forall ks, NoDup ks -> In p ks -> Permutation (flat_map (fun q => map (tag q) (put R p l q)) ks)
            (map (tag p) l ++ flat_map (fun q => map (tag q) (put R p [] q)) ks)) as H.
  - assert (forall ks, ~ In p ks -> flat_map (fun q => map (tag q) (put R p l q)) ks = flat_map (fun q => map (tag q) (put R p [] q)) ks) as H0.
    { intros ks Hk. induction ks as [|k ks IH]; [reflexivity|]. cbn [flat_map]. rewrite IH; [|firstorder]. f_equal.
      unfold put. destruct (Z.eqb_spec k p); [|reflexivity]. exfalso. apply Hk. now left. }
    induction ks as [|k ks IH]; [contradiction|]. intros Hnd Hin. inversion Hnd as [|? ? Hk Hnd']; subst. cbn [flat_map].
    destruct (Z.eq_dec k p) as [->|Hne].
    + rewrite H0 by assumption. unfold put at 1 3. rewrite Z.eqb_refl. cbn [map app]. reflexivity.
    + destruct Hin as [?|Hin]; [congruence|]. rewrite (IH Hnd' Hin). unfold put at 1 3. destruct (Z.eqb_spec k p); [contradiction|].
      rewrite !app_assoc. apply Permutation_app_tail. apply Permutation_app_comm.
  - apply H; [apply zseq_NoDup|apply in_zseq; lia].
Qed.
Lemma flat_ext R R' : (forall q, 0 <= q < n -> R q = R' q) -> flat R = flat R'.
Proof.
  intros H. unfold flat. assert (forall ks, (forall q, In q ks -> R q = R' q) -> flat_map (fun q => map (tag q) (R q)) ks = flat_map (fun q => map (tag q) (R' q)) ks) as H'.
  - induction ks as [|k ks IH]; [reflexivity|]. intros Hk. cbn [flat_map]. rewrite (Hk k), IH; [reflexivity|intros q Hq; apply Hk; now right|now left].
  - apply H'. intros q Hq. apply H. apply in_zseq in Hq. lia.
Qed.
Lemma put_same R p q : put R p (R p) q = R q.
Proof. unfold put. now destruct (Z.eqb_spec q p) as [->|]. Qed.

End Flat.

Section Zone.
Context {V : Type} (ltb eqb : V -> V -> bool) (min_value : V) (mx : Z) (good : V -> Prop) (n : Z).
Context (Hord : weak_order ltb eqb good).
Context (Hmin : forall v, good v -> ltb v min_value = false).

Lemma lt_asym x y : good x -> good y -> ltb x y = true -> ltb y x = false. Proof. apply Hord. Qed.
Lemma ge_trans x y w : good x -> good y -> good w -> ltb x y = false -> ltb y w = false -> ltb x w = false. Proof. apply Hord. Qed.
Lemma ge_refl x : good x -> ltb x x = false.
Proof. intros H. destruct (ltb x x) eqn:E; [|reflexivity]. rewrite <- E. now apply lt_asym. Qed.

Definition ge1 (x y : V * Z) : Prop := ltb (fst x) (fst y) = false.
Definition ge2 (x y : V * (Z * Z)) : Prop := ltb (fst x) (fst y) = false.
Lemma take_local_ok remote local : forall cur, exists t rest,
  take_local ltb mx remote local cur = (map snd t, rest, cur + Z.of_nat (length t)) /\ local = t ++ rest /\
  Forall (fun e => ltb (fst e) remote = false) t /\
  (cur + Z.of_nat (length t) < mx -> match rest with [] => True | e :: _ => ltb (fst e) remote = true end) /\
  (cur < mx -> cur + Z.of_nat (length t) <= mx) /\ (mx <= cur -> t = []) /\
  (cur < mx -> match local with [] => True | e :: _ => ltb (fst e) remote = false -> t <> [] end).
Proof.
  induction local as [|[v i] local IH]; intros cur; cbn [take_local].
  - exists [], []. cbn. rewrite Z.add_0_r. repeat split; try constructor; try lia; auto.
  - destruct (Z.ltb_spec cur mx) as [Hc|Hc].
    + unfold geb. destruct (ltb v remote) eqn:Ev; cbn [negb].
      * exists [], ((v, i) :: local). cbn [map length app Z.of_nat]. rewrite Z.add_0_r. repeat split; try constructor; try lia; auto. cbn. congruence.
      * destruct (IH (cur + 1)) as [t [rest [E [El [Hf [H1 [H2 [H3 H4]]]]]]]]. rewrite E. exists ((v, i) :: t), rest. cbn [map length app].
        replace (cur + 1 + Z.of_nat (length t)) with (cur + Z.of_nat (S (length t))) in * by lia. repeat split; auto.
        -- now rewrite El.
        -- intros _. destruct (Z.ltb_spec (cur + 1) mx); [auto|]. rewrite H3 by lia. cbn. lia.
        -- lia.
        -- intros _ _. discriminate.
    + exists [], ((v, i) :: local). cbn [map length app Z.of_nat]. rewrite Z.add_0_r. repeat split; try constructor; try lia; auto.
Qed.

(** The state of a zone: its tasks, and in each partition the local values left and the fragments. *)
Definition hop_cells (hops : list (Z * list Z)) : list (Z * Z) := flat_map (fun '(p, idxs) => map (pair p) idxs) hops.
Definition final (all : list (V * (Z * Z))) (start : option Z) (hops : list (Z * list Z)) : Prop :=
  exists taken rest,
    start = next_partition hops /\ Forall (fun h => 0 <= fst h < n) hops /\ hop_cells hops = map snd taken /\
    Permutation (taken ++ rest) all /\ StronglySorted ge2 taken /\ (forall t r, In t taken -> In r rest -> ge2 t r) /\
    Z.of_nat (length taken) = Z.min (Z.max 0 mx) (Z.of_nat (length all)).

Record active (z : Z) (all : list (V * (Z * Z))) (start : option Z) (loc : Z -> option (list (V * Z))) (frs : Z -> list fragment)
    (p : Z) (maxima : list (V * Z)) (cur : Z) hops taken (R : Z -> list (V * Z)) : Prop := {
  ac_p : 0 <= p < n;
  ac_loc : forall q, 0 <= q < n -> loc q = opt_list (R q);
  ac_frs : forall q, 0 <= q < n -> frs q = hop_fragments (Some p) q hops;
  ac_start : start = next_partition (hops ++ [(p, [])]);
  ac_range : Forall (fun h => 0 <= fst h < n) hops;
  ac_cells : hop_cells hops = map snd taken;
  ac_perm : Permutation (taken ++ flat n R) all;
  ac_sorted : StronglySorted ge2 taken;
  ac_rest : forall t r, In t taken -> In r (flat n R) -> ge2 t r;
  ac_locals : forall q, 0 <= q < n -> StronglySorted ge1 (R q);
  ac_nodup : NoDup (map snd maxima);
  ac_maxima : forall m q, In (m, q) maxima <-> 0 <= q < n /\ exists i t, R q = (m, i) :: t;
  ac_msorted : StronglySorted ge1 maxima;
  ac_head : exists m rest, maxima = (m, p) :: rest;
  ac_cur : cur = Z.of_nat (length taken);
  ac_max : cur < mx \/ taken = [] }.

Inductive zinv (z : Z) (all : list (V * (Z * Z))) (start : option Z) (tasks : list (order_task V)) (loc : Z -> option (list (V * Z))) (frs : Z -> list fragment) : Prop :=
| zi_active p maxima cur hops taken R : tasks = [RecordFragment p z maxima cur] -> active z all start loc frs p maxima cur hops taken R -> zinv z all start tasks loc frs
| zi_done hops S : tasks = map (fun q => SkipRecording q z) S -> NoDup S -> Forall (fun q => 0 <= q < n) S ->
    (forall q, In q S -> exists e l, loc q = Some (e :: l)) -> (forall q, 0 <= q < n -> ~ In q S -> loc q = None) ->
    (forall q, 0 <= q < n -> frs q = hop_fragments None q hops) ->
    final all start hops -> zinv z all start tasks loc frs.

Lemma insert_in m l x : In x (insert_maximum ltb m l) <-> x = m \/ In x l.
Proof.
  induction l as [|y l IH]; cbn [insert_maximum]; [cbn; intuition|]. destruct (gtb ltb (fst y) (fst m)); cbn [In]; [rewrite IH|]; intuition.
Qed.
Lemma insert_perm m l : Permutation (insert_maximum ltb m l) (m :: l).
Proof.
  induction l as [|y l IH]; cbn [insert_maximum]; [reflexivity|]. destruct (gtb ltb (fst y) (fst m)); [|reflexivity].
  rewrite IH. apply perm_swap.
Qed.
Lemma insert_sorted m l : good (fst m) -> Forall (fun e => good (fst e)) l -> StronglySorted ge1 l -> StronglySorted ge1 (insert_maximum ltb m l).
Proof.
  intros Gm. induction l as [|y l IH]; intros Gl Hs; cbn [insert_maximum]; [repeat constructor|].
  inversion Gl; subst. inversion Hs as [|? ? Hs' Hy]; subst. unfold gtb. destruct (ltb (fst m) (fst y)) eqn:E.
  - constructor; [now apply IH|]. rewrite Forall_forall in *. intros x Hx. apply insert_in in Hx. destruct Hx as [->|Hx]; [|now apply Hy].
    unfold ge1. now apply lt_asym.
  - constructor; [assumption|]. constructor; [exact E|]. rewrite Forall_forall in *. intros x Hx. unfold ge1 in *.
    apply (ge_trans _ (fst y)); auto.
Qed.

Lemma ss_app {A} (P : A -> A -> Prop) l l' : StronglySorted P (l ++ l') <-> StronglySorted P l /\ StronglySorted P l' /\ (forall x y, In x l -> In y l' -> P x y).
Proof.
  induction l as [|x l IH]; cbn [app].
  - split; [intros H; split; [constructor|split; [exact H|intros ? ? []]]|tauto].
  - split.
    + intros H. inversion H as [|? ? H1 H2]; subst. apply IH in H1. destruct H1 as [H1 [H3 H4]]. rewrite Forall_app in H2. destruct H2 as [H2 H5].
      split; [constructor; assumption|]. split; [assumption|]. intros u w [<-|Hu] Hw; [rewrite Forall_forall in H5; now apply H5|now apply H4].
    + intros [H1 [H2 H3]]. inversion H1; subst. constructor.
      * apply IH. repeat split; auto. intros; apply H3; cbn; auto.
      * rewrite Forall_app. split; [assumption|]. apply Forall_forall. intros y Hy. apply H3; [now left|assumption].
Qed.

(** A local view: what a task for zone [z] does to the component of partition [p]. *)
Definition upd {A} (f : Z -> A) p v q : A := if q =? p then v else f q.

Lemma sorted_tags p t : StronglySorted ge1 t -> StronglySorted ge2 (map (tag p) t).
Proof.
  induction 1 as [|e l H IH Hf]; cbn [map]; constructor; [assumption|]. rewrite Forall_forall in *. intros x Hx. apply in_map_iff in Hx.
  destruct Hx as [y [<- Hy]]. exact (Hf y Hy).
Qed.

Lemma record_ok z all start loc frs p maxima cur hops taken R c :
  Forall (fun e => good (fst e)) all ->
  active z all start loc frs p maxima cur hops taken R ->
  zfind (cm_local c) z = loc p ->
  frag_list (zfind (cm_fragments c) z) = frs p ->
  exists m' fr' spawned l,
    record_route_fragment ltb eqb min_value mx p c z maxima cur = Ok (finish_if_done (Component m' (zpush (cm_fragments c) z fr') (cm_finished c)), spawned) /\
    zfind (cm_local c) z = Some l /\
    (m' = zerase (cm_local c) z \/ exists l', m' = zset_map (cm_local c) z l' /\ (length l' < length l)%nat) /\ l <> [] /\
    Forall (fun t => match t with RecordFragment _ z' _ _ => z' | SkipRecording _ z' => z' end = z) spawned /\
    zinv z all start spawned (upd loc p (zfind m' z)) (upd frs p (frs p ++ [fr'])).
Proof.
  intros Gall Ha Hl Hfr. destruct Ha as [Hp Hloc Hfrs Hst Hrange Hcells Hperm Hsorted Hrest Hlocals Hnd Hmax Hms [m [down Ed]] Hcur Hmx].
  assert (exists i0 t0, R p = (m, i0) :: t0) as [i0 [t0 ER]] by (apply (Hmax m p); rewrite Ed; now left).
  assert (Gflat : forall e, In e (flat n R) -> good (fst e)).
  { intros e He. rewrite Forall_forall in Gall. apply Gall. eapply Permutation_in; [exact Hperm|]. apply in_or_app. now right. }
  assert (GR : forall q e, 0 <= q < n -> In e (R q) -> good (fst e)).
  { intros q e Hq He. apply (Gflat (tag q e)). apply in_flat. exists q, (snd e). repeat split; try lia. now destruct e. }
  assert (Gm : forall v q, In (v, q) maxima -> good v).
  { intros v q Hin. apply Hmax in Hin. destruct Hin as [Hq [i [t E]]]. apply (GR q (v, i) Hq). rewrite E. now left. }
  assert (Elp : loc p = Some (R p)) by (rewrite Hloc by assumption; rewrite ER; reflexivity).
  assert (Hown : forall v, ~ In (v, p) down).
  { intros v Hv. rewrite Ed in Hnd. cbn in Hnd. inversion Hnd as [|? ? Hx _]; subst. apply Hx. apply in_map_iff. now exists (v, p). }
  set (remote := match down with [] => min_value | (v, _) :: _ => v end).
  assert (Hgm : good m) by (apply (Gm m p); rewrite Ed; now left).
  assert (Hremote : ltb m remote = false).
  { unfold remote. destruct down as [|[v q] down']; [now apply Hmin|]. rewrite Ed in Hms. inversion Hms as [|? ? _ Hf]; subst. inversion Hf; subst. assumption. }
  unfold record_route_fragment. rewrite Hl, Elp, ER, Ed.
  replace (eqb m m) with true by (symmetry; destruct Hord as [_ [_ He]]; rewrite He, ge_refl by assumption; reflexivity). cbn [negb]. rewrite Z.eqb_refl. cbn [negb].
  assert (Hassert : match down with [] => false | (v, q) :: _ => negb (geb ltb m v) || (q =? p) end = false).
  { destruct down as [|[v q] down']; [reflexivity|]. unfold geb. unfold remote in Hremote. rewrite Hremote. cbn. apply Z.eqb_neq. intros ->. apply (Hown v). now left. }
  rewrite Hassert. fold remote. rewrite <- ER.
  destruct (take_local_ok remote (R p) cur) as [t [rest [Et [El [Hge [H1 [H2 [H3 H4]]]]]]]]. rewrite Et.
  assert (Hl' : zfind (cm_local c) z = Some (R p)) by congruence.
  assert (HRp : R p <> []) by (rewrite ER; discriminate).
  (* facts about the new taken list *)
  set (taken' := taken ++ map (tag p) t). set (R' := put R p rest).
  assert (Hperm' : Permutation (taken' ++ flat n R') all).
  { rewrite <- Hperm. unfold taken', R'. rewrite <- app_assoc. apply Permutation_app_head. rewrite (flat_split n R p rest Hp).
    rewrite app_assoc, <- map_app, <- El. rewrite <- flat_split by assumption. erewrite flat_ext; [reflexivity|]. intros q _. apply put_same. }
  assert (Hin_t : forall e, In e t -> In e (R p)) by (intros e He; rewrite El; apply in_or_app; now left).
  assert (Hin_tf : forall e, In e (map (tag p) t) -> In e (flat n R)).
  { intros e He. apply in_map_iff in He. destruct He as [e' [<- He]]. apply in_flat. exists p, (snd e'). repeat split; try lia. apply Hin_t in He. now destruct e'. }
  assert (HsR := Hlocals p Hp). rewrite El in HsR. apply ss_app in HsR. destruct HsR as [HsT [HsRest HsX]].
  assert (Hsorted' : StronglySorted ge2 taken').
  { apply ss_app. split; [assumption|]. split; [now apply sorted_tags|]. intros x y Hx Hy. apply Hrest; auto. }
  assert (Hsub : forall e, In e (flat n R') -> In e (flat n R)).
  { intros e He. apply in_flat in He. destruct He as [q [i [Hq [Es Hi]]]]. apply in_flat. exists q, i. repeat split; try lia; try assumption.
    unfold R', put in Hi. destruct (Z.eqb_spec q p) as [->|]; [|assumption]. rewrite El. apply in_or_app. now right. }
  assert (Hrest' : forall x y, In x taken' -> In y (flat n R') -> ge2 x y).
  { intros x y Hx Hy. apply in_app_or in Hx. destruct Hx as [Hx|Hx]; [apply Hrest; auto|].
    apply in_map_iff in Hx. destruct Hx as [e [<- He]]. apply in_flat in Hy. destruct Hy as [q [i [Hq [Es Hi]]]]. unfold R', put in Hi. unfold ge2. cbn [tag fst].
    destruct (Z.eqb_spec q p) as [->|Hne]; [apply (HsX e (fst y, i)); assumption|].
    (* values elsewhere are at most the next maximum *)
    destruct (R q) as [|[mq iq] tq] eqn:Eq; [destruct Hi|].
    assert (Hmq : In (mq, q) down).
    { assert (In (mq, q) maxima) as Hx by (apply Hmax; split; [assumption|rewrite Eq; eauto]). rewrite Ed in Hx. destruct Hx as [Hx|Hx]; [inversion Hx; subst; lia|assumption]. }
    assert (G1 : good (fst e)) by (apply (GR p); auto).
    assert (G2 : good mq) by (apply (Gm mq q); rewrite Ed; now right).
    assert (G3 : good (fst y)) by (apply (GR q (fst y, i)); [assumption|rewrite Eq; assumption]).
    assert (G4 : good remote /\ ltb remote mq = false).
    { unfold remote. destruct down as [|[v qv] down']; [destruct Hmq|]. assert (Gv : good v) by (apply (Gm v qv); rewrite Ed; cbn; auto). split; [assumption|].
      destruct Hmq as [Hx|Hx]; [inversion Hx; subst; now apply ge_refl|]. rewrite Ed in Hms. inversion Hms as [|? ? Hms' _]; subst. inversion Hms' as [|? ? _ Hf]; subst.
      rewrite Forall_forall in Hf. exact (Hf _ Hx). }
    apply (ge_trans _ remote); try tauto; [rewrite Forall_forall in Hge; now apply Hge|]. apply (ge_trans _ mq); try tauto.
    destruct Hi as [Hi|Hi]; [inversion Hi; subst; now apply ge_refl|].
    assert (Hsq := Hlocals q Hq). rewrite Eq in Hsq. inversion Hsq as [|? ? _ Hf]; subst. rewrite Forall_forall in Hf. exact (Hf _ Hi). }
  assert (Hcells' : hop_cells (hops ++ [(p, map snd t)]) = map snd taken').
  { unfold hop_cells in *. rewrite flat_map_app, Hcells. unfold taken'. rewrite map_app. cbn [flat_map]. rewrite app_nil_r, !map_map. reflexivity. }
  assert (Hrange' : Forall (fun h => 0 <= fst h < n) (hops ++ [(p, map snd t)])) by (apply Forall_app; split; [assumption|constructor; [cbn; lia|constructor]]).
  assert (Hcur' : cur + Z.of_nat (length t) = Z.of_nat (length taken')) by (unfold taken'; rewrite app_length, map_length; lia).
  assert (Hlen : Z.of_nat (length all) = Z.of_nat (length taken') + Z.of_nat (length (flat n R'))) by (rewrite <- Hperm', app_length; lia).
  assert (Hfrs' : forall last fr, fr = Fragment (map snd t) last -> forall q, 0 <= q < n ->
            upd frs p (frs p ++ [fr]) q = hop_fragments last q (hops ++ [(p, map snd t)])).
  { intros last fr -> q Hq. rewrite hop_fragments_snoc. unfold upd. destruct (Z.eqb_spec q p) as [->|Hne].
    - rewrite Z.eqb_refl, Hfrs by assumption. reflexivity.
    - rewrite Hfrs by assumption. destruct (Z.eqb_spec p q); [lia|]. now rewrite app_nil_r. }
  destruct (Z.ltb_spec (cur + Z.of_nat (length t)) mx) as [Hlt|Hge'].
  - (* the limit has not been reached *)
    destruct down as [|[v q] down'] eqn:Edown.
    + (* everything has been visited *)
      exists (zerase (cm_local c) z), (Fragment (map snd t) None), [], (R p). cbn [existsb map]. split; [reflexivity|]. split; [reflexivity|].
      split; [now left|]. split; [assumption|]. split; [constructor|].
      apply (zi_done _ _ _ _ _ _ (hops ++ [(p, map snd t)]) []); try reflexivity; try constructor.
      * intros q [].
      * intros q Hq _. unfold upd. destruct (Z.eqb_spec q p) as [->|Hne]; [rewrite zfind_erase, Z.eqb_refl; reflexivity|].
        rewrite Hloc by assumption. destruct (R q) as [|[mq iq] tq] eqn:Eq; [reflexivity|]. exfalso.
        assert (In (mq, q) maxima) as Hx by (apply Hmax; split; [assumption|rewrite Eq; eauto]). rewrite Ed in Hx. destruct Hx as [Hx|[]]. inversion Hx; subst; lia.
      * now apply Hfrs'.
      * exists taken', (flat n R'). rewrite Hst, <- (next_partition_snoc hops p (map snd t) [] []), app_nil_r. repeat split; auto.
        assert (Erest : rest = []).
        { specialize (H1 Hlt). destruct rest as [|e rest']; [reflexivity|]. unfold remote in H1. rewrite Hmin in H1; [discriminate|].
          apply (GR p e Hp). rewrite El. apply in_or_app. right. now left. }
        assert (flat n R' = []) as E0.
        { destruct (flat n R') as [|e fl] eqn:Ef; [reflexivity|]. exfalso. assert (In e (flat n R')) as He by (rewrite Ef; now left).
          apply in_flat in He. destruct He as [q [i [Hq [Es Hi]]]]. unfold R', put in Hi. destruct (Z.eqb_spec q p); [now rewrite Erest in Hi|].
          destruct (R q) as [|[mq iq] tq] eqn:Eq; [destruct Hi|].
          assert (In (mq, q) maxima) as Hx by (apply Hmax; split; [assumption|rewrite Eq; eauto]). rewrite Ed in Hx. destruct Hx as [Hx|[]]. inversion Hx; subst; lia. }
        rewrite E0 in Hlen. cbn in Hlen. lia.
    + (* continue in another partition *)
      assert (Hq : 0 <= q < n) by (apply (Hmax v q); rewrite Ed; cbn; auto).
      assert (Hqp : q <> p) by (intros ->; apply (Hown v); now left).
      assert (Gdown : Forall (fun e => good (fst e)) ((v, q) :: down')).
      { apply Forall_forall. intros [w qw] Hw. apply (Gm w qw). rewrite Ed. now right. }
      assert (Hms' : StronglySorted ge1 ((v, q) :: down')) by (rewrite Ed in Hms; now inversion Hms).
      assert (Hnd' : NoDup (map snd ((v, q) :: down'))) by (rewrite Ed in Hnd; cbn in Hnd |- *; now inversion Hnd).
      assert (HmaxD : forall w qw, qw <> p -> (In (w, qw) ((v, q) :: down') <-> 0 <= qw < n /\ exists i tq, R' qw = (w, i) :: tq)).
      { intros w qw Hw. unfold R', put. destruct (Z.eqb_spec qw p); [contradiction|]. rewrite <- Hmax, Ed. cbn [In]. split; [tauto|].
        intros [E|E]; [inversion E; subst; lia|exact E]. }
      assert (HlocR : forall l, l = opt_list rest -> forall qw, 0 <= qw < n -> upd loc p l qw = opt_list (R' qw)).
      { intros l -> qw Hw. unfold upd, R', put. destruct (Z.eqb_spec qw p); [reflexivity|]. now apply Hloc. }
      assert (HlocalsR : forall qw, 0 <= qw < n -> StronglySorted ge1 (R' qw)).
      { intros qw Hw. unfold R', put. destruct (Z.eqb_spec qw p); [assumption|]. now apply Hlocals. }
      destruct rest as [|[nm ni] rest'].
      * exists (zerase (cm_local c) z), (Fragment (map snd t) (Some q)), [RecordFragment q z ((v, q) :: down') (cur + Z.of_nat (length t))], (R p).
        split; [reflexivity|]. split; [reflexivity|]. split; [now left|]. split; [assumption|]. split; [repeat constructor|].
        eapply zi_active; [reflexivity|]. split with (hops := hops ++ [(p, map snd t)]) (taken := taken') (R := R'); auto.
        -- apply HlocR. rewrite zfind_erase, Z.eqb_refl. reflexivity.
        -- rewrite Hst. symmetry. apply next_partition_snoc.
        -- intros w qw. destruct (Z.eq_dec qw p) as [->|Hw]; [|now apply HmaxD]. split; [intros Hx; now apply Hown in Hx|].
           intros [_ [i [tq E]]]. unfold R', put in E. rewrite Z.eqb_refl in E. discriminate.
        -- exists v, down'. reflexivity.
      * specialize (H1 Hlt). cbn [fst] in H1. unfold remote in H1. rewrite H1. cbn [negb].
        assert (Gnm : good nm) by (apply (GR p (nm, ni) Hp); rewrite El; apply in_or_app; right; now left).
        exists (zset_map (cm_local c) z ((nm, ni) :: rest')), (Fragment (map snd t) (Some q)), [RecordFragment q z (insert_maximum ltb (nm, p) ((v, q) :: down')) (cur + Z.of_nat (length t))], (R p).
        split; [reflexivity|]. split; [reflexivity|]. split.
        { right. exists ((nm, ni) :: rest'). split; [reflexivity|]. rewrite El, app_length. assert (t <> []); [|destruct t; [contradiction|cbn; lia]].
          assert (Hc : cur < mx) by lia. specialize (H4 Hc). rewrite ER in H4. now apply H4. }
        split; [assumption|]. split; [repeat constructor|].
        eapply zi_active; [reflexivity|]. split with (hops := hops ++ [(p, map snd t)]) (taken := taken') (R := R'); auto.
        -- apply HlocR. rewrite zfind_set, Z.eqb_refl. reflexivity.
        -- rewrite Hst. symmetry. apply next_partition_snoc.
        -- apply (Permutation_NoDup (l := map snd ((nm, p) :: (v, q) :: down'))); [apply Permutation_map; symmetry; apply insert_perm|].
           cbn [map snd]. constructor; [|assumption]. intros Hx. change (q :: map snd down') with (map snd ((v, q) :: down')) in Hx. apply in_map_iff in Hx.
           destruct Hx as [[w qw] [Ew Hx]]. cbn in Ew. subst qw. now apply Hown in Hx.
        -- intros w qw. rewrite insert_in. destruct (Z.eq_dec qw p) as [->|Hw].
           ++ unfold R', put. rewrite Z.eqb_refl. split.
              ** intros [E|Hx]; [inversion E; subst; split; [assumption|eauto]|now apply Hown in Hx].
              ** intros [_ [i [tq E]]]. inversion E; subst. now left.
           ++ rewrite <- HmaxD by assumption. split; [intros [E|E]; [inversion E; subst; lia|assumption]|now right].
        -- apply insert_sorted; assumption.
        -- cbn [insert_maximum fst]. unfold gtb. rewrite H1. eauto.
  - (* the limit has been reached *)
    assert (Hex : existsb (fun '(_, q) => q =? p) down = false).
    { destruct (existsb (fun '(_, q) => q =? p) down) eqn:E; [|reflexivity]. apply existsb_exists in E. destruct E as [[v q] [Hin E]]. apply Z.eqb_eq in E. subst. now apply Hown in Hin. }
    rewrite Hex. exists (zerase (cm_local c) z), (Fragment (map snd t) None), (map (fun '(_, q) => SkipRecording q z) down), (R p).
    split; [reflexivity|]. split; [reflexivity|]. split; [now left|]. split; [assumption|].
    split; [apply Forall_forall; intros x Hx; apply in_map_iff in Hx; destruct Hx as [[v q] [<- _]]; reflexivity|].
    apply (zi_done _ _ _ _ _ _ (hops ++ [(p, map snd t)]) (map snd down)).
    + rewrite map_map. apply map_ext. intros [v q]. reflexivity.
    + rewrite Ed in Hnd. cbn in Hnd. now inversion Hnd.
    + apply Forall_forall. intros q Hq. apply in_map_iff in Hq. destruct Hq as [[v q'] [<- Hq]]. apply (Hmax v q'). rewrite Ed. now right.
    + intros q Hq. apply in_map_iff in Hq. destruct Hq as [[v q'] [E Hq]]. cbn in E. subst q'. unfold upd. destruct (Z.eqb_spec q p) as [->|]; [now apply Hown in Hq|].
      assert (In (v, q) maxima) as Hx by (rewrite Ed; now right). apply Hmax in Hx. destruct Hx as [Hqr [i [tq E]]]. rewrite Hloc by assumption. rewrite E. cbn. eauto.
    + intros q Hq Hni. unfold upd. destruct (Z.eqb_spec q p) as [->|Hne]; [rewrite zfind_erase, Z.eqb_refl; reflexivity|].
      rewrite Hloc by assumption. destruct (R q) as [|[mq iq] tq] eqn:Eq; [reflexivity|]. exfalso. apply Hni. apply in_map_iff. exists (mq, q). split; [reflexivity|].
      assert (In (mq, q) maxima) as Hx by (apply Hmax; split; [assumption|rewrite Eq; eauto]). rewrite Ed in Hx. destruct Hx as [Hx|Hx]; [inversion Hx; subst; lia|assumption].
    + now apply Hfrs'.
    + exists taken', (flat n R'). rewrite Hst, <- (next_partition_snoc hops p (map snd t) [] []), app_nil_r. repeat split; auto.
      destruct (Z.ltb_spec cur mx) as [Hc|Hc]; [specialize (H2 Hc); lia|]. specialize (H3 Hc). rewrite H3 in *. cbn in *.
      destruct Hmx as [Hmx|Hmx]; [lia|]. subst taken. cbn in *. lia.
Qed.
End Zone.
