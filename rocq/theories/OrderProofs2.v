(** Proofs about the recording of routes: the invariant of all zones, in all orders in which tasks are run. *)
From Verif Require Import Common CommonProofs CoreSpec DecompModel ArrayModel LocalModel ZonalModel ZonalProofs AggregateProofs OrderModel OrderSpec OrderProofs.

(** Sizes *)
Definition size_map {V} (m : zmap (list (V * Z))) : nat := list_sum (map (fun e => length (snd e)) m).
Definition size {V} (st : order_state V) : nat := list_sum (map (fun c => size_map (cm_local c)) (os_components st)).

Lemma size_erase {V} (m : zmap (list (V * Z))) z l : zfind m z = Some l -> (size_map (zerase m z) + length l <= size_map m)%nat.
Proof.
  unfold size_map. induction m as [|[k s] m IH]; [discriminate|]. cbn [zfind zerase map list_sum fold_right snd].
  destruct (Z.eqb_spec k z) as [->|Hne].
  - intros E. inversion E; subst. assert (list_sum (map (fun e => length (snd e)) (zerase m z)) <= list_sum (map (fun e : Z * list (V * Z) => length (snd e)) m))%nat; [|unfold list_sum in *; lia].
    clear. induction m as [|[k s] m IH]; cbn [zerase]; [lia|]. destruct (k =? z); cbn [map list_sum fold_right snd]; unfold list_sum in *; lia.
  - intros E. specialize (IH E). cbn [map list_sum fold_right snd]. unfold list_sum in *. lia.
Qed.
Lemma size_set {V} (m : zmap (list (V * Z))) z l l' : zfind m z = Some l -> (size_map (zset_map m z l') + length l = size_map m + length l')%nat.
Proof.
  unfold size_map. induction m as [|[k s] m IH]; [discriminate|]. cbn [zfind zset_map map list_sum fold_right snd].
  destruct (Z.eqb_spec k z) as [->|Hne].
  - intros E. inversion E; subst. cbn [map list_sum fold_right snd]. unfold list_sum in *. lia.
  - intros E. specialize (IH E). cbn [map list_sum fold_right snd]. unfold list_sum in *. lia.
Qed.
Lemma sum_upd {A} (f : A -> nat) k a l l' c : upd_nth k a l = Some l' -> nth_error l k = Some c ->
  (list_sum (map f l') + f c = list_sum (map f l) + f a)%nat.
Proof.
  revert k l'. induction l as [|h l IH]; intros [|k] l'; cbn [upd_nth nth_error]; try discriminate.
  - intros E E'. inversion E; inversion E'; subst. cbn [map list_sum fold_right]. unfold list_sum. lia.
  - destruct (upd_nth k a l) as [l2|] eqn:E2; [|discriminate]. intros E E'. inversion E; subst. specialize (IH k l2 E2 E'). cbn [map list_sum fold_right]. unfold list_sum in *. lia.
Qed.

Lemma nth_z_upd {A} p (a : A) l l' q : upd_z p a l = Some l' -> nth_z q l' = if q =? p then Some a else nth_z q l.
Proof.
  unfold upd_z, nth_z. destruct (Z.ltb_spec p 0); [discriminate|]. intros E. destruct (Z.eqb_spec q p) as [->|Hne].
  - destruct (Z.ltb_spec p 0); [lia|]. now apply upd_nth_same in E.
  - destruct (Z.ltb_spec q 0); [reflexivity|]. apply (upd_nth_other _ _ _ _ _ E). lia.
Qed.
Lemma upd_z_some {A} p (a c : A) l : nth_z p l = Some c -> exists l', upd_z p a l = Some l'.
Proof.
  unfold nth_z, upd_z. destruct (p <? 0); [discriminate|]. intros H. apply upd_nth_Some. apply nth_error_Some. congruence.
Qed.
Lemma nth_z_in {A} p (c : A) l : nth_z p l = Some c -> In c l /\ 0 <= p < Z.of_nat (length l).
Proof.
  unfold nth_z. destruct (Z.ltb_spec p 0); [discriminate|]. intros H'. split; [now apply nth_error_In in H'|].
  assert (Z.to_nat p < length l)%nat; [|lia]. apply nth_error_Some. congruence.
Qed.
Lemma nth_z_range {A} p (l : list A) : 0 <= p < Z.of_nat (length l) -> exists c, nth_z p l = Some c.
Proof.
  intros H. unfold nth_z. destruct (Z.ltb_spec p 0); [lia|]. destruct (nth_error l (Z.to_nat p)) eqn:E; [eauto|]. apply nth_error_None in E. lia.
Qed.

Lemma split_nth {A} (l : list A) k t : nth_error l k = Some t -> l = firstn k l ++ t :: skipn (S k) l.
Proof.
  revert k. induction l as [|h l IH]; intros [|k]; cbn [nth_error firstn skipn]; try discriminate.
  - intros E. inversion E. reflexivity.
  - intros E. cbn [app]. f_equal. now apply IH.
Qed.

Lemma finish_local {V} (c : component V) : cm_local (finish_if_done c) = cm_local c.
Proof. unfold finish_if_done. now destruct (is_nil _). Qed.
Lemma finish_fragments {V} (c : component V) : cm_fragments (finish_if_done c) = cm_fragments c.
Proof. unfold finish_if_done. now destruct (is_nil _). Qed.
Lemma finish_count {V} (c : component V) : cm_finished c = 0 -> cm_finished (finish_if_done c) = if is_nil (cm_local (finish_if_done c)) then 1 else 0.
Proof. rewrite finish_local. unfold finish_if_done. intros H. destruct (is_nil (cm_local c)); cbn; lia. Qed.

Section Run.
Context {V : Type} (ltb eqb : V -> V -> bool) (min_value : V) (mx : Z) (good : V -> Prop) (n : Z).
Context (Hord : weak_order ltb eqb good).
Context (Hmin : forall v, good v -> ltb v min_value = false).
Context (alls : Z -> list (V * (Z * Z))) (starts : Z -> option Z).
Context (Hgood : forall z, Forall (fun e => good (fst e)) (alls z)).

Definition task_zone (t : order_task V) : Z := match t with RecordFragment _ z _ _ => z | SkipRecording _ z => z end.
Definition zone_tasks (z : Z) (ts : list (order_task V)) := filter (fun t => task_zone t =? z) ts.
Definition loc (cs : list (component V)) z q : option (list (V * Z)) :=
  match nth_z q cs with Some c => zfind (cm_local c) z | None => None end.
Definition frs (cs : list (component V)) z q : list fragment :=
  match nth_z q cs with Some c => frag_list (zfind (cm_fragments c) z) | None => [] end.
Definition zone_inv z ts l f := zinv ltb mx n z (alls z) (starts z) ts l f.

Definition inv (st : order_state V) : Prop :=
  Z.of_nat (length (os_components st)) = n /\
  (forall z, zone_inv z (zone_tasks z (os_tasks st)) (loc (os_components st) z) (frs (os_components st) z)) /\
  (forall c, In c (os_components st) -> cm_finished c = if is_nil (cm_local c) then 1 else 0).

Lemma zinv_ext z ts l f l' f' : (forall q, 0 <= q < n -> l' q = l q) -> (forall q, 0 <= q < n -> f' q = f q) ->
  zone_inv z ts l f -> zone_inv z ts l' f'.
Proof.
  intros Hl Hf [p maxima cur hops taken R E H|hops S E H1 H2 H3 H4 H5 H6].
  - eapply zi_active; [exact E|]. destruct H. split with (hops := hops) (taken := taken) (R := R); auto.
    + intros q Hq. rewrite Hl by assumption. auto.
    + intros q Hq. rewrite Hf by assumption. auto.
  - apply (zi_done _ _ _ _ _ _ _ _ _ hops S); auto.
    + intros q Hq. rewrite Hl; [auto|]. rewrite Forall_forall in H2. now apply H2.
    + intros q Hq Hn. rewrite Hl by assumption. auto.
    + intros q Hq. rewrite Hf by assumption. auto.
Qed.

Lemma zone_tasks_app z a b : zone_tasks z (a ++ b) = zone_tasks z a ++ zone_tasks z b.
Proof. apply filter_app. Qed.

(** What a task does, as seen by the other zones. *)
Definition touches (z : Z) (c c' : component V) : Prop :=
  (forall z', z' <> z -> zfind (cm_local c') z' = zfind (cm_local c) z' /\ zfind (cm_fragments c') z' = zfind (cm_fragments c) z').

Lemma task_ok st k t : inv st -> nth_error (os_tasks st) k = Some t ->
  exists c c' spawned, nth_z (task_partition t) (os_components st) = Some c /\ run_task ltb eqb min_value mx t c = Ok (c', spawned) /\
    touches (task_zone t) c c' /\ Forall (fun s => task_zone s = task_zone t) spawned /\
    cm_finished c' = (if is_nil (cm_local c') then 1 else 0) /\ (size_map (cm_local c') < size_map (cm_local c))%nat /\
    zone_inv (task_zone t) (zone_tasks (task_zone t) (firstn k (os_tasks st)) ++ zone_tasks (task_zone t) (skipn (S k) (os_tasks st)) ++ spawned)
      (upd (loc (os_components st) (task_zone t)) (task_partition t) (zfind (cm_local c') (task_zone t)))
      (upd (frs (os_components st) (task_zone t)) (task_partition t) (frag_list (zfind (cm_fragments c') (task_zone t)))).
Proof.
  intros [Hn [Hz Hfin]] Ht. remember (task_zone t) as z eqn:Ez. pose proof (Hz z) as Iz. unfold zone_inv in Iz.
  assert (Esp : zone_tasks z (os_tasks st) = zone_tasks z (firstn k (os_tasks st)) ++ t :: zone_tasks z (skipn (S k) (os_tasks st))).
  { rewrite (split_nth _ _ _ Ht) at 1. rewrite zone_tasks_app. f_equal. unfold zone_tasks. cbn [filter]. now rewrite <- Ez, Z.eqb_refl. }
  destruct Iz as [p maxima cur hops taken R E H|hops S E H1 H2 H3 H4 H5 H6].
  - (* a record task *)
    rewrite Esp in E.
    assert (Et : zone_tasks z (firstn k (os_tasks st)) = [] /\ t = RecordFragment p z maxima cur /\ zone_tasks z (skipn (S k) (os_tasks st)) = []).
    { destruct (zone_tasks z (firstn k (os_tasks st))) as [|h l]; cbn [app] in E; inversion E; auto. destruct l; discriminate. }
    destruct Et as [E1 [Et E2]]. rewrite E1, E2. cbn [app]. clear E Esp E1 E2.
    assert (Hp : 0 <= p < n) by apply H.
    destruct (nth_z_range p (os_components st)) as [c Hc]; [lia|].
    assert (El : zfind (cm_local c) z = loc (os_components st) z p) by (unfold loc; now rewrite Hc).
    assert (Ef : frag_list (zfind (cm_fragments c) z) = frs (os_components st) z p) by (unfold frs; now rewrite Hc).
    destruct (record_ok ltb eqb min_value mx good n Hord Hmin z (alls z) (starts z) _ _ p maxima cur hops taken R c (Hgood z) H El Ef)
      as [m' [fr' [spawned [l [Er [Hl [Hm' [Hne [Hsp Hzi]]]]]]]]].
    exists c. eexists. exists spawned. subst t. cbn [task_partition run_task]. split; [assumption|]. split; [exact Er|].
    assert (Hfc : cm_finished c = 0) by (rewrite (Hfin c (proj1 (nth_z_in _ _ _ Hc))), (zfind_nonnil _ _ _ Hl); reflexivity).
    rewrite finish_count by exact Hfc. rewrite finish_local, finish_fragments. cbn [cm_local cm_fragments].
    repeat split.
    + rewrite finish_local. cbn [cm_local]. destruct Hm' as [->|[l' [-> _]]]; [rewrite zfind_erase|rewrite zfind_set]; destruct (Z.eqb_spec z z'); congruence.
    + rewrite finish_fragments. cbn [cm_fragments]. apply zfind_push_other. congruence.
    + exact Hsp.
    + destruct Hm' as [->|[l' [-> Hlt]]]; [pose proof (size_erase _ _ _ Hl); destruct l; [contradiction|cbn [length] in *; lia]|].
      pose proof (size_set _ _ _ l' Hl). lia.
    + eapply zinv_ext; [intros q _; reflexivity| |exact Hzi].
      intros q Hq. unfold upd. destruct (q =? p); [|reflexivity]. unfold frag_list. rewrite (zfind_push (cm_fragments c) z fr' z), Z.eqb_refl.
      rewrite <- Ef. reflexivity.
  - (* a skip task *)
    rewrite Esp in E. set (A := zone_tasks z (firstn k (os_tasks st))) in *. set (B := zone_tasks z (skipn (Datatypes.S k) (os_tasks st))) in *.
    symmetry in E. apply map_eq_app in E. destruct E as [S1 [S2' [ES [EA E2]]]]. destruct S2' as [|q S2]; [discriminate|]. cbn [map] in E2. inversion E2 as [[Et EB]].
    subst S. assert (Hq : 0 <= q < n) by (apply Forall_app in H2; destruct H2 as [_ H2]; now inversion H2).
    destruct (nth_z_range q (os_components st)) as [c Hc]; [lia|].
    assert (El : exists e l, zfind (cm_local c) z = Some (e :: l)).
    { destruct (H3 q) as [e [l El]]; [apply in_or_app; right; now left|]. unfold loc in El. rewrite Hc in El. eauto. }
    destruct El as [e [l El]].
    exists c. eexists. exists []. cbn [task_partition run_task]. split; [assumption|]. unfold skip_recording_route_fragments. rewrite El. cbn [obind]. split; [reflexivity|].
    assert (Hfc : cm_finished c = 0) by (rewrite (Hfin c (proj1 (nth_z_in _ _ _ Hc))), (zfind_nonnil _ _ _ El); reflexivity).
    rewrite finish_count by exact Hfc. rewrite finish_local, finish_fragments. cbn [cm_local cm_fragments].
    assert (Hsz := size_erase _ _ _ El). cbn [length] in Hsz.
    assert (HnS : ~ In q (S1 ++ S2)) by (now apply NoDup_remove_2 in H1).
    repeat split.
    + rewrite finish_local. cbn [cm_local]. rewrite zfind_erase. destruct (Z.eqb_spec z z'); congruence.
    + now rewrite finish_fragments.
    + constructor.
    + lia.
    + apply (zi_done _ _ _ _ _ _ _ _ _ hops (S1 ++ S2)); rewrite ?app_nil_r.
      * now rewrite map_app, EA, EB.
      * now apply NoDup_remove_1 in H1.
      * apply Forall_app in H2. destruct H2 as [H2 H2']. inversion H2'; subst. now apply Forall_app.
      * intros q' Hq'. unfold upd. destruct (Z.eqb_spec q' q) as [->|Hne']; [contradiction|]. apply H3. apply in_app_iff in Hq'. apply in_app_iff. cbn [In]. tauto.
      * intros q' Hr Hq'. unfold upd. destruct (Z.eqb_spec q' q) as [->|Hne']; [rewrite zfind_erase, Z.eqb_refl; reflexivity|]. apply H4; [assumption|].
        intros Hx. apply Hq'. apply in_app_iff in Hx. apply in_app_iff. cbn [In] in Hx. destruct Hx as [?|[?|?]]; [tauto|congruence|tauto].
      * intros q' Hq'. unfold upd. destruct (Z.eqb_spec q' q) as [->|Hne']; [|now apply H5]. rewrite <- (H5 q Hq). unfold frs. now rewrite Hc.
      * assumption.
Qed.

Lemma step_ok st k o : inv st -> order_step ltb eqb min_value mx k st = Some o -> exists st', o = Ok st' /\ inv st' /\ (size st' < size st)%nat.
Proof.
  intros Hi. unfold order_step. destruct (nth_error (os_tasks st) k) as [t|] eqn:Ht; [|discriminate]. intros E. apply (f_equal (fun x => match x with Some y => y | None => o end)) in E. subst o.
  destruct (task_ok st k t Hi Ht) as [c [c' [spawned [Hc [Er [Htouch [Hsp [Hfc [Hsz Hzi]]]]]]]]].
  rewrite Hc, Er. cbn [obind]. destruct (upd_z_some (task_partition t) c' _ _ Hc) as [cs' Ecs]. rewrite Ecs.
  eexists. split; [reflexivity|]. destruct Hi as [Hn [Hz Hfin]].
  assert (Hnth : forall q, nth_z q cs' = if q =? task_partition t then Some c' else nth_z q (os_components st)) by (intros q; exact (nth_z_upd _ _ _ _ q Ecs)).
  split; [split; [|split]|].
  - cbn [os_components]. rewrite <- Hn. f_equal. unfold upd_z in Ecs. destruct (task_partition t <? 0); [discriminate|]. now apply upd_nth_length in Ecs.
  - intros z. cbn [os_components os_tasks]. destruct (Z.eq_dec z (task_zone t)) as [->|Hne].
    + rewrite !zone_tasks_app. replace (zone_tasks (task_zone t) spawned) with spawned.
      2:{ unfold zone_tasks. clear -Hsp. induction Hsp as [|s l Hs _ IH]; [reflexivity|]. cbn [filter]. rewrite Hs, Z.eqb_refl. now f_equal. }
      eapply zinv_ext; [| |exact Hzi].
      * intros q Hq. unfold loc, upd. rewrite Hnth. destruct (q =? task_partition t); reflexivity.
      * intros q Hq. unfold frs, upd. rewrite Hnth. destruct (q =? task_partition t); reflexivity.
    + replace (zone_tasks z (firstn k (os_tasks st) ++ skipn (S k) (os_tasks st) ++ spawned)) with (zone_tasks z (os_tasks st)).
      2:{ rewrite (split_nth _ _ _ Ht) at 1. rewrite !zone_tasks_app. f_equal. unfold zone_tasks at 1. cbn [filter]. destruct (Z.eqb_spec (task_zone t) z); [congruence|].
          fold (zone_tasks z (skipn (S k) (os_tasks st))). assert (zone_tasks z spawned = []) as ->; [|now rewrite app_nil_r].
          clear -Hsp Hne. unfold zone_tasks. induction Hsp as [|s l Hs _ IH]; [reflexivity|]. cbn [filter]. destruct (Z.eqb_spec (task_zone s) z); [congruence|assumption]. }
      eapply zinv_ext; [| |exact (Hz z)].
      * intros q Hq. unfold loc. rewrite Hnth. destruct (Z.eqb_spec q (task_partition t)) as [->|]; [|reflexivity]. rewrite Hc. now apply Htouch.
      * intros q Hq. unfold frs. rewrite Hnth. destruct (Z.eqb_spec q (task_partition t)) as [->|]; [|reflexivity]. rewrite Hc. f_equal. now apply Htouch.
  - intros d Hd. cbn [os_components] in Hd. apply In_nth_error in Hd. destruct Hd as [i Hi]. specialize (Hnth (Z.of_nat i)). unfold nth_z in Hnth.
    destruct (Z.ltb_spec (Z.of_nat i) 0); [lia|]. rewrite Nat2Z.id, Hi in Hnth. destruct (Z.eqb_spec (Z.of_nat i) (task_partition t)); [inversion Hnth; subst; exact Hfc|].
    apply Hfin. symmetry in Hnth. now apply nth_error_In in Hnth.
  - unfold size. cbn [os_components]. unfold upd_z in Ecs. unfold nth_z in Hc. destruct (task_partition t <? 0); [discriminate|].
    pose proof (sum_upd (fun c => size_map (cm_local c)) _ _ _ _ _ Ecs Hc). cbn beta in *. lia.
Qed.

Lemma run_ok st ks st' : inv st -> order_run ltb eqb min_value mx st ks st' -> inv st' /\ (length ks + size st' <= size st)%nat.
Proof.
  intros Hi Hr. induction Hr as [st|st k st1 ks st2 Hs Hr IH]; [cbn; split; [assumption|lia]|].
  destruct (step_ok _ _ _ Hi Hs) as [st1' [E [Hi1 Hsz]]]. inversion E; subst st1'. destruct (IH Hi1) as [H1 H2]. split; [assumption|]. cbn [length]. lia.
Qed.

Lemma end_ok st : inv st -> os_tasks st = [] ->
  (forall c, In c (os_components st) -> cm_finished c = 1) /\
  (forall z, exists hops, (forall q, 0 <= q < n -> frs (os_components st) z q = hop_fragments None q hops) /\ final ltb mx n (alls z) (starts z) hops).
Proof.
  intros [Hn [Hz Hfin]] Ht. rewrite Ht in Hz. split.
  - intros c Hc. rewrite (Hfin c Hc). assert (cm_local c = []) as ->; [|reflexivity]. apply zfind_all_none. intros z.
    apply In_nth_error in Hc. destruct Hc as [i Hi].
    assert (0 <= Z.of_nat i < n) as Hr by (assert (i < length (os_components st))%nat by (apply nth_error_Some; congruence); lia).
    destruct (Hz z) as [? ? ? ? ? ? E|hops S E H1 H2 H3 H4 H5 H6]; [discriminate|]. destruct S; [|discriminate].
    specialize (H4 (Z.of_nat i) Hr (fun x => x)). unfold loc, nth_z in H4. destruct (Z.ltb_spec (Z.of_nat i) 0); [lia|]. rewrite Nat2Z.id, Hi in H4. exact H4.
  - intros z. destruct (Hz z) as [? ? ? ? ? ? E|hops S E H1 H2 H3 H4 H5 H6]; [discriminate|]. exists hops. auto.
Qed.
End Run.
