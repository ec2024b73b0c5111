(** Proofs about the recording of routes: the first state. *)
From Verif Require Import Common CommonProofs CoreSpec DecompSpec ArraySpec IndexModel DecompModel DecompProofs ArrayModel ArrayRep ArrayProofs LocalModel LocalProofs
  ZonalModel ZonalProofs AggregateModel AggregateSpec AggregateProofs RasterCheck StreamProofs OrderModel OrderSpec OrderProofs OrderProofs2.

Definition push_fold {S} (l : list (Z * S)) (m : zmap (list S)) : zmap (list S) := fold_left (fun m '(z, s) => zpush m z s) l m.

Lemma push_fold_find {S} (l : list (Z * S)) : forall m z,
  match zfind (push_fold l m) z with Some l => l | None => [] end = match zfind m z with Some l => l | None => [] end ++ vals l z.
Proof.
  induction l as [|[k s] l IH]; intros m z; [cbn; now rewrite app_nil_r|].
  unfold push_fold in *. cbn [fold_left]. rewrite IH, zfind_push. rewrite <- app_assoc. f_equal. unfold vals. cbn [filter fst].
  destruct (k =? z); reflexivity.
Qed.
Lemma push_fold_ne {S} (l : list (Z * S)) : forall m, (forall z, zfind m z <> Some []) -> forall z, zfind (push_fold l m) z <> Some [].
Proof.
  induction l as [|[k s] l IH]; intros m H z; [apply H|]. unfold push_fold in *. cbn [fold_left]. apply IH. intros z'. unfold zpush. rewrite zfind_set.
  destruct (k =? z'); [|apply H]. destruct (zfind m k) as [l'|]; [destruct l'|]; discriminate.
Qed.
Lemma push_fold_opt {S} (l : list (Z * S)) z : zfind (push_fold l []) z = opt_list (vals l z).
Proof.
  pose proof (push_fold_find l [] z) as H. cbn [zfind app] in H. pose proof (push_fold_ne l [] (fun _ => ltac:(discriminate)) z) as H'.
  rewrite <- H. destruct (zfind (push_fold l []) z) as [[|x t]|]; [congruence|reflexivity|reflexivity].
Qed.
Lemma push_fold_nodup {S} (l : list (Z * S)) : forall m, NoDup (map fst m) -> NoDup (map fst (push_fold l m)).
Proof. induction l as [|[k s] l IH]; intros m H; [exact H|]. unfold push_fold in *. cbn [fold_left]. apply IH. unfold zpush. now apply zset_nodup. Qed.

Lemma zfind_map {S T} (f : S -> T) (m : zmap S) z : zfind (map (fun '(k, s) => (k, f s)) m) z = option_map f (zfind m z).
Proof. induction m as [|[k s] m IH]; [reflexivity|]. cbn [map zfind]. destruct (k =? z); [reflexivity|exact IH]. Qed.
Lemma keys_map {S T} (f : S -> T) (m : zmap S) : map fst (map (fun '(k, s) => (k, f s)) m) = map fst m.
Proof. rewrite map_map. apply map_ext. now intros [k s]. Qed.
Lemma is_nil_map {A B} (f : A -> B) l : is_nil (map f l) = is_nil l.
Proof. now destruct l. Qed.
Lemma vals_find {S} (m : zmap S) z : NoDup (map fst m) -> vals m z = match zfind m z with Some s => [s] | None => [] end.
Proof.
  induction m as [|[k s] m IH]; [reflexivity|]. cbn [map fst]. intros H. inversion H; subst. unfold vals in *. cbn [filter fst zfind].
  destruct (Z.eqb_spec k z) as [->|]; [|now apply IH]. cbn [map snd]. rewrite IH by assumption. apply zfind_none in H2. now rewrite H2.
Qed.
Lemma vals_map_snd {A B} (f : A -> B) (l : list (Z * A)) z : vals (map (fun '(k, s) => (k, f s)) l) z = map f (vals l z).
Proof.
  unfold vals. induction l as [|[k s] l IH]; [reflexivity|]. cbn [map filter fst]. destruct (k =? z); cbn [map snd]; now rewrite IH.
Qed.

(** The loop over the cells of a partition *)
Lemma fold_idx {X A B M} (g : M -> Z -> A -> B -> M) (f1 : X -> A) (f2 : X -> B) (Y : list X) : forall pre m0,
  fold_left (fun acc i => obind acc (fun m => obind (at_z (map f1 (pre ++ Y)) i) (fun a => obind (at_z (map f2 (pre ++ Y)) i) (fun b => Ok (g m i a b)))))
    (zseq (Z.of_nat (length pre)) (Z.of_nat (length Y))) (Ok m0) =
  Ok (fold_left (fun m '(i, x) => g m i (f1 x) (f2 x)) (combine (zseq (Z.of_nat (length pre)) (Z.of_nat (length Y))) Y) m0).
Proof.
  induction Y as [|x Y IH]; intros pre m0; [reflexivity|].
  rewrite (zseq_cons (Z.of_nat (length pre)) (Z.of_nat (length (x :: Y)))) by (cbn [length]; lia). cbn [fold_left combine obind].
  assert (forall C (f : X -> C), at_z (map f (pre ++ x :: Y)) (Z.of_nat (length pre)) = Ok (f x)) as E.
  { intros C f. unfold at_z, nth_z. destruct (Z.ltb_spec (Z.of_nat (length pre)) 0); [lia|]. rewrite Nat2Z.id, nth_error_map, nth_error_app2, Nat.sub_diag by lia. reflexivity. }
  rewrite !E. cbn [obind]. replace (Z.of_nat (length pre) + 1) with (Z.of_nat (length (pre ++ [x]))) by (rewrite app_length; cbn; lia).
  replace (Z.of_nat (length (x :: Y)) - 1) with (Z.of_nat (length Y)) by (cbn [length]; lia).
  specialize (IH (pre ++ [x])). rewrite <- app_assoc in IH. cbn [app] in IH. apply IH.
Qed.

Lemma sequence_map {A B} (f : A -> outcome B) (g : A -> B) l : (forall x, In x l -> f x = Ok (g x)) -> sequence (map f l) = Ok (map g l).
Proof.
  induction l as [|x l IH]; intros H; [reflexivity|]. cbn [map sequence]. rewrite H by now left. cbn [obind]. rewrite IH by (intros; apply H; now right). reflexivity.
Qed.
Lemma map2_maps {A B C D} (h : A -> B -> C) (f : D -> A) (g : D -> B) l : map2 h (map f l) (map g l) = map (fun x => h (f x) (g x)) l.
Proof. induction l; cbn; [reflexivity|]. now f_equal. Qed.

Section Init.
Context {V : Type} (ltb eqb : V -> V -> bool) (min_value : V) (mx : Z) (comparable : V -> Prop) (sort : list (V * Z) -> list (V * Z)).
Context (Hord : weak_order ltb eqb comparable) (Hsort : sorts ltb comparable sort).
Context (zone_nd : Z -> bool) (value_nd : V -> bool).
Context (fz : list Z -> Z) (fv : list Z -> V).
Definition valid (x : list Z) : bool := negb (zone_nd (fz x)) && negb (value_nd (fv x)).
(** The cells of each partition, in the order of their linear indices *)
Context (Ys : list (list (list Z))).
Context (Hcmp : forall Y x, In Y Ys -> In x Y -> valid x = true -> comparable (fv x)).
Definition n : Z := Z.of_nat (length Ys).

Definition indexed (Y : list (list Z)) : list (Z * list Z) := combine (zseq 0 (Z.of_nat (length Y))) Y.
Definition entries (Y : list (list Z)) : list (Z * (V * Z)) := map (fun '(i, x) => (fz x, (fv x, i))) (filter (fun '(i, x) => valid x) (indexed Y)).

Lemma local_values_ok (zones : placed (list Z)) (values : placed (list V)) Y :
  pl_data zones = map fz Y -> pl_data values = map fv Y -> nr_elements (pl_shape values) = Z.of_nat (length Y) ->
  local_values value_nd zone_nd zones values = Ok (push_fold (entries Y) []).
Proof.
  intros E1 E2 E3. unfold local_values. rewrite E1, E2, E3.
  pose proof (fold_idx (fun m i z v => if negb (zone_nd z) && negb (value_nd v) then zpush m z (v, i) else m) fz fv Y [] []) as F. cbn [app length Z.of_nat] in F. etransitivity; [exact F|]. clear F. f_equal.
  unfold entries, push_fold, indexed, valid. cbn [length Z.of_nat]. generalize (combine (zseq 0 (Z.of_nat (length Y))) Y). generalize (@nil (Z * list (V * Z))).
  intros m l. revert m. induction l as [|[i x] l IH]; intros m; [reflexivity|]. cbn [fold_left filter].
  destruct (negb (zone_nd (fz x)) && negb (value_nd (fv x))); cbn [map fold_left]; apply IH.
Qed.

Definition R0 (z p : Z) : list (V * Z) := match nth_z p Ys with Some Y => sort (vals (entries Y) z) | None => [] end.
Definition comp0 (Y : list (list Z)) : component V := finish_if_done (Component (map (fun '(z, l) => (z, sort l)) (push_fold (entries Y) [])) [] 0).
Definition hd_value (l : list (V * Z)) : V := match l with (v, _) :: _ => v | [] => min_value end.
Definition max0 (Y : list (list Z)) : zmap V := map (fun '(z, l) => (z, hd_value l)) (map (fun '(z, l) => (z, sort l)) (push_fold (entries Y) [])).

Lemma indexed_in Y i x : In (i, x) (indexed Y) -> nth_z i Y = Some x.
Proof.
  unfold indexed. intros H. apply In_nth_error in H. destruct H as [k Hk].
  assert (k < length Y)%nat as Hl.
  { assert (k < length (combine (zseq 0 (Z.of_nat (length Y))) Y))%nat as L by (apply nth_error_Some; congruence). rewrite combine_length in L. lia. }
  assert (nth_error (combine (zseq 0 (Z.of_nat (length Y))) Y) k = Some (Z.of_nat k, nth k Y [])) as E.
  { erewrite nth_error_nth' with (d := (0, [])) by (rewrite combine_length, zseq_length; lia). rewrite combine_nth by (rewrite zseq_length; lia).
    f_equal. f_equal. apply nth_error_nth. rewrite nth_error_zseq by lia. now rewrite Z.add_0_l. }
  rewrite E in Hk. inversion Hk; subst. unfold nth_z. destruct (Z.ltb_spec (Z.of_nat k) 0); [lia|]. rewrite Nat2Z.id. now apply nth_error_nth'.
Qed.
Lemma entries_vals Y z : vals (entries Y) z = map (fun '(i, x) => (fv x, i)) (filter (fun '(i, x) => valid x && (fz x =? z)) (indexed Y)).
Proof.
  unfold entries, vals. induction (indexed Y) as [|[i x] l IH]; [reflexivity|]. cbn [filter]. destruct (valid x); cbn [map andb]; [|exact IH].
  cbn [filter fst]. destruct (fz x =? z); cbn [map snd]; now rewrite IH.
Qed.
Lemma vals_comparable Y z : In Y Ys -> Forall (fun e => comparable (fst e)) (vals (entries Y) z).
Proof.
  intros HY. rewrite entries_vals. apply Forall_forall. intros e He. apply in_map_iff in He. destruct He as [[i x] [<- He]]. apply filter_In in He.
  destruct He as [He Hv]. apply andb_prop in Hv. apply (Hcmp Y); [assumption| |tauto]. apply indexed_in in He. unfold nth_z in He. destruct (i <? 0); [discriminate|]. now apply nth_error_In in He.
Qed.
Lemma sort_nil l : Forall (fun e => comparable (fst e)) l -> (sort l = [] <-> l = []).
Proof.
  intros H. destruct (Hsort l H) as [P _]. split; intros E; [rewrite E in P; now apply Permutation_nil in P|subst; now apply Permutation_sym, Permutation_nil in P].
Qed.
Lemma entry_found Y z l : In Y Ys -> In (z, l) (push_fold (entries Y) []) -> l = vals (entries Y) z /\ l <> [].
Proof.
  intros HY Hl. apply zfind_in in Hl; [|apply push_fold_nodup; constructor]. rewrite push_fold_opt in Hl.
  destruct (vals (entries Y) z) eqn:E; [discriminate|]. inversion Hl; subst. split; [reflexivity|discriminate].
Qed.

Lemma sort_values_ok zones values Y : In Y Ys ->
  pl_data zones = map fz Y -> pl_data values = map fv Y -> nr_elements (pl_shape values) = Z.of_nat (length Y) ->
  sort_values sort value_nd zone_nd zones values = Ok (comp0 Y, max0 Y).
Proof.
  intros HY E1 E2 E3. unfold sort_values. rewrite (local_values_ok zones values Y E1 E2 E3). cbn [obind].
  rewrite (sequence_map _ (fun '(z, l) => (z, hd_value l))); [reflexivity|].
  intros [z l] Hl. apply in_map_iff in Hl. destruct Hl as [[z' l'] [E Hl]]. inversion E; subst z' l. destruct (entry_found Y z l' HY Hl) as [El Hne].
  destruct (sort l') as [|[v i] t] eqn:Es; [|reflexivity]. exfalso. apply Hne. apply sort_nil; [|assumption]. rewrite El. now apply vals_comparable.
Qed.

(** The maxima of a zone, in the order of the partitions *)
Definition zmax (z : Z) : list (V * Z) := flat_map (fun p => match R0 z p with [] => [] | (v, _) :: _ => [(v, p)] end) (zseq 0 n).

Lemma max0_find Y z : In Y Ys -> zfind (max0 Y) z = match sort (vals (entries Y) z) with [] => None | (v, _) :: _ => Some v end.
Proof.
  intros HY. unfold max0. rewrite !zfind_map, push_fold_opt. destruct (vals (entries Y) z) as [|e l] eqn:E.
  - assert (sort [] = []) as -> by (apply sort_nil; [constructor|reflexivity]). reflexivity.
  - cbn [opt_list option_map]. destruct (sort (e :: l)) as [|[v i] t] eqn:Es; [|reflexivity]. exfalso.
    assert (Fc : Forall (fun e => comparable (fst e)) (e :: l)) by (rewrite <- E; now apply vals_comparable). apply (sort_nil _ Fc) in Es. discriminate.
Qed.
Lemma max0_nodup Y : NoDup (map fst (max0 Y)).
Proof. unfold max0. rewrite !keys_map. apply push_fold_nodup. constructor. Qed.

Definition tagged (pm : Z * zmap V) : list (Z * (V * Z)) := map (fun '(z, v) => (z, (v, fst pm))) (snd pm).
Lemma collect_push (l : list (zmap V)) : collect_maxima l = push_fold (flat_map tagged (combine (zseq 0 (Z.of_nat (length l))) l)) [].
Proof.
  unfold collect_maxima, push_fold. generalize (combine (zseq 0 (Z.of_nat (length l))) l). intros pl. generalize (@nil (Z * list (V * Z))).
  induction pl as [|[p m] pl IH]; intros acc; [reflexivity|]. cbn [fold_left flat_map]. rewrite fold_left_app. rewrite IH. f_equal.
  unfold tagged. cbn [fst snd]. clear. revert acc. induction m as [|[z v] m IH]; intros acc; [reflexivity|]. cbn [fold_left map]. apply IH.
Qed.
Lemma combine_map_r {A B C} (f : B -> C) (l : list A) (l' : list B) : combine l (map f l') = map (fun '(a, b) => (a, f b)) (combine l l').
Proof. revert l'. induction l as [|a l IH]; intros [|b l']; [reflexivity..|]. cbn. now rewrite IH. Qed.
Lemma collect_find z : zfind (collect_maxima (map max0 Ys)) z = opt_list (zmax z).
Proof.
  rewrite collect_push, push_fold_opt. f_equal. rewrite map_length, combine_map_r. unfold zmax, n.
  assert (G : forall Ls pre, Ys = pre ++ Ls ->
     vals (flat_map tagged (map (fun '(a, b) => (a, max0 b)) (combine (zseq (Z.of_nat (length pre)) (Z.of_nat (length Ls))) Ls))) z =
     flat_map (fun p => match R0 z p with [] => [] | (v, _) :: _ => [(v, p)] end) (zseq (Z.of_nat (length pre)) (Z.of_nat (length Ls)))).
  - induction Ls as [|Y Ls IH]; intros pre Epre; [reflexivity|].
    rewrite (zseq_cons (Z.of_nat (length pre)) (Z.of_nat (length (Y :: Ls)))) by (cbn [length]; lia). cbn [combine map flat_map]. rewrite vals_app.
    replace (Z.of_nat (length (Y :: Ls)) - 1) with (Z.of_nat (length Ls)) by (cbn [length]; lia).
    replace (Z.of_nat (length pre) + 1) with (Z.of_nat (length (pre ++ [Y]))) by (rewrite app_length; cbn; lia).
    assert (HY : In Y Ys) by (rewrite Epre; apply in_or_app; right; now left).
    rewrite (IH (pre ++ [Y])) by now rewrite <- app_assoc. f_equal.
    unfold tagged. cbn [fst snd]. rewrite (vals_map_snd (fun v => (v, Z.of_nat (length pre)))), vals_find by apply max0_nodup. rewrite max0_find by assumption.
    unfold R0, nth_z. destruct (Z.ltb_spec (Z.of_nat (length pre)) 0); [lia|]. rewrite Nat2Z.id, Epre, nth_error_app2, Nat.sub_diag by lia. cbn [nth_error].
    destruct (sort (vals (entries Y) z)) as [|[v i] t]; reflexivity.
  - exact (G Ys [] eq_refl).
Qed.

Definition start_of (l : list (V * Z)) : Z := match l with (_, p) :: _ => p | [] => 0 end.
Definition maxima0 : zmap (list (V * Z)) := map (fun '(z, l) => (z, sort l)) (collect_maxima (map max0 Ys)).
Definition starts0 : zmap Z := map (fun '(z, l) => (z, start_of l)) maxima0.
Definition tasks0 : list (order_task V) := map (fun '((z, p), (_, l)) => RecordFragment p z l 0) (combine starts0 maxima0).
Definition state0 : order_state V := OrderState (map comp0 Ys) tasks0.
Definition all0 (z : Z) : list (V * (Z * Z)) := flat n (R0 z).

Lemma R0_some z p : 0 <= p < n -> exists Y, nth_z p Ys = Some Y /\ In Y Ys /\ R0 z p = sort (vals (entries Y) z).
Proof. intros H. destruct (nth_z_range p Ys H) as [Y E]. exists Y. split; [assumption|]. split; [now apply nth_z_in in E|]. unfold R0. now rewrite E. Qed.
Lemma R0_comparable z p e : 0 <= p < n -> In e (R0 z p) -> comparable (fst e).
Proof.
  intros H He. destruct (R0_some z p H) as [Y [_ [HY E]]]. rewrite E in He. pose proof (vals_comparable Y z HY) as F. destruct (Hsort _ F) as [P _].
  rewrite Forall_forall in F. apply F. eapply Permutation_in; [exact P|exact He].
Qed.
Lemma all0_good z : Forall (fun e => comparable (fst e)) (all0 z).
Proof.
  apply Forall_forall. intros e He. apply in_flat in He. destruct He as [q [i [Hq [_ Hi]]]]. exact (R0_comparable z q (fst e, i) Hq Hi).
Qed.
Lemma zmax_in z m q : In (m, q) (zmax z) <-> 0 <= q < n /\ exists i t, R0 z q = (m, i) :: t.
Proof.
  unfold zmax. rewrite in_flat_map. split.
  - intros [p [Hp Hin]]. apply in_zseq in Hp. destruct (R0 z p) as [|[v i] t] eqn:E; [destruct Hin|]. destruct Hin as [Hin|[]]. inversion Hin; subst. split; [lia|eauto].
  - intros [Hq [i [t E]]]. exists q. split; [apply in_zseq; lia|]. rewrite E. now left.
Qed.
Lemma zmax_nodup z : NoDup (map snd (zmax z)).
Proof.
  unfold zmax. generalize (zseq_NoDup 0 n). generalize (zseq 0 n). intros l. induction l as [|p l IH]; intros H; [constructor|]. inversion H; subst. cbn [flat_map].
  rewrite map_app. destruct (R0 z p) as [|[v i] t]; [now apply IH|]. cbn [map app snd]. constructor; [|now apply IH].
  intros Hin. apply in_map_iff in Hin. destruct Hin as [[w q] [E Hin]]. cbn in E. subst q. apply in_flat_map in Hin. destruct Hin as [q [Hq Hin]].
  destruct (R0 z q) as [|[v' i'] t']; [destruct Hin|]. destruct Hin as [Hin|[]]. inversion Hin; subst. contradiction.
Qed.
Lemma zmax_comparable z : Forall (fun e => comparable (fst e)) (zmax z).
Proof.
  apply Forall_forall. intros [m q] H. apply zmax_in in H. destruct H as [Hq [i [t E]]]. cbn. apply (R0_comparable z q (m, i) Hq). rewrite E. now left.
Qed.

Lemma maxima0_find z : zfind maxima0 z = match zmax z with [] => None | l => Some (sort l) end.
Proof. unfold maxima0. rewrite zfind_map, collect_find. now destruct (zmax z). Qed.
Lemma maxima0_nodup : NoDup (map fst maxima0).
Proof. unfold maxima0. rewrite keys_map, collect_push. apply push_fold_nodup. constructor. Qed.
Lemma maxima0_in z l : In (z, l) maxima0 -> l = sort (zmax z) /\ l <> [].
Proof.
  intros H. apply zfind_in in H; [|apply maxima0_nodup]. rewrite maxima0_find in H. destruct (zmax z) eqn:E; [discriminate|]. inversion H; subst. split; [reflexivity|].
  intros E'. assert (Fc : Forall (fun e => comparable (fst e)) (p :: l0)) by (rewrite <- E; apply zmax_comparable). apply (sort_nil _ Fc) in E'. discriminate.
Qed.
Lemma tasks0_eq : tasks0 = map (fun '(z, l) => RecordFragment (start_of l) z l 0) maxima0.
Proof.
  unfold tasks0, starts0. generalize maxima0. intros l. induction l as [|[z m] l IH]; [reflexivity|]. cbn [map combine]. now rewrite IH.
Qed.
Lemma tasks0_zone z : zone_tasks z tasks0 = match zmax z with [] => [] | l => [RecordFragment (start_of (sort l)) z (sort l) 0] end.
Proof.
  rewrite tasks0_eq. pose proof (maxima0_find z) as F. pose proof maxima0_nodup as N. revert F N. generalize maxima0. intros m F N.
  assert (E : zone_tasks z (map (fun '(z, l) => RecordFragment (start_of l) z l 0) m) = match zfind m z with None => [] | Some l => [RecordFragment (start_of l) z l 0] end).
  - clear F. induction m as [|[k l] m IH]; [reflexivity|]. cbn [map] in N. inversion N; subst. cbn [map]. unfold zone_tasks in *. cbn [filter task_zone zfind].
    destruct (Z.eqb_spec k z) as [->|]; [|now apply IH]. rewrite IH by assumption. apply zfind_none in H1. now rewrite H1.
  - rewrite E, F. now destruct (zmax z).
Qed.

Context (Hmin : forall v, comparable v -> ltb v min_value = false).
Lemma init_inv : inv ltb mx n all0 (zfind starts0) state0.
Proof.
  split; [unfold state0, n; cbn [os_components]; now rewrite map_length|]. split.
  - intros z. unfold zone_inv. cbn [state0 os_components os_tasks]. rewrite tasks0_zone.
    assert (Hloc : forall q, 0 <= q < n -> loc (map comp0 Ys) z q = opt_list (R0 z q)).
    { intros q Hq. destruct (R0_some z q Hq) as [Y [E [HY ER]]]. rewrite ER. unfold loc, nth_z in *. destruct (q <? 0); [discriminate|]. rewrite nth_error_map, E. cbn [option_map].
      unfold comp0. rewrite finish_local. cbn [cm_local]. rewrite zfind_map, push_fold_opt.
      pose proof (vals_comparable Y z HY) as F. pose proof (sort_nil _ F) as Hs. destruct (vals (entries Y) z) as [|e l]; cbn [opt_list option_map].
      - now rewrite (proj2 Hs eq_refl).
      - destruct (sort (e :: l)) eqn:Es; [|reflexivity]. destruct Hs as [Hs _]. now specialize (Hs eq_refl). }
    assert (Hfrs : forall q, 0 <= q < n -> frs (map comp0 Ys) z q = []).
    { intros q Hq. destruct (R0_some z q Hq) as [Y [E [HY ER]]]. unfold frs, nth_z in *. destruct (q <? 0); [discriminate|]. rewrite nth_error_map, E. cbn [option_map].
      unfold comp0. rewrite finish_fragments. reflexivity. }
    assert (Est : zfind starts0 z = match zmax z with [] => None | l => Some (start_of (sort l)) end).
    { unfold starts0. rewrite zfind_map, maxima0_find. now destruct (zmax z). }
    pose proof (zmax_comparable z) as F. pose proof (zmax_nodup z) as N. pose proof (zmax_in z) as I. destruct (Hsort _ F) as [P S].
    destruct (zmax z) as [|e l] eqn:Ez.
    + assert (HR : forall q, 0 <= q < n -> R0 z q = []).
      { intros q Hq. destruct (R0 z q) as [|[m i] t] eqn:E; [reflexivity|]. exfalso. apply (I m q). split; [assumption|eauto]. }
      assert (Hall : all0 z = []).
      { unfold all0. rewrite (flat_ext n (R0 z) (fun _ => [])) by exact HR. unfold flat. cbn [map]. clear. induction (zseq 0 n); [reflexivity|assumption]. }
      apply (zi_done _ _ _ _ _ _ _ _ _ [] []); try constructor.
      * intros q [].
      * intros q Hq _. rewrite Hloc, HR by assumption. reflexivity.
      * intros q Hq. rewrite Hfrs by assumption. reflexivity.
      * exists [], []. rewrite Hall, Est. repeat split; try constructor; [intros ? ? []|cbn; lia].
    + cbv beta iota zeta. cbv beta iota zeta in Est. destruct (sort (e :: l)) as [|[m p] rest] eqn:Es; [apply Permutation_nil in P; discriminate|].
      eapply zi_active; [reflexivity|].
      assert (Hiff : forall m' q, In (m', q) ((m, p) :: rest) <-> 0 <= q < n /\ exists i t, R0 z q = (m', i) :: t).
      { intros m' q. rewrite <- I. split; apply Permutation_in; [exact P|now apply Permutation_sym]. }
      split with (hops := []) (taken := []) (R := R0 z); auto.
      * cbn [start_of]. apply (Hiff m p). now left.
      * constructor.
      * intros ? ? [].
      * intros q Hq. destruct (R0_some z q Hq) as [Y [_ [HY ER]]]. rewrite ER. apply Hsort. now apply vals_comparable.
      * eapply Permutation_NoDup; [apply Permutation_map, Permutation_sym, P|exact N].
      * exists m, rest. reflexivity.
  - intros c Hc. cbn [state0 os_components] in Hc. apply in_map_iff in Hc. destruct Hc as [Y [<- HY]]. unfold comp0. apply finish_count. reflexivity.
Qed.
Lemma size0 : (size state0 <= list_sum (map (@length (list Z)) Ys))%nat.
Proof.
  unfold size, state0. cbn [os_components]. rewrite map_map. pose proof vals_comparable as F0. clear Hcmp Hmin. induction Ys as [|Y L IH]; [apply le_n|].
  cbn [map list_sum fold_right]. assert (size_map (cm_local (comp0 Y)) <= length Y)%nat as H.
  - unfold comp0. rewrite finish_local. cbn [cm_local].
    assert (E : forall (l : list (Z * (V * Z))) m, size_map (push_fold l m) = (size_map m + length l)%nat).
    { clear. induction l as [|[z e] l IH]; intros m; [unfold push_fold; cbn [fold_left length]; lia|]. unfold push_fold in *. cbn [fold_left]. rewrite IH. cbn [length].
      enough (size_map (zpush m z e) = S (size_map m)) by lia. unfold zpush. destruct (zfind m z) as [l'|] eqn:Ez.
      - pose proof (size_set m z l' (l' ++ [e]) Ez). rewrite app_length in H. cbn [length] in H. lia.
      - clear IH. unfold size_map. induction m as [|[k s] m IH]; [reflexivity|]. cbn [zset_map zfind] in *. destruct (k =? z); [discriminate|].
        cbn [map list_sum fold_right snd]. unfold list_sum in *. rewrite IH by assumption. lia. }
    assert (size_map (map (fun '(z, l) => (z, sort l)) (push_fold (entries Y) [])) = size_map (push_fold (entries Y) [])) as ->.
    { unfold size_map. rewrite map_map. f_equal. apply map_ext_in. intros [z l] Hl. cbn [snd].
      assert (Hl' : l = vals (entries Y) z).
      { apply zfind_in in Hl; [|apply push_fold_nodup; constructor]. rewrite push_fold_opt in Hl. destruct (vals (entries Y) z); [discriminate|]. now inversion Hl. }
      apply Permutation_length. apply Hsort. rewrite Hl'. apply F0. now left. }
    rewrite E. unfold size_map. cbn [map list_sum fold_right]. unfold entries. rewrite map_length.
    transitivity (length (indexed Y)); [|unfold indexed; rewrite combine_length; lia].
    generalize (indexed Y). clear. intros l. induction l as [|[i x] l IH]; [apply le_n|]. cbn [filter]. destruct (valid x); cbn [length]; lia.
  - assert (IHH := IH (fun Y z H => F0 Y z (or_intror H))). unfold list_sum in *. lia.
Qed.
End Init.
