(** Proofs for decreasing_order, continued: the result for a raster. *)
From Verif Require Import Common CommonProofs CoreSpec IndexModel IndexProofs DecompSpec ArraySpec AggregateSpec DecompModel DecompProofs DecompProofs2 ArrayModel ArrayRep ArrayProofs
  LocalModel LocalProofs AggregateProofs ZonalModel ZonalProofs RasterCheck FlowProofs StreamProofs OrderModel OrderSpec OrderProofs OrderProofs2 OrderProofs3 OrderProofs4.

Lemma highest_perm {V} (ltb : V -> V -> bool) value l l' k cells : Permutation l l' -> highest_first ltb value l k cells -> highest_first ltb value l' k cells.
Proof.
  intros P [H1 [H2 [H3 [H4 H5]]]]. repeat split; try assumption.
  - intros x Hx. apply (Permutation_in _ P). now apply H2.
  - now rewrite <- (Permutation_length P).
  - intros x y Hx Hy. apply H5; [assumption|]. now apply (Permutation_in _ (Permutation_sym P)).
Qed.

(** Routes determine the cells that are visited. *)
Lemma hops_unique (N : Z) : forall h1 h2, Forall (fun h => 0 <= fst h < N) h1 -> Forall (fun h => 0 <= fst h < N) h2 ->
  next_partition h1 = next_partition h2 -> (forall q, 0 <= q < N -> hop_fragments None q h1 = hop_fragments None q h2) -> h1 = h2.
Proof.
  induction h1 as [|[q c] h1 IH]; intros [|[q' c'] h2] F1 F2 E H; cbn in E; try discriminate; [reflexivity|].
  inversion E; subst q'. inversion F1; inversion F2; subst. cbn [fst] in *. pose proof (H q ltac:(assumption)) as Hq. cbn [hop_fragments] in Hq. rewrite Z.eqb_refl in Hq.
  inversion Hq as [[E1 E2 E3]]. subst c'. f_equal. apply IH; try assumption.
  - unfold next_partition. destruct h1 as [|[? ?] ?], h2 as [|[? ?] ?]; cbn in *; congruence.
  - intros r Hr. specialize (H r Hr). cbn [hop_fragments] in H. destruct (q =? r) eqn:Er; [|assumption]. now inversion H.
Qed.
Lemma route_hops_unique r id h1 h2 : route_hops r id h1 -> route_hops r id h2 -> h1 = h2.
Proof.
  intros [A1 [A2 A3]] [B1 [B2 B3]]. apply (hops_unique (Z.of_nat (length (rt_parts r)))); try assumption; [congruence|].
  intros q Hq. destruct (nth_error (rt_parts r) (Z.to_nat q)) as [c|] eqn:E; [|apply nth_error_None in E; lia].
  rewrite <- (Z2Nat.id q) by lia. now rewrite <- (A3 _ _ E), <- (B3 _ _ E).
Qed.
Lemma visits_unique r id c1 c2 : visits r id c1 -> visits r id c2 -> c1 = c2.
Proof.
  intros [h1 [A1 A2]] [h2 [B1 B2]]. rewrite (route_hops_unique r id h1 h2 A1 B1) in A2. revert A2 B2. generalize (flat_map (fun '(p, idxs) => map (pair p) idxs) h2).
  clear. intros l. revert c1 c2. induction l as [|[p i] l IH]; intros c1 c2 A B; inversion A; inversion B; subst; [reflexivity|]. f_equal; [|now apply IH].
  match goal with H : route_cell _ _ _, H' : route_cell _ _ _ |- _ => destruct H as [q [u [E1 [E2 [E3 ->]]]]]; destruct H' as [q' [u' [E1' [E2' [E3' ->]]]]] end.
  rewrite E1 in E1'. inversion E1'; subst q'. f_equal. apply (rowmaj_inj (pl_shape q)); congruence.
Qed.

Definition cells_lists (a p : list Z) : list (list (list Z)) := map (part_cells a p) (all_cells (parts_shape a p)).
Lemma cells_concat a p : partition_fits a p -> Permutation (concat (cells_lists a p)) (all_cells a).
Proof. intros H. unfold cells_lists. rewrite concat_map_flat. now apply parts_permutation. Qed.
Lemma cells_nodup a p : partition_fits a p -> NoDup (concat (cells_lists a p)).
Proof. intros H. eapply Permutation_NoDup; [apply Permutation_sym, cells_concat, H|]. apply all_cells_spec. Qed.
Lemma cells_in a p Y x : partition_fits a p -> In Y (cells_lists a p) -> In x Y -> in_shape a x.
Proof. intros Hf HY Hx. apply all_cells_spec. apply (Permutation_in _ (cells_concat a p Hf)). apply in_concat. eauto. Qed.

Lemma raster_nth {E} a p (arr : parray E) f k : raster_of a p arr f ->
  match nth_error (pa_parts arr) k, nth_error (all_cells (parts_shape a p)) k with
  | Some q, Some c => in_shape (parts_shape a p) c /\ pl_offset q = part_offset p c /\ pl_shape q = part_extent a p c /\ pl_data q = map f (part_cells a p c)
  | None, None => True
  | _, _ => False
  end.
Proof.
  intros H. pose proof (raster_listed a p arr f H) as L. unfold listed_parts in L.
  assert (E1 : nth_error (map (fun q => (pl_offset q, pl_shape q, pl_data q)) (pa_parts arr)) k = option_map (fun q => (pl_offset q, pl_shape q, pl_data q)) (nth_error (pa_parts arr) k)) by apply nth_error_map.
  rewrite L, nth_error_map in E1. destruct (nth_error (pa_parts arr) k) as [q|], (nth_error (all_cells (parts_shape a p)) k) as [c|] eqn:Ec; cbn in E1; try discriminate; [|exact I].
  apply nth_error_In, all_cells_spec in Ec. inversion E1. repeat split; try congruence; try assumption. unfold part_cells. now rewrite map_map.
Qed.

Lemma nr_elements_cells a p c : a <> [] -> partition_fits a p -> in_shape (parts_shape a p) c -> nr_elements (part_extent a p c) = Z.of_nat (length (part_cells a p c)).
Proof.
  intros Ha Hf Hc. unfold part_cells. rewrite map_length. pose proof (part_extent_pos a p c Hf Hc) as HP.
  pose proof (block_of_holds (part_extent a p c) (fun x => x) HP) as [L _]. unfold block_of in L. rewrite map_length in L.
  change (all_cells (part_extent a p c)) with (shape_cells (part_extent a p c)). rewrite L. apply nr_elements_volume. intros E. apply Ha. apply length_zero_iff_nil. rewrite <- (length_part_extent a p c) by assumption. now rewrite E.
Qed.
Lemma part_cells_nth a p c i x : nth_z i (part_cells a p c) = Some x ->
  exists y, in_shape (part_extent a p c) y /\ rowmaj (part_extent a p c) y = i /\ x = vadd (part_offset p c) y.
Proof.
  unfold nth_z. destruct (Z.ltb_spec i 0); [discriminate|]. unfold part_cells. rewrite nth_error_map. intros H1.
  destruct (nth_error (all_cells (part_extent a p c)) (Z.to_nat i)) as [y|] eqn:E; [|discriminate]. cbn in H1. inversion H1; subst x. exists y.
  assert (Hy : in_shape (part_extent a p c) y) by (apply all_cells_spec; eapply nth_error_In; exact E).
  repeat split; try assumption. pose proof (shape_cells_nth _ _ Hy) as E2. change (shape_cells (part_extent a p c)) with (all_cells (part_extent a p c)) in E2.
  assert (Z.to_nat (rowmaj (part_extent a p c) y) = Z.to_nat i).
  { eapply (NoDup_nth_error (all_cells (part_extent a p c))); [apply all_cells_spec|apply nth_error_Some; congruence|congruence]. }
  assert (0 <= rowmaj (part_extent a p c) y) by (now apply rowmaj_range). lia.
Qed.

Lemma map2_nth {A B C} (f : A -> B -> C) l l' k : nth_error (map2 f l l') k = match nth_error l k, nth_error l' k with Some x, Some y => Some (f x y) | _, _ => None end.
Proof. revert l' k. induction l as [|x l IH]; intros [|y l'] [|k]; cbn; try reflexivity; [now destruct (nth_error l k)|apply IH]. Qed.
Lemma map2_ext_nth {A B C D} (f : A -> B -> C) l l' (L : list D) g : length l = length L -> length l' = length L ->
  (forall k x y d, nth_error l k = Some x -> nth_error l' k = Some y -> nth_error L k = Some d -> f x y = g d) -> map2 f l l' = map g L.
Proof.
  revert l' L. induction l as [|x l IH]; intros [|y l'] [|d L] E1 E2 H; try discriminate; [reflexivity|]. cbn. f_equal; [now apply (H 0%nat)|].
  apply IH; [now inversion E1|now inversion E2|]. intros k. apply (H (S k)).
Qed.

Section Raster.
Context {V : Type} (ltb eqb : V -> V -> bool) (min_value : V) (mx : Z) (comparable : V -> Prop) (sort : list (V * Z) -> list (V * Z)).
Context (Hord : weak_order ltb eqb comparable) (Hsort : sorts ltb comparable sort).
Context (zone_nd : Z -> bool) (value_nd : V -> bool).
Context (a p : list Z) (fz : list Z -> Z) (fv : list Z -> V) (value : parray V).
Context (Hv : raster_of a p value fv).
Context (Hcmp : forall x, in_shape a x -> zone_nd (fz x) = false -> value_nd (fv x) = false -> comparable (fv x)).
Context (Hmin : forall v, comparable v -> ltb v min_value = false).
Let Ys := cells_lists a p.
Let Hfit : partition_fits a p := proj1 (proj2 Hv).

Lemma raster_comparable Y x : In Y Ys -> In x Y -> valid zone_nd value_nd fz fv x = true -> comparable (fv x).
Proof.
  intros HY Hx Hva. unfold valid in Hva. apply andb_prop in Hva. destruct Hva as [H1 H2]. apply negb_true_iff in H1, H2. apply Hcmp; try assumption.
  now apply (cells_in a p Y x Hfit).
Qed.
Lemma parts_len {E} (arr : parray E) f : raster_of a p arr f -> length (pa_parts arr) = length Ys.
Proof. intros H. pose proof (raster_datas a p arr f H) as E1. apply (f_equal (@length _)) in E1. rewrite !map_length in E1. unfold Ys, cells_lists. now rewrite map_length. Qed.
Lemma Ys_nth k Y : nth_error Ys k = Some Y -> exists c, nth_error (all_cells (parts_shape a p)) k = Some c /\ Y = part_cells a p c.
Proof. unfold Ys, cells_lists. rewrite nth_error_map. destruct (nth_error (all_cells (parts_shape a p)) k) as [c|]; [|discriminate]. cbn. intros H. inversion H. eauto. Qed.

Lemma order_start (zone : parray Z) : raster_of a p zone fz ->
  decreasing_order sort value_nd zone_nd zone value = Ok (starts0 min_value sort zone_nd value_nd fz fv Ys, state0 min_value sort zone_nd value_nd fz fv Ys).
Proof.
  intros Hz. unfold decreasing_order. rewrite (verify_ok a p zone value fz fv Hz Hv). rewrite obind_Ok.
  assert (map2 (sort_values sort value_nd zone_nd) (pa_parts zone) (pa_parts value) =
          map (fun Y => Ok (comp0 sort zone_nd value_nd fz fv Y, max0 min_value sort zone_nd value_nd fz fv Y)) Ys) as ->.
  { apply map2_ext_nth; [apply (parts_len zone fz Hz)|apply (parts_len value fv Hv)|]. intros k x y Y Ex Ey EY.
    destruct (Ys_nth k Y EY) as [c [Ec ->]]. pose proof (raster_nth a p zone fz k Hz) as R1. pose proof (raster_nth a p value fv k Hv) as R2.
    rewrite Ex, Ec in R1. rewrite Ey, Ec in R2. destruct R1 as [Hc [_ [_ D1]]]. destruct R2 as [_ [_ [S2 D2]]].
    apply (sort_values_ok ltb min_value comparable sort Hsort zone_nd value_nd fz fv Ys raster_comparable); try assumption.
    - now apply nth_error_In in EY.
    - rewrite S2. apply nr_elements_cells; try assumption. apply Hv. }
  rewrite <- (map_map (fun Y => (comp0 sort zone_nd value_nd fz fv Y, max0 min_value sort zone_nd value_nd fz fv Y)) Ok). rewrite (sequence_map Ok (fun x => x)) by reflexivity.
  rewrite map_id, obind_Ok. set (g := fun Y => (comp0 sort zone_nd value_nd fz fv Y, max0 min_value sort zone_nd value_nd fz fv Y)).
  assert (map snd (map g Ys) = map (max0 min_value sort zone_nd value_nd fz fv) Ys) as -> by (rewrite map_map; reflexivity).
  assert (map fst (map g Ys) = map (comp0 sort zone_nd value_nd fz fv) Ys) as -> by (rewrite map_map; reflexivity). cbv zeta.
  change (map (fun '(z, l) => (z, sort l)) (collect_maxima (map (max0 min_value sort zone_nd value_nd fz fv) Ys))) with (maxima0 min_value sort zone_nd value_nd fz fv Ys).
  rewrite (sequence_map _ (fun '(z, l) => (z, start_of l))); [rewrite obind_Ok; reflexivity|].
  intros [z l] Hl. destruct (maxima0_in ltb min_value comparable sort Hsort zone_nd value_nd fz fv Ys raster_comparable z l Hl) as [_ Hne].
  destruct l as [|[m q] l]; [contradiction|reflexivity].
Qed.

Lemma order_finished z starts st hops : length (os_components st) = length Ys ->
  (forall q, 0 <= q < n Ys -> frs (os_components st) z q = hop_fragments None q hops) ->
  final ltb mx (n Ys) (all0 sort zone_nd value_nd fz fv Ys z) (zfind starts z) hops ->
  exists cells, visits (order_result value starts st) z cells /\ highest_first ltb fv (zone_cells zone_nd value_nd a fz fv z) mx cells.
Proof.
  intros Hl Hfr Hfin.
  destruct (final_highest ltb mx comparable sort Hsort zone_nd value_nd fz fv Ys raster_comparable z _ hops (cells_nodup a p Hfit) Hfin) as [H1 [H2 [H3 H4]]].
  assert (Lr : length (rt_parts (order_result value starts st)) = length Ys).
  { cbn [order_result rt_parts]. rewrite map2_length; rewrite (parts_len value fv Hv); auto. }
  assert (Nr : forall k q, nth_error (rt_parts (order_result value starts st)) k = Some q ->
    exists c m, nth_error (all_cells (parts_shape a p)) k = Some c /\ pl_offset q = part_offset p c /\ pl_shape q = part_extent a p c /\ nth_error (os_components st) k = Some m /\ pl_data q = cm_fragments m).
  { intros k q Hq. cbn [order_result rt_parts] in Hq. rewrite map2_nth in Hq. pose proof (raster_nth a p value fv k Hv) as R2.
    destruct (nth_error (pa_parts value) k) as [q'|]; [|discriminate]. destruct (nth_error (os_components st) k) as [m|]; [|discriminate]. inversion Hq; subst q. clear Hq.
    destruct (nth_error (all_cells (parts_shape a p)) k) as [c|]; [|contradiction]. exists c, m. cbn. repeat split; apply R2. }
  exists (map (cell_of Ys) (hop_cells hops)). split.
  - exists hops. split; [split; [assumption|split]|].
    + rewrite Lr. exact H2.
    + intros k q Hq. destruct (Nr k q Hq) as [c [m [_ [_ [_ [Em ->]]]]]].
      assert (0 <= Z.of_nat k < n Ys) as Hk by (unfold n; rewrite <- Lr; assert (k < length (rt_parts (order_result value starts st)))%nat by (apply nth_error_Some; congruence); lia).
      rewrite <- (Hfr _ Hk). unfold frs, nth_z. destruct (Z.ltb_spec (Z.of_nat k) 0); [lia|]. rewrite Nat2Z.id, Em. reflexivity.
    + fold (hop_cells hops). clear - H3 Lr Nr Hv. induction (hop_cells hops) as [|[q i] l IH]; [constructor|]. cbn [map]. constructor; [|apply IH; intros; apply H3; now right].
      destruct (H3 (q, i) (or_introl eq_refl)) as [Y [HY Hi]]. cbn [fst snd] in *. pose proof (nth_z_in _ _ _ HY) as [_ Hr].
      unfold nth_z in HY. destruct (Z.ltb_spec q 0); [lia|]. destruct (Ys_nth _ _ HY) as [c [Ec ->]].
      destruct (part_cells_nth a p c i _ Hi) as [y [Y1 [Y2 Y3]]].
      destruct (nth_error (rt_parts (order_result value starts st)) (Z.to_nat q)) as [pq|] eqn:Eq; [|apply nth_error_None in Eq; lia].
      destruct (Nr _ _ Eq) as [c' [m [Ec' [O [S _]]]]]. rewrite Ec in Ec'. inversion Ec'; subst c'.
      exists pq, y. unfold nth_z. destruct (Z.ltb_spec q 0); [lia|]. rewrite O, S. auto.
  - eapply highest_perm; [|exact H4]. unfold zone_cells.
    rewrite (filter_ext _ (fun x => (fz x =? z) && negb (zone_nd (fz x)) && negb (value_nd (fv x)))); [apply filter_perm, cells_concat, Hfit|].
    intros x. unfold selected, valid. destruct (fz x =? z), (zone_nd (fz x)), (value_nd (fv x)); reflexivity.
Qed.

Lemma order_all ks st : order_run ltb eqb min_value mx (state0 min_value sort zone_nd value_nd fz fv Ys) ks st ->
  Z.of_nat (length ks) <= volume a /\
  (forall k o, order_step ltb eqb min_value mx k st = Some o -> exists st', o = Ok st') /\
  (os_tasks st = [] -> (forall c, In c (os_components st) -> cm_finished c = 1) /\
    forall z, exists cells, visits (order_result value (starts0 min_value sort zone_nd value_nd fz fv Ys) st) z cells /\
      highest_first ltb fv (zone_cells zone_nd value_nd a fz fv z) mx cells).
Proof.
  intros Hr. pose proof (init_inv ltb min_value mx comparable sort Hsort zone_nd value_nd fz fv Ys raster_comparable Hmin) as I0.
  pose proof (all0_good ltb comparable sort Hsort zone_nd value_nd fz fv Ys raster_comparable) as G.
  destruct (run_ok ltb eqb min_value mx comparable _ Hord Hmin _ _ G _ _ _ I0 Hr) as [I1 Hsz].
  split; [|split].
  - pose proof (size0 ltb min_value mx comparable sort Hsort zone_nd value_nd fz fv Ys raster_comparable) as S0.
    assert (Z.of_nat (list_sum (map (@length (list Z)) Ys)) = volume a) as E; [|lia].
    assert (list_sum (map (@length (list Z)) Ys) = length (concat Ys)) as ->.
    { clear. unfold list_sum. induction Ys as [|Y L IH]; [reflexivity|]. cbn. now rewrite app_length, IH. }
    unfold Ys. rewrite (Permutation_length (cells_concat a p Hfit)). change (all_cells a) with (shape_cells a). rewrite volume_prodZ. apply shape_cells_length.
    assert (F : partition_fits a p) by exact Hfit. clear - F. induction F; constructor; [lia|assumption].
  - intros k o Ho. destruct (step_ok ltb eqb min_value mx comparable _ Hord Hmin _ _ G _ _ _ I1 Ho) as [st' [E _]]. eauto.
  - intros Ht. destruct (end_ok ltb min_value mx comparable _ Hmin _ _ G st I1 Ht) as [E1 E2]. split; [assumption|]. intros z. destruct (E2 z) as [hops [F1 F2]].
    apply (order_finished z _ st hops); try assumption. destruct I1 as [L _]. unfold n in L. lia.
Qed.
End Raster.

(** The overload without zones is the zonal one with a single zone. *)
Section Global.
Context {V : Type} (ltb : V -> V -> bool) (min_value : V) (comparable : V -> Prop) (sort : list (V * Z) -> list (V * Z)).
Context (Hsort : sorts ltb comparable sort).
Context (value_nd : V -> bool) (a p : list Z) (fv : list Z -> V) (value : parray V).
Context (Hv : raster_of a p value fv).
Context (Hcmp : forall x, in_shape a x -> value_nd (fv x) = false -> comparable (fv x)).
Let Ys := cells_lists a p.
Let zone_nd : Z -> bool := fun _ => false.
Let fz : list Z -> Z := fun _ => 0.

Lemma global_comparable Y x : In Y Ys -> In x Y -> valid zone_nd value_nd fz fv x = true -> comparable (fv x).
Proof. apply (raster_comparable comparable zone_nd value_nd a p fz fv value Hv). intros. now apply Hcmp. Qed.

Lemma entries_zero Y z e : In (z, e) (entries zone_nd value_nd fz fv Y) -> z = 0.
Proof. unfold entries. intros H. apply in_map_iff in H. destruct H as [[i x] [E _]]. now inversion E. Qed.

Lemma maxima_zero : exists l, collect_maxima (map (max0 min_value sort zone_nd value_nd fz fv) Ys) = l /\ (l = [] \/ exists m, l = [(0, m)]).
Proof.
  eexists. split; [reflexivity|]. rewrite collect_push.
  assert (K : forall z e, In (z, e) (flat_map tagged (combine (zseq 0 (Z.of_nat (length (map (max0 min_value sort zone_nd value_nd fz fv) Ys)))) (map (max0 min_value sort zone_nd value_nd fz fv) Ys))) -> z = 0).
  { intros z e H. apply in_flat_map in H. destruct H as [[q m] [Hq H]]. apply enum_in, nth_z_in in Hq. destruct Hq as [Hq _]. apply in_map_iff in Hq. destruct Hq as [Y [<- HY]].
    unfold tagged in H. cbn [fst snd] in H. apply in_map_iff in H. destruct H as [[z' v] [E H]]. inversion E; subst z'. clear E.
    unfold max0 in H. apply in_map_iff in H. destruct H as [[z1 l1] [E H]]. inversion E; subst. apply in_map_iff in H. destruct H as [[z2 l2] [E' H]]. inversion E'; subst. clear E E'.
    apply zfind_in in H; [|apply push_fold_nodup; constructor]. rewrite push_fold_opt in H. destruct (vals (entries zone_nd value_nd fz fv Y) z) as [|e' l'] eqn:Ev; [discriminate|].
    assert (In e' (vals (entries zone_nd value_nd fz fv Y) z)) as Hin by (rewrite Ev; now left). unfold vals in Hin. apply in_map_iff in Hin. destruct Hin as [[z3 e3] [_ Hin]].
    apply filter_In in Hin. destruct Hin as [Hin Hz]. apply entries_zero in Hin. cbn [fst] in Hz. lia. }
  revert K. generalize (flat_map tagged (combine (zseq 0 (Z.of_nat (length (map (max0 min_value sort zone_nd value_nd fz fv) Ys)))) (map (max0 min_value sort zone_nd value_nd fz fv) Ys))).
  clear. intros l K. unfold push_fold.
  assert (G : forall m, (m = [] \/ exists x, m = [(0, x)]) -> forall m', fold_left (fun m '(z, s) => zpush m z s) l m = m' -> m' = [] \/ exists x, m' = [(0, x)]).
  { induction l as [|[z e] l IH]; intros m Hm m' <-; [exact Hm|]. cbn [fold_left]. eapply IH; [intros z' e' H; apply (K z' e'); now right| |reflexivity].
    right. rewrite (K z e) by now left. destruct Hm as [->|[x ->]]; eexists; reflexivity. }
  eapply G; [now left|reflexivity].
Qed.

Lemma order_global_start (zone : parray Z) : raster_of a p zone fz -> (exists x, in_shape a x /\ value_nd (fv x) = false) ->
  decreasing_order_global sort value_nd value = decreasing_order sort value_nd zone_nd zone value.
Proof.
  intros Hz [x0 [Hx0 Hx1]]. rewrite (order_start ltb min_value comparable sort Hsort zone_nd value_nd a p fz fv value Hv (fun x H _ => Hcmp x H) zone Hz).
  unfold decreasing_order_global.
  assert (map (fun q => sort_values sort value_nd (fun _ => false) (Placed 0 (pl_offset q) (pl_shape q) (map (fun _ => 0) (pl_data q))) q) (pa_parts value) =
          map (fun Y => Ok (comp0 sort zone_nd value_nd fz fv Y, max0 min_value sort zone_nd value_nd fz fv Y)) Ys) as ->.
  { rewrite <- (map2_maps (fun x y => sort_values sort value_nd (fun _ => false) x y) (fun q => Placed 0 (pl_offset q) (pl_shape q) (map (fun _ => 0) (pl_data q))) (fun q => q)).
    apply map2_ext_nth; [rewrite map_length; apply (parts_len a p value fv Hv)|rewrite map_id; apply (parts_len a p value fv Hv)|]. intros k x y Y Ex Ey EY.
    rewrite map_id in Ey. rewrite nth_error_map, Ey in Ex. cbn in Ex. inversion Ex; subst x. clear Ex.
    destruct (Ys_nth a p k Y EY) as [c [Ec ->]]. pose proof (raster_nth a p value fv k Hv) as R2. rewrite Ey, Ec in R2. destruct R2 as [Hc [_ [S2 D2]]].
    apply (sort_values_ok ltb min_value comparable sort Hsort zone_nd value_nd fz fv Ys global_comparable); try assumption.
    - now apply nth_error_In in EY.
    - cbn [pl_data]. rewrite D2, map_map. reflexivity.
    - rewrite S2. apply nr_elements_cells; try assumption; apply Hv. }
  rewrite <- (map_map (fun Y => (comp0 sort zone_nd value_nd fz fv Y, max0 min_value sort zone_nd value_nd fz fv Y)) Ok). rewrite (sequence_map Ok (fun x => x)) by reflexivity.
  rewrite map_id, obind_Ok. set (g := fun Y => (comp0 sort zone_nd value_nd fz fv Y, max0 min_value sort zone_nd value_nd fz fv Y)).
  assert (map snd (map g Ys) = map (max0 min_value sort zone_nd value_nd fz fv) Ys) as -> by (rewrite map_map; reflexivity).
  assert (map fst (map g Ys) = map (comp0 sort zone_nd value_nd fz fv) Ys) as -> by (rewrite map_map; reflexivity).
  unfold state0, starts0, tasks0, starts0, maxima0. fold Ys.
  pose proof (collect_find ltb min_value comparable sort Hsort zone_nd value_nd fz fv Ys global_comparable 0) as CF.
  destruct maxima_zero as [l [El [->|[m ->]]]]; rewrite El in *.
  - exfalso. cbn [zfind] in CF.
    assert (In x0 (concat Ys)) as Hin by (apply (Permutation_in _ (Permutation_sym (cells_concat a p (proj1 (proj2 Hv))))); now apply all_cells_spec).
    assert (In x0 (filter (selected zone_nd value_nd fz fv 0) (concat Ys))) as Hs.
    { apply filter_In. split; [assumption|]. unfold selected, valid, zone_nd, fz. rewrite Hx1. reflexivity. }
    apply (Permutation_in _ (Permutation_sym (all0_cells ltb comparable sort Hsort zone_nd value_nd fz fv Ys global_comparable 0))) in Hs.
    apply in_map_iff in Hs. destruct Hs as [e [_ He]]. apply in_flat in He. destruct He as [q [i [Hq [_ HR]]]].
    destruct (R0 sort zone_nd value_nd fz fv Ys 0 q) as [|[v j] t] eqn:ER; [destruct HR|].
    assert (In (v, q) (zmax sort zone_nd value_nd fz fv Ys 0)) as Hm by (apply zmax_in; eauto).
    destruct (zmax sort zone_nd value_nd fz fv Ys 0); [destruct Hm|discriminate].
  - cbn [zfind] in CF. rewrite Z.eqb_refl in CF. destruct (sort m) as [|[v q] l] eqn:Es.
    + exfalso. pose proof (zmax_comparable ltb comparable sort Hsort zone_nd value_nd fz fv Ys global_comparable 0) as G.
      destruct (zmax sort zone_nd value_nd fz fv Ys 0) as [|e t] eqn:Ez; [discriminate|]. cbn in CF. injection CF as CF. subst m.
      apply (sort_nil ltb comparable sort Hsort _ G) in Es. discriminate.
    + cbn [map combine start_of]. rewrite Es. reflexivity.
Qed.
End Global.
