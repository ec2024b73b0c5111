From Verif Require Import Common CommonProofs CoreSpec DecompSpec ArraySpec IndexModel IndexProofs
  DecompModel DecompProofs DecompProofs2 DecompProofs4 ArrayModel ArrayRep ArrayProofs LocalModel LocalSpec LocalProofs
  LocalProofs2 AggregateModel AggregateSpec.
Open Scope Z_scope.

Lemma all_cells_shape a : all_cells a = shape_cells a.
Proof. reflexivity. Qed.

Lemma all_cells_spec : forall a, NoDup (all_cells a) /\ forall x, In x (all_cells a) <-> in_shape a x.
Proof. intros a. split; [apply shape_cells_NoDup|intros; apply in_shape_cells]. Qed.

Lemma block_list {E} n (data : list E) f : pos_shape n -> block_holds n data f -> data = map f (all_cells n).
Proof.
  intros Hp B. pose proof (block_of_holds n f Hp) as B'. unfold block_of in B'. change (shape_cells n) with (all_cells n) in B'.
  destruct B as [L2 B2], B' as [L3 B3].
  apply nth_error_ext. intros k. destruct (Z_lt_ge_dec (Z.of_nat k) (volume n)) as [Hk|Hk].
  - destruct (rowmaj_surj n (Z.of_nat k) Hp ltac:(lia)) as [z [Hz Ez]].
    specialize (B2 z Hz). specialize (B3 z Hz). rewrite Ez, Nat2Z.id in *. congruence.
  - rewrite !(proj2 (nth_error_None _ _)); [reflexivity| |]; lia.
Qed.

(** The values held by the partitions, as a list per partition. *)
Definition part_cells (a p c : list Z) : list (list Z) := map (vadd (part_offset p c)) (all_cells (part_extent a p c)).

Lemma raster_datas {E} a p (arr : parray E) f : raster_of a p arr f ->
  map pl_data (pa_parts arr) = map (fun c => map f (part_cells a p c)) (all_cells (parts_shape a p)).
Proof.
  intros H. assert (Hfit : partition_fits a p) by apply H. pose proof (parts_shape_pos a p Hfit) as Hpos.
  pose proof (raster_length _ _ _ _ H) as HL.
  assert (HL2 : Z.of_nat (length (all_cells (parts_shape a p))) = nr_parts a p).
  { rewrite all_cells_shape, shape_cells_length; [|eapply Forall_impl; [|exact Hpos]; cbn; lia]. 
    unfold nr_parts. now rewrite volume_prodZ. }
  apply nth_error_ext. intros k. destruct (Z_lt_ge_dec (Z.of_nat k) (nr_parts a p)) as [Hk|Hk].
  - destruct (rowmaj_surj (parts_shape a p) (Z.of_nat k) Hpos) as [c [Hc Ec]]; [unfold nr_parts in Hk; lia|].
    destruct (raster_part a p arr f c H Hc) as [q [E1 [Eo [Es B]]]]. rewrite Ec, Nat2Z.id in E1.
    rewrite nth_error_map, E1. cbn. rewrite nth_error_map.
    assert (E2 : nth_error (all_cells (parts_shape a p)) k = Some c).
    { rewrite all_cells_shape. rewrite <- (shape_cells_nth _ _ Hc). f_equal. lia. }
    rewrite E2. cbn. f_equal. unfold part_cells. rewrite map_map. apply block_list; [now apply part_extent_pos|exact B].
  - rewrite !(proj2 (nth_error_None _ _)); [reflexivity| |]; rewrite map_length; lia.
Qed.

Lemma NoDup_flat_map {A B} (f : A -> list B) l : NoDup l -> (forall x, In x l -> NoDup (f x)) ->
  (forall x y b, In x l -> In y l -> In b (f x) -> In b (f y) -> x = y) -> NoDup (flat_map f l).
Proof.
  induction 1 as [|x l Hx Hl IH]; cbn; intros Hf Hd; [constructor|].
  assert (G : forall b, In b (f x) -> ~ In b (flat_map f l)).
  { intros b Hb Hin. apply in_flat_map in Hin. destruct Hin as [y [Hy Hby]].
    rewrite (Hd x y b) in Hx; auto. }
  assert (N1 : NoDup (f x)) by (apply Hf; auto).
  assert (N2 : NoDup (flat_map f l)) by (apply IH; [intros; apply Hf; auto|intros; eapply Hd; eauto]).
  clear - G N1 N2. induction N1 as [|b k Hb Hk IH]; cbn; [assumption|]. constructor.
  - rewrite in_app_iff. intros [C|C]; [contradiction|]. apply (G b); [now left|assumption].
  - apply IH. intros c Hc. apply G. cbn. auto.
Qed.

Lemma vadd_inj o n x y : in_shape n x -> in_shape n y -> length o = length n -> vadd o x = vadd o y -> x = y.
Proof.
  revert o x y. induction n as [|e n IH]; intros [|s o] [|i x] [|j y] Hx Hy L E; cbn in *; try tauto; try discriminate.
  injection E as E1 E2. f_equal; [lia|]. apply (IH o x y); [apply Hx|apply Hy|congruence|assumption].
Qed.

Lemma NoDup_map_in {A B} (f : A -> B) l : (forall x y, In x l -> In y l -> f x = f y -> x = y) -> NoDup l -> NoDup (map f l).
Proof.
  intros Hi H. induction H as [|x l Hx Hl IH]; cbn; constructor.
  - intros C. apply in_map_iff in C. destruct C as [y [E Hy]]. apply Hx. rewrite (Hi x y); [assumption|now left|now right|congruence].
  - apply IH. intros; apply Hi; auto; now right.
Qed.

Lemma parts_permutation a p : partition_fits a p ->
  Permutation (flat_map (part_cells a p) (all_cells (parts_shape a p))) (all_cells a).
Proof.
  intros Hf. apply NoDup_Permutation.
  - apply NoDup_flat_map.
    + apply all_cells_spec.
    + intros c Hc. apply all_cells_spec in Hc. unfold part_cells.
      apply NoDup_map_in; [|apply all_cells_spec].
      intros x y Hx Hy. apply all_cells_spec in Hx, Hy. eapply vadd_inj; eauto.
      rewrite (length_part_offset a), (length_part_extent a) by assumption. reflexivity.
    + intros c c' y Hc Hc' Hy Hy'. apply all_cells_spec in Hc, Hc'. unfold part_cells in *.
      apply in_map_iff in Hy, Hy'. destruct Hy as [x [Ex Hx]]. destruct Hy' as [x' [Ex' Hx']].
      apply all_cells_spec in Hx, Hx'.
      assert (Hy : in_shape a y) by (rewrite <- Ex; now apply part_cell).
      destruct (tile_nd a p y Hf Hy) as [k [_ [_ U]]].
      assert (G : forall c x, in_shape (parts_shape a p) c -> in_shape (part_extent a p c) x -> vadd (part_offset p c) x = y -> c = k).
      { clear - U Hf. intros c x Hc Hx E. apply U; [now rewrite <- parts_shape_map2|].
        rewrite <- part_offset_map2, <- (part_extent_exts a p c) by assumption. rewrite <- E. apply vadd_in_box; [assumption|].
        rewrite (length_part_offset a), (length_part_extent a) by assumption. reflexivity. }
      rewrite (G c x), (G c' x') by assumption. reflexivity.
  - apply all_cells_spec.
  - intros y. rewrite (proj2 (all_cells_spec a)), in_flat_map. split.
    + intros [c [Hc Hy]]. apply all_cells_spec in Hc. unfold part_cells in Hy. apply in_map_iff in Hy. destruct Hy as [x [<- Hx]].
      apply all_cells_spec in Hx. now apply part_cell.
    + intros Hy. destruct (cell_part a p y Hf Hy) as [c [x [Hc [Hx ->]]]]. exists c. split; [now apply all_cells_spec|].
      unfold part_cells. apply in_map. now apply all_cells_spec.
Qed.

Lemma concat_map_flat {A B} (f : A -> list B) l : concat (map f l) = flat_map f l.
Proof. induction l; cbn; congruence. Qed.
Lemma flat_map_map_out {A B C} (f : A -> list B) (g : B -> C) l : flat_map (fun x => map g (f x)) l = map g (flat_map f l).
Proof. induction l; cbn; [reflexivity|]. now rewrite map_app, IHl. Qed.

Lemma raster_permutation {E} a p (arr : parray E) f : raster_of a p arr f ->
  Permutation (concat (map pl_data (pa_parts arr))) (map f (all_cells a)).
Proof.
  intros H. rewrite (raster_datas a p arr f H), concat_map_flat, flat_map_map_out.
  apply Permutation_map, parts_permutation, H.
Qed.

Lemma filter_perm {A} (q : A -> bool) l l' : Permutation l l' -> Permutation (filter q l) (filter q l').
Proof.
  induction 1; cbn.
  - constructor.
  - destruct (q x); auto.
  - destruct (q x), (q y); try reflexivity. apply perm_swap.
  - etransitivity; eassumption.
Qed.

(** A relation between the valid values and the result that is preserved by each step. *)
Section Agg.
Context {I O : Type} (pol : agg_policies I O) (fn : agg_functor I O) (P : list I -> O -> Prop).
Definition ok (x : I) : bool := negb (ag_no_data pol x) && ag_domain pol x.
Context (P1 : forall x, ok x = true -> P [x] (fn_first fn x)).
Context (P2 : forall l r x, l <> [] -> ok x = true -> P l r -> P (l ++ [x]) (fn_next fn r x)).
Context (P3 : forall l r l' r', l <> [] -> l' <> [] -> P l r -> P l' r' -> P (l ++ l') (fn_part2 fn r r')).
Context (Pid : forall r, fn_part1 fn r = r).

Lemma agg_inner_ok l : forall seen r, seen <> [] -> P seen r -> P (seen ++ filter ok l) (agg_inner pol fn r l).
Proof.
  induction l as [|x l IH]; intros seen r Hs H; cbn; [now rewrite app_nil_r|].
  unfold ok at 1. destruct (ag_no_data pol x) eqn:E1, (ag_domain pol x) eqn:E2; cbn; try (apply IH; assumption).
  change (x :: filter ok l) with ([x] ++ filter ok l). rewrite app_assoc. apply IH.
  - destruct seen; discriminate.
  - apply P2; [assumption| |assumption]. unfold ok. now rewrite E1, E2.
Qed.

Lemma agg_outer_ok l : match agg_outer pol fn l with
  | Some r => filter ok l <> [] /\ P (filter ok l) r
  | None => filter ok l = [] end.
Proof.
  induction l as [|x l IH]; cbn; [reflexivity|].
  assert (Eok : ok x = negb (ag_no_data pol x) && ag_domain pol x) by reflexivity. rewrite Eok.
  destruct (ag_no_data pol x) eqn:E1, (ag_domain pol x) eqn:E2; cbn; try exact IH.
  split; [discriminate|]. apply (agg_inner_ok l [x]); [discriminate|]. apply P1. unfold ok. now rewrite E1, E2.
Qed.

Context (marker : O).
Context (Hmark : forall o, ag_mark pol o = marker).
Context (Hmark2 : ag_out_no_data pol marker = true).

(** Results of partitions with valid values are not no-data. *)
Definition fine (ls : list (list I)) : Prop :=
  forall l, In l ls -> forall r, filter ok l <> [] -> P (filter ok l) r -> ag_out_no_data pol r = false.

Definition pres (l : list I) : O := match agg_outer pol fn l with Some r => r | None => ag_mark pol (fn_empty fn) end.

Lemma pres_ok ls l : fine ls -> In l ls ->
  (filter ok l = [] /\ ag_out_no_data pol (pres l) = true) \/
  (filter ok l <> [] /\ ag_out_no_data pol (pres l) = false /\ P (filter ok l) (pres l)).
Proof.
  intros Hf Hl. unfold pres. pose proof (agg_outer_ok l) as H. destruct (agg_outer pol fn l) as [r|].
  - right. destruct H as [H1 H2]. split; [assumption|]. split; [eapply Hf; eauto|assumption].
  - left. split; [assumption|]. now rewrite Hmark.
Qed.

Lemma parts_inner_ok ls : fine ls -> forall seen r, seen <> [] -> P seen r ->
  P (seen ++ filter ok (concat ls)) (agg_parts_inner pol fn r (map pres ls)).
Proof.
  induction ls as [|l ls IH]; intros Hf seen r Hs H; cbn; [now rewrite app_nil_r|].
  rewrite Pid, filter_app, app_assoc.
  assert (Hf' : fine ls) by (intros k Hk; apply Hf; now right).
  destruct (pres_ok (l :: ls) l Hf (or_introl eq_refl)) as [[E1 E2]|[E1 [E2 E3]]]; rewrite E2; cbn.
  - rewrite E1, app_nil_r. now apply IH.
  - apply IH; [assumption|destruct seen; [contradiction|discriminate]|]. now apply P3.
Qed.

Lemma parts_outer_ok ls : fine ls -> match agg_parts_outer pol fn (map pres ls) with
  | Some r => filter ok (concat ls) <> [] /\ P (filter ok (concat ls)) r
  | None => filter ok (concat ls) = [] end.
Proof.
  induction ls as [|l ls IH]; intros Hf; cbn; [reflexivity|]. rewrite Pid, filter_app.
  assert (Hf' : fine ls) by (intros k Hk; apply Hf; now right).
  destruct (pres_ok (l :: ls) l Hf (or_introl eq_refl)) as [[E1 E2]|[E1 [E2 E3]]]; rewrite E2; cbn.
  - rewrite E1. now apply IH.
  - split; [destruct (filter ok l); [contradiction|discriminate]|]. now apply parts_inner_ok.
Qed.

Context (Pperm : forall l l' r, Permutation l l' -> P l r -> P l' r).

Lemma aggregate_ok a p arr f : raster_of a p arr f ->
  fine (map pl_data (pa_parts arr)) ->
  (filter ok (map f (all_cells a)) <> [] -> P (filter ok (map f (all_cells a))) (unary_aggregate_operation pol fn arr)) /\
  (filter ok (map f (all_cells a)) = [] -> unary_aggregate_operation pol fn arr = marker).
Proof.
  intros H Hf. pose proof (raster_permutation a p arr f H) as HP.
  assert (HP' : Permutation (filter ok (concat (map pl_data (pa_parts arr)))) (filter ok (map f (all_cells a)))).
  { now apply filter_perm. }
  pose proof (parts_outer_ok _ Hf) as HO. rewrite map_map in HO.
  unfold unary_aggregate_operation. change (fun x : placed (list I) => pres (pl_data x)) with (aggregate_partition pol fn) in HO.
  destruct (agg_parts_outer pol fn (map (aggregate_partition pol fn) (pa_parts arr))) as [r|].
  - destruct HO as [H1 H2]. split; [intros _; eapply Pperm; eassumption|]. intros E. exfalso. rewrite E in HP'.
    apply Permutation_sym, Permutation_nil in HP'. contradiction.
  - split; [|intros _; apply Hmark]. intros N. exfalso. apply N. rewrite HO in HP'. now apply Permutation_nil.
Qed.
End Agg.

Lemma filter_cells {E} (valid : E -> bool) a f v : In v (filter valid (map f (all_cells a))) <->
  exists c, in_shape a c /\ valid v = true /\ f c = v.
Proof.
  rewrite filter_In, in_map_iff. split.
  - intros [[c [Ec Hc]] Hv]. apply all_cells_spec in Hc. eauto.
  - intros [c [Hc [Hv Ec]]]. split; [|assumption]. exists c. split; [assumption|]. now apply all_cells_spec.
Qed.

Lemma nonempty_in {A} (l : list A) : l <> [] <-> exists x, In x l.
Proof. destruct l; split; intros H; try contradiction; try (destruct H; contradiction); [eexists; left; reflexivity|discriminate]. Qed.
Lemma empty_in {A} (l : list A) : l = [] <-> forall x, ~ In x l.
Proof. destruct l; split; intros H; try reflexivity; try discriminate; [intros ? []|exfalso; eapply H; left; reflexivity]. Qed.

Lemma best_ok (E : Type) (worse : E -> E -> bool) (no_data : E -> bool) (marker : E) (fn : agg_functor E E) a p (x : parray E) f :
  (forall u v, worse u v = true -> worse v u = false) ->
  (forall u v w, worse u w = true -> worse u v = true \/ worse v w = true) ->
  no_data marker = true ->
  (forall u, fn_first fn u = u) -> (forall u, fn_part1 fn u = u) ->
  (forall u v, fn_next fn u v = if worse u v then v else u) ->
  (forall u v, fn_part2 fn u v = if worse u v then v else u) ->
  let pol := AggPolicies no_data (fun _ => true) (fun _ => marker) no_data in
  raster_of a p x f ->
  let r := unary_aggregate_operation pol fn x in
  ((exists c, in_shape a c /\ no_data (f c) = false) ->
     (exists c, in_shape a c /\ no_data (f c) = false /\ f c = r) /\
     (forall c, in_shape a c -> no_data (f c) = false -> worse r (f c) = false)) /\
  ((forall c, in_shape a c -> no_data (f c) = true) -> r = marker).
Proof.
  intros Hasym Htr Hm F1 F2 F3 F4 pol H r.
  assert (trans : forall u v w, worse u v = false -> worse v w = false -> worse u w = false).
  { intros u v w A B. destruct (worse u w) eqn:C; [|reflexivity]. destruct (Htr u v w C); congruence. }
  assert (Hirr : forall u, worse u u = false).
  { intros u. destruct (worse u u) eqn:C; [|reflexivity]. rewrite <- C. now apply Hasym. }
  set (P := fun (l : list E) (r : E) => In r l /\ (forall v, In v l -> worse r v = false) /\ Forall (fun v => ok pol v = true) l).
  assert (merge : forall l u l' v, P l u -> P l' v -> P (l ++ l') (if worse u v then v else u)).
  { intros l u l' v [A1 [A2 A3]] [B1 [B2 B3]]. split; [|split; [|apply Forall_app; auto]].
    - rewrite in_app_iff. destruct (worse u v); auto.
    - intros z Hz. apply in_app_iff in Hz. destruct (worse u v) eqn:C.
      + destruct Hz as [Hz|Hz]; [|auto]. apply trans with u; [|auto]. now apply Hasym.
      + destruct Hz as [Hz|Hz]; [auto|]. apply trans with v; auto. }
  assert (single : forall u, ok pol u = true -> P [u] u).
  { intros u Hu. split; [now left|]. split; [intros v [<-|[]]; apply Hirr|auto]. }
  destruct (aggregate_ok pol fn P) with (marker := marker) (a := a) (p := p) (arr := x) (f := f) as [G1 G2].
  - intros u Hu. rewrite F1. auto.
  - intros l u v _ Hv HP. rewrite F3. auto.
  - intros l u l' v _ _ HP HP'. rewrite F4. auto.
  - exact F2.
  - reflexivity.
  - exact Hm.
  - intros l l' u HL [A1 [A2 A3]]. split; [eapply Permutation_in; eassumption|]. split.
    + intros v Hv. apply A2. eapply Permutation_in; [symmetry; eassumption|assumption].
    + eapply Permutation_Forall; eassumption.
  - exact H.
  - intros l _ u _ [A1 [_ A3]]. rewrite Forall_forall in A3. specialize (A3 u A1). unfold ok in A3. cbn in *.
    destruct (no_data u); [discriminate|reflexivity].
  - fold r in G1, G2. assert (Hok : forall v, ok pol v = negb (no_data v)) by (intros; unfold ok; cbn; apply andb_true_r).
    split.
    + intros [c [Hc Hn]]. assert (N : filter (ok pol) (map f (all_cells a)) <> []).
      { apply nonempty_in. exists (f c). apply filter_cells. exists c. rewrite Hok, Hn. auto. }
      destruct (G1 N) as [A1 [A2 _]]. apply filter_cells in A1. destruct A1 as [c' [Hc' [Hv Ec']]]. split.
      * exists c'. rewrite Ec'. rewrite Hok in Hv. destruct (no_data r); [discriminate|auto].
      * intros k Hk Hnk. apply A2. apply filter_cells. exists k. rewrite Hok, Hnk. auto.
    + intros Hall. apply G2. apply empty_in. intros v Hv. apply filter_cells in Hv. destruct Hv as [c [Hc [Hv Ev]]].
      rewrite Hok, <- Ev, (Hall c Hc) in Hv. discriminate.
Qed.

Lemma c14_minmax :
  forall (E : Type) (ltb : E -> E -> bool) (extreme marker : E) (no_data : E -> bool) a p (x : parray E) f,
  (forall u v, ltb u v = true -> ltb v u = false) ->
  (forall u v w, ltb u w = true -> ltb u v = true \/ ltb v w = true) ->
  no_data marker = true ->
  let pol := AggPolicies no_data (fun _ => true) (fun _ => marker) no_data in
  raster_of a p x f ->
  let least := unary_aggregate_operation pol (minimum_functor ltb extreme) x in
  let largest := unary_aggregate_operation pol (maximum_functor ltb extreme) x in
  ((exists c, in_shape a c /\ no_data (f c) = false) ->
     (exists c, in_shape a c /\ no_data (f c) = false /\ f c = least) /\
     (exists c, in_shape a c /\ no_data (f c) = false /\ f c = largest) /\
     (forall c, in_shape a c -> no_data (f c) = false -> ltb (f c) least = false /\ ltb largest (f c) = false)) /\
  ((forall c, in_shape a c -> no_data (f c) = true) -> least = marker /\ largest = marker).
Proof.
  intros E ltb extreme marker no_data a p x f Hasym Htr Hm pol H least largest.
  destruct (best_ok E (fun u v => ltb v u) no_data marker (minimum_functor ltb extreme) a p x f) as [A1 A2]; try assumption; try reflexivity.
  { intros u v. apply Hasym. }
  { intros u v w Hw. destruct (Htr w v u Hw); auto. }
  destruct (best_ok E ltb no_data marker (maximum_functor ltb extreme) a p x f) as [B1 B2]; try assumption; try reflexivity.
  fold pol in A1, A2, B1, B2. fold least in A1, A2. fold largest in B1, B2. split.
  - intros Hex. destruct (A1 Hex) as [A3 A4]. destruct (B1 Hex) as [B3 B4]. auto.
  - auto.
Qed.

Lemma sumZ_app l l' : sumZ (l ++ l') = sumZ l + sumZ l'.
Proof. unfold sumZ. induction l; cbn; [reflexivity|]. rewrite IHl. lia. Qed.
Lemma sumZ_perm l l' : Permutation l l' -> sumZ l = sumZ l'.
Proof. unfold sumZ. induction 1; cbn [fold_right] in *; lia. Qed.
Lemma sumZ_abs l : Z.abs (sumZ l) <= sumZ (map Z.abs l).
Proof. unfold sumZ in *. induction l; cbn [map fold_right] in *; lia. Qed.
Lemma sumZ_abs_pos l : 0 <= sumZ (map Z.abs l).
Proof. unfold sumZ in *. induction l; cbn [map fold_right] in *; lia. Qed.
Lemma sumZ_incl (l k : list Z) : (exists m, Permutation (l ++ m) k) -> sumZ (map Z.abs l) <= sumZ (map Z.abs k).
Proof.
  intros [m Hm]. apply (Permutation_map Z.abs) in Hm. apply sumZ_perm in Hm. rewrite map_app, sumZ_app in Hm.
  pose proof (sumZ_abs_pos m). lia.
Qed.

Lemma c14_sum :
  forall (t : itype) a p x f,
  int_type t -> raster_of a p x f -> (forall c, in_shape a c -> representable t (f c)) ->
  let values := valid_values (fun v => negb (v =? no_data_value t)) a f in
  sumZ (map Z.abs values) < imax t ->
  (values <> [] -> unary_aggregate_operation (int_agg_policies t) (sum_functor t) x = sumZ values) /\
  (values = [] -> unary_aggregate_operation (int_agg_policies t) (sum_functor t) x = no_data_value t).
Proof.
  intros t a p x f Ht H Hr values Hs.
  set (pol := int_agg_policies t).
  assert (Hok : forall v, ok pol v = negb (v =? no_data_value t)) by (intros; unfold ok; cbn; apply andb_true_r).
  set (small := fun l => sumZ (map Z.abs l) < imax t).
  set (P := fun (l : list Z) (r : Z) => small l /\ (forall v, In v l -> representable t v) -> r = sumZ l).
  assert (Hrep : forall l, small l /\ (forall v, In v l -> representable t v) -> representable t (sumZ l)).
  { intros l [Hl Hv]. pose proof (sumZ_abs l). unfold small, representable, imin, imax in *.
    destruct (pow_split t Ht) as [E2 Hp]. destruct (signed t); [lia|]. split; [|lia].
    clear - Hv. induction l as [|v l IH]; cbn; [lia|]. pose proof (Hv v (or_introl eq_refl)). 
    assert (0 <= sumZ l) by (apply IH; intros; apply Hv; now right). unfold sumZ in *. lia. }
  assert (merge : forall l l', small (l ++ l') /\ (forall v, In v (l ++ l') -> representable t v) ->
     (small l /\ (forall v, In v l -> representable t v)) /\ (small l' /\ (forall v, In v l' -> representable t v))).
  { intros l l' [A B]. unfold small in *. rewrite map_app, sumZ_app in A.
    pose proof (sumZ_abs_pos l). pose proof (sumZ_abs_pos l').
    split; (split; [lia|intros; apply B, in_app_iff; auto]). }
  destruct (aggregate_ok pol (sum_functor t) P) with (marker := no_data_value t) (a := a) (p := p) (arr := x) (f := f) as [G1 G2].
  - intros u Hu _. cbn [fn_first sum_functor]. unfold sumZ. cbn [fold_right]. lia.
  - intros l u v _ Hv HP HS. destruct (merge _ _ HS) as [S1 S2]. cbn [fn_next sum_functor]. rewrite (HP S1).
    assert (E1 : sumZ (l ++ [v]) = sumZ l + v) by (rewrite sumZ_app; unfold sumZ at 2; cbn [fold_right]; lia).
    specialize (Hrep _ HS). rewrite E1 in *. now apply wrap_id.
  - intros l u l' v _ _ HP HP' HS. destruct (merge _ _ HS) as [S1 S2]. cbn. rewrite (HP S1), (HP' S2), wrap_id; [now rewrite sumZ_app|assumption|].
    rewrite <- sumZ_app. now apply Hrep.
  - reflexivity.
  - reflexivity.
  - cbn. apply Z.eqb_refl.
  - intros l l' r HL HP HS. assert (HS' : small l /\ (forall v, In v l -> representable t v)).
    { destruct HS as [A B]. split.
      - unfold small in *. rewrite (sumZ_perm _ _ (Permutation_map Z.abs HL)). assumption.
      - intros v Hv. apply B. eapply Permutation_in; eassumption. }
    rewrite (HP HS'). now apply sumZ_perm.
  - exact H.
  - intros l Hl r Hne HP. cbn. apply Z.eqb_neq.
    assert (HP1 : Permutation (filter (ok pol) (concat (map pl_data (pa_parts x)))) values).
    { pose proof (raster_permutation a p x f H) as HP1. unfold values, valid_values.
      rewrite (filter_ext _ (fun v => negb (v =? no_data_value t))) by exact Hok.
      now apply filter_perm. }
    assert (HS : small (filter (ok pol) l) /\ (forall v, In v (filter (ok pol) l) -> representable t v)).
    { split.
      - unfold small. eapply Z.le_lt_trans; [|exact Hs]. apply sumZ_incl.
        apply in_split in Hl. destruct Hl as [l1 [l2 El]]. rewrite El in HP1. rewrite concat_app in HP1. cbn in HP1.
        rewrite !filter_app in HP1. exists (filter (ok pol) (concat l2) ++ filter (ok pol) (concat l1)). etransitivity; [|exact HP1].
        rewrite app_assoc. apply Permutation_app_comm.
      - intros v Hv.
        assert (Hin : In v values).
        { eapply Permutation_in; [exact HP1|]. apply filter_In in Hv. apply filter_In. split; [|apply Hv].
          apply in_concat. exists l. split; [assumption|apply Hv]. }
        unfold values, valid_values in Hin. apply filter_cells in Hin. destruct Hin as [c [Hc [_ <-]]]. auto. }
    specialize (HP HS). rewrite HP. pose proof (sumZ_abs (filter (ok pol) l)). destruct HS as [HS HS']. unfold small in HS.
    unfold no_data_value, imin, imax in *. destruct (signed t); lia.
  - rewrite (filter_ext _ (fun v => negb (v =? no_data_value t))) in G1, G2 by exact Hok.
    fold values in G1, G2. split; [|exact G2].
    intros N. apply (G1 N). split; [exact Hs|]. intros v Hv. unfold values, valid_values in Hv. apply filter_cells in Hv.
    destruct Hv as [c [Hc [_ <-]]]. auto.
Qed.

Lemma c14_sum_refuted :
  let f := fun c => nth (Z.to_nat (nth 0 c 0)) [-100; -28; 30; 20] 0 in
  let x1 := PArray [4] [1] [Placed 0 [0] [4] [-100; -28; 30; 20]] in
  let x2 := PArray [4] [2] [Placed 0 [0] [2] [-100; -28]; Placed 0 [2] [2] [30; 20]] in
  raster_of [4] [4] x1 f /\ raster_of [4] [2] x2 f /\
  unary_aggregate_operation (int_agg_policies (IType 8 true)) (sum_functor (IType 8 true)) x1 = -78 /\
  unary_aggregate_operation (int_agg_policies (IType 8 true)) (sum_functor (IType 8 true)) x2 = 50.
Proof.
  cbn zeta. split; [|split; [|split; vm_compute; reflexivity]].
  - split; [discriminate|]. split; [repeat constructor; cbn; lia|]. split; [reflexivity|]. split; [reflexivity|].
    split; [reflexivity|]. intros [|i [|? ?]] H; cbn in H; try tauto.
    assert (i = 0) as -> by (change (4/4) with 1 in *; lia); cbn; (eexists; split; [reflexivity|]);
      (split; [reflexivity|]); intros [|k [|? ?]] Hk; cbn in Hk; try tauto.
    assert (k = 0 \/ k = 1 \/ k = 2 \/ k = 3) as [-> |[-> |[-> | ->]]] by lia; reflexivity.
  - split; [discriminate|]. split; [repeat constructor; cbn; lia|]. split; [reflexivity|]. split; [reflexivity|].
    split; [reflexivity|]. intros [|i [|? ?]] H; cbn in H; try tauto.
    assert (i = 0 \/ i = 1) as [-> | ->] by (change (4/2) with 2 in *; lia); cbn; (eexists; split; [reflexivity|]);
      (split; [reflexivity|]); intros [|k [|? ?]] Hk; cbn in Hk; try tauto;
      assert (k = 0 \/ k = 1) as [-> | ->] by lia; reflexivity.
Qed.

Lemma truth_of_bool b : truth (of_bool b) = b.
Proof. destruct b; reflexivity. Qed.

Lemma bool_ok (t : itype) (fn : agg_functor Z Z) (Q : list Z -> bool) a p x f :
  int_type t -> raster_of a p x f ->
  (forall l l', Permutation l l' -> Q l = Q l') ->
  (forall u, u <> no_data_value t -> truth (fn_first fn u) = Q [u] /\ fn_first fn u <> no_data_value t) ->
  (forall u, fn_part1 fn u = u) ->
  (forall l u v, l <> [] -> truth u = Q l -> truth (fn_next fn u v) = Q (l ++ [v]) /\ (fn_next fn u v = 0 \/ fn_next fn u v = 1)) ->
  (forall l u l' v, l <> [] -> l' <> [] -> truth u = Q l -> truth v = Q l' -> truth (fn_part2 fn u v) = Q (l ++ l') /\ (fn_part2 fn u v = 0 \/ fn_part2 fn u v = 1)) ->
  let values := valid_values (fun v => negb (v =? no_data_value t)) a f in
  let r := unary_aggregate_operation (int_agg_policies t) fn x in
  (values <> [] -> truth r = Q values /\ r <> no_data_value t) /\ (values = [] -> r = no_data_value t).
Proof.
  intros Ht H Qp F1 F2 F3 F4 values r.
  set (pol := int_agg_policies t).
  assert (Hok : forall v, ok pol v = negb (v =? no_data_value t)) by (intros; unfold ok; cbn; apply andb_true_r).
  assert (Hb : forall v, v = 0 \/ v = 1 -> v <> no_data_value t).
  { destruct (pow_split t Ht) as [E2 Hp]. unfold no_data_value, imin, imax, int_type in *. 
    assert (2 ^ 1 <= 2 ^ (bits t - 1)) by (apply Z.pow_le_mono_r; lia). destruct (signed t); lia. }
  set (P := fun (l : list Z) (r : Z) => truth r = Q l /\ r <> no_data_value t).
  destruct (aggregate_ok pol fn P) with (marker := no_data_value t) (a := a) (p := p) (arr := x) (f := f) as [G1 G2].
  - intros u Hu. rewrite Hok in Hu. apply F1. apply negb_true_iff, Z.eqb_neq in Hu. assumption.
  - intros l u v Hl _ [HP1 HP2]. destruct (F3 l u v Hl HP1) as [A B]. split; auto.
  - intros l u l' v Hl Hl' [HP1 HP2] [HP1' HP2']. destruct (F4 l u l' v Hl Hl' HP1 HP1') as [A B]. split; auto.
  - exact F2.
  - reflexivity.
  - cbn. apply Z.eqb_refl.
  - intros l l' u HL [A B]. split; [rewrite A; now apply Qp|assumption].
  - exact H.
  - intros l _ u _ [A B]. cbn. now apply Z.eqb_neq.
  - rewrite (filter_ext _ (fun v => negb (v =? no_data_value t))) in G1, G2 by exact Hok. split; assumption.
Qed.

Lemma forallb_perm {A} (q : A -> bool) l l' : Permutation l l' -> forallb q l = forallb q l'.
Proof. induction 1; cbn; try congruence. destruct (q x), (q y); reflexivity. Qed.
Lemma existsb_perm {A} (q : A -> bool) l l' : Permutation l l' -> existsb q l = existsb q l'.
Proof. induction 1; cbn; try congruence. destruct (q x), (q y); reflexivity. Qed.

Lemma c15 :
  forall (t : itype) a p x f,
  int_type t -> raster_of a p x f -> (forall c, in_shape a c -> representable t (f c)) ->
  let valid c := in_shape a c /\ f c <> no_data_value t in
  let all := unary_aggregate_operation (int_agg_policies t) all_functor x in
  let any := unary_aggregate_operation (int_agg_policies t) any_functor x in
  let none := unary_aggregate_operation (int_agg_policies t) none_functor x in
  ((exists c, valid c) ->
     (all <> 0 <-> forall c, valid c -> f c <> 0) /\
     (any <> 0 <-> exists c, valid c /\ f c <> 0) /\
     (none <> 0 <-> ~ exists c, valid c /\ f c <> 0) /\
     all <> no_data_value t /\ any <> no_data_value t /\ none <> no_data_value t) /\
  ((forall c, ~ valid c) -> all = no_data_value t /\ any = no_data_value t /\ none = no_data_value t).
Proof.
  intros t a p x f Ht H _ valid all any none.
  assert (B01 : forall b, of_bool b = 0 \/ of_bool b = 1) by (intros []; auto).
  assert (Hb : forall b, of_bool b <> no_data_value t).
  { destruct (pow_split t Ht) as [E2 Hp]. unfold no_data_value, imin, imax, int_type, of_bool in *. 
    assert (2 ^ 1 <= 2 ^ (bits t - 1)) by (apply Z.pow_le_mono_r; lia). intros []; destruct (signed t); lia. }
  destruct (bool_ok t all_functor (forallb truth) a p x f) as [A1 A2]; try assumption; try reflexivity.
  { apply forallb_perm. }
  { intros u Hu. cbn. split; [now rewrite andb_true_r|assumption]. }
  { intros l u v _ E. cbn. rewrite truth_of_bool, forallb_app, <- E. cbn. rewrite andb_true_r. auto. }
  { intros l u l' v _ _ E E'. cbn. rewrite truth_of_bool, forallb_app, <- E, <- E'. auto. }
  destruct (bool_ok t any_functor (existsb truth) a p x f) as [B1 B2]; try assumption; try reflexivity.
  { apply existsb_perm. }
  { intros u Hu. cbn. split; [now rewrite orb_false_r|assumption]. }
  { intros l u v _ E. cbn. rewrite truth_of_bool, existsb_app, <- E. cbn. rewrite orb_false_r. auto. }
  { intros l u l' v _ _ E E'. cbn. rewrite truth_of_bool, existsb_app, <- E, <- E'. auto. }
  destruct (bool_ok t none_functor (forallb (fun v => negb (truth v))) a p x f) as [C1 C2]; try assumption; try reflexivity.
  { apply forallb_perm. }
  { intros u Hu. cbn. split; [now rewrite andb_true_r, truth_of_bool|apply Hb]. }
  { intros l u v _ E. cbn. rewrite truth_of_bool, forallb_app, <- E. cbn. rewrite andb_true_r. auto. }
  { intros l u l' v _ _ E E'. cbn. rewrite truth_of_bool, forallb_app, <- E, <- E'. auto. }
  cbn zeta in *. fold all in A1, A2. fold any in B1, B2. fold none in C1, C2.
  set (values := valid_values (fun v => negb (v =? no_data_value t)) a f) in *.
  assert (HV : forall v, In v values <-> exists c, valid c /\ f c = v).
  { intros v. unfold values, valid_values. rewrite filter_cells. unfold valid. split.
    - intros [c [Hc [Hv E]]]. exists c. subst v. apply negb_true_iff, Z.eqb_neq in Hv. auto.
    - intros [c [[Hc Hv] E]]. exists c. subst v. repeat split; auto. now apply negb_true_iff, Z.eqb_neq. }
  assert (T : forall v, truth v = true <-> v <> 0).
  { intros v. unfold truth. rewrite negb_true_iff. apply Z.eqb_neq. }
  split.
  - intros [c Hc]. assert (N : values <> []) by (apply nonempty_in; exists (f c); apply HV; eauto).
    destruct (A1 N) as [A3 A4], (B1 N) as [B3 B4], (C1 N) as [C3 C4]. split; [|split; [|split; [|auto]]].
    + rewrite <- T, A3, forallb_forall. split.
      * intros Hall k Hk. apply T, Hall, HV. eauto.
      * intros Hall v Hv. apply HV in Hv. destruct Hv as [k [Hk <-]]. now apply T, Hall.
    + rewrite <- T, B3, existsb_exists. split.
      * intros [v [Hv Hv']]. apply HV in Hv. destruct Hv as [k [Hk <-]]. exists k. split; [assumption|now apply T].
      * intros [k [Hk Hv]]. exists (f k). split; [apply HV; eauto|now apply T].
    + rewrite <- T, C3, forallb_forall. split.
      * intros Hall [k [Hk Hv]]. assert (In (f k) values) as Hin by (apply HV; eauto). apply Hall in Hin.
        apply T in Hv. rewrite Hv in Hin. discriminate.
      * intros Hno v Hv. destruct (truth v) eqn:E; [|reflexivity]. exfalso. apply Hno. apply HV in Hv. destruct Hv as [k [Hk <-]].
        exists k. split; [assumption|now apply T].
  - intros Hno. assert (N : values = []).
    { apply empty_in. intros v Hv. apply HV in Hv. destruct Hv as [c [Hc _]]. eapply Hno, Hc. }
    auto.
Qed.
