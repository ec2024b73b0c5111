(** Validation of values, domains, property sets and datasets. *)
From Verif Require Import Common CommonProofs ArrayModel IOModel NumpyModel ValueModel ValueProofs3 ValidateModel ValidateSpec ValidateProofs.

Definition accepts (o : outcome (list issue)) : Prop := exists l, o = Ok l /\ errors_found l = false.

Lemma accepts_Ok l : accepts (Ok l) <-> errors_found l = false.
Proof. unfold accepts. split; [intros [l' [E H]]; now injection E as <-|intros H; now exists l]. Qed.
Lemma accepts_bind {A} (o : outcome A) f : accepts (obind o f) <-> exists a, o = Ok a /\ accepts (f a).
Proof.
  destruct o as [a| |]; cbn [obind].
  - split; [intros H; now exists a|intros [a' [E H]]; now injection E as <-].
  - split; [intros [l [E _]]; discriminate|intros [a [E _]]; discriminate].
  - split; [intros [l [E _]]; discriminate|intros [a [E _]]; discriminate].
Qed.
Lemma accepts_two o o' : accepts (obind o (fun i => obind o' (fun j => Ok (i ++ j)))) <-> accepts o /\ accepts o'.
Proof.
  rewrite accepts_bind. split.
  - intros [a [E H]]. apply accepts_bind in H as [b [E' H]]. apply accepts_Ok, errors_app in H as [H1 H2]. split; [now exists a|now exists b].
  - intros [[a [E H1]] [b [E' H2]]]. exists a. split; [exact E|]. apply accepts_bind. exists b. split; [exact E'|]. apply accepts_Ok, errors_app. split; assumption.
Qed.
Lemma accepts_each {A} (f : A -> outcome (list issue)) l : accepts (validate_each f l) <-> forall a, In a l -> accepts (f a).
Proof.
  induction l as [|a l IH]; cbn [validate_each].
  - split; [intros _ a []|intros _; now apply accepts_Ok].
  - rewrite accepts_two, IH. split; [intros [H1 H2] x [<-|Hx]; auto|]. intros H. split; [apply H; now left|]. intros x Hx. apply H. now right.
Qed.

Section Values.
Context {E : Type}.

Definition good_position (t : tracker) (g : group (array E)) (k : Z) : Prop :=
  exists id idx v, at_z (tr_ids t) k = Ok id /\ at_z (tr_idxs t) k = Ok idx /\ item id g = Ok v /\ idx < nr_arrays v.

Lemma check_objects_ok t (g : group (array E)) positions : accepts (check_objects positions t g) <-> forall k, In k positions -> good_position t g k.
Proof.
  induction positions as [|k positions IH]; cbn [check_objects].
  - split; [intros _ k []|intros _; now apply accepts_Ok].
  - rewrite accepts_bind. split.
    + intros [id [E1 H]]. apply accepts_bind in H as [idx [E2 H]]. apply accepts_bind in H as [v [E3 H]].
      destruct (Z.leb_spec (nr_arrays v) idx) as [L|L]; [apply accepts_Ok in H; discriminate H|].
      intros k' [<-|Hk]; [exists id, idx, v; auto|]. now apply (proj1 IH H).
    + intros H. destruct (H k (or_introl eq_refl)) as [id [idx [v [E1 [E2 [E3 L]]]]]]. exists id. split; [exact E1|]. apply accepts_bind. exists idx. split; [exact E2|].
      apply accepts_bind. exists v. split; [exact E3|]. destruct (Z.leb_spec (nr_arrays v) idx); [lia|]. apply IH. intros k' Hk. apply H. now right.
Qed.
Lemma check_active_sets_ok t (g : group (array E)) ends : forall first, accepts (check_active_sets first ends t g) <->
  forall n k, (n < length ends)%nat -> nth n (first :: ends) 0 <= k < nth n ends 0 -> good_position t g k.
Proof.
  induction ends as [|last ends IH]; intros first; cbn [check_active_sets].
  - split; [intros _ n k Hn; cbn in Hn; lia|intros _; now apply accepts_Ok].
  - rewrite accepts_two, check_objects_ok, IH. split.
    + intros [H1 H2] [|n] k Hn Hk; cbn [nth length] in *; [apply H1, in_zseq; lia|]. apply (H2 n k); [lia|exact Hk].
    + intros H. split; [intros k Hk; apply in_zseq in Hk; apply (H O k); cbn [nth length]; lia|]. intros n k Hn Hk. apply (H (S n) k); cbn [nth length]; [lia|exact Hk].
Qed.
Lemma check_sizes_ok (g : group (array E)) ends : forall i first, accepts (check_sizes i first ends g) <->
  forall n, (n < length ends)%nat -> exists v, item (i + Z.of_nat n) g = Ok v /\ nr_arrays v = to_size (nth n ends 0 - nth n (first :: ends) 0).
Proof.
  induction ends as [|last ends IH]; intros i first; cbn [check_sizes].
  - split; [intros _ n Hn; cbn in Hn; lia|intros _; now apply accepts_Ok].
  - rewrite accepts_bind. split.
    + intros [v [E1 H]]. destruct (Z.eqb_spec (nr_arrays v) (to_size (last - first))) as [L|L]; cbn [negb] in H; [|apply accepts_Ok in H; discriminate H].
      intros [|n] Hn; [exists v; rewrite Z.add_0_r; split; assumption|]. cbn [length] in Hn. destruct (proj1 (IH _ _) H n ltac:(lia)) as [w [E2 H2]].
      exists w. replace (i + Z.of_nat (S n)) with (i + 1 + Z.of_nat n) by lia. split; assumption.
    + intros H. destruct (H O ltac:(cbn; lia)) as [v [E1 H1]]. rewrite Z.add_0_r in E1. exists v. split; [exact E1|]. cbn [nth] in H1. rewrite H1, Z.eqb_refl. cbn [negb].
      apply IH. intros n Hn. destruct (H (S n) ltac:(cbn; lia)) as [w [E2 H2]]. exists w. replace (i + 1 + Z.of_nat n) with (i + Z.of_nat (S n)) by lia. split; assumption.
Qed.

Lemma has_item_ok {V} k (g : group V) : has_item k g = true <-> exists v, item k g = Ok v.
Proof. unfold has_item, item. destruct (find_item k (gr_items g)) as [v|]; split; try congruence; [intros _; now exists v|intros [v H]; discriminate]. Qed.

(** Sets and positions *)
Lemma ends_shape t : exists first ends, tr_sets t ++ [len (tr_ids t)] = first :: ends /\ length ends = length (tr_sets t) /\
  forall k, (k < length (tr_sets t))%nat -> nth k (first :: ends) 0 = set_first t k /\ nth k ends 0 = set_last t k.
Proof.
  destruct (tr_sets t ++ [len (tr_ids t)]) as [|first ends] eqn:EA; [now destruct (tr_sets t)|]. exists first, ends. split; [reflexivity|].
  assert (HL : length ends = length (tr_sets t)). { apply (f_equal (@length Z)) in EA. rewrite app_length in EA. cbn in EA. lia. }
  split; [exact HL|]. intros k Hk. unfold set_last, set_first.
  assert (H1 : nth k (tr_sets t ++ [len (tr_ids t)]) 0 = nth k (tr_sets t) (len (tr_ids t))) by (apply nth_app_last; lia).
  assert (H2 : nth (S k) (tr_sets t ++ [len (tr_ids t)]) 0 = nth (S k) (tr_sets t) (len (tr_ids t))) by (apply nth_app_last; lia).
  rewrite EA in H1, H2. cbn [nth] in H2. split; assumption.
Qed.
Lemma increasing_nth l : increasing l -> forall i j d, (i <= j < length l)%nat -> nth i l d <= nth j l d.
Proof.
  unfold increasing. induction 1 as [|a l HS IH HF]; intros i j d Hij; [cbn in Hij; lia|].
  destruct i as [|i], j as [|j]; cbn [nth length] in *; try lia.
  - rewrite Forall_forall in HF. apply HF, nth_In. lia.
  - apply IH. lia.
Qed.
Lemma set_first_mono t : increasing (tr_sets t ++ [len (tr_ids t)]) -> forall i j, (i <= j <= length (tr_sets t))%nat -> set_first t i <= set_first t j.
Proof.
  intros H i j Hij. unfold set_first. rewrite <- (nth_app_last (tr_sets t) (len (tr_ids t)) i 0) by lia. rewrite <- (nth_app_last (tr_sets t) (len (tr_ids t)) j 0) by lia.
  apply increasing_nth; [exact H|]. rewrite app_length. cbn. lia.
Qed.
Lemma set_first_end t : set_first t (length (tr_sets t)) = len (tr_ids t).
Proof. unfold set_first. now rewrite nth_overflow. Qed.
Lemma set_first_range t : increasing (tr_sets t ++ [len (tr_ids t)]) -> Forall size_range (tr_sets t) -> forall k, (k <= length (tr_sets t))%nat -> 0 <= set_first t k <= len (tr_ids t).
Proof.
  intros HI HR k Hk. split.
  - unfold set_first. destruct (Nat.lt_ge_cases k (length (tr_sets t))) as [L|L].
    + rewrite Forall_forall in HR. apply HR, nth_In. exact L.
    + rewrite nth_overflow by exact L. unfold len. lia.
  - rewrite <- set_first_end. apply set_first_mono; [exact HI|lia].
Qed.
Lemma active_set_len t : increasing (tr_sets t ++ [len (tr_ids t)]) -> Forall size_range (tr_sets t) -> forall k, (k < length (tr_sets t))%nat ->
  len (active_set t k) = set_last t k - set_first t k.
Proof.
  intros HI HR k Hk. unfold active_set, len. rewrite firstn_length, skipn_length.
  pose proof (set_first_range t HI HR k ltac:(lia)) as R1. pose proof (set_first_range t HI HR (S k) ltac:(lia)) as R2. pose proof (set_first_mono t HI k (S k) ltac:(lia)) as M.
  fold (set_last t k) in R2, M. unfold len in *. lia.
Qed.

Lemma at_z_nth {A} (l : list A) k x : 0 <= k -> (at_z l k = Ok x <-> nth_error l (Z.to_nat k) = Some x).
Proof. intros H. unfold at_z, nth_z. destruct (Z.ltb_spec k 0); [lia|]. destruct (nth_error l (Z.to_nat k)); split; congruence. Qed.

Lemma value_ok ids t (p : @property E) : consistent ids t -> unsigned_tracker t -> (accepts (validate_value ids t p) <-> complete ids t p).
Proof.
  intros C [U1 U2]. destruct p as [v|g|v|g|g|g]; cbn [validate_value complete].
  - rewrite accepts_Ok. apply same_number_ok.
  - rewrite accepts_Ok. unfold validate_different. destruct (Z.eqb_spec (gr_count g) (len ids)) as [L|L]; cbn [negb].
    + split.
      * intros H. split; [exact L|]. intros id Hid. apply has_item_ok. destruct (has_item id g) eqn:EH; [reflexivity|]. exfalso.
        assert (HX : errors_found (concat (map (fun id => if has_item id g then [] else [Error (MissingValue id)]) ids)) = true).
        { unfold errors_found. apply existsb_exists. exists (Error (MissingValue id)). split; [|reflexivity]. apply in_concat. exists [Error (MissingValue id)]. split; [|now left].
          apply in_map_iff. exists id. now rewrite EH. }
        congruence.
      * intros [_ H]. unfold errors_found. apply Bool.not_true_is_false. intros HX. apply existsb_exists in HX as [i [Hi _]]. apply in_concat in Hi as [l [Hl Hi]].
        apply in_map_iff in Hl as [id [<- Hid]]. apply H, has_item_ok in Hid. rewrite Hid in Hi. destruct Hi.
    + cbn. split; [discriminate|tauto].
  - rewrite accepts_Ok. apply same_number_ok.
  - unfold validate_different_constant. set (u := sort_numbers (nodup Z.eq_dec (tr_ids t))).
    assert (HU : len u = len (nodup Z.eq_dec (tr_ids t))) by (unfold len, u; now rewrite (Permutation_length (sort_perm _))).
    assert (HI : forall x, In x u <-> In x (tr_ids t)).
    { intros x. rewrite <- (nodup_In Z.eq_dec (tr_ids t) x). unfold u. split; apply Permutation_in; [|symmetry]; apply sort_perm. }
    rewrite HU. destruct (Z.eqb_spec (gr_count g) (len (nodup Z.eq_dec (tr_ids t)))) as [L|L]; cbn [negb]; [|rewrite accepts_Ok; cbn; split; [discriminate|tauto]].
    pose proof (find_none_iff (fun id => negb (has_item id g)) u) as F. destruct (find _ u) as [x|].
    + rewrite accepts_Ok. cbn. split; [discriminate|]. intros [_ [H _]]. exfalso. assert (Some x = None); [|discriminate]. apply F. intros y Hy. apply Bool.negb_false_iff, has_item_ok, H. now apply HI.
    + apply proj1 in F. specialize (F eq_refl). destruct (ends_shape t) as [first [ends [EA [HL HN]]]]. rewrite EA, check_active_sets_ok, HL.
      split.
      * intros H. split; [exact L|]. split; [intros id Hid; apply has_item_ok, Bool.negb_false_iff, F; now apply HI|].
        intros k position Hk [P1 P2]. destruct (HN k Hk) as [N1 N2]. destruct (H k position Hk) as [id [idx [v [E1 [E2 E3]]]]]; [lia|].
        pose proof (set_first_range t (sets_in_order _ _ C) U1 k ltac:(lia)). exists id, idx, v. rewrite at_z_nth in E1, E2 by lia. auto.
      * intros [_ [_ H]] k position Hk Hp. destruct (HN k Hk) as [N1 N2]. destruct (H k position Hk) as [id [idx [v [E1 [E2 E3]]]]]; [unfold in_set; lia|].
        pose proof (set_first_range t (sets_in_order _ _ C) U1 k ltac:(lia)). exists id, idx, v. rewrite !at_z_nth by lia. auto.
  - unfold validate_same_variable. destruct (Z.eqb_spec (gr_count g) (len (tr_sets t))) as [L|L]; cbn [negb]; [|rewrite accepts_Ok; cbn; split; [discriminate|tauto]].
    destruct (ends_shape t) as [first [ends [EA [HL HN]]]]. rewrite EA, check_sizes_ok, HL.
    assert (HS : forall k, (k < length (tr_sets t))%nat -> to_size (nth k ends 0 - nth k (first :: ends) 0) = len (active_set t k)).
    { intros k Hk. destruct (HN k Hk) as [-> ->]. rewrite (active_set_len t (sets_in_order _ _ C) U1 k Hk). unfold to_size, SIZES. apply Z.mod_small.
      pose proof (set_first_range t (sets_in_order _ _ C) U1 k ltac:(lia)). pose proof (set_first_range t (sets_in_order _ _ C) U1 (S k) ltac:(lia)) as R. pose proof (set_first_mono t (sets_in_order _ _ C) k (S k) ltac:(lia)) as M.
      fold (set_last t k) in R, M. unfold size_range in U2. lia. }
    split.
    + intros H. split; [exact L|]. intros k Hk. destruct (H k Hk) as [v [E1 E2]]. exists v. rewrite HS in E2 by exact Hk. split; assumption.
    + intros [_ H] k Hk. destruct (H k Hk) as [v [E1 E2]]. exists v. rewrite HS by exact Hk. split; assumption.
  - rewrite accepts_Ok. unfold validate_different_variable. destruct (Z.eqb_spec (gr_count g) (len (tr_sets t))); cbn; split; congruence.
Qed.

Lemma sum_to_size l : forall a, Forall size_range l -> size_range a -> fold_left (fun a c => to_size (a + c)) l a = (a + sumZ l) mod 18446744073709551616.
Proof.
  induction l as [|x l IH]; intros a HF Ha; cbn [fold_left sumZ fold_right].
  - rewrite Z.add_0_r, Z.mod_small; [reflexivity|exact Ha].
  - inversion HF; subst. rewrite IH; [|assumption|unfold to_size, SIZES, size_range; apply Z.mod_pos_bound; lia]. unfold to_size, SIZES. rewrite Z.add_mod_idemp_l by lia. unfold sumZ. now rewrite Z.add_assoc.
Qed.
Lemma len_eq {A B} (l : list A) (l' : list B) : len l = len l' <-> length l = length l'.
Proof. unfold len. lia. Qed.
Lemma time_ok t d : unsigned_time d -> (errors_found (validate_time t d) = false <-> valid_time t d).
Proof.
  intros U. destruct d as [boxes|boxes counts|points]; cbn [validate_time valid_time]; rewrite errors_app, increasing_ok.
  - now rewrite same_number_ok, len_eq.
  - destruct (Z.eqb_spec (len counts) (len boxes)) as [L|L]; cbn [negb].
    + rewrite same_number_ok, sum_to_size; [|exact U|split; lia]. rewrite Z.add_0_l. apply len_eq in L. tauto.
    + rewrite len_eq in L. cbn. split; [intros [_ H]; discriminate|tauto].
  - now rewrite same_number_ok, len_eq.
Qed.
Lemma space_ok ids t (d : @space_domain E) : errors_found (validate_space ids t d) = false <-> valid_space ids t d.
Proof. destruct d; apply same_number_ok. Qed.

Lemma grid_ok g n : errors_found (validate_grid g n) = false <-> valid_grid n g.
Proof.
  unfold validate_grid, valid_grid. destruct (gr_same_shape g); cbn [negb]; [|cbn; split; [discriminate|intros [H _]; discriminate]].
  rewrite errors_app, same_number_ok. destruct (gr_unsigned g); cbn; split; try tauto; intros [? H]; try discriminate; destruct H; discriminate.
Qed.
Lemma time_grid_ok (p : @property E) d : errors_found (validate_time_discretization p d) = false <-> when d (valid_time_grid p).
Proof.
  unfold when. destruct d as [g|]; cbn [validate_time_discretization]; [|cbn; split; [discriminate|reflexivity]].
  assert (HW : forall P : grid -> Prop, (forall a, Some g = Some a -> P a) <-> P g) by (intros P; split; [auto|intros H a HE; now injection HE as <-]).
  rewrite HW. destruct p; cbn [valid_time_grid]; try (cbn; tauto).
  unfold validate_time_grid. rewrite !errors_app. destruct (gr_variable g), (gr_same_shape g), (gr_constant_shape g); cbn; intuition congruence.
Qed.
Lemma space_grid_ok (p : @property E) d : errors_found (validate_space_discretization p d) = false <-> when d (valid_space_grid p).
Proof.
  unfold when. destruct d as [g|]; cbn [validate_space_discretization]; [|cbn; split; [discriminate|reflexivity]].
  assert (HW : forall P : grid -> Prop, (forall a, Some g = Some a -> P a) <-> P g) by (intros P; split; [auto|intros H a HE; now injection HE as <-]).
  rewrite HW. destruct p; cbn [valid_space_grid]; try (cbn; tauto).
  - unfold validate_constant_grid. destruct (gr_variable g); [cbn; split; [discriminate|intros [H _]; discriminate]|]. rewrite grid_ok. tauto.
  - destruct (gr_variable g); [cbn; tauto|]. rewrite grid_ok. split; [tauto|]. intros [H|H]; [discriminate|exact H].
  - unfold validate_constant_grid. destruct (gr_variable g); [cbn; split; [discriminate|intros [H _]; discriminate]|]. rewrite grid_ok. tauto.
Qed.

Lemma when_none {A} (P : A -> Prop) : when None P. Proof. intros a H. discriminate. Qed.
Lemma when_some {A} (P : A -> Prop) a : when (Some a) P <-> P a.
Proof. unfold when. split; [auto|intros H b HE; now injection HE as <-]. Qed.

Lemma set_ok ids (s : @property_set E) : unsigned_set s -> (accepts (validate_property_set ids s) <-> valid_set ids s).
Proof.
  intros [U1 U2]. unfold validate_property_set. destruct (errors_found (validate_object_tracker ids (ps_tracker s))) eqn:ET.
  - rewrite accepts_Ok. split; [congruence|]. intros [H _ _ _]. apply tracker_ok in H. congruence.
  - pose proof (proj1 (tracker_ok _ _) ET) as C. rewrite accepts_bind.
    assert (HT : errors_found match ps_time s with Some d => validate_time (ps_tracker s) d | None => [] end = false <-> when (ps_time s) (valid_time (ps_tracker s))).
    { destruct (ps_time s) as [d|]; [|cbn; split; [intros _; apply when_none|reflexivity]]. rewrite when_some. apply time_ok. now apply U2. }
    assert (HS : errors_found match ps_space s with Some d => validate_space ids (ps_tracker s) d | None => [] end = false <-> when (ps_space s) (valid_space ids (ps_tracker s))).
    { destruct (ps_space s) as [d|]; [|cbn; split; [intros _; apply when_none|reflexivity]]. rewrite when_some. apply space_ok. }
    assert (HP : accepts (validate_each (validate_property ids (ps_tracker s)) (ps_properties s)) <-> forall p, In p (ps_properties s) ->
      complete ids (ps_tracker s) (di_property p) /\ when (di_time p) (valid_time_grid (di_property p)) /\ when (di_space p) (valid_space_grid (di_property p))).
    { rewrite accepts_each. split; intros H p Hp; specialize (H p Hp).
      - unfold validate_property in H. apply accepts_bind in H as [l [E1 H]]. apply accepts_Ok in H. rewrite !errors_app in H. destruct H as [H1 [H2 H3]].
        split; [apply (value_ok ids _ _ C U1); now exists l|]. split; [now apply time_grid_ok|now apply space_grid_ok].
      - destruct H as [H1 [H2 H3]]. apply (value_ok ids _ _ C U1) in H1 as [l [E1 H1]]. unfold validate_property. apply accepts_bind. exists l. split; [exact E1|].
        apply accepts_Ok. rewrite !errors_app. split; [exact H1|]. split; [now apply time_grid_ok|now apply space_grid_ok]. }
    split.
    + intros [l [E1 H]]. apply accepts_Ok in H. rewrite !errors_app in H. destruct H as [_ [H1 [H2 H3]]]. constructor; [exact C|now apply HT|now apply HS|]. apply HP. now exists l.
    + intros [_ H1 H2 H3]. apply HP in H3 as [l [E1 H3]]. exists l. split; [exact E1|]. apply accepts_Ok. rewrite !errors_app. split; [exact ET|]. split; [now apply HT|]. split; [now apply HS|exact H3].
Qed.
Lemma collection_ok (s : @property_set E) : unsigned_set s -> (accepts (validate_collection_property_set s) <-> valid_collection s).
Proof.
  intros U. unfold validate_collection_property_set. rewrite accepts_bind.
  set (rest := if existsb checks_active_sets (ps_properties s) then _ else _).
  assert (HR : errors_found rest = false <-> ((exists p, In p (ps_properties s) /\ match di_property p with SameConstant _ | SameVariable _ | DifferentConstant _ => True | _ => False end) ->
    length (tr_sets (ps_tracker s)) = length (tr_ids (ps_tracker s)))).
  { unfold rest. destruct (existsb checks_active_sets (ps_properties s)) eqn:EX.
    - rewrite errors_app, same_number_ok, len_eq. split; [tauto|]. intros H. assert (HE : length (tr_sets (ps_tracker s)) = length (tr_ids (ps_tracker s))).
      { apply H. apply existsb_exists in EX as [p [Hp Hc]]. exists p. split; [exact Hp|]. unfold checks_active_sets in Hc. now destruct (di_property p). }
      split; [exact HE|]. destruct (existsb checks_active_object_indices (ps_properties s)); [|reflexivity]. now apply same_number_ok, len_eq.
    - cbn. split; [|reflexivity]. intros _ [p [Hp Hc]]. exfalso. assert (existsb checks_active_sets (ps_properties s) = true); [|congruence].
      apply existsb_exists. exists p. split; [exact Hp|]. unfold checks_active_sets. now destruct (di_property p). }
  split.
  - intros [l [E1 H]]. apply accepts_Ok, errors_app in H as [H1 H2]. constructor; [apply set_ok; [exact U|now exists l]|now apply HR].
  - intros [H1 H2]. apply set_ok in H1 as [l [E1 H1]]; [|exact U]. exists l. split; [exact E1|]. apply accepts_Ok, errors_app. split; [exact H1|now apply HR].
Qed.

Lemma phenomenon_ok (p : @phenomenon E) : (forall s, In s (ph_sets p) \/ In s (ph_collections p) -> unsigned_set s) -> (accepts (validate_phenomenon p) <-> valid_phenomenon p).
Proof.
  intros U. unfold validate_phenomenon, valid_phenomenon. rewrite accepts_two, !accepts_each. split; intros [H1 H2]; (split; [intros s Hs; apply set_ok|intros s Hs; apply collection_ok]); auto.
Qed.
Lemma dataset_ok (d : @data_set E) : unsigned_dataset d -> (accepts (validate_dataset d) <-> valid_dataset d).
Proof.
  intros U. unfold validate_dataset, valid_dataset. rewrite accepts_two, !accepts_each. split.
  - intros [H1 H2] p Hp. apply phenomenon_ok; [intros s; now apply U|]. destruct Hp as [Hp|[u [Hu Hp]]]; [now apply H2|]. specialize (H1 u Hu). rewrite accepts_each in H1. now apply H1.
  - intros H. split.
    + intros u Hu. apply accepts_each. intros p Hp. apply phenomenon_ok; [intros s; apply U; right; now exists u|]. apply H. right. now exists u.
    + intros p Hp. apply phenomenon_ok; [intros s; apply U; now left|]. apply H. now left.
Qed.
Lemma assert_ok (d : @data_set E) : unsigned_dataset d -> (assert_is_valid false d = Ok tt <-> valid_dataset d).
Proof.
  intros U. rewrite <- (dataset_ok d U). unfold assert_is_valid, accepts. destruct (validate_dataset d) as [l| |]; cbn [obind].
  - rewrite Bool.andb_false_l, Bool.orb_false_r. destruct (errors_found l) eqn:EL; split; try discriminate.
    + intros [l' [E1 H]]. injection E1 as <-. congruence.
    + intros _. now exists l.
    + reflexivity.
  - split; [discriminate|intros [l [H _]]; discriminate].
  - split; [discriminate|intros [l [H _]]; discriminate].
Qed.
End Values.
