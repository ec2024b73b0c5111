(** C57-C59: validation of datasets. *)
From Verif Require Import Common CommonProofs CoreSpec ArraySpec ArrayModel IOModel NumpyModel ValueModel ValueSpec ValidateModel ValidateSpec.
From Verif Require Import ValidateProofs ValidateProofs2 ValidateProofs3.

(** ** C57: what is accepted *)

(** No errors are found in the administration of objects if and only if it is consistent *)
Theorem C57_objects : forall ids t, errors_found (validate_object_tracker ids t) = false <-> consistent ids t.
Proof. exact tracker_ok. Qed.
Print Assumptions C57_objects.

(** A dataset is accepted if and only if it is valid *)
Theorem C57_dataset : forall {E} (d : @data_set E), unsigned_dataset d -> (assert_is_valid false d = Ok tt <-> valid_dataset d).
Proof. intros E d. exact (assert_ok d). Qed.
Print Assumptions C57_dataset.

(** When warnings are not accepted, less is accepted *)
Theorem C57_warnings : forall {E} (d : @data_set E), assert_is_valid true d = Ok tt -> assert_is_valid false d = Ok tt.
Proof.
  intros E d. unfold assert_is_valid. destruct (validate_dataset d) as [l| |]; cbn [obind]; try discriminate.
  destruct (errors_found l); [cbn; discriminate|reflexivity].
Qed.
Print Assumptions C57_warnings.

(** Three objects, of which (1, 2), none and (3, 1) are active at three locations in time; values of all kinds *)
Definition room_for (n : Z) : array Z := Array (Dataset [n] (repeat 0 (Z.to_nat n))) 0.
Definition d57 : @data_set Z :=
  DataSet [] [Phenomenon [1; 2; 3]
    [PropertySet (Tracker [0; 2; 2] [1; 2; 3; 1] [0; 0; 0; 1]) (Some (TimePoints [5; 6; 9])) (Some (Mobile (room_for 4)))
      [Discretized (SameShape (room_for 3)) None None;
       Discretized (DifferentShape (Group [(2, room_for 1); (1, room_for 2); (3, room_for 3)] 3)) None (Some (Grid false true true true true 1 [2]));
       Discretized (SameConstant (room_for 4)) None None;
       Discretized (DifferentConstant (Group [(1, room_for 2); (2, room_for 1); (3, room_for 1)] 3)) None None;
       Discretized (SameVariable (Group [(0, room_for 2); (1, room_for 0); (2, room_for 2)] 3)) (Some (Grid true true true true true 3 [3])) None]] []].
Example C57_example : unsigned_dataset d57 /\ assert_is_valid true d57 = Ok tt.
Proof.
  split; [|reflexivity]. intros p s Hp Hs. destruct Hp as [[<-|[]]|[u [[] _]]]. destruct Hs as [[<-|[]]|[]].
  split; [split; [repeat constructor; cbn; unfold size_range; lia|unfold size_range; cbn; lia]|]. intros d H. injection H as <-. exact I.
Qed.
(** A duplicate ID in a set, sets that are not in order, and an object array too many are rejected *)
Example C57_rejects :
  errors_found (validate_object_tracker [1; 2] (Tracker [0; 2] [1; 2; 2; 2] [])) = true /\
  errors_found (validate_object_tracker [] (Tracker [0; 2; 1] [1; 2; 3] [])) = true /\
  errors_found (validate_same_constant (Tracker [0] [1; 2] []) (room_for 3)) = true.
Proof. repeat split. Qed.

(** ** C58: the values in an accepted dataset *)

Section Accepted.
Context {E : Type}.
(** A property of an accepted dataset *)
Definition accepted_property (d : @data_set E) (t : tracker) (p : @property E) : Prop :=
  unsigned_dataset d /\ assert_is_valid false d = Ok tt /\
  exists ph s pr, in_dataset ph d /\ In s (ph_sets ph) /\ ps_tracker s = t /\ In pr (ps_properties s) /\ di_property pr = p.

Lemma accepted_complete d t p : accepted_property d t p ->
  exists ids, consistent ids t /\ complete ids t p /\ Forall size_range (tr_sets t) /\ size_range (len (tr_ids t)).
Proof.
  intros [U [HA [ph [s [pr [H1 [H2 [H3 [H4 H5]]]]]]]]]. apply (assert_ok d U) in HA. destruct (HA ph H1) as [HV _]. destruct (HV s H2) as [C _ _ V].
  exists (ph_ids ph). subst t p. split; [exact C|]. split; [now apply V|]. destruct (U ph s H1 (or_introl H2)) as [[U1 U2] _]. split; assumption.
Qed.

(** One value array for all locations in time: the values of the objects that are active at a location in time can be read *)
Theorem C58_read_same_shape_constant_shape : forall d t v shape n values k buffer,
  accepted_property d t (SameConstant v) -> shows v shape n values -> (k < length (tr_sets t))%nat ->
  Z.of_nat (length buffer) = len (active_set t k) * volume shape ->
  read_range (set_first t k) (set_last t k) v buffer = Ok (concat (map values (zseq (set_first t k) (len (active_set t k))))).
Proof.
  intros d t v shape n values k buffer HA [S1 [S2 [S3 S4]]] Hk Hb. destruct (accepted_complete _ _ _ HA) as [ids [C [HC [U1 U2]]]]. cbn [complete] in HC.
  pose proof (active_set_len t (sets_in_order _ _ C) U1 k Hk) as HL. rewrite HL in *.
  pose proof (set_first_range t (sets_in_order _ _ C) U1 k ltac:(lia)) as R1. pose proof (set_first_range t (sets_in_order _ _ C) U1 (S k) ltac:(lia)) as R2. fold (set_last t k) in R2.
  pose proof (len_nonneg (active_set t k)) as LN. apply S3; [lia|lia|exact Hb].
Qed.

(** A value array per location in time *)
Theorem C58_read_same_shape_variable_shape : forall d t g k,
  accepted_property d t (SameVariable g) -> (k < length (tr_sets t))%nat ->
  exists v, item (Z.of_nat k) g = Ok v /\
    forall shape n values buffer, shows v shape n values -> Z.of_nat (length buffer) = len (active_set t k) * volume shape ->
      read_range 0 (len (active_set t k)) v buffer = Ok (concat (map values (zseq 0 (len (active_set t k))))).
Proof.
  intros d t g k HA Hk. destruct (accepted_complete _ _ _ HA) as [ids [C [[_ HC] [U1 U2]]]]. destruct (HC k Hk) as [v [Ev Nv]]. exists v. split; [exact Ev|].
  intros shape n values buffer [S1 [S2 [S3 S4]]] Hb. pose proof (len_nonneg (active_set t k)). rewrite (S3 0); [|lia|lia|lia]. now rewrite Z.sub_0_r.
Qed.

(** A value array per object: the value of the object at place [j] in the set that is active at a location in time *)
Theorem C58_read_different_shape_constant_shape : forall d t g k j id,
  accepted_property d t (DifferentConstant g) -> (k < length (tr_sets t))%nat -> nth_error (active_set t k) j = Some id ->
  exists idx v, nth_error (tr_idxs t) (Z.to_nat (set_first t k) + j) = Some idx /\ item id g = Ok v /\ idx < nr_arrays v /\
    forall shape n values buffer, shows v shape n values -> 0 <= idx -> Z.of_nat (length buffer) = volume shape -> read_index idx v buffer = Ok (values idx).
Proof.
  intros d t g k j id HA Hk Hj. destruct (accepted_complete _ _ _ HA) as [ids [C [[_ [_ HC]] [U1 U2]]]].
  pose proof (active_set_len t (sets_in_order _ _ C) U1 k Hk) as HL. pose proof (set_first_range t (sets_in_order _ _ C) U1 k ltac:(lia)) as R1.
  assert (Lj : (j < length (active_set t k))%nat) by (apply nth_error_Some; congruence).
  destruct (HC k (set_first t k + Z.of_nat j) Hk) as [id' [idx [v [E1 [E2 [E3 L]]]]]]; [unfold in_set, len in *; lia|].
  replace (Z.to_nat (set_first t k + Z.of_nat j)) with (Z.to_nat (set_first t k) + j)%nat in * by lia.
  assert (id' = id).
  { assert (Some id' = Some id); [|congruence]. rewrite <- E1, <- Hj. unfold active_set. unfold active_set in Lj. rewrite firstn_length in Lj.
    rewrite DecompProofs3.nth_error_firstn by lia. now rewrite DecompProofs3.nth_error_skipn. }
  subst id'. exists idx, v. split; [exact E2|]. split; [exact E3|]. split; [exact L|].
  intros shape n values buffer [S1 [S2 [S3 S4]]] H0 Hb. unfold read_index. rewrite S3 by lia. replace (idx + 1 - idx) with 1 by lia. rewrite zseq_cons by lia. rewrite zseq_nil by lia. cbn [map concat]. now rewrite app_nil_r.
Qed.

(** Static values *)
Theorem C58_static_values : forall (d : @data_set E) ph s pr,
  unsigned_dataset d -> assert_is_valid false d = Ok tt -> in_dataset ph d -> In s (ph_sets ph) -> In pr (ps_properties s) ->
  (forall v, di_property pr = SameShape v -> nr_arrays v = len (ph_ids ph)) /\
  (forall g id, di_property pr = DifferentShape g -> In id (ph_ids ph) -> exists v, item id g = Ok v).
Proof.
  intros d ph s pr U HA H1 H2 H3. apply (assert_ok d U) in HA. destruct (HA ph H1) as [HV _]. destruct (HV s H2) as [C _ _ V]. destruct (V pr H3) as [HC _].
  split; [intros v Ev|intros g id Eg Hid]; [rewrite Ev in HC|rewrite Eg in HC]; [exact HC|]. now apply HC.
Qed.
End Accepted.
Print Assumptions C58_read_same_shape_constant_shape.
Print Assumptions C58_read_same_shape_variable_shape.
Print Assumptions C58_read_different_shape_constant_shape.
Print Assumptions C58_static_values.

Example C58_example : 
  let t := Tracker [0; 2; 2] [1; 2; 3; 1] [0; 0; 0; 1] in
  accepted_property d57 t (SameConstant (room_for 4)) /\
  accepted_property d57 t (SameVariable (Group [(0, room_for 2); (1, room_for 0); (2, room_for 2)] 3)) /\
  accepted_property d57 t (DifferentConstant (Group [(1, room_for 2); (2, room_for 1); (3, room_for 1)] 3)) /\
  map (active_set t) [0; 1; 2]%nat = [[1; 2]; []; [3; 1]].
Proof.
  destruct C57_example as [U _]. cbv zeta.
  assert (HX : forall n p, match da_phenomena d57 with [Phenomenon _ [s] _] => option_map di_property (nth_error (ps_properties s) n) = Some p | _ => False end ->
    accepted_property d57 (Tracker [0; 2; 2] [1; 2; 3; 1] [0; 0; 0; 1]) p).
  { intros n p Hn. split; [exact U|]. split; [reflexivity|]. unfold d57 in Hn. cbn [da_phenomena] in Hn.
    match type of Hn with option_map _ (nth_error (ps_properties ?s) n) = _ => destruct (nth_error (ps_properties s) n) as [pr|] eqn:EN; [|discriminate]; eexists _, s, pr end.
    split; [left; left; reflexivity|]. split; [left; reflexivity|]. split; [reflexivity|]. split; [eapply nth_error_In; exact EN|]. now injection Hn as <-. }
  split; [now apply (HX 2%nat)|]. split; [now apply (HX 4%nat)|]. split; [now apply (HX 3%nat)|]. reflexivity.
Qed.

(** False of the code: *)

Definition only (s : @property_set Z) : @data_set Z := DataSet [] [Phenomenon [] [s] []].
Lemma only_unsigned s : unsigned_set s -> unsigned_dataset (only s).
Proof. intros H p s' Hp Hs. destruct Hp as [[<-|[]]|[u [[] _]]]. destruct Hs as [[<-|[]]|[]]. exact H. Qed.
Ltac small_set := split; [split; [repeat constructor; cbn; unfold size_range; lia|unfold size_range; cbn; lia]|intros dom HD; first [discriminate HD | injection HD as <-; try exact I; repeat constructor; unfold size_range; lia]].

(** all active IDs belong to a location in time; *)
Theorem C58_ids_belong_to_a_set_refuted : ~ (forall (d : @data_set Z) ph s id,
  unsigned_dataset d -> assert_is_valid true d = Ok tt -> in_dataset ph d -> In s (ph_sets ph) -> In id (tr_ids (ps_tracker s)) ->
  exists k, (k < length (tr_sets (ps_tracker s)))%nat /\ In id (active_set (ps_tracker s) k)).
Proof.
  intros H. pose (s := @PropertySet Z (Tracker [1] [7; 8] []) None None [Discretized (SameConstant (room_for 2)) None None]).
  destruct (H (only s) (Phenomenon [] [s] []) s 7) as [k [Hk Hin]]; [apply only_unsigned; small_set|reflexivity|left; now left|now left|now left|].
  cbn in Hk. assert (k = 0)%nat by lia. subst k. cbn in Hin. destruct Hin as [Hin|[]]; discriminate Hin.
Qed.
Print Assumptions C58_ids_belong_to_a_set_refuted.

(** each of the values of an object has its own object array; *)
Theorem C58_own_array_refuted : ~ (forall (d : @data_set Z) ph s pr g i j,
  unsigned_dataset d -> assert_is_valid true d = Ok tt -> in_dataset ph d -> In s (ph_sets ph) -> In pr (ps_properties s) -> di_property pr = DifferentConstant g ->
  (i < length (tr_ids (ps_tracker s)))%nat -> nth_error (tr_ids (ps_tracker s)) i = nth_error (tr_ids (ps_tracker s)) j ->
  nth_error (tr_idxs (ps_tracker s)) i = nth_error (tr_idxs (ps_tracker s)) j -> i = j).
Proof.
  intros H. pose (g := Group [(7, room_for 2)] 1). pose (pr := Discretized (DifferentConstant g) None None). pose (s := @PropertySet Z (Tracker [0; 1] [7; 7] [0; 0]) None None [pr]).
  assert (0 = 1)%nat; [|discriminate].
  apply (H (only s) (Phenomenon [] [s] []) s pr g); [apply only_unsigned; small_set|reflexivity|left; now left|now left|now left|reflexivity|cbn; lia|reflexivity|reflexivity].
Qed.
Print Assumptions C58_own_array_refuted.

(** validation never reads outside of the indices; *)
Theorem C58_missing_indices_refuted : ~ (forall d : @data_set Z, unsigned_dataset d -> assert_is_valid false d <> UB).
Proof.
  intros H. apply (H (only (PropertySet (Tracker [0] [7] []) None None [Discretized (DifferentConstant (Group [(7, room_for 1)] 1)) None None]))); [|reflexivity]. apply only_unsigned. small_set.
Qed.
Print Assumptions C58_missing_indices_refuted.

(** and this is the only way in which that happens: *)
Theorem C58_no_undefined_behaviour_partial : forall {E} ids (s : @property_set E), unsigned_set s ->
  (length (tr_ids (ps_tracker s)) <= length (tr_idxs (ps_tracker s)))%nat \/ (forall p g, In p (ps_properties s) -> di_property p <> DifferentConstant g) ->
  validate_property_set ids s <> UB.
Proof.
  intros E ids s [[U1 U2] _] HD. unfold validate_property_set. destruct (errors_found (validate_object_tracker ids (ps_tracker s))) eqn:ET; [discriminate|].
  apply tracker_ok in ET. set (t := ps_tracker s) in *.
  assert (HV : forall p, In p (ps_properties s) -> validate_property ids t p <> UB).
  { intros p Hp. unfold validate_property. assert (HN : validate_value ids t (di_property p) <> UB); [|now destruct (validate_value ids t (di_property p))].
    destruct (di_property p) as [v|g|v|g|g|g] eqn:EP; cbn [validate_value]; try discriminate.
    - destruct HD as [HD|HD]; [|now exfalso; apply (HD p g Hp)].
      unfold validate_different_constant. destruct (negb _); [discriminate|]. destruct (find _ _); [discriminate|].
      destruct (ends_shape t) as [first [ends [EA [HL HN]]]]. rewrite EA.
      assert (HG : forall ends first, (forall n k, (n < length ends)%nat -> nth n (first :: ends) 0 <= k < nth n ends 0 -> 0 <= k < len (tr_ids t)) -> check_active_sets first ends t g <> UB).
      { clear - HD. induction ends as [|last ends IH]; intros first H; cbn [check_active_sets]; [discriminate|].
        assert (H1 : check_objects (zseq first (last - first)) t g <> UB).
        { assert (HZ : forall k, In k (zseq first (last - first)) -> 0 <= k < len (tr_ids t)) by (intros k Hk; apply in_zseq in Hk; apply (H O k); cbn [nth length]; lia).
          induction (zseq first (last - first)) as [|k l IH2]; cbn [check_objects]; [discriminate|].
          specialize (IH2 (fun k' Hk => HZ k' (or_intror Hk))). specialize (HZ k (or_introl eq_refl)). unfold at_z, nth_z. destruct (Z.ltb_spec k 0); [lia|].
          destruct (nth_error (tr_ids t) (Z.to_nat k)) as [id|] eqn:E1; [|apply nth_error_None in E1; unfold len in HZ; lia].
          destruct (nth_error (tr_idxs t) (Z.to_nat k)) as [idx|] eqn:E2; [|apply nth_error_None in E2; unfold len in HZ; lia]. cbn [obind].
          unfold item. destruct (find_item id (gr_items g)) as [v|]; cbn [obind]; [|discriminate]. destruct (nr_arrays v <=? idx); [discriminate|exact IH2]. }
        destruct (check_objects _ t g); cbn [obind]; [|discriminate|congruence]. assert (H2 : check_active_sets last ends t g <> UB) by (apply IH; intros n k Hn Hk; apply (H (S n) k); cbn [nth length]; [lia|exact Hk]).
        destruct (check_active_sets last ends t g); cbn [obind]; [discriminate|discriminate|congruence]. }
      apply HG. intros n k Hn Hk. rewrite HL in Hn. destruct (HN n Hn) as [N1 N2]. rewrite N1, N2 in Hk.
      pose proof (set_first_range t (sets_in_order _ _ ET) U1 n ltac:(lia)) as R1. pose proof (set_first_range t (sets_in_order _ _ ET) U1 (S n) ltac:(lia)) as R2. fold (set_last t n) in R2. lia.
    - unfold validate_same_variable. destruct (negb _); [discriminate|]. destruct (ends_shape t) as [first [ends [-> _]]]. clear. generalize 0. revert first.
      induction ends as [|last ends IH]; intros first i; cbn [check_sizes]; [discriminate|]. unfold item. destruct (find_item i (gr_items g)); cbn [obind]; [|discriminate]. destruct (negb _); [discriminate|apply IH]. }
  assert (HE : validate_each (validate_property ids t) (ps_properties s) <> UB).
  { induction (ps_properties s) as [|p l IH]; cbn [validate_each]; [discriminate|]. pose proof (HV p (or_introl eq_refl)) as H1.
    assert (H2 : validate_each (validate_property ids t) l <> UB).
    { apply IH; [destruct HD as [HD|HD]; [now left|right; intros p' g Hp'; apply HD; now right]|]. intros p' Hp'. apply HV. now right. }
    destruct (validate_property ids t p); cbn [obind]; [|discriminate|congruence]. destruct (validate_each (validate_property ids t) l); cbn [obind]; [discriminate|discriminate|congruence]. }
  destruct (validate_each (validate_property ids t) (ps_properties s)); cbn [obind]; [discriminate|discriminate|congruence].
Qed.
Print Assumptions C58_no_undefined_behaviour_partial.
Example C58_no_undefined_behaviour_example :
  let s := @PropertySet Z (Tracker [0] [7] [3]) None None [Discretized (DifferentConstant (Group [(7, room_for 1)] 1)) None None] in
  unsigned_set s /\ (length (tr_ids (ps_tracker s)) <= length (tr_idxs (ps_tracker s)))%nat.
Proof. cbv zeta. split; [small_set|cbn; lia]. Qed.

(** for each location in time there are values, when objects have different shapes that vary through time (a warning is the result); *)
Theorem C58_variable_shapes_refuted : ~ (forall (d : @data_set Z) ph s pr g k,
  unsigned_dataset d -> assert_is_valid false d = Ok tt -> in_dataset ph d -> In s (ph_sets ph) -> In pr (ps_properties s) -> di_property pr = DifferentVariable g ->
  (k < length (tr_sets (ps_tracker s)))%nat -> exists objects, item (Z.of_nat k) g = Ok objects).
Proof.
  intros H. pose (g := @Group (group (array Z)) [(7, Group [] 0)] 1). pose (pr := Discretized (DifferentVariable g) None None). pose (s := @PropertySet Z (Tracker [0] [5] []) None None [pr]).
  destruct (H (only s) (Phenomenon [] [s] []) s pr g 0%nat) as [o Ho]; [apply only_unsigned; small_set|reflexivity|left; now left|now left|now left|reflexivity|cbn; lia|]. discriminate Ho.
Qed.
Print Assumptions C58_variable_shapes_refuted.

(** the number of cells in the time domain is the number of locations in time: sums wrap around; *)
Theorem C58_time_cells_refuted : ~ (forall (d : @data_set Z) ph s boxes counts,
  unsigned_dataset d -> assert_is_valid true d = Ok tt -> in_dataset ph d -> In s (ph_sets ph) -> ps_time s = Some (TimeCells boxes counts) -> sumZ counts = len (tr_sets (ps_tracker s))).
Proof.
  intros H. pose (s := @PropertySet Z (Tracker [0] [5] []) (Some (TimeCells [(0, 1); (1, 2)] [18446744073709551615; 2])) None []).
  specialize (H (only s) (Phenomenon [] [s] []) s [(0, 1); (1, 2)] [18446744073709551615; 2]).
  discriminate H; [apply only_unsigned; small_set|reflexivity|left; now left|now left|reflexivity].
Qed.
Print Assumptions C58_time_cells_refuted.

(** in collection property sets there is an object at each location in time; *)
Theorem C58_collection_refuted : ~ (forall (d : @data_set Z) ph s pr v k,
  unsigned_dataset d -> assert_is_valid true d = Ok tt -> in_dataset ph d -> In s (ph_collections ph) -> In pr (ps_properties s) -> di_property pr = SameConstant v ->
  (k < length (tr_sets (ps_tracker s)))%nat -> length (active_set (ps_tracker s) k) = 1%nat).
Proof.
  intros H. pose (pr := Discretized (SameConstant (room_for 2)) None None). pose (s := @PropertySet Z (Tracker [1; 2] [7; 7] []) None None [pr]).
  specialize (H (DataSet [] [Phenomenon [] [] [s]]) (Phenomenon [] [] [s]) s pr (room_for 2) 1%nat).
  discriminate H; [|reflexivity|left; now left|now left|now left|reflexivity|cbn; lia].
  intros p s' Hp Hs. destruct Hp as [[<-|[]]|[u [[] _]]]. destruct Hs as [[]|[<-|[]]]. small_set.
Qed.
Print Assumptions C58_collection_refuted.
(** (it is true when the first set starts at the start) *)
Theorem C58_collection_partial : forall {E} (d : @data_set E) ph s k,
  unsigned_dataset d -> assert_is_valid false d = Ok tt -> in_dataset ph d -> In s (ph_collections ph) ->
  (exists p, In p (ps_properties s) /\ match di_property p with SameConstant _ | SameVariable _ | DifferentConstant _ => True | _ => False end) ->
  hd 0 (tr_sets (ps_tracker s)) = 0 -> (k < length (tr_sets (ps_tracker s)))%nat -> length (active_set (ps_tracker s) k) = 1%nat.
Proof.
  intros E d ph s k U HA H1 H2 HT H0 Hk. destruct (U ph s H1 (or_intror H2)) as [[U1 U2] _]. apply (assert_ok d U) in HA. destruct (HA ph H1) as [_ HV]. destruct (HV s H2) as [[C _ _ _] HL]. specialize (HL HT).
  set (t := ps_tracker s) in *.
  assert (L1 : forall j, (j < length (tr_sets t))%nat -> (length (active_set t j) <= 1)%nat).
  { intros j Hj. pose proof (active_ids_unique _ _ C j Hj) as ND. pose proof (active_ids_known _ _ C ltac:(discriminate)) as HI.
    assert (HS : incl (active_set t j) [collection_id t]).
    { intros x Hx. apply HI. unfold active_set in Hx. rewrite <- (firstn_skipn (Z.to_nat (set_first t j)) (tr_ids t)). apply in_or_app. right. rewrite <- (firstn_skipn (Z.to_nat (set_last t j - set_first t j)) (skipn (Z.to_nat (set_first t j)) (tr_ids t))). apply in_or_app. now left. }
    pose proof (NoDup_incl_length ND HS) as L. exact L. }
  assert (HF : forall j, (j <= length (tr_sets t))%nat -> set_first t j <= Z.of_nat j).
  { induction j as [|j IH]; intros Hj.
    - unfold set_first. destruct (tr_sets t) as [|x r]; cbn [nth hd] in *; [cbn in Hk; lia|lia].
    - specialize (IH ltac:(lia)). pose proof (active_set_len t (sets_in_order _ _ C) U1 j ltac:(lia)) as HJ. specialize (L1 j ltac:(lia)). unfold set_last, len in HJ. lia. }
  assert (HB : forall j, (j <= length (tr_sets t))%nat -> Z.of_nat (length (tr_sets t)) - set_first t (length (tr_sets t) - j) <= Z.of_nat j).
  { induction j as [|j IH]; intros Hj.
    - rewrite Nat.sub_0_r, set_first_end. unfold len. lia.
    - specialize (IH ltac:(lia)). pose proof (active_set_len t (sets_in_order _ _ C) U1 (length (tr_sets t) - S j) ltac:(lia)) as HJ. specialize (L1 (length (tr_sets t) - S j)%nat ltac:(lia)).
      unfold set_last, len in HJ. replace (S (length (tr_sets t) - S j)) with (length (tr_sets t) - j)%nat in HJ by lia. lia. }
  pose proof (active_set_len t (sets_in_order _ _ C) U1 k Hk) as HJ. pose proof (HF k ltac:(lia)) as F1. pose proof (HB (length (tr_sets t) - S k)%nat ltac:(lia)) as B1.
  replace (length (tr_sets t) - (length (tr_sets t) - S k))%nat with (S k) in B1 by lia. unfold set_last, len in HJ. specialize (L1 k Hk). lia.
Qed.
Print Assumptions C58_collection_partial.

(** the number of counts of a discretization through time is the number of locations in time *)
Theorem C58_discretization_refuted : ~ (forall (d : @data_set Z) ph s pr g c,
  unsigned_dataset d -> assert_is_valid true d = Ok tt -> in_dataset ph d -> In s (ph_sets ph) -> In pr (ps_properties s) ->
  di_property pr = SameVariable g -> di_time pr = Some c -> gr_nr_arrays c = gr_count g).
Proof.
  intros H. pose (g := Group [(0, room_for 1)] 1). pose (c := Grid true true true true false 8 []). pose (pr := Discretized (SameVariable g) (Some c) None). pose (s := @PropertySet Z (Tracker [0] [5] []) None None [pr]).
  specialize (H (only s) (Phenomenon [] [s] []) s pr g c). discriminate H; [apply only_unsigned; small_set|reflexivity|left; now left|now left|now left|reflexivity|reflexivity].
Qed.
Print Assumptions C58_discretization_refuted.

(** ** C59: datasets that are written as they should are accepted *)
Theorem C59_written : forall {E} (ids : list Z) (sets : list (list Z)) (time : option time_domain) (space : option (@space_domain E)) (properties : list property),
  NoDup ids -> Forall (@NoDup Z) sets -> (ids <> [] -> incl (concat sets) ids) -> len (concat sets) < 18446744073709551616 ->
  when time (fun d => match d with
    | TimePoints points => increasing points /\ length points = length sets
    | TimeBoxes boxes => increasing (coordinates boxes) /\ length boxes = length sets
    | TimeCells boxes counts => increasing (coordinates boxes) /\ length counts = length boxes /\ Forall (fun c => 0 <= c) counts /\ sumZ counts = len sets /\ len sets < 18446744073709551616
    end) ->
  when space (fun d => match d with Stationary v => nr_arrays v = len ids | Mobile v => nr_arrays v = sumZ (map len sets) end) ->
  Forall (written_value ids sets) properties ->
  exists issues, validate_property_set ids (PropertySet (written sets) time space (map (fun p => Discretized p None None) properties)) = Ok issues /\ errors_found issues = false.
Proof.
  intros E ids sets time space properties H1 H2 H3 H4 HT HS HP. apply set_ok.
  - split; [split|].
    + cbn [ps_tracker written tr_sets]. apply Forall_forall. intros e He. pose proof (starts_ge sets 0) as G. pose proof (starts_le sets 0) as L. rewrite Forall_forall in G, L. specialize (G e He). specialize (L e He). unfold size_range. lia.
    + cbn [ps_tracker written tr_ids]. split; [apply len_nonneg|exact H4].
    + cbn [ps_time]. intros d Hd. specialize (HT d Hd). destruct d as [|boxes counts|]; cbn [unsigned_time]; auto. destruct HT as [_ [_ [HF [HC HL]]]]. apply Forall_forall. intros c Hc.
      pose proof HF as HF'. rewrite Forall_forall in HF'. specialize (HF' c Hc). assert (c <= sumZ counts); [|unfold size_range; lia].
      clear - HF Hc. assert (HN : forall l, Forall (fun c => 0 <= c) l -> 0 <= sumZ l).
      { induction l as [|y l IH]; intros HL; [cbn; lia|]. inversion HL as [|? ? A B]; subst. specialize (IH B). change (sumZ (y :: l)) with (y + sumZ l). lia. }
      induction counts as [|x l IH]; [destruct Hc|]. inversion HF as [|? ? A B]; subst. change (sumZ (x :: l)) with (x + sumZ l). pose proof (HN l B).
      destruct Hc as [->|Hc]; [lia|]. specialize (IH B Hc). lia.
  - constructor; cbn [ps_tracker ps_time ps_space ps_properties].
    + now apply written_consistent.
    + intros d Hd. specialize (HT d Hd). destruct d as [boxes|boxes counts|points]; cbn [valid_time written tr_sets]; unfold len; rewrite starts_length; [exact HT| |exact HT].
      destruct HT as [T1 [T2 [T3 [T4 T5]]]]. split; [exact T1|]. split; [exact T2|]. rewrite T4. unfold len in *. apply Z.mod_small. lia.
    + intros d Hd. specialize (HS d Hd). destruct d as [v|v]; cbn [valid_space written tr_ids]; [exact HS|]. now rewrite <- sum_len.
    + intros p Hp. apply in_map_iff in Hp as [q [<- Hq]]. cbn [di_property di_time di_space]. split; [|split; apply when_none]. rewrite Forall_forall in HP. now apply written_complete, HP.
Qed.
Print Assumptions C59_written.

Example C59_example :
  let sets := [[1; 2]; []; [3; 1]] in
  written sets = Tracker [0; 2; 2] [1; 2; 3; 1] [0; 0; 0; 1] /\ Forall (@NoDup Z) sets /\ incl (concat sets) [1; 2; 3] /\
  Forall (written_value [1; 2; 3] sets) [SameShape (room_for 3); SameConstant (room_for 4); SameVariable (Group [(0, room_for 2); (1, room_for 0); (2, room_for 2)] 3)] /\
  map (times_active sets) [1; 2; 3] = [2; 1; 1].
Proof.
  cbv zeta. split; [reflexivity|]. split; [repeat constructor; cbn; lia|]. split; [intros x Hx; cbn in *; lia|]. split; [|reflexivity].
  repeat constructor. intros [|[|[|k]]] s H; try (injection H as <-); try (destruct k; discriminate H); eexists; split; reflexivity.
Qed.

(** Time boxes may overlap, as long as they start in order?  They are rejected *)
Theorem C59_overlapping_boxes_refuted : ~ (forall (ids : list Z) (sets : list (list Z)) boxes,
  NoDup ids -> Forall (@NoDup Z) sets -> incl (concat sets) ids -> length boxes = length sets ->
  increasing (map fst boxes) -> increasing (map snd boxes) -> Forall (fun b => fst b <= snd b) boxes ->
  exists issues, validate_property_set ids (@PropertySet Z (written sets) (Some (TimeBoxes boxes)) None []) = Ok issues /\ errors_found issues = false).
Proof.
  intros H. destruct (H [1] [[1]; [1]] [(0, 10); (5, 15)]) as [l [E1 E2]].
  1: repeat constructor; cbn; tauto. 1: repeat constructor; cbn; tauto. 1: intros x Hx; cbn in *; tauto. 1: reflexivity.
  1, 2, 3: repeat constructor; cbn; lia.
  vm_compute in E1. injection E1 as <-. discriminate E2.
Qed.
Print Assumptions C59_overlapping_boxes_refuted.
