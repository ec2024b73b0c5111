(** C54-C56: the values of a dataset. *)
From Verif Require Import Common CoreSpec DecompSpec ArraySpec IndexModel DecompModel ArrayModel IOModel NumpyModel ValueModel ValueSpec.
From Verif Require Import CommonProofs ArrayProofs ValueProofs ValueProofs2 ValueProofs3 ValueProofs4.

(** ** C54: value arrays with the same shape for all objects *)

(** After any sequence of expansions and writes - including writes for which there is no room, which fail - the value array has room for as many object
    arrays as were asked for, and reading any range of object arrays results in what was written to each of them last, or the fill value.
    Reading beyond the end fails. *)
Theorem C54_same_shape_values : forall {E} (shape : list Z) (fill : E) (h : list value_op),
  array_extents shape -> Forall (proper (volume shape)) h -> room h < 18446744073709551616 ->
  exists v, value_run (rev h) (create_value shape fill) = Ok v /\ shows v shape (room h) (last_written (volume shape) fill h).
Proof.
  intros E shape fill h X HP HR. destruct (run_stores h shape fill X HP HR) as [v [E1 S]]. exists v. split; [exact E1|]. now apply (stores_shows _ _ fill).
Qed.
Print Assumptions C54_same_shape_values.

(** A single object array *)
Theorem C54_one_array : forall {E} (shape : list Z) (fill : E) (h : list value_op) v i buffer,
  array_extents shape -> Forall (proper (volume shape)) h -> room h < 18446744073709551616 ->
  value_run (rev h) (create_value shape fill) = Ok v -> 0 <= i < room h -> Z.of_nat (length buffer) = volume shape ->
  read_index i v buffer = Ok (last_written (volume shape) fill h i).
Proof.
  intros E shape fill h v i buffer X HP HR HV Hi Hb. destruct (C54_same_shape_values shape fill h X HP HR) as [v' [E1 [_ [_ [S _]]]]].
  assert (v' = v) by congruence. subst v'. unfold read_index. rewrite S by lia. replace (i + 1 - i) with 1 by lia. rewrite zseq_cons by lia. rewrite zseq_nil by lia. cbn [map concat]. now rewrite app_nil_r.
Qed.
Print Assumptions C54_one_array.

(** Two object arrays of shape (2), the second of which is written, then room for a third one, then writes of which the last one fails *)
Definition h54 : list (@value_op Z) := rev [ExpandBy 2; WriteRange 1 2 [5; 6]; ExpandBy 1; WriteRange 1 3 [7; 8; 9; 10]; WriteRange 2 4 [1; 1; 1; 1]].
Example C54_example : array_extents [2] /\ Forall (proper (volume [2])) h54 /\ room h54 = 3 /\
  map (last_written 2 0 h54) [0; 1; 2] = [[0; 0]; [7; 8]; [9; 10]] /\
  obind (value_run (rev h54) (create_value [2] 0)) (fun v => read_range 0 3 v [0; 0; 0; 0; 0; 0]) = Ok [0; 0; 7; 8; 9; 10].
Proof.
  split; [repeat constructor|]. split; [|repeat split].
  unfold h54. cbn [rev app]. repeat constructor; cbn; try lia.
Qed.

(** ** C55: an array per object (different_shape) *)

(** A program that uses one instance at a time - it may open the value again -, that does not use an ID twice and that writes only to objects it has created: all objects are there, with
    the right shapes, and contain what was written to them last, or the fill value.  The number of objects is right. *)
Theorem C55_objects : forall {E} (zero : E) (rank : Z) (h : list (group_op (list (Z * list Z)) (list E))),
  one_at_a_time h -> in_order (fun c => c) h -> no_name_twice (fun c => c) h ->
  (forall id shape, In (id, shape) (created (fun c => c) h) -> array_extents shape /\ forall buffer, In (ChangeItem id buffer) h -> volume shape <= Z.of_nat (length buffer)) ->
  exists w, group_run (expand_objects zero) write_array (rev h) (World create_group [open_value rank (@create_group (array E))]) = Ok w /\
    gr_count (wo_file w) = Z.of_nat (length (created (fun c => c) h)) /\
    instance_counts h w (gr_count (wo_file w)) /\
    (forall id shape, In (id, shape) (created (fun c => c) h) ->
       has_item id (wo_file w) = true /\
       exists v, item id (wo_file w) = Ok v /\ ds_shape (ar_data v) = shape /\
         forall buffer, Z.of_nat (length buffer) = volume shape -> read_array v buffer = Ok (last_buffer (volume shape) zero (changes id h))) /\
    (forall id, ~ In id (names (created (fun c => c) h)) -> has_item id (wo_file w) = false /\ item id (wo_file w) = Throw).
Proof.
  intros E zero rank h HS HO HN HX.
  assert (HB : forall id shape, In (id, shape) (created (fun c => c) h) -> Forall (fun b : list E => volume shape <= Z.of_nat (length b)) (changes id h)).
  { intros id shape Hin. destruct (HX id shape Hin) as [_ HW]. apply Forall_forall. intros b Hb. apply HW. clear - Hb. induction h as [|[r|i c|k c] h IH]; cbn in *; auto.
    destruct (Z.eqb_spec k id) as [->|N]; [|auto]. destruct Hb as [->|Hb]; auto. }
  destruct (group_good (expand_objects zero) write_array (fun c => c) (fun shape => create_array shape zero) (fun _ => True)) with (h := h) (rank := rank) as [w [E1 G]].
  - intros c h0 g _ H. now apply expand_objects_ok.
  - assumption.
  - assumption.
  - assumption.
  - trivial.
  - intros k shape Hin. destruct (run_whole shape zero (changes k h)) as [v [Ev _]]; [now apply (HX k)|now apply HB|]. now exists v.
  - exists w. split; [exact E1|]. pose proof G as [_ [G2 _]]. split; [exact G2|]. split; [eapply good_counts; exact G|]. split.
    + intros id shape Hin. destruct (good_item write_array (fun c => c) (fun shape => create_array shape zero) h w id shape HN G Hin) as [v [Ev Rv]].
      split; [unfold item, has_item in *; destruct (find_item id (gr_items (wo_file w))); [reflexivity|discriminate]|].
      destruct (HX id shape Hin) as [X _]. destruct (run_whole shape zero (changes id h) X (HB _ _ Hin)) as [v' [Ev' W]]. assert (v' = v) by congruence. subst v'.
      exists v. split; [exact Ev|]. split; [destruct W as [F [[ES _] _]]; exact ES|]. intros buffer Hb. eapply read_whole; eassumption.
    + intros id Hid. destruct (good_no_item write_array (fun c => c) (fun shape => create_array shape zero) h w id G Hid) as [A B]. split; assumption.
Qed.
Print Assumptions C55_objects.

Definition h55 : list (group_op (list (Z * list Z)) (list Z)) :=
  rev [CreateItems 0 [(10, [2]); (20, [1; 3])]; ChangeItem 20 [1; 2; 3]; Open 1; CreateItems 1 [(30, [2])]; ChangeItem 20 [4; 5; 6]; ChangeItem 30 [7; 8]].
Example C55_objects_example :
  one_at_a_time h55 /\ in_order (fun c => c) h55 /\ no_name_twice (fun c => c) h55 /\
  (forall id shape, In (id, shape) (created (fun c => c) h55) -> array_extents shape /\ forall buffer, In (ChangeItem id buffer) h55 -> volume shape <= Z.of_nat (length buffer)) /\
  map (fun id => last_buffer (if id =? 20 then 3 else 2) 0 (changes id h55)) [10; 20; 30] = [[0; 0]; [4; 5; 6]; [7; 8]].
Proof.
  split; [cbn; tauto|]. split; [cbn; tauto|]. split.
  { unfold no_name_twice. cbn. repeat constructor; cbn; lia. }
  split; [|reflexivity]. unfold h55. cbn [rev app created]. intros id shape Hin. cbn in Hin.
  destruct Hin as [H|[H|[H|[]]]]; injection H as <- <-; (split; [repeat constructor|]); intros buffer Hb; cbn in Hb;
    repeat (destruct Hb as [Hb|Hb]; [first [discriminate | injection Hb as <-; discriminate | injection Hb as <- <-; cbn; lia | injection Hb as <-; cbn; lia]|]); destruct Hb.
Qed.

(** Whatever programs do - using several instances, trying to create objects that exist already - the array of an object never changes unless it is written *)
Theorem C55_untouched : forall {E} (zero : E) (ops : list (group_op (list (Z * list Z)) (list E))) w w' id v,
  (forall buffer, ~ In (ChangeItem id buffer) ops) -> group_run (expand_objects zero) write_array ops w = Ok w' ->
  item id (wo_file w) = Ok v -> item id (wo_file w') = Ok v.
Proof. intros E zero ops w w' id v H H1 H2. eapply run_keeps; [apply expand_objects_keeps|exact H|exact H1|exact H2]. Qed.
Print Assumptions C55_untouched.

Example C55_untouched_example :
  exists w', group_run (expand_objects 0) write_array [CreateItems 0 [(1, [2]); (2, [1])]; CreateItems 0 [(3, [1]); (1, [5])]; ChangeItem 2 [9]]
    (World create_group [open_value 1 (@create_group (array Z))]) = Ok w' /\ item 1 (wo_file w') = Ok (create_array [2] 0) /\ item 3 (wo_file w') = Ok (create_array [1] 0).
Proof. eexists. split; [vm_compute; reflexivity|]. split; reflexivity. Qed.

(** Passing the shapes from Python as a table with a row per object, for arrays with two dimensions: the same as a shape per object *)
Theorem C55_python_rank_2_partial : forall {E} (zero : E) ids shapes h g,
  ha_rank h = 2 -> length ids = length shapes -> Forall (fun s => length s = 2%nat) shapes ->
  expand_python zero ids 2 shapes h g = expand_objects zero (combine ids shapes) h g.
Proof.
  intros E zero ids shapes h g Hr HL HF. unfold expand_python. rewrite Hr, Z.eqb_refl. cbn [negb]. rewrite (proj2 (Z.eqb_eq _ _)) by lia. cbn [negb].
  unfold expand_flat, expand_objects. rewrite Hr. pose proof (create_flat_two zero ids shapes HL HF [] (gr_items g)) as HC. cbn [length app] in HC.
  change (Z.of_nat 0) with 0 in HC. rewrite HC, combine_length, HL, Nat.min_id. reflexivity.
Qed.
Print Assumptions C55_python_rank_2_partial.

Example C55_python_rank_2_example : ha_rank (Handle 0 2) = 2 /\ length [1; 2] = length [[3; 4]; [5; 6]] /\ Forall (fun s : list Z => length s = 2%nat) [[3; 4]; [5; 6]].
Proof. repeat split. repeat constructor. Qed.

(** What is missing: arrays with another number of dimensions.  With one dimension, memory outside of the shapes is read; *)
Theorem C55_python_rank_1_refuted : ~ (forall (ids : list Z) shapes h (g : group (array Z)),
  ha_rank h = 1 -> length ids = length shapes -> Forall (fun s => length s = 1%nat) shapes -> NoDup (map fst (gr_items g) ++ ids) ->
  expand_python 0 ids 1 shapes h g = expand_objects 0 (combine ids shapes) h g).
Proof.
  intros H. specialize (H [7] [[4]] (Handle 0 1) create_group eq_refl eq_refl ltac:(repeat constructor)). discriminate H. repeat constructor. intros [].
Qed.
Print Assumptions C55_python_rank_1_refuted.

(** and with one dimension it happens for every table that has a row *)
Theorem C55_python_rank_1_always_refuted : forall {E} (zero : E) id n h g, ha_rank h = 1 -> fst (fst (expand_python zero [id] 1 [[n]] h g)) = UB.
Proof. intros E zero id n h g Hr. unfold expand_python. rewrite Hr. cbn. reflexivity. Qed.
Print Assumptions C55_python_rank_1_always_refuted.
Example C55_python_rank_1_example : ha_rank (Handle 3 1) = 1.
Proof. reflexivity. Qed.

(** With three dimensions, the arrays do not have the shape that was asked for. *)
Theorem C55_python_rank_3_refuted : ~ (forall id shape (g' : group (array Z)) h' v,
  length shape = 3%nat -> expand_python 0 [id] 3 [shape] (Handle 0 3) create_group = (Ok tt, h', g') -> item id g' = Ok v -> ds_shape (ar_data v) = shape).
Proof.
  intros H. destruct (expand_python 0 [7] 3 [[4; 5; 6]] (Handle 0 3) create_group) as [[o h'] g'] eqn:EC. vm_compute in EC. injection EC as <- <- <-.
  specialize (H 7 [4; 5; 6] _ _ (create_array [4; 5] 0) eq_refl eq_refl eq_refl). discriminate H.
Qed.
Print Assumptions C55_python_rank_3_refuted.

(** The number of objects does not count the objects that have been created before an ID was found that exists already *)
Theorem C55_failed_expand_refuted : ~ (forall (ops : list (group_op (list (Z * list Z)) (list Z))) w,
  Forall single_instance ops -> group_run (expand_objects 0) write_array ops (World create_group [open_value 1 (@create_group (array Z))]) = Ok w ->
  gr_count (wo_file w) = Z.of_nat (length (gr_items (wo_file w)))).
Proof.
  intros H. specialize (H [CreateItems 0 [(1, [2])]; CreateItems 0 [(2, [2]); (1, [2])]] _ ltac:(repeat constructor) eq_refl). discriminate H.
Qed.
Print Assumptions C55_failed_expand_refuted.

(** When a value is opened twice, the number of objects is that of one of the instances *)
Theorem C55_two_instances_refuted : ~ (forall (ops : list (group_op (list (Z * list Z)) (list Z))) w,
  no_name_twice (fun c => c) (rev ops) -> group_run (expand_objects 0) write_array ops (World create_group []) = Ok w ->
  gr_count (wo_file w) = Z.of_nat (length (gr_items (wo_file w)))).
Proof.
  intros H. specialize (H [Open 1; Open 1; CreateItems 0 [(1, [2])]; CreateItems 1 [(2, [2])]] _ ltac:(unfold no_name_twice; repeat constructor; cbn; lia) eq_refl). discriminate H.
Qed.
Print Assumptions C55_two_instances_refuted.

(** ** C56: a value array per object or per location in time *)

(** different_shape::constant_shape (an array per object, with room for a number of locations in time) and same_shape::variable_shape (an array per location
    in time, with room for a number of objects): each of the arrays is a value array as in C54, and what happens to other ones does not matter. *)
Theorem C56_value_arrays : forall {E} (zero : E) (rank : Z) (h : list (group_op (list (Z * (list Z * Z))) value_op)),
  one_at_a_time h -> in_order (fun c => c) h -> no_name_twice (fun c => c) h ->
  (forall k shape n, In (k, (shape, n)) (created (fun c => c) h) ->
     array_extents shape /\ Forall (proper (volume shape)) (changes k h ++ [ExpandBy n]) /\ room (changes k h ++ [ExpandBy n]) < 18446744073709551616) ->
  exists w, group_run (expand_values zero) value_step (rev h) (World create_group [open_value rank (@create_group (array E))]) = Ok w /\
    gr_count (wo_file w) = Z.of_nat (length (created (fun c => c) h)) /\
    instance_counts h w (gr_count (wo_file w)) /\
    (forall k shape n, In (k, (shape, n)) (created (fun c => c) h) ->
       exists v, item k (wo_file w) = Ok v /\
         shows v shape (room (changes k h ++ [ExpandBy n])) (last_written (volume shape) zero (changes k h ++ [ExpandBy n]))) /\
    (forall k, ~ In k (names (created (fun c => c) h)) -> has_item k (wo_file w) = false /\ item k (wo_file w) = Throw).
Proof.
  intros E zero rank h HS HO HN HX.
  assert (HR : forall k shape n, In (k, (shape, n)) (created (fun c => c) h) -> exists v, run_changes value_step (rev (changes k h)) (made_value zero (shape, n)) = Ok v /\
    shows v shape (room (changes k h ++ [ExpandBy n])) (last_written (volume shape) zero (changes k h ++ [ExpandBy n]))).
  { intros k shape n Hin. destruct (HX k shape n Hin) as [X [HP HL]]. destruct (C54_same_shape_values shape zero _ X HP HL) as [v [Ev Sv]].
    exists v. split; [|exact Sv]. rewrite run_value, made_value_run, <- Ev, rev_app_distr. reflexivity. }
  destruct (group_good (expand_values zero) value_step (fun c => c) (made_value zero) (fun _ => True)) with (h := h) (rank := rank) as [w [E1 G]].
  - intros c h0 g _ H. now apply expand_values_ok.
  - assumption.
  - assumption.
  - assumption.
  - trivial.
  - intros k [shape n] Hin. destruct (HR k shape n Hin) as [v [Ev _]]. now exists v.
  - exists w. split; [exact E1|]. pose proof G as [_ [G2 _]]. split; [exact G2|]. split; [eapply good_counts; exact G|]. split.
    + intros k shape n Hin. destruct (good_item value_step (fun c => c) (made_value zero) h w k (shape, n) HN G Hin) as [v [Ev Rv]].
      destruct (HR k shape n Hin) as [v' [Ev' Sv]]. assert (v' = v) by congruence. subst v'. exists v. split; assumption.
    + intros k Hk. destruct (good_no_item value_step (fun c => c) (made_value zero) h w k G Hk) as [A B]. split; assumption.
Qed.
Print Assumptions C56_value_arrays.

Definition h56 : list (group_op (list (Z * (list Z * Z))) (@value_op Z)) :=
  rev [CreateItems 0 [(5, ([2], 1)); (6, ([], 2))]; ChangeItem 5 (ExpandBy 1); ChangeItem 6 (WriteRange 0 2 [8; 9]); ChangeItem 5 (WriteRange 1 2 [3; 4])].
Example C56_value_arrays_example :
  one_at_a_time h56 /\ in_order (fun c => c) h56 /\ no_name_twice (fun c => c) h56 /\
  (forall k shape n, In (k, (shape, n)) (created (fun c => c) h56) ->
     array_extents shape /\ Forall (proper (volume shape)) (changes k h56 ++ [ExpandBy n]) /\ room (changes k h56 ++ [ExpandBy n]) < 18446744073709551616) /\
  map (last_written 2 0 (changes 5 h56 ++ [ExpandBy 1])) [0; 1] = [[0; 0]; [3; 4]].
Proof.
  split; [cbn; tauto|]. split; [cbn; tauto|]. split.
  { unfold no_name_twice. cbn. repeat constructor; cbn; lia. }
  split; [|reflexivity]. unfold h56. cbn [rev app created]. intros k shape n Hin. cbn in Hin.
  destruct Hin as [H|[H|[]]]; injection H as <- <- <-; (split; [repeat constructor|]); (split; [cbn; repeat constructor; cbn; try lia|reflexivity]).
Qed.

(** different_shape::variable_shape: an array per object, for each location in time *)
Theorem C56_objects_through_time : forall {E} (zero : E) (rank : Z) (h : list (group_op (Z * list (Z * list Z)) (Z * list E))),
  one_at_a_time h -> in_order made_time h -> no_name_twice made_time h ->
  (forall t objects, In (t, objects) (created made_time h) ->
     NoDup (names objects) /\ (forall id shape, In (id, shape) objects -> array_extents shape) /\
     (forall id buffer, In (ChangeItem t (id, buffer)) h -> exists shape, In (id, shape) objects /\ volume shape <= Z.of_nat (length buffer))) ->
  exists w, group_run (fun c => expand_time zero (fst c) (snd c)) (fun '(id, buffer) => update_item id (write_array buffer)) (rev h)
      (World create_group [open_value rank (@create_group (group (array E)))]) = Ok w /\
    gr_count (wo_file w) = Z.of_nat (length (created made_time h)) /\
    instance_counts h w (gr_count (wo_file w)) /\
    (forall t objects, In (t, objects) (created made_time h) ->
       exists g, item t (wo_file w) = Ok g /\ gr_count g = Z.of_nat (length objects) /\
         (forall id, ~ In id (names objects) -> item id g = Throw) /\
         forall id shape, In (id, shape) objects -> exists v, item id g = Ok v /\ ds_shape (ar_data v) = shape /\
           forall buffer, Z.of_nat (length buffer) = volume shape ->
             read_array v buffer = Ok (last_buffer (volume shape) zero (map snd (filter (fun c => fst c =? id) (changes t h))))) /\
    (forall t, ~ In t (names (created made_time h)) -> has_item t (wo_file w) = false /\ item t (wo_file w) = Throw).
Proof.
  intros E zero rank h HS HO HN HX.
  assert (HC : forall t c, In c (changes t h) -> In (ChangeItem t c) h).
  { intros t c. clear. induction h as [|[r|i c'|k c'] h IH]; cbn; auto. destruct (Z.eqb_spec k t) as [->|N]; [|auto]. intros [->|H]; auto. }
  assert (HR : forall t objects, In (t, objects) (created made_time h) -> exists g,
    run_changes (fun '(id, buffer) => update_item id (write_array buffer)) (rev (changes t h)) (made_group zero objects) = Ok g /\
    gr_count g = Z.of_nat (length objects) /\ map fst (gr_items g) = names objects /\
    forall id shape, In (id, shape) objects -> exists v, item id g = Ok v /\
      whole v shape (last_buffer (volume shape) zero (map snd (filter (fun w => fst w =? id) (changes t h))))).
  { intros t objects Hin. destruct (HX t objects Hin) as [N1 [X1 W1]]. apply run_group; [assumption|assumption|]. intros id b Hb. apply W1. now apply HC. }
  destruct (group_good (fun c => expand_time zero (fst c) (snd c)) (fun '(id, buffer) => update_item id (write_array buffer)) made_time (made_group zero)
      (fun c => NoDup (names (snd c)))) with (h := h) (rank := rank) as [w [E1 G]].
  - intros c h0 g HF H. now apply expand_time_ok.
  - assumption.
  - assumption.
  - assumption.
  - intros i c Hin. assert (HI : In c (created made_time h)).
    { clear - Hin. induction h as [|[r|j c'|k c'] h IH]; cbn in *; [destruct Hin| | |]; destruct Hin as [Hin|Hin]; try discriminate; auto.
      - injection Hin as _ ->. apply in_or_app. right. now left.
      - apply in_or_app. left. auto. }
    destruct c as [t objects]. now apply (HX t objects).
  - intros t objects Hin. destruct (HR t objects Hin) as [g [Eg _]]. now exists g.
  - exists w. split; [exact E1|]. pose proof G as [_ [G2 _]]. split; [exact G2|]. split; [eapply good_counts; exact G|]. split.
    + intros t objects Hin. destruct (good_item (fun '(id, buffer) => update_item id (write_array buffer)) made_time (made_group zero) h w t objects HN G Hin) as [g [Eg Rg]].
      destruct (HR t objects Hin) as [g' [Eg' [C1 [N1 I1]]]]. assert (g' = g) by congruence. subst g'. exists g. split; [exact Eg|]. split; [exact C1|]. split.
      * intros id Hid. unfold item. rewrite find_item_none; [reflexivity|]. now rewrite N1.
      * intros id shape Hs. destruct (I1 id shape Hs) as [v [Ev W]]. exists v. split; [exact Ev|]. split; [destruct W as [F [[ES _] _]]; exact ES|].
        intros buffer Hb. eapply read_whole; [|exact W|exact Hb]. destruct (HX t objects Hin) as [_ [X1 _]]. eauto.
    + intros t Ht. destruct (good_no_item (fun '(id, buffer) => update_item id (write_array buffer)) made_time (made_group zero) h w t G Ht) as [A B]. split; assumption.
Qed.
Print Assumptions C56_objects_through_time.

Definition h56b : list (group_op (Z * list (Z * list Z)) (Z * list Z)) :=
  rev [CreateItems 0 (0, [(5, [2]); (6, [1])]); ChangeItem 0 (5, [3; 4]); CreateItems 0 (1, [(6, [2])]); ChangeItem 1 (6, [7; 8])].
Example C56_objects_through_time_example :
  one_at_a_time h56b /\ in_order made_time h56b /\ no_name_twice made_time h56b /\
  (forall t objects, In (t, objects) (created made_time h56b) ->
     NoDup (names objects) /\ (forall id shape, In (id, shape) objects -> array_extents shape) /\
     (forall id buffer, In (ChangeItem t (id, buffer)) h56b -> exists shape, In (id, shape) objects /\ volume shape <= Z.of_nat (length buffer))).
Proof.
  split; [cbn; tauto|]. split; [cbn; tauto|]. split.
  { unfold no_name_twice. cbn. repeat constructor; cbn; lia. }
  unfold h56b. cbn [rev app created made_time]. intros t objects Hin. cbn in Hin. destruct Hin as [H|[H|[]]]; injection H as <- <-.
  - split; [repeat constructor; cbn; lia|]. split; [intros id shape [H|[H|[]]]; injection H as <- <-; repeat constructor|].
    intros id buffer Hb. cbn in Hb. destruct Hb as [Hb|[Hb|[Hb|[Hb|[]]]]]; try discriminate. injection Hb as <- <-. exists [2]. split; [now left|cbn; lia].
  - split; [repeat constructor; cbn; lia|]. split; [intros id shape [H|[]]; injection H as <- <-; repeat constructor|].
    intros id buffer Hb. cbn in Hb. destruct Hb as [Hb|[Hb|[Hb|[Hb|[]]]]]; try discriminate. injection Hb as <- <-. exists [2]. split; [now left|cbn; lia].
Qed.

(** Whatever programs do, nothing that exists changes unless it is written *)
Theorem C56_untouched : forall {E} (zero : E) (ops : list (group_op (list (Z * (list Z * Z))) value_op)) w w' k v,
  (forall c, ~ In (ChangeItem k c) ops) -> group_run (expand_values zero) value_step ops w = Ok w' -> item k (wo_file w) = Ok v -> item k (wo_file w') = Ok v.
Proof. intros E zero ops w w' k v H H1 H2. eapply run_keeps; [apply expand_values_keeps|exact H|exact H1|exact H2]. Qed.
Print Assumptions C56_untouched.
Theorem C56_objects_untouched : forall {E} (zero : E) (ops : list (group_op (Z * list (Z * list Z)) (Z * list E))) w w' t g,
  (forall c, ~ In (ChangeItem t c) ops) ->
  group_run (fun c => expand_time zero (fst c) (snd c)) (fun '(id, buffer) => update_item id (write_array buffer)) ops w = Ok w' ->
  item t (wo_file w) = Ok g -> item t (wo_file w') = Ok g.
Proof. intros E zero ops w w' t g H H1 H2. eapply run_keeps; [apply expand_time_keeps|exact H|exact H1|exact H2]. Qed.
Print Assumptions C56_objects_untouched.
Example C56_untouched_example :
  exists w', group_run (expand_values 0) value_step [CreateItems 0 [(1, ([2], 1))]; CreateItems 0 [(3, ([1], 1)); (1, ([5], 1))]; ChangeItem 3 (WriteRange 0 1 [9])]
    (World create_group [open_value 1 (@create_group (array Z))]) = Ok w' /\ item 1 (wo_file w') = new_value 0 [2] 1.
Proof. eexists. split; [vm_compute; reflexivity|]. reflexivity. Qed.

(** A location in time of which the objects cannot be created - because an ID is used twice - can never be stored any more: its group remains *)
Theorem C56_failed_time_refuted : ~ (forall t (objects objects' : list (Z * list Z)) h (g : group (group (array Z))) o1 h1 g1,
  has_item t g = false -> expand_time 0 t objects h g = (o1, h1, g1) -> o1 = Throw -> NoDup (names objects') ->
  fst (fst (expand_time 0 t objects' h1 g1)) = Ok tt).
Proof.
  intros H. specialize (H 0 [(1, [2]); (1, [2])] [(1, [2])] (Handle 0 1) create_group _ _ _ eq_refl eq_refl eq_refl). discriminate H. repeat constructor. intros [].
Qed.
Print Assumptions C56_failed_time_refuted.
