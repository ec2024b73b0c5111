(** Proofs about the instantiation of partitions. *)
From Verif Require Import Common CommonProofs CoreSpec IndexModel IndexProofs Float64 Float64Proofs
  DecompModel DecompProofs.
Open Scope Z_scope.

(** The partition that is expected for a visit (k, idxs). *)
Definition expected {P} (L : Z) (create : Z -> list Z -> list Z -> P) (a p : list Z) (v : Z * list Z) : placed P :=
  let '(k, c) := v in
  let loc := loc_of (prodZ (map2 Z.div a p)) L k in
  let offset := map2 Z.mul c p in
  Placed loc offset (exts a p c) (create loc offset (exts a p c)).

Lemma offset_eq a p c : Forall2 (fun a p => 0 < p <= a) a p -> in_shape (map2 Z.div a p) c ->
  map2 Z.mul c (exts a p (map (fun _ => 0) c)) = map2 Z.mul c p.
Proof.
  intros H. revert c. induction H as [|x y a p Hxy H IH]; intros [|i c] Hc; cbn in *; try tauto.
  destruct Hc as [Hi Hc]. f_equal; [|auto]. unfold ext.
  destruct (Z.eqb_spec 0 (x / y - 1)); [|reflexivity]. assert (i = 0) by lia. subst. lia.
Qed.

Lemma shape_cells_head n : pos_shape n -> nth_error (shape_cells n) 0 = Some (map (fun _ => 0) n).
Proof.
  induction 1 as [|e n He Hn IH]; cbn; [reflexivity|].
  rewrite zseq_cons by lia. cbn [flat_map]. destruct (shape_cells n); [discriminate|].
  cbn in IH. injection IH as ->. reflexivity.
Qed.

Lemma map_const_len {A B C} (b : C) (l1 : list A) (l2 : list B) : length l1 = length l2 -> map (fun _ => b) l1 = map (fun _ => b) l2.
Proof. revert l2. induction l1 as [|x l1 IH]; intros [|y l2] H; cbn in *; try discriminate; [reflexivity|]. f_equal. auto. Qed.

Lemma shapes_lookup a p c : fits a p -> in_shape (map2 Z.div a p) c ->
  nth_z 0 (map (fun c => exts a p c) (shape_cells (map2 Z.div a p))) = Some (exts a p (map (fun _ => 0) c)) /\
  nth_z (linear_idx c (map2 Z.div a p)) (map (fun c => exts a p c) (shape_cells (map2 Z.div a p))) = Some (exts a p c).
Proof.
  intros Hf Hc. pose proof (fits_sip_ne _ _ Hf) as Hne. destruct Hf as [_ HF]. split.
  - rewrite nth_z_nonneg by lia. change (Z.to_nat 0) with O.
    erewrite map_nth_error; [|apply shape_cells_head, sip_pos; assumption].
    do 2 f_equal. apply map_const_len. apply in_shape_length. assumption.
  - rewrite nth_z_nonneg by (apply linear_idx_range; assumption).
    erewrite map_nth_error; [reflexivity|]. apply nth_error_shape_cells. assumption.
Qed.

Lemma instantiate_one_ok {P} L (create : Z -> list Z -> list Z -> P) a p k c :
  fits a p -> in_shape (map2 Z.div a p) c -> 0 < L <= prodZ (map2 Z.div a p) ->
  0 <= k < prodZ (map2 Z.div a p) -> L * prodZ (map2 Z.div a p) <= 2 ^ 50 ->
  instantiate_one L create (map2 Z.div a p) (map (fun c => exts a p c) (shape_cells (map2 Z.div a p))) (k, c)
  = Ok (expected L create a p (k, c)).
Proof.
  intros Hf Hc HL Hk Hb. unfold instantiate_one.
  pose proof (fits_sip_ne _ _ Hf) as Hne.
  rewrite nr_elements_prod by assumption.
  destruct (loc_of_ok _ _ _ HL Hk Hb) as [E _]. rewrite E. cbn [obind].
  rewrite idxs_to_linear_idx_ok by assumption. cbn [obind].
  destruct (shapes_lookup a p c Hf Hc) as [E1 E2]. rewrite E1, E2.
  rewrite offset_eq by (try apply Hf; assumption). reflexivity.
Qed.

Lemma assign_ok {P} sip (l : list (option P)) c x : sip <> [] -> in_shape sip c ->
  Z.of_nat (length l) = prodZ sip ->
  exists l', assign_partition sip (Ok l) c (Ok x) = Ok l' /\ Z.of_nat (length l') = prodZ sip /\
    nth_error l' (Z.to_nat (linear_idx c sip)) = Some (Some x) /\
    (forall c', in_shape sip c' -> c' <> c ->
       nth_error l' (Z.to_nat (linear_idx c' sip)) = nth_error l (Z.to_nat (linear_idx c' sip))).
Proof.
  intros Hne Hc Hl. unfold assign_partition. cbn [obind].
  rewrite idxs_to_linear_idx_ok by assumption. cbn [obind].
  pose proof (linear_idx_range sip c Hne Hc) as Hr. rewrite upd_z_nonneg by lia.
  destruct (upd_nth_Some (Z.to_nat (linear_idx c sip)) (Some x) l) as [l' Hl']; [lia|].
  rewrite Hl'. exists l'. split; [reflexivity|]. split; [rewrite (upd_nth_length _ _ _ _ Hl'); assumption|].
  split; [eapply upd_nth_same; eassumption|].
  intros c' Hc' Hneq. eapply upd_nth_other; [eassumption|].
  pose proof (linear_idx_range sip c' Hne Hc') as Hr'. intros E. apply Hneq.
  assert (E' : linear_idx c sip = linear_idx c' sip) by lia.
  rewrite <- (idxs_roundtrip c' sip), <- E', idxs_roundtrip by assumption. reflexivity.
Qed.

Lemma fold_assign {P} sip (h : Z * list Z -> P) visits l :
  sip <> [] -> NoDup (map snd visits) -> (forall v, In v visits -> in_shape sip (snd v)) ->
  Z.of_nat (length l) = prodZ sip ->
  exists l', fold_left (fun arr v => assign_partition sip arr (snd v) (Ok (h v))) visits (Ok l) = Ok l' /\
    Z.of_nat (length l') = prodZ sip /\
    (forall v, In v visits -> nth_error l' (Z.to_nat (linear_idx (snd v) sip)) = Some (Some (h v))) /\
    (forall c', in_shape sip c' -> ~ In c' (map snd visits) ->
       nth_error l' (Z.to_nat (linear_idx c' sip)) = nth_error l (Z.to_nat (linear_idx c' sip))).
Proof.
  intros Hne. revert l. induction visits as [|v visits IH]; intros l Hnd Hin Hl; cbn [fold_left map].
  - exists l. repeat split; try assumption; intros; contradiction.
  - inversion Hnd as [|? ? Hni Hnd']; subst.
    destruct (assign_ok sip l (snd v) (h v) Hne (Hin v (or_introl eq_refl)) Hl) as [l1 [E1 [Hl1 [Hs1 Ho1]]]].
    rewrite E1.
    destruct (IH l1 Hnd' (fun w Hw => Hin w (or_intror Hw)) Hl1) as [l2 [E2 [Hl2 [Hs2 Ho2]]]].
    exists l2. split; [assumption|]. split; [assumption|]. split.
    + intros w [<-|Hw]; [|auto]. rewrite Ho2; [assumption| |assumption]. apply Hin. now left.
    + intros c' Hc' Hn. rewrite Ho2; [|assumption|intros H; apply Hn; now right].
      apply Ho1; [assumption|]. intros ->. apply Hn. now left.
Qed.

Lemma all_assigned_ok {P} (l : list (option P)) :
  (forall n, (n < length l)%nat -> exists x, nth_error l n = Some (Some x)) ->
  exists r, all_assigned l = Ok r /\ l = map Some r.
Proof.
  induction l as [|o l IH]; intros H; cbn.
  - exists []. auto.
  - destruct (H O) as [x Hx]; [cbn; lia|]. cbn in Hx. injection Hx as ->.
    destruct IH as [r [E1 E2]]; [intros n Hn; apply (H (S n)); cbn; lia|].
    rewrite E1. cbn. exists (x :: r). split; [reflexivity|]. cbn. congruence.
Qed.

(** What it means that an array of partitions holds [h v] at the position of each visit. *)
Definition holds {P} sip (visits : list (Z * list Z)) (h : Z * list Z -> P) (r : list P) : Prop :=
  Z.of_nat (length r) = prodZ sip /\
  forall v, In v visits -> nth_error r (Z.to_nat (linear_idx (snd v) sip)) = Some (h v).

Lemma pos_in_visits sip (visits : list (Z * list Z)) n : pos_shape sip ->
  (forall c, In c (map snd visits) <-> in_shape sip c) ->
  (Z.of_nat n < prodZ sip) -> exists v, In v visits /\ n = Z.to_nat (linear_idx (snd v) sip).
Proof.
  intros Hp Hin Hn.
  pose proof (linear_to_idxs_in_shape (Z.of_nat n) sip Hp ltac:(lia)) as Hc.
  apply Hin in Hc. apply in_map_iff in Hc. destruct Hc as [v [Ev Hv]].
  exists v. split; [assumption|]. rewrite Ev, linear_roundtrip by (try assumption; lia). lia.
Qed.

Lemma finish_assigned {P} sip (visits : list (Z * list Z)) (h : Z * list Z -> P) l :
  pos_shape sip -> (forall c, In c (map snd visits) <-> in_shape sip c) ->
  Z.of_nat (length l) = prodZ sip ->
  (forall v, In v visits -> nth_error l (Z.to_nat (linear_idx (snd v) sip)) = Some (Some (h v))) ->
  exists r, all_assigned l = Ok r /\ holds sip visits h r.
Proof.
  intros Hp Hin Hl Hs. destruct (all_assigned_ok l) as [r [E1 E2]].
  - intros n Hn. destruct (pos_in_visits sip visits n Hp Hin) as [v [Hv ->]]; [lia|]. eauto.
  - exists r. split; [assumption|]. subst l. rewrite map_length in Hl. split; [assumption|].
    intros v Hv. specialize (Hs v Hv). rewrite nth_error_map in Hs.
    destruct (nth_error r _); cbn in Hs; congruence.
Qed.

Lemma holds_unique {P} sip (visits : list (Z * list Z)) (h : Z * list Z -> P) r1 r2 :
  pos_shape sip -> (forall c, In c (map snd visits) <-> in_shape sip c) ->
  holds sip visits h r1 -> holds sip visits h r2 -> r1 = r2.
Proof.
  intros Hp Hin [Hl1 H1] [Hl2 H2]. apply nth_error_ext. intros n.
  destruct (Z_lt_ge_dec (Z.of_nat n) (prodZ sip)) as [Hn|Hn].
  - destruct (pos_in_visits sip visits n Hp Hin Hn) as [v [Hv ->]]. now rewrite H1, H2.
  - rewrite !(proj2 (nth_error_None _ _)); [reflexivity| |]; lia.
Qed.

Lemma in_combine_fst {A B} (l : list (A * B)) v : In v l -> In (fst v) (map fst l).
Proof. apply in_map. Qed.

(** Request accepted by array creation. *)
Definition accepted (L : Z) (a p : list Z) : Prop :=
  fits a p /\ (length a <= 3)%nat /\ 0 < L <= prodZ (map2 Z.div a p) /\
  L * prodZ (map2 Z.div a p) <= 2 ^ 50.

Lemma accepted_visits L a p : accepted L a p ->
  exists visits, curve_visits (map2 Z.div a p) = Ok visits /\
    map fst visits = zseq 0 (prodZ (map2 Z.div a p)) /\ NoDup (map snd visits) /\
    (forall c, In c (map snd visits) <-> in_shape (map2 Z.div a p) c).
Proof.
  intros [Hf [Hlen _]]. apply curve_visits_ok.
  - now apply fits_sip_ne.
  - rewrite map2_length by now apply fits_length. assumption.
  - apply sip_pos, Hf.
Qed.

Lemma instantiate_individually_ok {P} L (create : Z -> list Z -> list Z -> P) a p :
  accepted L a p ->
  exists visits r, curve_visits (map2 Z.div a p) = Ok visits /\
    instantiate_individually L create a p = Ok r /\
    holds (map2 Z.div a p) visits (expected L create a p) r.
Proof.
  intros Hacc. destruct (accepted_visits L a p Hacc) as [visits [Hv [Hfst [Hnd Hin]]]].
  destruct Hacc as [Hf [Hlen [HL Hb]]]. exists visits.
  unfold instantiate_individually. rewrite partition_shapes_ok by assumption. cbn [obind].
  set (sip := map2 Z.div a p) in *.
  assert (Hne : sip <> []) by now apply fits_sip_ne.
  assert (Hp : pos_shape sip) by (apply sip_pos, Hf).
  rewrite nr_elements_prod by assumption.
  destruct (Z.ltb_spec (prodZ sip) L); [lia|]. rewrite Hv. cbn [obind].
  assert (Hvin : forall v, In v visits -> in_shape sip (snd v)) by (intros v Hv'; apply Hin, in_map; assumption).
  assert (Hk : forall v, In v visits -> 0 <= fst v < prodZ sip).
  { intros v Hv'. apply (in_map fst) in Hv'. rewrite Hfst in Hv'. apply in_zseq in Hv'. lia. }
  assert (Hfold : forall vs l, incl vs visits ->
    fold_left (fun arr v => assign_partition sip arr (snd v)
       (instantiate_one L create sip (map (fun c => exts a p c) (shape_cells sip)) v)) vs l =
    fold_left (fun arr v => assign_partition sip arr (snd v) (Ok (expected L create a p v))) vs l).
  { induction vs as [|[k c] vs IH]; intros l Hi; cbn [fold_left]; [reflexivity|].
    rewrite IH by (intros x Hx; apply Hi; now right). do 2 f_equal.
    assert (Hkc : In (k, c) visits) by (apply Hi; now left).
    apply instantiate_one_ok; try assumption; [exact (Hvin _ Hkc)|exact (Hk _ Hkc)]. }
  rewrite Hfold by apply incl_refl.
  destruct (fold_assign sip (expected L create a p) visits (repeat None (Z.to_nat (prodZ sip))) Hne Hnd Hvin)
    as [l' [E [Hl' [Hs _]]]].
  { rewrite repeat_length. pose proof (prodZ_pos _ Hp). lia. }
  rewrite E. cbn [obind].
  destruct (finish_assigned sip visits (expected L create a p) l' Hp Hin Hl' Hs) as [r [Er Hr]].
  exists r. auto.
Qed.

(** ** Batches *)
Section Batch.
Context {P : Type}.
Context (L : Z) (create : Z -> list Z -> list Z -> P)
        (create_batch : Z -> list (list Z * list Z) -> list P) (a p : list Z).
Context (Hbatch : forall loc l, l <> [] -> create_batch loc l = map (fun '(o, s) => create loc o s) l).
Context (Hacc : accepted L a p).
Let sip := map2 Z.div a p.
Let shapes := map (fun c => exts a p c) (shape_cells sip).
Let info (v : Z * list Z) : list Z * list Z * list Z :=
  (map2 Z.mul (snd v) p, exts a p (snd v), snd v).

(** Invariant: of the visits handled, [done] are assigned and [cached] are not. *)
Definition batch_inv (done cached : list (Z * list Z)) (s : batch_state P) : Prop :=
  bs_cache s = map info cached /\
  (forall v, In v cached -> loc_of (prodZ sip) L (fst v) = bs_locality s) /\
  Z.of_nat (length (bs_array s)) = prodZ sip /\
  (forall v, In v done -> nth_error (bs_array s) (Z.to_nat (linear_idx (snd v) sip)) =
                          Some (Some (expected L create a p v))).

Lemma flush_ok done cached s : cached <> [] ->
  batch_inv done cached s -> NoDup (map snd (done ++ cached)) ->
  (forall v, In v (done ++ cached) -> in_shape sip (snd v)) ->
  exists s', flush_batch create_batch sip s = Ok s' /\ bs_locality s' = bs_locality s /\
    batch_inv (done ++ cached) [] (BatchState (bs_locality s) [] (bs_array s')).
Proof.
  intros Hcne [Hc [Hloc [Hl Hd]]] Hnd Hin. unfold flush_batch.
  assert (Hne : sip <> []) by (apply fits_sip_ne, Hacc).
  rewrite Hbatch by (rewrite Hc; destruct cached; [congruence|discriminate]). rewrite !map_length, Nat.eqb_refl, Hc.
  set (f := fun arr '((offset, shape, idxs), q) =>
     assign_partition sip arr idxs (Ok (Placed (bs_locality s) offset shape q))).
  assert (Hfold : forall vs l, (forall v, In v vs -> loc_of (prodZ sip) L (fst v) = bs_locality s) ->
    fold_left f (combine (map info vs) (map (fun '(o, s0) => create (bs_locality s) o s0) (map fst (map info vs)))) l =
    fold_left (fun arr v => assign_partition sip arr (snd v) (Ok (expected L create a p v))) vs l).
  { induction vs as [|[k c] vs IH]; intros l Hv; cbn [map combine fold_left]; [reflexivity|].
    rewrite IH by (intros v Hv'; apply Hv; now right). f_equal. unfold f. cbn.
    do 2 f_equal. rewrite <- (Hv (k, c)) by now left. reflexivity. }
  rewrite Hfold by assumption.
  destruct (fold_assign sip (expected L create a p) cached (bs_array s) Hne) as [l' [E [Hl' [Hs Ho]]]].
  - rewrite map_app in Hnd. clear - Hnd. induction (map snd done) as [|x l IH]; [assumption|]. inversion Hnd; auto.
  - intros v Hv. apply Hin, in_or_app. now right.
  - assumption.
  - rewrite E. cbn [obind]. eexists. split; [reflexivity|]. split; [reflexivity|].
    cbn. unfold batch_inv; cbn. split; [reflexivity|]. split; [intros v []|]. split; [assumption|].
    intros v Hv. apply in_app_or in Hv. destruct Hv as [Hv|Hv].
    + rewrite Ho; [auto|apply Hin, in_or_app; now left|].
      intros Hv'. rewrite map_app in Hnd. apply (in_map snd) in Hv. clear - Hv Hv' Hnd.
      induction (map snd done) as [|x l IH]; [contradiction|]. inversion Hnd; subst.
      destruct Hv as [->|Hv]; [|auto]. apply H1, in_or_app. now right.
    + auto.
Qed.

Lemma batch_fold visits :
  map fst visits = zseq 0 (prodZ sip) -> NoDup (map snd visits) ->
  (forall v, In v visits -> in_shape sip (snd v)) ->
  forall rest pre done cached s, visits = pre ++ rest -> pre = done ++ cached -> rest <> [] ->
  (pre <> [] -> cached <> []) -> batch_inv done cached s ->
  exists s', fold_left (batch_visit L create_batch sip shapes) rest (Ok s) = Ok s' /\
    Z.of_nat (length (bs_array s')) = prodZ sip /\
    (forall v, In v visits -> nth_error (bs_array s') (Z.to_nat (linear_idx (snd v) sip)) =
                          Some (Some (expected L create a p v))).
Proof.
  intros Hfst Hnd Hin.
  assert (Hne : sip <> []) by (apply fits_sip_ne, Hacc).
  induction rest as [|[k c] rest IH]; intros pre done cached s Hvis Hpre Hr Hcn Hinv; [congruence|].
  cbn [fold_left].
  assert (Hkc : In (k, c) visits) by (rewrite Hvis; apply in_or_app; right; now left).
  assert (Hk : k = Z.of_nat (length pre) /\ 0 <= k < prodZ sip).
  { assert (Hn : nth_error (map fst visits) (length pre) = Some k).
    { rewrite Hvis, map_app, nth_error_app2 by (rewrite map_length; lia).
      rewrite map_length, Nat.sub_diag. reflexivity. }
    rewrite Hfst in Hn. assert ((length pre < Z.to_nat (prodZ sip))%nat).
    { rewrite <- (zseq_length 0), <- nth_error_Some. congruence. }
    rewrite nth_error_zseq in Hn by assumption. injection Hn as Hn. lia. }
  destruct Hk as [Hk1 Hk2].
  destruct Hacc as [Hf [_ [HL Hb]]].
  unfold batch_visit at 2. cbn [obind].
  rewrite nr_elements_prod by assumption.
  destruct (loc_of_ok (prodZ sip) L k HL Hk2 Hb) as [Eloc _]. rewrite Eloc. cbn [obind].
  set (s1 := if k =? 0 then BatchState (loc_of (prodZ sip) L k) [] (bs_array s) else s).
  assert (Hinv1 : batch_inv done cached s1).
  { unfold s1. destruct (Z.eqb_spec k 0) as [E|E]; [|assumption].
    assert (length pre = O) by lia. destruct pre; [|discriminate]. symmetry in Hpre.
    apply app_eq_nil in Hpre. destruct Hpre as [-> ->]. destruct Hinv as [H1 [H2 [H3 H4]]].
    repeat split; try assumption; cbn; intros v []. }
  rewrite idxs_to_linear_idx_ok by (try assumption; exact (Hin _ Hkc)). cbn [obind].
  destruct (shapes_lookup a p c Hf (Hin _ Hkc)) as [E1 E2].
  fold sip in E1, E2. fold shapes in E1, E2. rewrite E1, E2.
  rewrite offset_eq by (try apply Hf; exact (Hin _ Hkc)).
  set (s2 := if loc_of (prodZ sip) L k =? bs_locality s1 then _ else _).
  assert (Hs2 : exists st done' cached', s2 = Ok st /\ pre ++ [(k, c)] = done' ++ cached' /\ batch_inv done' cached' st /\ cached' <> []).
  { unfold s2. destruct (Z.eqb_spec (loc_of (prodZ sip) L k) (bs_locality s1)) as [El|El].
    - eexists _, done, (cached ++ [(k, c)]). split; [reflexivity|]. split.
      + rewrite Hpre, app_assoc. reflexivity.
      + split; [|destruct cached; discriminate]. destruct Hinv1 as [H1 [H2 [H3 H4]]]. repeat split; cbn; try assumption.
        * rewrite H1, map_app. reflexivity.
        * intros v Hv. apply in_app_or in Hv. destruct Hv as [Hv|[<-|[]]]; [auto|]. exact El.
    - assert (Hcn' : cached <> []).
      { apply Hcn. intros ->. apply El. unfold s1. destruct (Z.eqb_spec k 0) as [E|E]; [reflexivity|]. cbn in Hk1. lia. }
      destruct (flush_ok done cached s1 Hcn' Hinv1) as [s' [Ef [Hl' Hi']]].
      + rewrite <- Hpre. rewrite Hvis, map_app in Hnd. clear - Hnd.
        induction (map snd pre) as [|x l IHl]; [constructor|]. cbn in Hnd. inversion Hnd; subst.
        constructor; [|auto]. intros H; apply H1, in_or_app; now left.
      + intros v Hv. apply Hin. rewrite Hvis, Hpre. apply in_or_app. now left.
      + rewrite Ef. cbn [obind app]. eexists _, (done ++ cached), [(k, c)]. split; [reflexivity|].
        split; [rewrite Hpre; reflexivity|]. split; [|discriminate]. destruct Hi' as [H1 [H2 [H3 H4]]]. cbn in *.
        repeat split; cbn; try assumption. intros v [<-|[]]. reflexivity. }
  destruct Hs2 as [st [done' [cached' [Es2 [Hp' [Hi' Hcn']]]]]]. rewrite Es2. cbn [obind].
  destruct rest as [|w rest].
  - assert (Hlast : k = prodZ sip - 1).
    { assert (length visits = S (length pre)) by (rewrite Hvis, app_length; cbn; lia).
      apply (f_equal (@length Z)) in Hfst. rewrite map_length, zseq_length in Hfst. lia. }
    destruct (Z.eqb_spec k (prodZ sip - 1)); [|lia]. cbn [fold_left].
    destruct (flush_ok done' cached' st Hcn' Hi') as [s' [Ef [_ Hi'']]].
    + rewrite <- Hp', <- Hvis. assumption.
    + intros v Hv. apply Hin. rewrite Hvis, Hp'. assumption.
    + rewrite Ef. exists s'. split; [reflexivity|]. destruct Hi'' as [_ [_ [H3 H4]]].
      split; [exact H3|]. intros v Hv. apply H4. rewrite <- Hp', <- Hvis. assumption.
  - assert (Hnl : k <> prodZ sip - 1).
    { assert (length visits = (length pre + S (S (length rest)))%nat) by (rewrite Hvis, app_length; cbn; lia).
      apply (f_equal (@length Z)) in Hfst. rewrite map_length, zseq_length in Hfst. lia. }
    destruct (Z.eqb_spec k (prodZ sip - 1)); [lia|].
    apply (IH (pre ++ [(k, c)]) done' cached' st); try assumption; [|discriminate|auto].
    rewrite Hvis, <- app_assoc. reflexivity.
Qed.

Lemma instantiate_per_locality_ok :
  exists visits r, curve_visits sip = Ok visits /\
    instantiate_per_locality L create_batch a p = Ok r /\
    holds sip visits (expected L create a p) r.
Proof.
  destruct (accepted_visits L a p Hacc) as [visits [Hv [Hfst [Hnd Hin]]]].
  exists visits. unfold instantiate_per_locality. rewrite partition_shapes_ok by apply Hacc. cbn [obind].
  change (map2 Z.div a p) with sip in Hv, Hfst, Hin |- *.
  assert (Hne : sip <> []) by (apply fits_sip_ne, Hacc).
  assert (Hp : pos_shape sip) by (apply sip_pos, Hacc).
  pose proof (prodZ_pos _ Hp) as Hpp.
  rewrite nr_elements_prod by assumption.
  destruct Hacc as [Hf [Hlen [HL Hb]]]. fold sip in HL, Hb.
  destruct (Z.ltb_spec (prodZ sip) L); [lia|]. rewrite Hv. cbn [obind].
  assert (Hvin : forall v, In v visits -> in_shape sip (snd v)) by (intros v Hv'; apply Hin, in_map; assumption).
  destruct (batch_fold visits Hfst Hnd Hvin visits [] [] []
    (BatchState (-1) [] (repeat None (Z.to_nat (prodZ sip))))) as [s' [E [Hl Hs]]]; try reflexivity.
  - intros ->. cbn in Hfst. symmetry in Hfst. apply (f_equal (@length Z)) in Hfst.
    rewrite zseq_length in Hfst. cbn in Hfst. lia.
  - congruence.
  - repeat split; cbn; try (intros v []). rewrite repeat_length. lia.
  - fold shapes. rewrite E. cbn [obind].
    destruct (finish_assigned sip visits (expected L create a p) (bs_array s') Hp Hin Hl Hs) as [r [Er Hr]].
    exists r. auto.
Qed.
End Batch.

Lemma batches_equal {P} L (create : Z -> list Z -> list Z -> P) create_batch a p :
  (forall loc l, l <> [] -> create_batch loc l = map (fun '(o, s) => create loc o s) l) ->
  accepted L a p ->
  instantiate_per_locality L create_batch a p = instantiate_individually L create a p.
Proof.
  intros Hb Hacc.
  destruct (instantiate_individually_ok L create a p Hacc) as [v1 [r1 [E1 [E1' H1]]]].
  destruct (instantiate_per_locality_ok L create create_batch a p Hb Hacc) as [v2 [r2 [E2 [E2' H2]]]].
  rewrite E1', E2'. f_equal. rewrite E1 in E2. injection E2 as <-.
  destruct (accepted_visits L a p Hacc) as [v [Hv [_ [_ Hin]]]]. rewrite E1 in Hv. injection Hv as <-.
  symmetry. eapply holds_unique; try eassumption. apply sip_pos, Hacc.
Qed.

(** ** Tiling *)
Lemma tile_1d a p x c : 0 < p <= a -> 0 <= c < a / p -> 0 <= x < a ->
  (c * p <= x < c * p + ext a p c <-> c = Z.min (x / p) (a / p - 1)).
Proof.
  intros Hp Hc Hx. unfold ext.
  pose proof (Z.div_mod a p ltac:(lia)) as Ha. pose proof (Z.mod_pos_bound a p ltac:(lia)) as Hm.
  pose proof (Z.div_mod x p ltac:(lia)) as Hx'. pose proof (Z.mod_pos_bound x p ltac:(lia)) as Hm'.
  set (n := a / p) in *. set (q := x / p) in *.
  destruct (Z.eqb_spec c (n - 1)) as [->|Hne]; split; intros H.
  - nia.
  - assert (n - 1 <= q) by lia. nia.
  - assert (c = q) by nia. nia.
  - assert (c = q) by lia. nia.
Qed.

Lemma tile_nd a p x : Forall2 (fun a p => 0 < p <= a) a p -> in_shape a x ->
  exists c, in_shape (map2 Z.div a p) c /\ in_box (map2 Z.mul c p) (exts a p c) x /\
    (forall c', in_shape (map2 Z.div a p) c' -> in_box (map2 Z.mul c' p) (exts a p c') x -> c' = c).
Proof.
  intros H. revert x. induction H as [|e y a p Hxy H IH]; intros [|i x] Hx; cbn in Hx; try tauto.
  - exists []. cbn. repeat split. intros [|] H; [reflexivity|cbn in H; tauto].
  - destruct Hx as [Hi Hx]. destruct (IH x Hx) as [c [Hc [Hb Hu]]].
    set (c0 := Z.min (i / y) (e / y - 1)).
    assert (Hn : 0 < e / y) by (apply Z.div_str_pos; lia).
    assert (Hc0 : 0 <= c0 < e / y).
    { unfold c0. pose proof (Z.div_pos i y). lia. }
    exists (c0 :: c). cbn. split; [auto|]. split.
    + split; [|assumption]. apply tile_1d; try assumption; reflexivity.
    + intros [|c0' c'] Hc' Hb'; [destruct Hc'|]. cbn in Hc', Hb'. f_equal; [|apply Hu; tauto].
      destruct Hb' as [Hb' _]. apply tile_1d in Hb'; try tauto; lia.
Qed.

Lemma part_inside a p c x : Forall2 (fun a p => 0 < p <= a) a p -> in_shape (map2 Z.div a p) c ->
  in_box (map2 Z.mul c p) (exts a p c) x -> in_shape a x.
Proof.
  intros H. revert c x. induction H as [|e y a p Hxy H IH]; intros [|i c] [|j x] Hc Hb; cbn in Hc, Hb; try tauto; cbn; try exact I.
  destruct Hc as [Hi Hc], Hb as [Hj Hb]. split; [|eapply IH; eassumption].
  unfold ext in Hj. pose proof (Z.div_mod e y ltac:(lia)). pose proof (Z.mod_pos_bound e y ltac:(lia)).
  destruct (Z.eqb_spec i (e / y - 1)) as [->|]; nia.
Qed.

Lemma exts_pos a p c : Forall2 (fun a p => 0 < p <= a) a p -> in_shape (map2 Z.div a p) c -> pos_shape (exts a p c).
Proof.
  intros H. revert c. induction H as [|e y a p Hxy H IH]; intros [|i c] Hc; cbn in Hc; try tauto; cbn; constructor.
  - unfold ext. pose proof (Z.mod_pos_bound e y ltac:(lia)). destruct (_ =? _); lia.
  - apply IH. tauto.
Qed.

Lemma tiling {P} L (create : Z -> list Z -> list Z -> P) a p :
  accepted L a p ->
  exists parts, instantiate_individually L create a p = Ok parts /\
    (forall q, In q parts -> length (pl_offset q) = length a /\ pos_shape (pl_shape q) /\
       (forall x, in_box (pl_offset q) (pl_shape q) x -> in_shape a x)) /\
    (forall x, in_shape a x -> exists k, forall j,
       (exists q, nth_error parts j = Some q /\ in_box (pl_offset q) (pl_shape q) x) <-> j = k).
Proof.
  intros Hacc.
  destruct (instantiate_individually_ok L create a p Hacc) as [visits [r [Ev [Er [Hl Hh]]]]].
  destruct (accepted_visits L a p Hacc) as [v [Hv [Hfst [Hnd Hin]]]]. rewrite Ev in Hv. injection Hv as <-.
  assert (HF : Forall2 (fun a p => 0 < p <= a) a p) by apply Hacc.
  assert (Hp := sip_pos _ _ HF). assert (Hne : map2 Z.div a p <> []) by (apply fits_sip_ne, Hacc).
  assert (Hlen : length a = length p) by (apply fits_length, Hacc).
  assert (Hget : forall n q, nth_error r n = Some q -> exists v, In v visits /\
     n = Z.to_nat (linear_idx (snd v) (map2 Z.div a p)) /\ q = expected L create a p v /\
     in_shape (map2 Z.div a p) (snd v)).
  { intros n q Hq. assert (Hn : (n < length r)%nat) by (apply nth_error_Some; congruence).
    destruct (pos_in_visits _ visits n Hp Hin) as [v [Hv ->]]; [lia|].
    exists v. rewrite Hh in Hq by assumption. injection Hq as <-. repeat split; try assumption.
    apply Hin, in_map. assumption. }
  exists r. split; [assumption|]. split.
  - intros q Hq. apply In_nth_error in Hq. destruct Hq as [n Hq].
    destruct (Hget n q Hq) as [[k c] [Hv [_ [-> Hc]]]]. cbn in *.
    pose proof (in_shape_length _ _ Hc) as Hcl. rewrite map2_length in Hcl by assumption.
    split; [rewrite map2_length; lia|]. split; [apply exts_pos; assumption|].
    intros x Hx. eapply part_inside; eassumption.
  - intros x Hx. destruct (tile_nd a p x HF Hx) as [c [Hc [Hb Hu]]].
    exists (Z.to_nat (linear_idx c (map2 Z.div a p))). intros j. split.
    + intros [q [Hq Hqb]]. destruct (Hget j q Hq) as [[k c'] [Hv [-> [-> Hc']]]]. cbn in *.
      rewrite (Hu c') by assumption. reflexivity.
    + intros ->. apply Hin in Hc as Hc'. apply in_map_iff in Hc'. destruct Hc' as [[k c'] [E Hv]]. cbn in E. subst c'.
      exists (expected L create a p (k, c)). split; [apply (Hh (k, c)); assumption|exact Hb].
Qed.

Lemma rejects {P} L (create : Z -> list Z -> list Z -> P) a p :
  length a = length p -> a <> [] -> is_shape a -> is_shape p ->
  ~ fits a p -> instantiate_individually L create a p = Throw.
Proof.
  intros Hl Hne Ha Hp Hn. unfold instantiate_individually.
  rewrite partition_shapes_throw by assumption. reflexivity.
Qed.

Lemma rejects_localities {P} L (create : Z -> list Z -> list Z -> P) a p :
  fits a p -> prodZ (map2 Z.div a p) < L -> instantiate_individually L create a p = Throw.
Proof.
  intros Hf HL. unfold instantiate_individually. rewrite partition_shapes_ok by assumption. cbn [obind].
  rewrite nr_elements_prod by now apply fits_sip_ne.
  destruct (Z.ltb_spec (prodZ (map2 Z.div a p)) L); [reflexivity|lia].
Qed.
