(** Proofs about the focal functors. *)
From Verif Require Import Common CommonProofs CoreSpec DecompSpec ArraySpec IndexModel DecompModel ArrayModel ArrayRep
  ArrayProofs GridModel GridProofs GridRaster LocalModel AggregateModel AggregateSpec ZonalSpec FocalSpec FocalModel FocalProofs2 FocalProofs3 FocalFunctorsModel.

Section Scan.
Context (R : Z) (HR : 0 <= R).
Let S := 2 * R + 1.

Lemma radius_make {W} (w : Z -> Z -> W) : kernel_radius (gmake S S w) = R.
Proof. unfold kernel_radius. change (g0 (gmake S S w)) with S. unfold S. replace (2 * R + 1 - 1) with (R * 2) by lia. apply Z.div_mul. lia. Qed.

Lemma scan_ok {E W T} (w : Z -> Z -> W) (m : Z -> Z -> E) (step : T -> Z -> Z -> W -> E -> T) init :
  scan (gmake S S w) (gmake S S m) step init =
  Ok (fold_left (fun s rc => step s (fst rc) (snd rc) (w (fst rc) (snd rc)) (m (fst rc) (snd rc))) (cells2 0 S 0 S) init).
Proof.
  unfold scan. unfold kernel_size. rewrite radius_make. change (g0 (gmake S S m)) with S. change (g1 (gmake S S m)) with S.
  fold S. rewrite Z.eqb_refl. cbn [andb].
  assert (G : forall l s, (forall rc, In rc l -> In rc (cells2 0 S 0 S)) ->
    fold_left (fun acc rc => obind acc (fun s => obind (gget (gmake S S w) (fst rc) (snd rc)) (fun weight =>
         obind (gget (gmake S S m) (fst rc) (snd rc)) (fun value => Ok (step s (fst rc) (snd rc) weight value))))) l (Ok s) =
    Ok (fold_left (fun s rc => step s (fst rc) (snd rc) (w (fst rc) (snd rc)) (m (fst rc) (snd rc))) l s)).
  { induction l as [|[r c] l IH]; intros s Hin; [reflexivity|]. cbn [fold_left obind fst snd].
    assert (In (r, c) (cells2 0 S 0 S)) as Hrc by (apply Hin; now left). apply in_cells2 in Hrc.
    rewrite !gget_make by lia. cbn [obind]. apply IH. intros; apply Hin; now right. }
  apply G. auto.
Qed.

(** Folds that skip cells *)
Lemma fold_skip {A B T} (cond : A -> bool) (val : A -> B) (upd : T -> B -> T) l init :
  fold_left (fun s x => if cond x then upd s (val x) else s) l init = fold_left upd (map val (filter cond l)) init.
Proof. revert init. induction l as [|x l IH]; intros init; [reflexivity|]. cbn. destruct (cond x); cbn; apply IH. Qed.

Definition sel {E} (w : Z -> Z -> Z) (valid : E -> bool) (m : Z -> Z -> E) : list E :=
  map (fun rc => m (fst rc) (snd rc))
    (filter (fun rc => valid (m (fst rc) (snd rc)) && truth (w (fst rc) (snd rc))) (cells2 0 S 0 S)).

Lemma filter_map_comm {A B} (f : A -> B) p l : filter p (map f l) = map f (filter (fun x => p (f x)) l).
Proof. induction l as [|x l IH]; [reflexivity|]. cbn. destruct (p (f x)); cbn; now rewrite IH. Qed.
Lemma filter_filter {A} (p q : A -> bool) l : filter p (filter q l) = filter (fun x => p x && q x) l.
Proof. induction l as [|x l IH]; [reflexivity|]. cbn. destruct (q x); cbn; [|rewrite andb_false_r; exact IH]. rewrite andb_true_r. destruct (p x); now rewrite IH. Qed.

Lemma sel_spec {E} (w : Z -> Z -> Z) (valid : E -> bool) (f : Z -> Z -> E) r c :
  sel w valid (fun i j => f (r - R + i) (c - R + j)) =
  focal_values R (fun dr dc => negb (w (R + dr) (R + dc) =? 0)) valid f r c.
Proof.
  unfold sel, focal_values, offsets. fold S. change (flat_map _ (zseq (- R) S)) with (cells2 (- R) S (- R) S).
  rewrite (cells2_shift (- R) S (- R) S). rewrite !filter_map_comm, filter_filter, map_map. cbn [fst snd].
  assert (E1 : forall l, filter (fun rc : Z * Z => valid (f (r - R + fst rc) (c - R + snd rc)) && truth (w (fst rc) (snd rc))) l =
    filter (fun x : Z * Z => valid (f (r + (- R + fst x)) (c + (- R + snd x))) && negb (w (R + (- R + fst x)) (R + (- R + snd x)) =? 0)) l).
  { intros l. apply filter_ext. intros [i j]. cbn [fst snd]. unfold truth.
    replace (r - R + i) with (r + (- R + i)) by lia. replace (c - R + j) with (c + (- R + j)) by lia.
    replace (R + (- R + i)) with i by lia. replace (R + (- R + j)) with j by lia. reflexivity. }
  rewrite E1. apply map_ext. intros [i j]. cbn [fst snd]. f_equal; lia.
Qed.

Section Stat.
Context {E : Type} (no_data : E -> bool) (nd : E) (w : Z -> Z -> Z).
Let valid := fun v => negb (no_data v).
Let k := gmake S S w.

Lemma scan_skip {T} (upd : T -> E -> T) (step : T -> Z -> Z -> Z -> E -> T) m init :
  (forall s r c wt v, step s r c wt v = if negb (no_data v) then if truth wt then upd s v else s else s) ->
  scan k (gmake S S m) step init = Ok (fold_left upd (sel w valid m) init).
Proof.
  intros H. unfold k. rewrite scan_ok. f_equal. unfold sel. rewrite <- fold_skip.
  generalize (cells2 0 S 0 S) as l. intros l. revert init. induction l as [|rc l IH]; intros init; [reflexivity|].
  cbn [fold_left]. rewrite H, <- IH. unfold valid. destruct (negb (no_data _)), (truth _); reflexivity.
Qed.

Lemma fold_pair {A B} (upd : A -> E -> A) (cnt : B -> B) l a b :
  fold_left (fun s v => (upd (fst s) v, cnt (snd s))) l (a, b) = (fold_left upd l a, Nat.iter (length l) cnt b).
Proof.
  revert a b. induction l as [|x l IH]; intros a b; [reflexivity|]. cbn [fold_left fst snd length]. rewrite IH.
  f_equal. generalize (length l) as n. clear. induction n as [|n IH]; [reflexivity|]. simpl in *. now rewrite IH.
Qed.
Lemma iter_true n b : Nat.iter n (fun _ : bool => true) b = match n with O => b | _ => true end.
Proof. destruct n; reflexivity. Qed.
Lemma iter_succ n b : Nat.iter n (fun x => x + 1) b = b + Z.of_nat n.
Proof. induction n as [|n IH]; [cbn; lia|]. change (Nat.iter (Datatypes.S n) (fun x => x + 1) b) with (Nat.iter n (fun x => x + 1) b + 1). lia. Qed.

Lemma sum_functor_ok zero plus m :
  focal_sum_functor no_data nd k zero plus (gmake S S m) =
  Ok (match sel w valid m with [] => nd | l => fold_left plus l zero end).
Proof.
  unfold focal_sum_functor. rewrite (scan_skip (fun s v => (plus (fst s) v, (fun _ => true) (snd s)))).
  - cbn [obind]. pose proof (fold_pair plus (fun _ : bool => true) (sel w valid m) zero false) as HF. cbv beta in HF. rewrite HF, iter_true. destruct (sel w valid m); reflexivity.
  - intros [s i] r c wt v. destruct (negb (no_data v)), (truth wt); reflexivity.
Qed.

Lemma mean_functor_ok zero plus divide m :
  focal_mean_functor no_data nd k zero plus divide (gmake S S m) =
  Ok (match sel w valid m with [] => nd | l => divide (fold_left plus l zero) (Z.of_nat (length l)) end).
Proof.
  unfold focal_mean_functor. rewrite (scan_skip (fun s v => (plus (fst s) v, (fun n => n + 1) (snd s)))).
  - cbn [obind]. pose proof (fold_pair plus (fun n => n + 1) (sel w valid m) zero 0) as HF. cbv beta in HF. rewrite HF, iter_succ. destruct (sel w valid m) as [|x l]; [reflexivity|].
    replace (0 + Z.of_nat (length (x :: l)) =? 0) with false by (cbn [length]; lia). reflexivity.
  - intros [s i] r c wt v. destruct (negb (no_data v)), (truth wt); reflexivity.
Qed.

Lemma extreme_functor_ok better zero m :
  focal_extreme_functor no_data nd k better zero (gmake S S m) =
  Ok (match sel w valid m with [] => nd | x :: l => fold_left better l x end).
Proof.
  unfold focal_extreme_functor. rewrite (scan_skip (fun s v => (if negb (snd s) then v else better (fst s) v, true))).
  - cbn [obind]. destruct (sel w valid m) as [|x l]; [reflexivity|]. cbn [fold_left fst snd negb].
    assert (G : forall l x, fold_left (fun s v => (if negb (snd s) then v else better (fst s) v, true)) l (x, true) = (fold_left better l x, true)).
    { clear. induction l as [|y l IH]; intros x; [reflexivity|]. cbn [fold_left fst snd negb]. apply IH. }
    rewrite G. reflexivity.
  - intros [s i] r c wt v. cbn [fst snd]. destruct (negb (no_data v)), (truth wt); try reflexivity. now destruct i.
Qed.
End Stat.

(** High pass: the focal cell is treated apart. *)
Definition sel_others {E} (w : Z -> Z -> Z) (valid : E -> bool) (m : Z -> Z -> E) : list E :=
  sel (fun i j => if (i =? R) && (j =? R) then 0 else w i j) valid m.

Lemma high_pass_functor_ok {E} (no_data : E -> bool) (nd : E) (w : Z -> Z -> Z) zero plus combine m :
  focal_high_pass_functor no_data nd (gmake S S w) zero plus combine (gmake S S m) =
  Ok (match sel_others w (fun v => negb (no_data v)) m with
      | [] => nd | l => combine (m R R) (Z.of_nat (length l)) (fold_left plus l zero) end).
Proof.
  unfold focal_high_pass_functor. rewrite scan_ok, radius_make. cbn [obind].
  set (wo := fun i j => if (i =? R) && (j =? R) then 0 else w i j).
  set (step := fun (s : E * E * Z) (rc : Z * Z) => _ : E * E * Z).
  assert (G : forall l fv s n, 
     fold_left step l (fv, s, n) =
     ((if mem2 l R R then m R R else fv),
      fold_left plus (map (fun rc => m (fst rc) (snd rc)) (filter (fun rc => negb (no_data (m (fst rc) (snd rc))) && truth (wo (fst rc) (snd rc))) l)) s,
      n + Z.of_nat (length (filter (fun rc => negb (no_data (m (fst rc) (snd rc))) && truth (wo (fst rc) (snd rc))) l)))).
  { induction l as [|[i j] l IH]; intros fv s n; [cbn [fold_left mem2 existsb filter map length]; f_equal; lia|].
    cbn [fold_left]. unfold step at 2. cbn [fst snd]. unfold mem2. cbn [existsb fst snd filter].
    destruct ((i =? R) && (j =? R)) eqn:e.
    - assert (i = R /\ j = R) as [-> ->] by lia. rewrite IH. cbn [orb]. assert (Hwo : wo R R = 0) by (unfold wo; now rewrite !Z.eqb_refl). rewrite Hwo. change (truth 0) with false.
      rewrite andb_false_r. fold (mem2 l R R). destruct (mem2 l R R); reflexivity.
    - cbn [orb]. fold (mem2 l R R). assert (wo i j = w i j) as -> by (unfold wo; now rewrite e).
      destruct (negb (no_data (m i j))); cbn [andb]; [|apply IH]. destruct (truth (w i j)); [|apply IH].
      rewrite IH. cbn [map fold_left fst snd length]. f_equal. lia. }
  rewrite G. unfold sel_others, sel. fold wo.
  assert (M : mem2 (cells2 0 S 0 S) R R = true) by (apply mem2_spec, in_cells2; unfold S; lia). rewrite M. f_equal.
  destruct (filter _ (cells2 0 S 0 S)) as [|x l]; [reflexivity|]. cbn [map length].
  replace (0 + Z.of_nat (Datatypes.S (length l)) =? 0) with false by lia. f_equal. rewrite map_length. lia.
Qed.

(** Convolution *)
Lemma convolve_functor_ok {E W} (no_data : E -> bool) (nd : E) (w : Z -> Z -> W) zero plus times m :
  convolve_functor no_data nd (gmake S S w) zero plus times (gmake S S m) =
  Ok (match filter (fun rc => negb (no_data (m (fst rc) (snd rc)))) (cells2 0 S 0 S) with
      | [] => nd
      | l => fold_left plus (map (fun rc => times (w (fst rc) (snd rc)) (m (fst rc) (snd rc))) l) zero end).
Proof.
  unfold convolve_functor. rewrite scan_ok. cbn [obind]. f_equal.
  set (step := fun (s : E * bool) (rc : Z * Z) => _ : E * bool).
  assert (G : forall l s b,
    fold_left step l (s, b) =
    (fold_left plus (map (fun rc => times (w (fst rc) (snd rc)) (m (fst rc) (snd rc))) (filter (fun rc => negb (no_data (m (fst rc) (snd rc)))) l)) s,
     match filter (fun rc => negb (no_data (m (fst rc) (snd rc)))) l with [] => b | _ => true end)).
  { induction l as [|rc l IH]; intros s b; [reflexivity|]. cbn [fold_left filter]. unfold step at 2.
    destruct (negb (no_data (m (fst rc) (snd rc)))).
    - rewrite IH. cbn [map fold_left]. destruct (filter _ l); reflexivity.
    - apply IH. }
  rewrite G. destruct (filter _ (cells2 0 S 0 S)); reflexivity.
Qed.
End Scan.

(** Sorting and uniqueness *)
Lemma insert_perm v l : Permutation (insert_sorted v l) (v :: l).
Proof.
  induction l as [|x l IH]; [reflexivity|]. cbn. destruct (v <=? x); [reflexivity|].
  rewrite IH. apply perm_swap.
Qed.
Lemma sort_perm l : Permutation (sort_values l) l.
Proof. induction l as [|x l IH]; [reflexivity|]. cbn. rewrite insert_perm. now constructor. Qed.
Lemma insert_sorted_ok v l : StronglySorted Z.le l -> StronglySorted Z.le (insert_sorted v l).
Proof.
  induction l as [|x l IH]; intros H; [repeat constructor|]. inversion H as [|? ? H1 H2]; subst. cbn.
  destruct (Z.leb_spec v x).
  - constructor; [assumption|]. constructor; [assumption|]. eapply Forall_impl; [|exact H2]. cbn. lia.
  - constructor; [auto|]. rewrite insert_perm. constructor; [lia|assumption].
Qed.
Lemma sort_sorted l : StronglySorted Z.le (sort_values l).
Proof. induction l; [constructor|]. now apply insert_sorted_ok. Qed.

Lemma unique_in l v : In v (unique_values l) <-> In v l.
Proof.
  induction l as [|x l IH]; [reflexivity|]. cbn. destruct (unique_values l) as [|y u].
  - cbn. cbn in IH. tauto.
  - destruct (Z.eqb_spec x y) as [->|]; cbn in *; tauto.
Qed.
Lemma unique_sorted l : StronglySorted Z.le l -> StronglySorted Z.lt (unique_values l).
Proof.
  induction l as [|x l IH]; intros H; [constructor|]. inversion H as [|? ? H1 H2]; subst. specialize (IH H1).
  cbn. destruct (unique_values l) as [|y u] eqn:Eu; [repeat constructor|].
  assert (Hy : x <= y). { rewrite Forall_forall in H2. apply H2. apply unique_in. rewrite Eu. now left. }
  destruct (Z.eqb_spec x y) as [->|]; [exact IH|]. constructor; [exact IH|].
  constructor; [lia|]. inversion IH as [|? ? I1 I2]; subst. eapply Forall_impl; [|exact I2]. cbn. lia.
Qed.
Lemma lt_sorted_NoDup l : StronglySorted Z.lt l -> NoDup l.
Proof.
  induction 1 as [|x l H IH H2]; constructor; [|assumption]. intros C. rewrite Forall_forall in H2. specialize (H2 _ C). lia.
Qed.
Lemma unique_count l : length (unique_values (sort_values l)) = length (nodup Z.eq_dec l).
Proof.
  apply Permutation_length. apply NoDup_Permutation.
  - apply lt_sorted_NoDup, unique_sorted, sort_sorted.
  - apply NoDup_nodup.
  - intros v. rewrite unique_in, nodup_In. split; apply Permutation_in; [|symmetry]; apply sort_perm.
Qed.

Lemma fold_snoc {A} (l acc : list A) : fold_left (fun s v => s ++ [v]) l acc = acc ++ l.
Proof. revert acc. induction l as [|x l IH]; intros acc; [now rewrite app_nil_r|]. cbn. rewrite IH, <- app_assoc. reflexivity. Qed.

Lemma diversity_functor_ok R (HR : 0 <= R) t no_data nd w m :
  focal_diversity_functor t no_data nd (gmake (2 * R + 1) (2 * R + 1) w) (gmake (2 * R + 1) (2 * R + 1) m) =
  Ok (match sel R w (fun v => negb (no_data v)) m with [] => nd | l => wrap t (Z.of_nat (length (nodup Z.eq_dec l))) end).
Proof.
  unfold focal_diversity_functor. rewrite (scan_skip R no_data w (fun s v => s ++ [v])) by reflexivity.
  cbn [obind]. rewrite fold_snoc. cbn [app]. destruct (sel R w _ m) as [|x l]; [reflexivity|].
  rewrite unique_count. reflexivity.
Qed.

(** Majority *)
Definition map_holds (m : list (Z * Z)) (l : list Z) : Prop :=
  StronglySorted Z.lt (map fst m) /\
  forall v n, In (v, n) m <-> In v l /\ n = Z.of_nat (count_occ Z.eq_dec l v).

Lemma map_increment_keys m v x : In x (map fst (map_increment m v)) <-> x = v \/ In x (map fst m).
Proof.
  induction m as [|[v' n] m IH]; [cbn; intuition congruence|]. cbn. destruct (v <? v'); [cbn; intuition congruence|].
  destruct (Z.eqb_spec v v') as [->|]; cbn; [intuition congruence|]. rewrite IH. intuition congruence.
Qed.
Lemma map_increment_sorted m v : StronglySorted Z.lt (map fst m) -> StronglySorted Z.lt (map fst (map_increment m v)).
Proof.
  induction m as [|[v' n] m IH]; intros H; [repeat constructor|]. cbn in H. inversion H as [|? ? H1 H2]; subst. cbn.
  destruct (Z.ltb_spec v v').
  - cbn. constructor; [exact H|]. constructor; [assumption|]. eapply Forall_impl; [|exact H2]. cbn. lia.
  - destruct (Z.eqb_spec v v') as [->|]; cbn; [exact H|]. constructor; [auto|].
    apply Forall_forall. intros x Hx. apply map_increment_keys in Hx. rewrite Forall_forall in H2. destruct Hx as [->|Hx]; [lia|auto].
Qed.
Lemma map_increment_in m v u n : StronglySorted Z.lt (map fst m) ->
  In (u, n) (map_increment m v) <->
  (u <> v /\ In (u, n) m) \/ (u = v /\ (In (u, n - 1) m \/ (~ In u (map fst m) /\ n = 1))).
Proof.
  induction m as [|[v' k] m IH]; intros H.
  - cbn. split; [intros [E|[]]; injection E as -> ->; right; auto|]. intros [[_ []]|[-> [[]|[_ ->]]]]. now left.
  - cbn in H. inversion H as [|? ? H1 H2]; subst. rewrite Forall_forall in H2. specialize (IH H1). cbn [map_increment].
    destruct (Z.ltb_spec v v').
    + cbn [In map fst]. split.
      * intros [E|[E|Hin]].
        -- injection E as <- <-. right. split; [reflexivity|]. right. split; [|reflexivity].
           intros [C|C]; [lia|]. specialize (H2 _ C). lia.
        -- injection E as <- <-. left. split; [lia|auto].
        -- assert (v' < u) by (apply H2; apply in_map_iff; exists (u, n); auto). left. split; [lia|auto].
      * intros [[N [E|Hin]]|[-> [[E|Hin]|[N ->]]]]; auto.
        -- injection E as -> ->. lia.
        -- assert (v' < v) by (apply H2; apply in_map_iff; exists (v, n - 1); auto). lia.
    + destruct (Z.eqb_spec v v') as [->|N'].
      * cbn [In map fst]. split.
        -- intros [E|Hin]; [injection E as <- <-; right; split; [reflexivity|]; left; left; f_equal; lia|].
           assert (v' < u) by (apply H2; apply in_map_iff; exists (u, n); auto). left. split; [lia|auto].
        -- intros [[N [E|Hin]]|[-> [[E|Hin]|[N ->]]]]; auto.
           ++ injection E as -> ->. congruence.
           ++ injection E as E. left. f_equal. lia.
           ++ assert (v' < v') by (apply H2; apply in_map_iff; exists (v', n - 1); auto). lia.
           ++ exfalso. apply N. now left.
      * cbn [In map fst]. rewrite IH. split.
        -- intros [E|[[N Hin]|[-> [Hin|[N ->]]]]]; auto.
           ++ injection E as <- <-. left. split; [lia|auto].
           ++ right. split; [reflexivity|]. right. split; [|reflexivity]. intros [C|C]; [congruence|contradiction].
        -- intros [[N [E|Hin]]|[-> [[E|Hin]|[N ->]]]]; auto.
           ++ injection E as E1 E2. congruence.
           ++ right. right. split; [reflexivity|]. right. split; [|reflexivity]. intros C. apply N. now right.
Qed.

Lemma map_holds_snoc m l v : map_holds m l -> map_holds (map_increment m v) (l ++ [v]).
Proof.
  intros [H1 H2]. split; [now apply map_increment_sorted|]. intros u n. rewrite map_increment_in by assumption.
  rewrite in_app_iff, count_occ_app. cbn [count_occ In].
  assert (K : In u (map fst m) <-> In u l).
  { rewrite in_map_iff. split; [intros [[u' n'] [E Hin]]; cbn in E; subst u'; now apply H2 in Hin|].
    intros Hu. exists (u, Z.of_nat (count_occ Z.eq_dec l u)). split; [reflexivity|]. now apply H2. }
  destruct (Z.eq_dec v u) as [->|N].
  - rewrite !H2. split.
    + intros [[C _]|[_ [[Hu En]|[Hu ->]]]]; [congruence| |].
      * split; [auto|]. lia.
      * split; [auto|]. rewrite K in Hu. rewrite (proj1 (count_occ_not_In Z.eq_dec l u) Hu). lia.
    + intros [_ En]. right. split; [reflexivity|]. destruct (in_dec Z.eq_dec u l) as [Hu|Hu]; [left; split; [assumption|lia]|right].
      rewrite K. split; [assumption|]. rewrite (proj1 (count_occ_not_In Z.eq_dec l u) Hu) in En. lia.
  - rewrite !H2. split; [intros [[_ [Hu En]]|[C _]]; [|congruence]; split; [auto|lia]|].
    intros [[Hu|[C|[]]] En]; [|congruence]. left. split; [congruence|]. split; [assumption|lia].
Qed.

Lemma map_holds_fold vs m l : map_holds m l -> map_holds (fold_left map_increment vs m) (l ++ vs).
Proof.
  revert m l. induction vs as [|v vs IH]; intros m l H; [now rewrite app_nil_r|]. cbn.
  replace (l ++ v :: vs) with ((l ++ [v]) ++ vs) by (now rewrite <- app_assoc). apply IH. now apply map_holds_snoc.
Qed.

Definition most_frequent (m : list (Z * Z)) (s : Z * Z) : Z * Z :=
  fold_left (fun '(mv, mf) '(value, frequency) => if mf <? frequency then (value, frequency) else (mv, mf)) m s.

Lemma most_frequent_spec m mv mf : StronglySorted Z.lt (map fst m) -> (forall v, In v (map fst m) -> 0 < mf -> mv < v) -> 0 <= mf ->
  (forall v n, In (v, n) m -> 0 < n) ->
  let '(v, n) := most_frequent m (mv, mf) in
  ((v, n) = (mv, mf) \/ In (v, n) m) /\ mf <= n /\ (0 < mf -> mf = n -> v = mv) /\
  forall v' n', In (v', n') m -> n' <= n /\ (n' = n -> v <= v').
Proof.
  revert mv mf. induction m as [|[k f] m IH]; intros mv mf Hs Hk H0 Hp.
  - cbn. repeat split; auto; try lia; contradiction.
  - cbn in Hs. inversion Hs as [|? ? H1 H2]; subst. rewrite Forall_forall in H2. unfold most_frequent. cbn [fold_left].
    assert (Hf : 0 < f) by (apply (Hp k); now left).
    destruct (Z.ltb_spec mf f).
    + specialize (IH k f H1). fold (most_frequent m (k, f)). destruct (most_frequent m (k, f)) as [v n].
      destruct IH as [I1 [I2 [I3 I4]]]; [intros v' Hv _; now apply H2|lia|intros; apply (Hp v0); now right|].
      split; [|split; [lia|split; [lia|]]].
      * right. destruct I1 as [I1|I1]; [left; congruence|now right].
      * intros v' n' [E|Hin]; [injection E as <- <-|now apply I4]. split; [lia|]. intros En. rewrite (I3 Hf En). lia.
    + fold (most_frequent m (mv, mf)). specialize (IH mv mf H1). destruct (most_frequent m (mv, mf)) as [v n].
      destruct IH as [I1 [I2 [I3 I4]]]; [intros v' Hv; apply Hk; now right|lia|intros; apply (Hp v0); now right|].
      split; [|split; [lia|split; [auto|]]].
      * destruct I1 as [I1|I1]; [now left|right; now right].
      * intros v' n' [E|Hin]; [injection E as <- <-|now apply I4]. split; [lia|]. intros En.
        assert (mf = n) by lia. rewrite (I3 ltac:(lia) H3). assert (mv < k) by (apply Hk; [now left|lia]). lia.
Qed.

Lemma majority_functor_ok R (HR : 0 <= R) no_data nd w m :
  exists v, focal_majority_functor no_data nd (gmake (2 * R + 1) (2 * R + 1) w) (gmake (2 * R + 1) (2 * R + 1) m) = Ok v /\
  let l := sel R w (fun v => negb (no_data v)) m in
  (l = [] -> v = nd) /\ (l <> [] -> smallest_majority_of l v).
Proof.
  unfold focal_majority_functor. rewrite (scan_skip R no_data w map_increment) by reflexivity. cbn [obind].
  set (l := sel R w (fun v => negb (no_data v)) m).
  assert (H : map_holds (fold_left map_increment l []) l).
  { apply (map_holds_fold l [] []). split; [constructor|]. intros v n. split; [intros []|intros [[] _]]. }
  destruct (fold_left map_increment l []) as [|e m'] eqn:Ef.
  - exists nd. split; [reflexivity|]. cbv zeta. split; [auto|]. intros N. exfalso. destruct l as [|x l']; [congruence|].
    destruct H as [_ H]. apply (proj2 (H x (Z.of_nat (count_occ Z.eq_dec (x :: l') x)))). split; [now left|reflexivity].
  - eexists. split; [reflexivity|]. cbv zeta. split; [intros El; rewrite El in Ef; discriminate|]. intros N.
    fold (most_frequent (e :: m') (0, 0)). destruct H as [H1 H2].
    pose proof (most_frequent_spec (e :: m') 0 0 H1) as G. destruct (most_frequent (e :: m') (0, 0)) as [v n].
    destruct G as [I1 [I2 [_ I4]]]; [lia|lia| |].
    { intros v' n' Hin. apply H2 in Hin. destruct Hin as [Hin ->]. apply (proj1 (count_occ_In Z.eq_dec l v')) in Hin. lia. }
    cbn [fst].
    assert (Hv : In (v, n) (e :: m')).
    { destruct I1 as [I1|I1]; [|exact I1]. injection I1 as -> ->. exfalso. destruct e as [v' n'].
      destruct (I4 v' n' (or_introl eq_refl)) as [C _].
      pose proof (proj1 (H2 v' n') (or_introl eq_refl)) as [Hin ->]. apply (proj1 (count_occ_In Z.eq_dec l v')) in Hin. lia. }
    apply H2 in Hv. destruct Hv as [Hv ->]. split; [assumption|]. intros u. split.
    + destruct (in_dec Z.eq_dec u l) as [Hu|Hu]; [|rewrite (proj1 (count_occ_not_In Z.eq_dec l u) Hu); lia].
      pose proof (I4 u _ (proj2 (H2 u _) (conj Hu eq_refl))). lia.
    + intros Hu Ec. pose proof (I4 u _ (proj2 (H2 u _) (conj Hu eq_refl))) as [_ G]. apply G. now rewrite Ec.
Qed.
