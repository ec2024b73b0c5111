(** Proofs about unique_id. *)
From Coq Require Import Sorted Permutation.
From Verif Require Import Common CommonProofs CoreSpec DecompSpec ArraySpec IndexModel IndexProofs DecompModel DecompProofs DecompProofs2 DecompProofs4 ArrayModel ArrayRep ArrayProofs
  LocalProofs GridModel GridProofs AggregateModel AggregateSpec AggregateProofs UniqueModel UniqueSpec UniqueProofs.

(** Values given per partition and per cell in the partition are those of a raster. *)
Lemma raster_from_parts {E} (d : E) a p (h : list Z -> list Z -> E) : partition_fits a p ->
  exists g, forall c x, in_shape (parts_shape a p) c -> in_shape (part_extent a p c) x -> g (vadd (part_offset p c) x) = h c x.
Proof.
  intros Hf. set (all := flat_map (fun c => map (fun x => (vadd (part_offset p c) x, h c x)) (all_cells (part_extent a p c))) (all_cells (parts_shape a p))).
  exists (fun y => match find (fun z => if list_eq_dec Z.eq_dec (fst z) y then true else false) all with Some z => snd z | None => d end).
  assert (N : NoDup (map fst all)).
  { unfold all. rewrite <- flat_map_map_out. rewrite (flat_map_ext _ (part_cells a p)).
    - eapply Permutation_NoDup; [apply Permutation_sym, parts_permutation; assumption|]. apply all_cells_spec.
    - intros c. unfold part_cells. rewrite map_map. reflexivity. }
  intros c x Hc Hx.
  assert (Hin : In (vadd (part_offset p c) x, h c x) all).
  { unfold all. apply in_flat_map. exists c. split; [now apply all_cells_spec|]. apply in_map_iff. exists x. split; [reflexivity|now apply all_cells_spec]. }
  revert N Hin. generalize all (vadd (part_offset p c) x) (h c x). clear. intros l y v N Hin. induction l as [|[y' v'] l IH]; [destruct Hin|].
  cbn [map fst] in N. inversion N as [|? ? N1 N2]; subst. cbn [find fst]. destruct (list_eq_dec Z.eq_dec y' y) as [->|Hne].
  - destruct Hin as [E1|Hin]; [injection E1 as ->; reflexivity|]. exfalso. apply N1. apply (in_map fst) in Hin. exact Hin.
  - destruct Hin as [E1|Hin]; [congruence|]. auto.
Qed.

Section UniqueID.
Context {C : Type} (nd truth : C -> bool) (mark : Z -> Z) (marker : Z) (junk : Z -> Z) (max_id : Z) (Hmark : forall v, mark v = marker).

Definition wants (c : C) : bool := negb (nd c) && truth c.
Definition before (cs : list C) (i : nat) : Z := Z.of_nat (length (filter wants (firstn i cs))).
Definition id_at (start : Z) (cs : list C) (i : nat) (c : C) : Z := if nd c then marker else if truth c then start + before cs i else 0.

Lemma id_cells_ok cs : forall out start, length out = length cs -> start + Z.of_nat (length cs) <= max_id ->
  exists d, unique_id_cells nd truth mark max_id cs out start = Ok d /\ length d = length cs /\
    forall i c, nth_error cs i = Some c -> nth_error d i = Some (id_at start cs i c).
Proof.
  induction cs as [|c cs IH]; intros [|o out] start Hl Hm; cbn in Hl; try discriminate; cbn [unique_id_cells].
  - exists []. split; [reflexivity|]. split; [reflexivity|]. intros [|i] c H; discriminate.
  - injection Hl as Hl. cbn [length] in Hm.
    assert (G : forall start', start' = (if wants c then start + 1 else start) -> exists d, unique_id_cells nd truth mark max_id cs out start' = Ok d /\
      length d = length cs /\ forall i c', nth_error cs i = Some c' -> nth_error d i = Some (id_at start (c :: cs) (S i) c')).
    { intros start' ->. destruct (IH out (if wants c then start + 1 else start) Hl) as [d [E1 [L1 R1]]]; [destruct (wants c); lia|]. exists d. split; [exact E1|].
      split; [assumption|]. intros i c' Hi. rewrite (R1 i c' Hi). f_equal. unfold id_at, before. cbn [firstn filter]. destruct (wants c); cbn [length]; destruct (nd c'), (truth c'); lia. }
    unfold wants in G. destruct (nd c) eqn:En; [|destruct (truth c) eqn:Et]; cbn [negb andb] in G.
    + destruct (G _ eq_refl) as [d [E1 [L1 R1]]]. rewrite E1. cbn [obind]. eexists. split; [reflexivity|]. split; [cbn; congruence|].
      intros [|i] c' Hi; [|exact (R1 i c' Hi)]. injection Hi as <-. cbn. unfold id_at. rewrite En. now rewrite Hmark.
    + destruct (G _ eq_refl) as [d [E1 [L1 R1]]]. destruct (Z.ltb_spec start max_id); [|lia]. rewrite E1. cbn [obind]. eexists. split; [reflexivity|]. split; [cbn; congruence|].
      intros [|i] c' Hi; [|exact (R1 i c' Hi)]. injection Hi as <-. cbn. unfold id_at. rewrite En, Et. f_equal. cbn. lia.
    + destruct (G _ eq_refl) as [d [E1 [L1 R1]]]. rewrite E1. cbn [obind]. eexists. split; [reflexivity|]. split; [cbn; congruence|].
      intros [|i] c' Hi; [|exact (R1 i c' Hi)]. injection Hi as <-. cbn. unfold id_at. rewrite En, Et. reflexivity.
Qed.

Lemma before_step cs : forall i c, nth_error cs i = Some c -> wants c = true -> before cs (S i) = before cs i + 1.
Proof.
  induction cs as [|c0 cs IH]; intros [|i] c Hi Hc; try discriminate.
  - injection Hi as ->. unfold before. cbn [firstn filter]. rewrite Hc. reflexivity.
  - specialize (IH i c Hi Hc). unfold before in *. cbn [firstn filter] in *. destruct (wants c0); cbn [length]; lia.
Qed.
Lemma before_mono cs i j : (i <= j)%nat -> before cs i <= before cs j.
Proof.
  intros H. induction H as [|j H IH]; [lia|]. etransitivity; [exact IH|]. clear. unfold before. revert j. induction cs as [|c cs IH]; intros [|j]; cbn [firstn filter]; try (cbn; lia).
  specialize (IH j). cbn [firstn filter] in IH |- *. destruct (wants c); cbn [length] in *; lia.
Qed.
Lemma before_lt cs i j c : nth_error cs i = Some c -> wants c = true -> (i < j)%nat -> before cs i < before cs j.
Proof. intros Hi Hc H. pose proof (before_step cs i c Hi Hc). pose proof (before_mono cs (S i) j ltac:(lia)). lia. Qed.
Lemma before_range cs i c : nth_error cs i = Some c -> wants c = true -> 0 <= before cs i < Z.of_nat (length cs).
Proof.
  intros Hi Hc. split; [unfold before; lia|]. assert (Hl : (i < length cs)%nat) by (apply nth_error_Some; congruence).
  pose proof (before_lt cs i (length cs) c Hi Hc Hl). enough (before cs (length cs) <= Z.of_nat (length cs)) by lia.
  unfold before. rewrite firstn_all. clear. induction cs as [|c cs IH]; cbn [filter]; [lia|]. destruct (wants c); cbn [length]; lia.
Qed.

(** The loop over partitions *)
Lemma rotate_out_ok {A} (l1 l2 l3 : list A) x n : n = length (l1 ++ x :: l2) -> rotate_out (length l1) n (l1 ++ x :: l2 ++ l3) = l1 ++ l2 ++ x :: l3.
Proof.
  intros Hn. unfold rotate_out.
  assert (E1 : firstn (length l1) (l1 ++ x :: l2 ++ l3) = l1) by (rewrite firstn_app, firstn_all, Nat.sub_diag; cbn; apply app_nil_r).
  assert (E2 : firstn n (l1 ++ x :: l2 ++ l3) = l1 ++ x :: l2).
  { subst n. replace (l1 ++ x :: l2 ++ l3) with ((l1 ++ x :: l2) ++ l3) by (rewrite <- app_assoc; reflexivity). rewrite firstn_app, firstn_all, Nat.sub_diag. cbn. apply app_nil_r. }
  assert (E3 : skipn n (l1 ++ x :: l2 ++ l3) = l3).
  { subst n. replace (l1 ++ x :: l2 ++ l3) with ((l1 ++ x :: l2) ++ l3) by (rewrite <- app_assoc; reflexivity). rewrite skipn_app, skipn_all, Nat.sub_diag. reflexivity. }
  rewrite E1, E2, E3. replace (S (length l1)) with (length (l1 ++ [x])) by (rewrite app_length; cbn; lia).
  replace (l1 ++ x :: l2) with ((l1 ++ [x]) ++ l2) by (rewrite <- app_assoc; reflexivity). rewrite skipn_app, skipn_all, Nat.sub_diag.
  rewrite skipn_app, skipn_all, Nat.sub_diag. reflexivity.
Qed.
Lemma set_nth_mid {A} (l1 l2 : list A) x v : set_nth (length l1) v (l1 ++ x :: l2) = l1 ++ v :: l2.
Proof. induction l1 as [|y l1 IH]; cbn; congruence. Qed.
Lemma set_nth_length {A} k (v : A) l : length (set_nth k v l) = length l.
Proof. revert k. induction l as [|x l IH]; intros [|k]; cbn; auto. Qed.
Lemma set_nth_get {A} k (v : A) l j : (k < length l)%nat -> nth_error (set_nth k v l) j = if Nat.eq_dec j k then Some v else nth_error l j.
Proof.
  revert k j. induction l as [|x l IH]; intros [|k] [|j] H; cbn [set_nth nth_error length] in *; try lia; try (destruct (Nat.eq_dec _ _); reflexivity || lia).
  rewrite IH by lia. destruct (Nat.eq_dec j k), (Nat.eq_dec (S j) (S k)); try reflexivity; lia.
Qed.

Definition size_of (parts : list (placed (list C))) (k : nat) : Z := match nth_error parts k with Some q => Z.of_nat (length (pl_data q)) | None => 0 end.
Definition sizes_sum (parts : list (placed (list C))) (ks : list nat) : Z := fold_right (fun k acc => size_of parts k + acc) 0 ks.

Lemma sizes_sum_app parts l l' : sizes_sum parts (l ++ l') = sizes_sum parts l + sizes_sum parts l'.
Proof. induction l as [|x l IH]; [reflexivity|].
  change (size_of parts x + sizes_sum parts (l ++ l') = size_of parts x + sizes_sum parts l + sizes_sum parts l'). rewrite IH. lia. Qed.
Lemma sizes_sum_nonneg parts l : 0 <= sizes_sum parts l.
Proof. induction l as [|x l IH]; cbn; [lia|]. fold (sizes_sum parts l). assert (0 <= size_of parts x) by (unfold size_of; destruct (nth_error parts x); lia). lia. Qed.

Definition handled (parts : list (placed (list C))) (promises : list (option (placed (list Z)))) (s : nat -> Z) (start : Z) (done : list nat) : Prop :=
  (forall k, In k done -> exists q r, nth_error parts k = Some q /\ nth_error promises k = Some (Some r) /\
     unique_id_partition nd truth mark junk max_id q (s k) = Ok r /\ 1 <= s k /\ s k + size_of parts k <= start) /\
  (forall k k', In k done -> In k' done -> k <> k' -> s k + size_of parts k <= s k' \/ s k' + size_of parts k' <= s k).

Lemma loop_ok choose parts : picks_pending choose ->
  (forall q, In q parts -> Z.of_nat (length (pl_data q)) = nr_elements (pl_shape q)) ->
  forall n rem done sizes start promises s, length rem = n -> NoDup (rem ++ done) -> (forall k, In k rem -> (k < length parts)%nat) ->
  firstn n sizes = map (fun k => Some (size_of parts k)) rem -> length promises = length parts ->
  (forall k, In k rem -> nth_error promises k = Some None) -> handled parts promises s start done -> 1 <= start ->
  start + sizes_sum parts rem <= max_id ->
  exists promises' s', unique_id_loop nd truth mark junk max_id choose parts n sizes (rem ++ done) start promises = Ok promises' /\ length promises' = length parts /\
    handled parts promises' s' (start + sizes_sum parts rem) (rem ++ done).
Proof.
  intros Hch Hsz. induction n as [|n IH]; intros rem done sizes start promises s Hl Nd Hr Hs Hp Hnone Hh Hst Hmax.
  - destruct rem; [|discriminate]. exists promises, s. cbn. rewrite Z.add_0_r. auto.
  - cbn [unique_id_loop]. rewrite Hs. set (k := choose (S n)). assert (Hk : (k < length rem)%nat) by (rewrite Hl; unfold k; specialize (Hch n); lia).
    destruct (nth_error rem k) as [j|] eqn:Ej; [|apply nth_error_None in Ej; lia].
    rewrite nth_error_app1 by assumption. rewrite Ej, nth_error_map, Ej. cbn [option_map].
    apply nth_error_split in Ej. destruct Ej as [r1 [r2 [Erem Er1]]]. subst rem. rewrite <- Er1 in *. clear k Hk Er1.
    assert (Hjin : In j (r1 ++ j :: r2)) by (apply in_app_iff; right; now left).
    assert (Hjl := Hr j Hjin). destruct (nth_error parts j) as [q|] eqn:Eq; [|apply nth_error_None in Eq; lia].
    rewrite (Hnone j Hjin). assert (Hq := Hsz q (nth_error_In _ _ Eq)).
    assert (Esz : size_of parts j = Z.of_nat (length (pl_data q))) by (unfold size_of; now rewrite Eq).
    assert (Esum : sizes_sum parts (r1 ++ j :: r2) = size_of parts j + sizes_sum parts (r1 ++ r2)).
    { rewrite !sizes_sum_app. change (sizes_sum parts (j :: r2)) with (size_of parts j + sizes_sum parts r2). lia. }
    pose proof (sizes_sum_nonneg parts (r1 ++ r2)) as Hnn.
    assert (Hrun : exists r, unique_id_partition nd truth mark junk max_id q start = Ok r).
    { unfold unique_id_partition. destruct (Z.ltb_spec 0 start); [|lia]. destruct (id_cells_ok (pl_data q) (fresh junk (nr_elements (pl_shape q))) start) as [d [E1 _]].
      - unfold fresh. rewrite map_length, zseq_length. lia.
      - lia.
      - rewrite E1. cbn [obind]. eauto. }
    destruct Hrun as [r Hrun]. rewrite Hrun. cbn [obind]. destruct (Z.leb_spec (start + size_of parts j) max_id); [|lia].
    assert (E1 : rotate_out (length r1) (S n) ((r1 ++ j :: r2) ++ done) = (r1 ++ r2) ++ j :: done).
    { rewrite <- !app_assoc. cbn [app]. apply rotate_out_ok. lia. }
    assert (E2 : rotate_out (length r1) (S n) (set_nth (length r1) None (map (fun k => Some (size_of parts k)) (r1 ++ j :: r2))) = map (fun k => Some (size_of parts k)) (r1 ++ r2) ++ [None]).
    { rewrite map_app. cbn [map]. rewrite <- (map_length (fun k => Some (size_of parts k)) r1) at 1 2. rewrite set_nth_mid.
      pose proof (rotate_out_ok (map (fun k => Some (size_of parts k)) r1) (map (fun k => Some (size_of parts k)) r2) [] None (S n)) as R. rewrite !app_nil_r in R. rewrite R.
      - now rewrite map_app, <- app_assoc.
      - rewrite app_length in *. cbn [length] in *. rewrite !map_length. lia. }
    rewrite E1, E2. assert (Hln : length (r1 ++ r2) = n) by (rewrite app_length in *; cbn [length] in Hl; lia).
    assert (Nd' : NoDup ((r1 ++ r2) ++ j :: done)).
    { eapply Permutation_NoDup; [|exact Nd]. rewrite <- !app_assoc. apply Permutation_app_head. cbn. apply Permutation_middle. }
    assert (Nj : forall k, In k ((r1 ++ r2) ++ done) -> k <> j).
    { intros k Hkin ->. apply NoDup_remove_2 in Nd'. contradiction. }
    destruct (IH (r1 ++ r2) (j :: done) (map (fun k => Some (size_of parts k)) (r1 ++ r2) ++ [None]) (start + size_of parts j) (set_nth j (Some r) promises)
      (fun k => if Nat.eq_dec k j then start else s k)) as [promises' [s' [E3 [L3 H3]]]].
    + assumption.
    + assumption.
    + intros k Hkin. apply Hr. rewrite in_app_iff in *. cbn. tauto.
    + rewrite firstn_app, firstn_all2, map_length, Hln, Nat.sub_diag by (rewrite map_length; lia). cbn. apply app_nil_r.
    + rewrite set_nth_length. assumption.
    + intros k Hkin. rewrite set_nth_get by lia. destruct (Nat.eq_dec k j) as [->|_].
      * exfalso. apply (Nj j); [apply in_app_iff; now left|reflexivity].
      * apply Hnone. rewrite in_app_iff in *. cbn. tauto.
    + destruct Hh as [H1 H2]. split.
      * intros k [<-|Hkin].
        -- exists q, r. rewrite set_nth_get by lia. destruct (Nat.eq_dec j j); [|lia]. split; [assumption|]. split; [reflexivity|]. split; [assumption|]. lia.
        -- destruct (H1 k Hkin) as [q' [r' [A1 [A2 [A3 A4]]]]]. exists q', r'. rewrite set_nth_get by lia. destruct (Nat.eq_dec k j) as [->|_].
           ++ exfalso. apply (Nj j); [apply in_app_iff; now right|reflexivity].
           ++ split; [assumption|]. split; [assumption|]. split; [assumption|]. lia.
      * intros k k' [<-|Hkin] [<-|Hkin'] Hne; try lia.
        -- destruct (Nat.eq_dec j j) as [_|]; [|lia]. destruct (Nat.eq_dec k' j) as [->|_]; [lia|]. right. destruct (H1 k' Hkin') as [? [? [_ [_ [_ A]]]]]. lia.
        -- destruct (Nat.eq_dec j j) as [_|]; [|lia]. destruct (Nat.eq_dec k j) as [->|_]; [lia|]. left. destruct (H1 k Hkin) as [? [? [_ [_ [_ A]]]]]. lia.
        -- destruct (Nat.eq_dec k j) as [->|_]; [exfalso; apply (Nj j); [apply in_app_iff; now right|reflexivity]|].
           destruct (Nat.eq_dec k' j) as [->|_]; [exfalso; apply (Nj j); [apply in_app_iff; now right|reflexivity]|]. auto.
    + lia.
    + lia.
    + exists promises', s'. split; [exact E3|]. split; [assumption|]. rewrite Esum. rewrite Z.add_assoc.
      destruct H3 as [H31 H32]. assert (Hin : forall k, In k ((r1 ++ j :: r2) ++ done) -> In k ((r1 ++ r2) ++ j :: done)).
      { intros k. rewrite !in_app_iff. cbn [In]. tauto. }
      split; [intros k Hkin; apply H31; auto|intros k k' Hkin Hkin'; apply H32; auto].
Qed.

Lemma parts_sum a p (arr : parray C) f : raster_of a p arr f -> sizes_sum (pa_parts arr) (seq 0 (length (pa_parts arr))) = volume a.
Proof.
  intros H. assert (Hf : partition_fits a p) by apply H.
  assert (G : forall l pre, sizes_sum (pre ++ l) (seq (length pre) (length l)) = Z.of_nat (length (concat (map pl_data l)))).
  { induction l as [|q l IH]; intros pre; [reflexivity|]. cbn [length seq map concat].
    change (size_of (pre ++ q :: l) (length pre) + sizes_sum (pre ++ q :: l) (seq (S (length pre)) (length l)) = Z.of_nat (length (pl_data q ++ concat (map pl_data l)))).
    specialize (IH (pre ++ [q])). rewrite <- app_assoc in IH. cbn [app] in IH. rewrite app_length in IH. cbn [length] in IH. rewrite Nat.add_1_r in IH. rewrite IH, app_length.
    unfold size_of. rewrite nth_error_app2, Nat.sub_diag by lia. cbn [nth_error]. lia. }
  pose proof (G (pa_parts arr) []) as G0. cbn [app length] in G0. rewrite G0. rewrite (raster_datas a p arr f H), concat_map_flat, flat_map_map_out, map_length.
  rewrite (Permutation_length (parts_permutation a p Hf)). rewrite all_cells_shape, shape_cells_length, volume_prodZ; [reflexivity|].
  clear - Hf. induction Hf as [|x y l l' Hxy _ IH]; constructor; [lia|assumption].
Qed.

Lemma unique_id_ok choose a p (arr : parray C) f : picks_pending choose -> raster_of a p arr f -> volume a < max_id ->
  exists out g, unique_id nd truth mark junk max_id choose arr = Ok out /\ raster_of a p out g /\ distinct_ids nd truth marker a f g.
Proof.
  intros Hch H Hmax. assert (Hf : partition_fits a p) by apply H. unfold unique_id. set (parts := pa_parts arr).
  assert (Hsz : forall q, In q parts -> Z.of_nat (length (pl_data q)) = nr_elements (pl_shape q)) by (intros q Hq; eapply raster_part_size; eassumption).
  pose proof (parts_sum a p arr f H) as Hsum. fold parts in Hsum.
  assert (Esizes : map (fun q => Some (nr_elements (pl_shape q))) parts = map (fun k => Some (size_of parts k)) (seq 0 (length parts))).
  { apply nth_error_ext. intros k. rewrite !nth_error_map. destruct (Nat.lt_ge_cases k (length parts)) as [Hk|Hk].
    - rewrite nth_error_seq by assumption. destruct (nth_error parts k) as [q|] eqn:Eq; [|apply nth_error_None in Eq; lia]. cbn [option_map]. unfold size_of. rewrite Eq.
      now rewrite (Hsz q (nth_error_In _ _ Eq)).
    - rewrite (proj2 (nth_error_None parts k) Hk). rewrite (proj2 (nth_error_None (seq 0 (length parts)) k)) by (rewrite seq_length; assumption). reflexivity. }
  destruct (loop_ok choose parts Hch Hsz (length parts) (seq 0 (length parts)) [] (map (fun q => Some (nr_elements (pl_shape q))) parts) 1 (map (fun _ => None) parts) (fun _ => 0))
    as [promises [s [E1 [L1 [H1 H2]]]]].
  - apply seq_length.
  - rewrite app_nil_r. apply seq_NoDup.
  - intros k Hk. apply in_seq in Hk. lia.
  - rewrite Esizes. apply firstn_all2. rewrite map_length, seq_length. lia.
  - apply map_length.
  - intros k Hk. apply in_seq in Hk. rewrite nth_error_map. destruct (nth_error parts k) as [q|] eqn:Eq; [reflexivity|]. apply nth_error_None in Eq. lia.
  - split; [intros k []|intros k k' []].
  - lia.
  - rewrite Hsum. lia.
  - rewrite app_nil_r in *. rewrite Hsum in *. rewrite E1. cbn [obind].
    assert (Hpart : forall k, (k < length parts)%nat -> exists q r, nth_error parts k = Some q /\ nth_error promises k = Some (Some r) /\
      unique_id_partition nd truth mark junk max_id q (s k) = Ok r /\ 1 <= s k /\ s k + size_of parts k <= 1 + volume a).
    { intros k Hk. apply H1, in_seq. lia. }
    set (data := fun k => match nth_error parts k with Some q => pl_data q | None => [] end).
    set (idx := fun c => Z.to_nat (rowmaj (parts_shape a p) c)). set (lidx := fun c x => Z.to_nat (rowmaj (part_extent a p c) x)).
    destruct (raster_from_parts 0 a p (fun c x => id_at (s (idx c)) (data (idx c)) (lidx c x) (f (vadd (part_offset p c) x))) Hf) as [g Hg].
    assert (Hidx : forall c, in_shape (parts_shape a p) c -> (idx c < length parts)%nat).
    { intros c Hc. pose proof (rowmaj_range _ _ Hc) as Hr. pose proof (raster_length a p arr f H) as Hl. unfold nr_parts in Hl. fold parts in Hl. unfold idx. lia. }
    assert (Hcell : forall c x, in_shape (parts_shape a p) c -> in_shape (part_extent a p c) x -> nth_error (data (idx c)) (lidx c x) = Some (f (vadd (part_offset p c) x))).
    { intros c x Hc Hx. destruct (raster_part a p arr f c H Hc) as [q [Eq [_ [_ B]]]]. fold parts in Eq. fold (idx c) in Eq. unfold data. rewrite Eq. apply B. assumption. }
    destruct (assemble a p (map (fun o => match o with Some q => Ok q | None => UB end) promises) g) as [res [E2 R]].
    + apply H.
    + assumption.
    + rewrite map_length, L1. apply (raster_length a p arr f H).
    + intros c Hc. fold (idx c). destruct (Hpart (idx c) (Hidx c Hc)) as [q [r [A1 [A2 [A3 [A4 A5]]]]]]. exists r. rewrite nth_error_map, A2. split; [reflexivity|].
      destruct (raster_part a p arr f c H Hc) as [q' [Eq [Eo [Es B]]]]. fold parts in Eq. fold (idx c) in Eq. rewrite A1 in Eq. injection Eq as <-.
      unfold unique_id_partition in A3. destruct (0 <? s (idx c)); [|discriminate]. assert (Hq := Hsz q (nth_error_In _ _ A1)).
      destruct (id_cells_ok (pl_data q) (fresh junk (nr_elements (pl_shape q))) (s (idx c))) as [d [E3 [L3 R3]]].
      * unfold fresh. rewrite map_length, zseq_length. lia.
      * unfold size_of in A5. rewrite A1 in A5. lia.
      * rewrite E3 in A3. cbn [obind] in A3. injection A3 as <-. cbn [pl_offset pl_shape pl_data]. split; [assumption|]. split; [assumption|]. split.
        -- rewrite L3. apply B.
        -- intros x Hx. fold (lidx c x). assert (Hc1 := Hcell c x Hc Hx). unfold data in Hc1. rewrite A1 in Hc1. rewrite (R3 _ _ Hc1). rewrite Hg by assumption. unfold data. now rewrite A1.
    + exists (PArray (pa_shape arr) (pa_sip arr) res), g. rewrite E2. cbn [obind]. split; [reflexivity|]. split; [destruct H as [_ [_ [E3 [E4 _]]]]; rewrite E3, E4; exact R|].
      assert (Hrng : forall c x, in_shape (parts_shape a p) c -> in_shape (part_extent a p c) x -> nd (f (vadd (part_offset p c) x)) = false -> truth (f (vadd (part_offset p c) x)) = true ->
        g (vadd (part_offset p c) x) = s (idx c) + before (data (idx c)) (lidx c x) /\ 0 <= before (data (idx c)) (lidx c x) < size_of parts (idx c)).
      { intros c x Hc Hx N T. rewrite Hg by assumption. unfold id_at. rewrite N, T. split; [reflexivity|].
        pose proof (before_range (data (idx c)) (lidx c x) _ (Hcell c x Hc Hx)) as B. unfold wants in B. rewrite N, T in B. specialize (B eq_refl).
        unfold size_of. unfold data in *. destruct (nth_error parts (idx c)); assumption. }
      intros y Hy. destruct (cell_part a p y Hf Hy) as [c [x [Hc [Hx ->]]]]. split; [|split].
      * intros N. rewrite Hg by assumption. unfold id_at. now rewrite N.
      * intros N T. rewrite Hg by assumption. unfold id_at. now rewrite N, T.
      * intros N T. destruct (Hrng c x Hc Hx N T) as [Eg Hb]. destruct (Hpart (idx c) (Hidx c Hc)) as [_ [_ [_ [_ [_ [A4 A5]]]]]]. split; [lia|].
        intros y' Hy' N' T' Eq. destruct (cell_part a p y' Hf Hy') as [c' [x' [Hc' [Hx' ->]]]].
        destruct (Hrng c' x' Hc' Hx' N' T') as [Eg' Hb'].
        destruct (Nat.eq_dec (idx c) (idx c')) as [Ei|Ni].
        -- assert (c = c').
           { unfold idx in Ei. pose proof (rowmaj_range _ _ Hc). pose proof (rowmaj_range _ _ Hc'). apply (rowmaj_inj (parts_shape a p)); try assumption. lia. }
           subst c'. assert (Eb : before (data (idx c)) (lidx c x) = before (data (idx c)) (lidx c x')) by lia.
           assert (El : lidx c x = lidx c x').
           { destruct (Nat.lt_trichotomy (lidx c x) (lidx c x')) as [L|[L|L]]; [|assumption|].
             - pose proof (before_lt _ _ _ _ (Hcell c x Hc Hx) ltac:(unfold wants; now rewrite N, T) L). lia.
             - pose proof (before_lt _ _ _ _ (Hcell c x' Hc Hx') ltac:(unfold wants; now rewrite N', T') L). lia. }
           unfold lidx in El. pose proof (rowmaj_range _ _ Hx). pose proof (rowmaj_range _ _ Hx').
           assert (x = x') by (apply (rowmaj_inj (part_extent a p c)); try assumption; lia). now subst.
        -- exfalso. pose proof (Hidx c Hc). pose proof (Hidx c' Hc'). destruct (H2 (idx c) (idx c')) as [A|A]; try (apply in_seq; lia); try assumption; lia.
Qed.
End UniqueID.
