(** Proofs about operations with one value per partition. *)
From Coq Require Import Sorted.
From Verif Require Import Common CoreSpec DecompSpec ArraySpec IndexModel DecompModel ArrayModel ArrayRep IndexProofs DecompProofs ArrayProofs
  LocalSpec LocalModel LocalProofs2 UniqueModel UniqueSpec UniqueProofs AllocateProofs PartOpModel PartOpSpec.

Definition ones (s : list Z) : list Z := map (fun _ => 1) s.

Lemma parts_shape_ones s : parts_shape s (ones s) = s.
Proof. induction s as [|e s IH]; cbn; [reflexivity|]. change (map (fun _ => 1) s) with (ones s). now rewrite Z.div_1_r, IH. Qed.
Lemma fits_ones s : pos_shape s -> partition_fits s (ones s).
Proof. induction 1; cbn; constructor; [lia|assumption]. Qed.
Lemma part_ones s c : in_shape s c -> part_offset (ones s) c = c /\ part_extent s (ones s) c = ones s.
Proof.
  revert c. induction s as [|e s IH]; intros [|i c] H; cbn in *; try tauto. destruct H as [Hi H]. destruct (IH c H) as [A B].
  change (map (fun _ => 1) s) with (ones s). rewrite A, B, Z.div_1_r. split; f_equal; [lia|]. unfold ones. destruct (Z.eqb_spec i (e - 1)); lia.
Qed.
Lemma volume_ones s : volume (ones s) = 1.
Proof. induction s as [|e s IH]; cbn; [reflexivity|]. change (volume (map (fun _ => 1) s)) with (volume (ones s)). now rewrite IH. Qed.
Lemma in_ones s y : in_shape (ones s) y -> y = map (fun _ => 0) s.
Proof. revert y. induction s as [|e s IH]; intros [|i y] H; cbn in *; try tauto. destruct H as [Hi H]. f_equal; [lia|now apply IH]. Qed.
Lemma vadd_zeros (s c : list Z) : length s = length c -> vadd c (map (fun _ => 0) s) = c.
Proof. revert c. induction s as [|e s IH]; intros [|i c] H; cbn in *; try discriminate; [reflexivity|]. f_equal; [lia|]. apply IH. congruence. Qed.
Lemma rowmaj_zeros s : rowmaj (ones s) (map (fun _ => 0) s) = 0.
Proof. induction s as [|e s IH]; cbn; [reflexivity|exact IH]. Qed.

Lemma ones_raster (sip : list Z) (parts : list (placed (list Z))) (g : list Z -> Z) : sip <> [] -> pos_shape sip ->
  Z.of_nat (length parts) = volume sip ->
  (forall c, in_shape sip c -> exists l, nth_error parts (Z.to_nat (rowmaj sip c)) = Some (Placed l c (ones sip) [g c])) ->
  raster_of sip (ones sip) (PArray sip sip parts) g.
Proof.
  intros Hn Hp Hl H. split; [exact Hn|]. split; [now apply fits_ones|]. split; [reflexivity|]. split; [now rewrite parts_shape_ones|].
  cbn [pa_parts]. split; [rewrite map_length; unfold nr_parts; now rewrite parts_shape_ones|].
  rewrite parts_shape_ones. intros c Hc. destruct (part_ones sip c Hc) as [A B]. rewrite A, B.
  destruct (H c Hc) as [l E]. exists [g c]. split; [rewrite nth_error_map, E; reflexivity|].
  split; [rewrite volume_ones; reflexivity|]. intros x Hx. apply in_ones in Hx. subst x. rewrite rowmaj_zeros.
  rewrite vadd_zeros by now apply in_shape_length. reflexivity.
Qed.

Lemma nth_error_zseq n k : (k < n)%nat -> nth_error (zseq 0 (Z.of_nat n)) k = Some (Z.of_nat k).
Proof.
  intros H. unfold zseq. rewrite nth_error_map, Nat2Z.id. 
  assert (E : nth_error (seq 0 n) k = Some k).
  { rewrite (nth_error_nth' _ 0%nat) by (rewrite seq_length; lia). now rewrite seq_nth by lia. }
  rewrite E. reflexivity.
Qed.
Lemma nth_error_combine_ {A B} (l : list A) (r : list B) k a b : nth_error l k = Some a -> nth_error r k = Some b -> nth_error (combine l r) k = Some (a, b).
Proof. revert r k. induction l as [|x l IH]; intros [|y r] [|k] H1 H2; cbn in *; try discriminate; [congruence|now apply IH]. Qed.
Lemma length_zseq_ n : length (zseq 0 (Z.of_nat n)) = n.
Proof. unfold zseq. now rewrite map_length, seq_length, Nat2Z.id. Qed.

(** An operation that looks at the index of the partition. *)
Lemma by_index {E} a p (arr : parray E) f (op : list Z -> Z * placed (list E) -> placed (list Z)) (v : Z -> placed (list E) -> Z) :
  raster_of a p arr f ->
  (forall i q, op (pa_sip arr) (i, q) = Placed (pl_locality q) (linear_idx_to_idxs i (pa_sip arr)) (ones (pa_sip arr)) [v i q]) ->
  let g := fun c => match nth_error (pa_parts arr) (Z.to_nat (rowmaj (parts_shape a p) c)) with Some q => v (rowmaj (parts_shape a p) c) q | None => 0 end in
  let out := PArray (pa_sip arr) (pa_sip arr) (map (op (pa_sip arr)) (combine (zseq 0 (Z.of_nat (length (pa_parts arr)))) (pa_parts arr))) in
  raster_of (parts_shape a p) (ones (parts_shape a p)) out g /\ map pl_locality (pa_parts out) = map pl_locality (pa_parts arr).
Proof.
  intros H Hop g out. pose proof (raster_length _ _ _ _ H) as Hl. unfold nr_parts in Hl.
  pose proof H as (Hne & Hf & _ & Hs & _). split.
  - unfold out. rewrite Hs. assert (Hsn : parts_shape a p <> []).
    { destruct Hf; [congruence|discriminate]. }
    apply ones_raster; [exact Hsn|now apply parts_shape_pos| |].
    + rewrite map_length, combine_length, length_zseq_, Nat.min_id. exact Hl.
    + intros c Hc. destruct (raster_part a p arr f c H Hc) as (q & Eq & _). exists (pl_locality q).
      pose proof (rowmaj_range _ _ Hc) as Hr.
      rewrite nth_error_map, (nth_error_combine_ _ _ _ (rowmaj (parts_shape a p) c) q).
      * cbn [option_map]. rewrite <- Hs, Hop. unfold g. rewrite Eq, Hs.
        rewrite rowmaj_linear' by exact Hc. rewrite idxs_roundtrip by assumption. reflexivity.
      * rewrite nth_error_zseq by lia. f_equal. lia.
      * exact Eq.
  - unfold out. cbn [pa_parts]. rewrite map_map.
    transitivity (map pl_locality (map snd (combine (zseq 0 (Z.of_nat (length (pa_parts arr)))) (pa_parts arr)))).
    + rewrite map_map. apply map_ext. intros [i q]. now rewrite Hop.
    + f_equal. apply map_snd_combine. apply length_zseq_.
Qed.

(** partition_count_unique *)
Definition value_of (nd : Z -> bool) (mark : Z -> Z) (t : itype) (q : placed (list Z)) : Z :=
  match unique_partition nd q with Ok s => if result_is_valid s then result t s else mark 0 | _ => 0 end.

Lemma offsets_ok asserts p c : length p = length c -> Forall (fun e => 0 < e) p ->
  offset_in_partitions asserts (part_offset p c) p = Ok c.
Proof.
  revert c. induction p as [|e p IH]; intros [|i c] Hl Hp; cbn in *; try discriminate; [reflexivity|].
  inversion Hp; subst. rewrite Z.rem_mul by lia. rewrite Z.quot_mul by lia. rewrite IH by (assumption || congruence).
  rewrite Bool.andb_false_r. reflexivity.
Qed.
Lemma extents_ok a p c : partition_fits a p -> divides a p -> in_shape (parts_shape a p) c -> part_extent a p c = p.
Proof.
  intros Hf. revert c. induction Hf as [|x y a p Hxy Hf IH]; intros [|i c] Hd Hc; cbn in *; try tauto. inversion Hd; subst.
  destruct Hc as [Hi Hc]. rewrite IH by assumption. f_equal. destruct (Z.eqb_spec i (x / y - 1)); [|reflexivity].
  pose proof (Z.div_mod x y). nia.
Qed.

Lemma block_values {E} n (data : list E) f v : pos_shape n -> block_holds n data f -> (In v data <-> exists y, in_shape n y /\ f y = v).
Proof.
  intros Hp [Hl H]. split.
  - intros Hv. apply In_nth_error in Hv as [k Hk]. assert (k < length data)%nat by (apply nth_error_Some; congruence).
    destruct (rowmaj_surj n (Z.of_nat k) Hp) as (y & Hy & Ey); [lia|]. exists y. split; [exact Hy|].
    specialize (H y Hy). rewrite Ey, Nat2Z.id, Hk in H. congruence.
  - intros (y & Hy & <-). eapply nth_error_In. now apply H.
Qed.

Lemma set_length s l : StronglySorted Z.lt s -> (forall v, In v s -> In v l) -> (length s <= length l)%nat.
Proof.
  intros Hs Hi. apply NoDup_incl_length; [|exact Hi].
  induction Hs as [|x s Hs IH Hx]; constructor.
  - intros Hin. rewrite Forall_forall in Hx. specialize (Hx x Hin). lia.
  - apply IH. intros v Hv. apply Hi. now right.
Qed.

Lemma partition_eq asserts nd mark t q s o : unique_partition nd q = Ok s -> offset_in_partitions asserts (pl_offset q) (pl_shape q) = o ->
  count_unique_partition asserts nd mark t q =
    obind o (fun o => Ok (Placed (pl_locality q) o [1; 1] [value_of nd mark t q])).
Proof.
  intros H1 H2. unfold count_unique_partition. unfold value_of. unfold unique_partition in *. rewrite H1. cbn [obind]. rewrite H2. reflexivity.
Qed.

Lemma count_ok asserts nd mark t a p arr f : length a = 2%nat -> raster_of a p arr f -> divides a p -> int_type t -> volume p <= imax t ->
  exists out g, partition_count_unique asserts nd mark t arr = Ok out /\
    raster_of (parts_shape a p) [1; 1] out g /\ map pl_locality (pa_parts out) = map pl_locality (pa_parts arr) /\
    forall c, in_shape (parts_shape a p) c -> number_of_values nd (mark 0) a p f c (g c).
Proof.
  intros Ha H Hd Ht Hv. pose proof H as (Hne & Hf & _ & Hs & _). pose proof (raster_length _ _ _ _ H) as Hl. unfold nr_parts in Hl.
  assert (Hlp : length p = length a) by (symmetry; clear -Hf; induction Hf; cbn; congruence).
  assert (Hpp : Forall (fun e => 0 < e) p).
  { clear -Hf. induction Hf; constructor; [lia|assumption]. }
  set (h := fun q => Placed (pl_locality q) (match offset_in_partitions asserts (pl_offset q) (pl_shape q) with Ok o => o | _ => [] end) [1; 1] [value_of nd mark t q]).
  assert (Q : forall q, In q (pa_parts arr) -> exists c, in_shape (parts_shape a p) c /\ nth_error (pa_parts arr) (Z.to_nat (rowmaj (parts_shape a p) c)) = Some q /\
      pl_offset q = part_offset p c /\ pl_shape q = p /\ block_holds p (pl_data q) (fun x => f (vadd (part_offset p c) x))).
  { intros q Hq. apply In_nth_error in Hq as [k Hk]. assert (k < length (pa_parts arr))%nat by (apply nth_error_Some; congruence).
    destruct (rowmaj_surj (parts_shape a p) (Z.of_nat k)) as (c & Hc & Ec); [now apply parts_shape_pos|lia|].
    destruct (raster_part a p arr f c H Hc) as (q' & E1 & E2 & E3 & E4). rewrite Ec, Nat2Z.id, Hk in E1. injection E1 as <-.
    exists c. rewrite Ec, Nat2Z.id. rewrite (extents_ok a p c) in E3, E4 by assumption. auto. }
  assert (U : forall q, In q (pa_parts arr) -> exists s, unique_partition nd q = Ok s /\ set_of (fun v => In v (pl_data q) /\ nd v = false) s).
  { intros q Hq. apply unique_partition_ok. eapply raster_part_size; eassumption. }
  assert (Eq : partition_count_unique asserts nd mark t arr = Ok (PArray (pa_sip arr) (pa_sip arr) (map h (pa_parts arr)))).
  { unfold partition_count_unique. rewrite (sequence_all _ h); [reflexivity|]. intros q Hq.
    destruct (U q Hq) as (s & E1 & _). destruct (Q q Hq) as (c & Hc & _ & Eo & Es & _).
    assert (X : offset_in_partitions asserts (pl_offset q) (pl_shape q) = Ok c).
    { rewrite Eo, Es. apply offsets_ok; [|exact Hpp]. rewrite <- (in_shape_length _ _ Hc). clear -Hf. induction Hf; cbn; congruence. }
    rewrite (partition_eq _ _ _ _ _ s _ E1 X). cbn [obind]. unfold h. now rewrite X. }
  set (g := fun c => match nth_error (pa_parts arr) (Z.to_nat (rowmaj (parts_shape a p) c)) with Some q => value_of nd mark t q | None => 0 end).
  assert (Hs1 : ones (parts_shape a p) = [1; 1]).
  { destruct a as [|a0 [|a1 [|]]]; try discriminate. destruct p as [|p0 [|p1 [|]]]; try discriminate. reflexivity. }
  exists (PArray (pa_sip arr) (pa_sip arr) (map h (pa_parts arr))), g. split; [exact Eq|]. split; [|split].
  - rewrite Hs, <- Hs1. apply ones_raster; [destruct Hf; [congruence|discriminate]|now apply parts_shape_pos|rewrite map_length; exact Hl|].
    intros c Hc. destruct (raster_part a p arr f c H Hc) as (q & E1 & E2 & E3 & _). exists (pl_locality q).
    rewrite nth_error_map, E1. cbn [option_map]. unfold h, g. rewrite E1, E2, E3, (extents_ok a p c), Hs1 by assumption.
    rewrite offsets_ok; [reflexivity| |exact Hpp]. rewrite <- (in_shape_length _ _ Hc). clear -Hf. induction Hf; cbn; congruence.
  - cbn [pa_parts]. rewrite map_map. reflexivity.
  - intros c Hc. destruct (raster_part a p arr f c H Hc) as (q & E1 & E2 & E3 & E4).
    destruct (U q (nth_error_In _ _ E1)) as (s & Us & S1 & S2). exists s. split.
    + split; [exact S1|]. intros v. rewrite S2, (block_values _ _ _ v (part_extent_pos a p c Hf Hc) E4). tauto.
    + unfold g. rewrite E1. unfold value_of. rewrite Us. destruct s as [|x s]; [reflexivity|]. cbn [result_is_valid].
      unfold result. apply wrap_id; [exact Ht|]. destruct E4 as [E4 _]. rewrite (extents_ok a p c) in E4 by assumption.
      assert ((length (x :: s) <= length (pl_data q))%nat) by (apply set_length; [exact S1|intros v; rewrite S2; tauto]).
      split; [|lia]. unfold imin. destruct (signed t); [|lia]. pose proof (Z.pow_nonneg 2 (bits t - 1)). lia.
Qed.

(** Borders *)
Lemma offset_wrong asserts a p : partition_fits a p -> leaves_border a p ->
  let c := map (fun e => e - 1) (parts_shape a p) in
  offset_in_partitions asserts (part_offset p c) (part_extent a p c) <> Ok c.
Proof.
  intros Hf. unfold leaves_border. induction Hf as [|x y a p Hxy Hf IH]; intros Hb; [inversion Hb|].
  cbn [combine] in Hb. cbn -[Z.quot Z.rem Z.eqb]. rewrite Z.eqb_refl.
  set (k := x / y - 1). destruct (asserts && negb (Z.rem (k * y) (x - k * y) =? 0)); [discriminate|].
  apply Exists_cons in Hb. destruct Hb as [[Hm Hk]|Hb'].
  - destruct (offset_in_partitions _ _ _); cbn; try discriminate. intros W. injection W as W _.
    pose proof (Z.div_mod x y ltac:(lia)). pose proof (Z.mod_pos_bound x y ltac:(lia)).
    rewrite Z.quot_div_nonneg in W by (unfold k in *; nia).
    assert (k * y / (x - k * y) < k); [|lia]. apply Z.div_lt_upper_bound; unfold k in *; nia.
  - specialize (IH Hb'). cbn zeta in IH. destruct (offset_in_partitions _ _ _); cbn; try discriminate. intros W. injection W as _ W. congruence.
Qed.

Lemma sequence_inv {A B} (f : A -> outcome B) l r k x : sequence (map f l) = Ok r -> nth_error l k = Some x ->
  exists y, f x = Ok y /\ nth_error r k = Some y.
Proof.
  revert r k. induction l as [|a l IH]; intros r [|k] E I; cbn in I; try discriminate; cbn [map sequence] in E;
    destruct (f a) as [b| |] eqn:Fa; try discriminate; cbn [obind] in E;
    destruct (sequence (map f l)) as [r'| |] eqn:S; try discriminate; injection E as <-.
  - injection I as <-. exists b. auto.
  - cbn. now apply (IH r' k).
Qed.

Lemma border_wrong asserts nd mark t a p arr f : length a = 2%nat -> raster_of a p arr f -> leaves_border a p ->
  forall out, partition_count_unique asserts nd mark t arr = Ok out -> forall g, ~ raster_of (parts_shape a p) [1; 1] out g.
Proof.
  intros Ha H Hb out E g R. pose proof H as (Hne & Hf & _ & Hs & _).
  set (c := map (fun e => e - 1) (parts_shape a p)).
  assert (Hc : in_shape (parts_shape a p) c).
  { unfold c. pose proof (parts_shape_pos a p Hf) as Hp. clear -Hp. induction Hp; cbn; [exact I|]. split; [lia|assumption]. }
  pose proof (offset_wrong asserts a p Hf Hb) as W. cbn zeta in W. fold c in W.
  destruct (raster_part a p arr f c H Hc) as (q & E1 & E2 & E3 & E4).
  unfold partition_count_unique in E. destruct (sequence _) as [parts| |] eqn:Es; try discriminate. cbn [obind] in E. injection E as <-.
  destruct (sequence_inv _ _ _ _ _ Es E1) as (q' & F1 & F2).
  assert (Hs1 : ones (parts_shape a p) = [1; 1]).
  { destruct Hf as [|? ? ? ? ? [|? ? ? ? ? []]]; try discriminate. reflexivity. }
  rewrite <- Hs1 in R. assert (Hc' : in_shape (parts_shape (parts_shape a p) (ones (parts_shape a p))) c) by (now rewrite parts_shape_ones).
  destruct (raster_part _ _ _ _ c R Hc') as (q'' & G1 & G2 & _). rewrite parts_shape_ones in G1. cbn [pa_parts] in G1.
  rewrite F2 in G1. injection G1 as <-. rewrite (proj1 (part_ones _ _ Hc)) in G2.
  destruct (unique_partition_ok nd q (raster_part_size _ _ _ _ _ H (nth_error_In _ _ E1))) as (s & U & _).
  rewrite (partition_eq _ _ _ _ _ s _ U eq_refl), E2, E3 in F1.
  destruct (offset_in_partitions _ _ _) as [o| |]; try discriminate. cbn [obind] in F1. injection F1 as <-. cbn in G2. congruence.
Qed.

Lemma locality_id_ok {E} a p (arr : parray E) f : raster_of a p arr f ->
  exists g, raster_of (parts_shape a p) (map (fun _ => 1) (parts_shape a p)) (locality_id arr) g /\
    map pl_locality (pa_parts (locality_id arr)) = map pl_locality (pa_parts arr) /\
    forall c, in_shape (parts_shape a p) c ->
      exists q, In q (pa_parts arr) /\ pl_offset q = part_offset p c /\ pl_shape q = part_extent a p c /\ g c = pl_locality q.
Proof.
  intros H. destruct (by_index a p arr f locality_id_partition (fun _ q => pl_locality q) H) as [A B]; [reflexivity|].
  eexists. split; [exact A|]. split; [exact B|]. intros c Hc. destruct (raster_part a p arr f c H Hc) as (q & E1 & E2 & E3 & _).
  exists q. cbn beta. rewrite E1. split; [eapply nth_error_In; exact E1|auto].
Qed.
Lemma timestamp_ok {E} now a p (arr : parray E) f : length a = 2%nat -> raster_of a p arr f ->
  exists g, raster_of (parts_shape a p) [1; 1] (timestamp now arr) g /\
    map pl_locality (pa_parts (timestamp now arr)) = map pl_locality (pa_parts arr) /\
    forall c, in_shape (parts_shape a p) c -> g c = now (rowmaj (parts_shape a p) c).
Proof.
  intros Ha H. pose proof H as (_ & Hf & _ & Hs & _).
  assert (Hs1 : ones (parts_shape a p) = [1; 1]).
  { destruct Hf as [|? ? ? ? ? [|? ? ? ? ? []]]; try discriminate. reflexivity. }
  destruct (by_index a p arr f (timestamp_partition now) (fun i _ => now i) H) as [A B].
  { intros i q. rewrite Hs, Hs1. reflexivity. }
  rewrite Hs1 in A. eexists. split; [exact A|]. split; [exact B|]. intros c Hc. destruct (raster_part a p arr f c H Hc) as (q & E1 & _).
  cbn beta. now rewrite E1.
Qed.
