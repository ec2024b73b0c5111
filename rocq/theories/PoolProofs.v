From Verif Require Import Common PoolModel.
Open Scope Z_scope.

Lemma repeated_mul n m s : repeated n (fun size => size * m) s = s * m ^ Z.of_nat n.
Proof. revert s. induction n as [|n IH]; intros s; cbn [repeated]; [change (Z.of_nat 0) with 0; rewrite Z.pow_0_r; lia|]. rewrite IH, Nat2Z.inj_succ, Z.pow_succ_r by lia. ring. Qed.
Lemma repeated_add n i s : repeated n (fun size => size + i) s = s + Z.of_nat n * i.
Proof. revert s. induction n as [|n IH]; intros s; cbn [repeated]; [cbn; lia|]. rewrite IH. lia. Qed.

Lemma multiplied_loop_ok fuel m hi : forall s nr, 1 < m -> 1 <= s <= hi -> (Z.to_nat (hi - s) < fuel)%nat ->
  exists n, multiplied_loop fuel m hi s nr = Ok (nr + n) /\ 0 <= n /\ s * m ^ n <= hi < s * m ^ (n + 1).
Proof.
  induction fuel as [|fuel IH]; intros s nr Hm Hs HF; [lia|]. cbn [multiplied_loop]. destruct (Z.leb_spec (m * s) hi) as [L|L].
  - destruct (IH (s * m) (nr + 1) Hm ltac:(nia) ltac:(nia)) as [n [E [N B]]]. exists (n + 1). rewrite E. split; [f_equal; lia|]. split; [lia|].
    replace (m ^ (n + 1 + 1)) with (m * m ^ (n + 1)) by (rewrite <- Z.pow_succ_r by lia; f_equal; lia). replace (m ^ (n + 1)) with (m * m ^ n) in * by (rewrite <- Z.pow_succ_r by lia; f_equal; lia). nia.
  - exists 0. split; [f_equal; lia|]. split; [lia|]. rewrite Z.pow_0_r. change (0 + 1) with 1. rewrite Z.pow_1_r. lia.
Qed.
Lemma multiplied_unique m hi s n n' : 1 < m -> 1 <= s -> 0 <= n -> 0 <= n' -> s * m ^ n <= hi < s * m ^ (n + 1) -> s * m ^ n' <= hi < s * m ^ (n' + 1) -> n = n'.
Proof.
  intros Hm Hs N N' [A B] [A' B']. assert (K : forall a b, 0 <= a -> a < b -> m ^ (a + 1) <= m ^ b) by (intros; apply Z.pow_le_mono_r; lia).
  destruct (Z.lt_trichotomy n n') as [L|[L|L]]; [|exact L|]; [specialize (K n n' N L)|specialize (K n' n N' L)]; nia.
Qed.
Lemma nr_multiplied lo hi m n : 1 < m -> 1 <= lo -> 0 <= n -> lo * m ^ n <= hi < lo * m ^ (n + 1) -> nr_permutations (Multiplied lo hi m) = Ok (n + 1).
Proof.
  intros Hm Hl N B. assert (1 <= m ^ n) by (apply (Z.pow_le_mono_r m 0 n); lia). unfold nr_permutations. destruct (multiplied_loop_ok (S (Z.to_nat hi)) m hi lo 1 Hm ltac:(nia) ltac:(nia)) as [n' [E [N' B']]].
  rewrite E. rewrite (multiplied_unique m hi lo n n') by assumption. f_equal. lia.
Qed.

Lemma incremented_loop_ok fuel i hi : forall s nr, 1 <= i -> s - i <= hi -> (Z.to_nat (hi + 1 - s) < fuel)%nat ->
  exists n, incremented_loop fuel i hi s nr = Ok (nr + n) /\ 0 <= n /\ s - i + n * i <= hi < s - i + (n + 1) * i.
Proof.
  induction fuel as [|fuel IH]; intros s nr Hi Hs HF; [lia|]. cbn [incremented_loop]. destruct (Z.leb_spec s hi) as [L|L].
  - destruct (IH (s + i) (nr + 1) Hi ltac:(lia) ltac:(lia)) as [n [E [N B]]]. exists (n + 1). rewrite E. split; [f_equal; lia|]. split; [lia|]. nia.
  - exists 0. split; [f_equal; lia|]. lia.
Qed.
Lemma nr_incremented lo hi i n : 1 <= i -> 1 <= lo -> 0 <= n -> lo + n * i <= hi < lo + (n + 1) * i -> nr_permutations (Incremented lo hi i) = Ok (n + 1).
Proof.
  intros Hi Hl N B. unfold nr_permutations. destruct (incremented_loop_ok (S (Z.to_nat hi)) i hi (lo + i) 1 Hi ltac:(nia) ltac:(nia)) as [n' [E [N' B']]].
  rewrite E. f_equal. nia.
Qed.

Lemma size_multiplied lo hi m n k : 1 < m -> 1 <= lo -> 0 <= n -> lo * m ^ n <= hi < lo * m ^ (n + 1) ->
  permutation_size (Multiplied lo hi m) k = if (0 <=? k) && (k <=? n) then Ok (lo * m ^ k) else Throw.
Proof.
  intros Hm Hl N B. unfold permutation_size. rewrite (nr_multiplied lo hi m n) by assumption. cbn [obind].
  replace (k <? n + 1) with (k <=? n) by (destruct (Z.ltb_spec k (n + 1)); destruct (Z.leb_spec k n); lia). destruct ((0 <=? k) && (k <=? n)) eqn:E; [|reflexivity]. cbn [py_assert obind]. rewrite repeated_mul, Z2Nat.id by lia. reflexivity.
Qed.
Lemma size_incremented lo hi i n k : 1 <= i -> 1 <= lo -> 0 <= n -> lo + n * i <= hi < lo + (n + 1) * i ->
  permutation_size (Incremented lo hi i) k = if (0 <=? k) && (k <=? n) then Ok (lo + k * i) else Throw.
Proof.
  intros Hm Hl N B. unfold permutation_size. rewrite (nr_incremented lo hi i n) by assumption. cbn [obind].
  replace (k <? n + 1) with (k <=? n) by (destruct (Z.ltb_spec k (n + 1)); destruct (Z.leb_spec k n); lia). destruct ((0 <=? k) && (k <=? n)) eqn:E; [|reflexivity]. cbn [py_assert obind]. rewrite repeated_add, Z2Nat.id by lia. reflexivity.
Qed.
Lemma multiplied_exists lo hi m : 1 < m -> 1 <= lo <= hi -> exists n, 0 <= n /\ lo * m ^ n <= hi < lo * m ^ (n + 1).
Proof. intros Hm Hl. destruct (multiplied_loop_ok (S (Z.to_nat hi)) m hi lo 0 Hm Hl ltac:(lia)) as [n [_ H]]. eauto. Qed.
Lemma incremented_exists lo hi i : 1 <= i -> 1 <= lo <= hi -> exists n, 0 <= n /\ lo + n * i <= hi < lo + (n + 1) * i.
Proof.
  intros Hi Hl. exists ((hi - lo) / i). pose proof (Z.div_pos (hi - lo) i ltac:(lia) ltac:(lia)). pose proof (Z.mul_div_le (hi - lo) i ltac:(lia)). pose proof (Z.mul_succ_div_gt (hi - lo) i ltac:(lia)). nia.
Qed.
Lemma range_multiplied lo hi m n : 1 < m -> 1 <= lo -> 0 <= n -> lo * m ^ n <= hi < lo * m ^ (n + 1) -> worker_range lo hi (Multiplied lo hi m) = Ok (Multiplied lo (lo * m ^ n) m).
Proof.
  intros Hm Hl N B. assert (1 <= m ^ n) by (apply (Z.pow_le_mono_r m 0 n); lia). unfold worker_range. rewrite (nr_multiplied lo hi m n) by assumption. cbn [obind]. rewrite (size_multiplied lo hi m n) by assumption.
  replace (n + 1 - 1) with n by lia. replace (0 <? lo) with true by lia. replace (lo <=? hi) with true by nia. replace ((0 <=? n) && (n <=? n)) with true by lia. reflexivity.
Qed.
Lemma range_incremented lo hi i n : 1 <= i -> 1 <= lo -> 0 <= n -> lo + n * i <= hi < lo + (n + 1) * i -> worker_range lo hi (Incremented lo hi i) = Ok (Incremented lo (lo + n * i) i).
Proof.
  intros Hm Hl N B. unfold worker_range. rewrite (nr_incremented lo hi i n) by assumption. cbn [obind]. rewrite (size_incremented lo hi i n) by assumption.
  replace (n + 1 - 1) with n by lia. replace (0 <? lo) with true by lia. replace (lo <=? hi) with true by nia. replace ((0 <=? n) && (n <=? n)) with true by lia. reflexivity.
Qed.
Lemma clamp_multiplied lo m n : 1 < m -> 1 <= lo -> 0 <= n -> lo * m ^ n <= lo * m ^ n < lo * m ^ (n + 1).
Proof. intros. replace (m ^ (n + 1)) with (m * m ^ n) by (rewrite <- Z.pow_succ_r by lia; f_equal; lia). assert (1 <= m ^ n) by (apply (Z.pow_le_mono_r m 0 n); lia). nia. Qed.

Lemma multiplied_ok lo hi m i s : 1 < m -> 0 < lo <= hi ->
  exists p n, pool_of_data (PoolData (Some lo) (Some hi) (Some m) i s) = Ok p /\ 0 <= n /\ lo * m ^ n <= hi < lo * m ^ (n + 1) /\
    pool_min_size p = lo /\ pool_max_size p = lo * m ^ n /\ nr_benchmarks p = Ok (n + 1) /\ (forall k, nr_workers p k = if (0 <=? k) && (k <=? n) then Ok (lo * m ^ k) else Throw) /\
    data_of_pool p = PoolData (Some lo) (Some (lo * m ^ n)) (Some m) None None /\ pool_of_data (data_of_pool p) = Ok p.
Proof.
  intros Hm Hl. destruct (multiplied_exists lo hi m Hm ltac:(lia)) as [n [N B]]. pose proof (clamp_multiplied lo m n Hm ltac:(lia) N) as C. exists (Multiplied lo (lo * m ^ n) m), n.
  unfold pool_of_data. cbn [pd_multiplier pd_min_size pd_max_size key]. replace (1 <? m) with true by lia. cbn [py_assert obind].
  split; [apply range_multiplied; auto; lia|]. split; [exact N|]. split; [exact B|]. split; [reflexivity|]. split; [reflexivity|]. split; [apply nr_multiplied; auto; lia|]. split; [intros k; apply size_multiplied; auto; lia|].
  split; [reflexivity|]. cbn [data_of_pool pd_multiplier pd_min_size pd_max_size key]. replace (1 <? m) with true by lia. cbn [py_assert obind]. apply range_multiplied; auto; lia.
Qed.
Lemma incremented_ok lo hi i s : 1 <= i -> 0 < lo <= hi ->
  exists p n, pool_of_data (PoolData (Some lo) (Some hi) None (Some i) s) = Ok p /\ 0 <= n /\ lo + n * i <= hi < lo + (n + 1) * i /\
    pool_min_size p = lo /\ pool_max_size p = lo + n * i /\ nr_benchmarks p = Ok (n + 1) /\ (forall k, nr_workers p k = if (0 <=? k) && (k <=? n) then Ok (lo + k * i) else Throw) /\
    data_of_pool p = PoolData (Some lo) (Some (lo + n * i)) None (Some i) None /\ pool_of_data (data_of_pool p) = Ok p.
Proof.
  intros Hm Hl. destruct (incremented_exists lo hi i Hm ltac:(lia)) as [n [N B]]. assert (C : lo + n * i <= lo + n * i < lo + (n + 1) * i) by lia. exists (Incremented lo (lo + n * i) i), n.
  unfold pool_of_data. cbn [pd_multiplier pd_incrementor pd_min_size pd_max_size key]. replace (1 <=? i) with true by lia. cbn [py_assert obind].
  split; [apply range_incremented; auto; lia|]. split; [exact N|]. split; [exact B|]. split; [reflexivity|]. split; [reflexivity|]. split; [apply nr_incremented; auto; lia|]. split; [intros k; apply size_incremented; auto; lia|].
  split; [reflexivity|]. cbn [data_of_pool pd_multiplier pd_incrementor pd_min_size pd_max_size key]. replace (1 <=? i) with true by lia. cbn [py_assert obind]. apply range_incremented; auto; lia.
Qed.
Lemma fixed_ok lo hi size : 1 <= size ->
  exists p, pool_of_data (PoolData lo hi None None (Some size)) = Ok p /\ pool_min_size p = size /\ pool_max_size p = size /\ nr_benchmarks p = Ok 1 /\ (forall k, nr_workers p k = if k =? 0 then Ok size else Throw) /\
    data_of_pool p = PoolData None None None None (Some size) /\ pool_of_data (data_of_pool p) = Ok p.
Proof.
  intros H. exists (Fixed size).
  assert (E : forall a b, pool_of_data (PoolData a b None None (Some size)) = Ok (Fixed size)).
  { intros a b. unfold pool_of_data. cbn [pd_multiplier pd_incrementor pd_size key obind]. replace (1 <=? size) with true by lia. cbn [py_assert obind]. unfold worker_range. replace (0 <? size) with true by lia. rewrite Z.leb_refl. reflexivity. }
  split; [apply E|]. split; [reflexivity|]. split; [reflexivity|]. split; [reflexivity|]. split; [|split; [reflexivity|apply E]].
  intros k. unfold nr_workers, permutation_size. destruct (k =? 0); reflexivity.
Qed.
Lemma range_rejected lo hi p : ~ 0 < lo <= hi -> worker_range lo hi p = Throw.
Proof. intros H. unfold worker_range. destruct (Z.ltb_spec 0 lo); [|reflexivity]. cbn [py_assert obind]. destruct (Z.leb_spec lo hi); [lia|reflexivity]. Qed.

(** Shapes *)
Lemma largest_le n P : 0 <= largest n P <= Z.of_nat n.
Proof. induction n as [|n IH]; cbn [largest]; destruct (P _); lia. Qed.
Lemma largest_holds n P : P 0 = true -> P (largest n P) = true.
Proof. intros H. induction n as [|n IH]; cbn [largest]; [change (Z.of_nat 0) with 0; now rewrite H|]. destruct (P (Z.of_nat (S n))) eqn:E; [exact E|exact IH]. Qed.
Lemma largest_max n P k : largest n P < k <= Z.of_nat n -> P k = false.
Proof.
  revert k. induction n as [|n IH]; intros k H.
  - cbn [largest] in H. destruct (P (Z.of_nat 0)); lia.
  - cbn [largest] in H. destruct (P (Z.of_nat (S n))) eqn:E; [lia|]. destruct (Z.eq_dec k (Z.of_nat (S n))) as [->|]; [exact E|]. apply IH. lia.
Qed.
