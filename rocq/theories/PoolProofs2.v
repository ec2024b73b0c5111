From Verif Require Import Common CommonProofs PoolModel PoolProofs.
Open Scope Z_scope.

Lemma fold_mul l : forall a, fold_left Z.mul l a = a * fold_right Z.mul 1 l.
Proof. induction l as [|x l IH]; intros a; cbn [fold_left fold_right]; [lia|]. rewrite IH. ring. Qed.
Lemma nr_cells_fold l : nr_cells l = fold_right Z.mul 1 l.
Proof. unfold nr_cells, prodZ. rewrite fold_mul. lia. Qed.
Lemma fold_max l : forall a, a <= fold_left Z.max l a /\ (forall x, In x l -> x <= fold_left Z.max l a).
Proof.
  induction l as [|y l IH]; intros a; cbn [fold_left]; [split; [lia|intros x []]|]. destruct (IH (Z.max a y)) as [A B]. split; [lia|]. intros x [->|H]; [lia|auto].
Qed.
Lemma fold_max_in l : forall a, fold_left Z.max l a = a \/ In (fold_left Z.max l a) l.
Proof.
  induction l as [|y l IH]; intros a; cbn [fold_left]; [now left|]. destruct (IH (Z.max a y)) as [E|E]; [|now right; right]. rewrite E. destruct (Z.max_spec a y) as [[_ ->]|[_ ->]]; [right; now left|now left].
Qed.

Lemma scaled_spec r size e M : 1 <= r -> 1 <= size -> 0 <= e <= M -> 1 <= M -> let k := scaled_extent r size e M in
  0 <= k /\ k ^ r * M ^ r <= size * e ^ r < (k + 1) ^ r * M ^ r.
Proof.
  intros Hr Hs He HM k. unfold scaled_extent in k. set (P := fun k => k ^ r * M ^ r <=? size * e ^ r) in *. pose proof (largest_le (Z.to_nat size) P) as L. fold k in L. split; [lia|].
  assert (M1 : 1 <= M ^ r) by (apply (Z.pow_le_mono_l 1 M r) in HM || (pose proof (Z.pow_le_mono_l 1 M r ltac:(lia)); rewrite Z.pow_1_l in *; lia); rewrite Z.pow_1_l in HM; lia).
  assert (Ee : 0 <= e ^ r <= M ^ r) by (split; [apply Z.pow_nonneg; lia|apply Z.pow_le_mono_l; lia]).
  split.
  - apply Z.leb_le. change (P k = true). apply largest_holds. unfold P. apply Z.leb_le. rewrite Z.pow_0_l by lia. nia.
  - destruct (Z.eq_dec k (Z.of_nat (Z.to_nat size))) as [E|N].
    + assert (size + 1 <= (k + 1) ^ r). { replace k with size by lia. rewrite <- (Z.pow_1_r (size + 1)) at 1. apply Z.pow_le_mono_r; lia. } nia.
    + assert (HF : P (k + 1) = false). { apply largest_max with (n := Z.to_nat size). fold k. lia. } unfold P in HF. apply Z.leb_gt in HF. exact HF.
Qed.

Lemma product_bound r size M l : 1 <= r -> 1 <= size -> 1 <= M -> (forall e, In e l -> 0 <= e <= M) ->
  let k := fold_right Z.mul 1 (map (fun e => scaled_extent r size e M) l) in let p := fold_right Z.mul 1 l in
  0 <= k /\ 0 <= p <= M ^ Z.of_nat (length l) /\ k ^ r * (M ^ Z.of_nat (length l)) ^ r <= size ^ Z.of_nat (length l) * p ^ r.
Proof.
  intros Hr Hs HM H. induction l as [|e l IH]; cbv zeta.
  - cbn [map fold_right length]. change (Z.of_nat 0) with 0. rewrite !Z.pow_0_r, !Z.pow_1_l by lia. lia.
  - cbn [map fold_right length]. cbv zeta in IH. destruct IH as [K [[P0 P1] B]]; [intros; apply H; now right|]. set (k := fold_right Z.mul 1 (map (fun e => scaled_extent r size e M) l)) in *. set (p := fold_right Z.mul 1 l) in *. set (n := Z.of_nat (length l)) in *.
    destruct (scaled_spec r size e M Hr Hs (H e (or_introl eq_refl)) HM) as [X0 [X1 _]]. set (x := scaled_extent r size e M) in *. pose proof (H e (or_introl eq_refl)) as He.
    rewrite Nat2Z.inj_succ, <- Z.add_1_r. fold n. rewrite !Z.pow_add_r, !Z.pow_1_r by lia.
    split; [nia|]. split; [split; [nia|]|].
    + rewrite (Z.mul_comm _ M). apply Z.mul_le_mono_nonneg; lia.
    + rewrite !Z.pow_mul_l. replace (x ^ r * k ^ r * ((M ^ n) ^ r * M ^ r)) with ((x ^ r * M ^ r) * (k ^ r * (M ^ n) ^ r)) by ring.
      replace (size ^ n * size * (e ^ r * p ^ r)) with ((size * e ^ r) * (size ^ n * p ^ r)) by ring.
      assert (0 <= x ^ r) by (apply Z.pow_nonneg; lia). assert (0 <= M ^ r) by (apply Z.pow_nonneg; lia). assert (0 <= k ^ r) by (apply Z.pow_nonneg; lia). assert (0 <= (M ^ n) ^ r) by (apply Z.pow_nonneg, Z.pow_nonneg; lia).
      apply Z.mul_le_mono_nonneg; nia.
Qed.
Lemma shape_max l : l <> [] -> (forall e, In e l -> 1 <= e) -> let M := fold_left Z.max l 0 in 1 <= M /\ (forall e, In e l -> 0 <= e <= M) /\ In M l.
Proof.
  intros N H M. destruct (fold_max l 0) as [_ B]. fold M in B. assert (1 <= M). { destruct l as [|x l]; [congruence|]. pose proof (H x (or_introl eq_refl)). pose proof (B x (or_introl eq_refl)). lia. }
  split; [assumption|]. split; [intros e He; specialize (H e He); specialize (B e He); lia|]. destruct (fold_max_in l 0) as [E|E]; [fold M in E; lia|exact E].
Qed.
Lemma scaled_cells l size : l <> [] -> (forall e, In e l -> 1 <= e) -> 1 <= size -> 0 <= nr_cells (scaled_shape l size) <= size.
Proof.
  intros N H Hs. destruct (shape_max l N H) as [HM [HE _]]. unfold scaled_shape. set (M := fold_left Z.max l 0) in *. set (r := Z.of_nat (length l)). assert (Hr : 1 <= r) by (unfold r; destruct l; [congruence|cbn; lia]).
  rewrite nr_cells_fold. destruct (product_bound r size M l Hr Hs HM HE) as [K [[P0 P1] B]]. fold r in P1, B. set (k := fold_right Z.mul 1 (map _ l)) in *. set (p := fold_right Z.mul 1 l) in *. split; [exact K|].
  rewrite <- !Z.pow_mul_l in B. assert (1 <= M ^ r) by (pose proof (Z.pow_le_mono_l 1 M r ltac:(lia)); rewrite Z.pow_1_l in *; lia).
  assert (k * M ^ r <= size * p). { apply Z.pow_le_mono_l_iff with (c := r); try exact B; nia. } nia.
Qed.

Lemma sizes_linear fuel first m hi : forall i, 1 <= first -> 1 < m -> 1 <= i -> (Z.to_nat (hi - i + 1) < fuel)%nat ->
  exists l, linear_sizes fuel first m hi i = Ok l /\ (forall k size, nth_error l k = Some size -> size = first + (i + Z.of_nat k) * (m - 1) * first /\ size <= hi) /\ hi < first + (i + Z.of_nat (length l)) * (m - 1) * first.
Proof.
  induction fuel as [|fuel IH]; intros i Hf Hm Hi HF; [lia|]. cbn [linear_sizes]. set (size := first + i * (m - 1) * first). assert (i < size) by (unfold size; nia). destruct (Z.leb_spec size hi) as [L|L].
  - destruct (IH (i + 1) Hf Hm ltac:(lia) ltac:(lia)) as [l [E [A B]]]. rewrite E. exists (size :: l). split; [reflexivity|]. split.
    + intros [|k] s Hk; cbn [nth_error] in Hk; [injection Hk as <-; split; [unfold size; lia|exact L]|]. destruct (A k s Hk) as [-> L']. rewrite Nat2Z.inj_succ. split; [f_equal; f_equal; f_equal; lia|exact L'].
    + cbn [length]. rewrite Nat2Z.inj_succ. replace (i + Z.succ (Z.of_nat (length l))) with (i + 1 + Z.of_nat (length l)) by lia. exact B.
  - exists []. split; [reflexivity|]. split; [intros [|k] s Hk; discriminate Hk|]. cbn [length]. change (Z.of_nat 0) with 0. rewrite Z.add_0_r. exact L.
Qed.
Lemma sizes_exponential fuel m hi : forall s, 1 < m -> 1 <= s -> s <= hi -> (Z.to_nat (hi - s) < fuel)%nat ->
  exists l, exponential_sizes fuel m hi s = Ok l /\ (forall k size, nth_error l k = Some size -> size = s * m ^ (Z.of_nat k + 1) /\ size <= hi) /\ hi < s * m ^ (Z.of_nat (length l) + 1).
Proof.
  induction fuel as [|fuel IH]; intros s Hm Hs Hh HF; [lia|]. cbn [exponential_sizes]. destruct (Z.leb_spec (m * s) hi) as [L|L].
  - destruct (IH (m * s) Hm ltac:(nia) L ltac:(nia)) as [l [E [A B]]]. rewrite E. exists (m * s :: l). split; [reflexivity|]. split.
    + intros [|k] x Hk; cbn [nth_error] in Hk; [injection Hk as <-; split; [|exact L]; change (Z.of_nat 0 + 1) with 1; rewrite Z.pow_1_r; ring|]. destruct (A k x Hk) as [-> L'].
      rewrite Nat2Z.inj_succ. split; [|exact L']. replace (Z.succ (Z.of_nat k) + 1) with (Z.succ (Z.of_nat k + 1)) by lia. rewrite Z.pow_succ_r by lia. ring.
    + cbn [length]. rewrite Nat2Z.inj_succ. replace (Z.succ (Z.of_nat (length l)) + 1) with (Z.succ (Z.of_nat (length l) + 1)) by lia. rewrite Z.pow_succ_r by lia. replace (s * (m * m ^ (Z.of_nat (length l) + 1))) with (m * s * m ^ (Z.of_nat (length l) + 1)) by ring. exact B.
  - exists []. split; [reflexivity|]. split; [intros [|k] x Hk; discriminate Hk|]. cbn [length]. change (Z.of_nat 0 + 1) with 1. rewrite Z.pow_1_r. lia.
Qed.

(** The number of cells aimed at by shape [k] *)
Definition aim (method : growth) (first m k : Z) : Z := match method with Linear => first + k * (m - 1) * first | Exponential => first * m ^ k end.
Lemma cells_pos l : (forall e, In e l -> 1 <= e) -> 1 <= nr_cells l.
Proof. rewrite nr_cells_fold. induction l as [|x l IH]; intros H; cbn [fold_right]; [lia|]. pose proof (H x (or_introl eq_refl)). specialize (IH (fun e He => H e (or_intror He))). nia. Qed.
Lemma range_ok l hi m method : l <> [] -> (forall e, In e l -> 1 <= e) -> 1 < m -> nr_cells l <= hi ->
  exists sizes, range_of_shapes l hi m method = Ok (map (scaled_shape l) (nr_cells l :: sizes)) /\
    (forall k size, nth_error (nr_cells l :: sizes) k = Some size -> size = aim method (nr_cells l) m (Z.of_nat k) /\ 1 <= size <= hi) /\
    hi < aim method (nr_cells l) m (Z.of_nat (S (length sizes))).
Proof.
  intros N H Hm Hh. pose proof (cells_pos l H) as HP. set (first := nr_cells l) in *. destruct (shape_max l N H) as [HM _].
  assert (S : exists sizes, match method with Linear => linear_sizes (S (Z.to_nat hi)) first m hi 1 | Exponential => exponential_sizes (S (Z.to_nat hi)) m hi first end = Ok sizes /\
     (forall k size, nth_error (first :: sizes) k = Some size -> size = aim method first m (Z.of_nat k) /\ 1 <= size <= hi) /\ hi < aim method first m (Z.of_nat (S (length sizes)))).
  { destruct method.
    - destruct (sizes_linear (S (Z.to_nat hi)) first m hi 1 HP Hm ltac:(lia) ltac:(lia)) as [sizes [E [A B]]]. exists sizes. split; [exact E|]. split.
      + intros [|k] size Hk; cbn [nth_error] in Hk; [injection Hk as <-; cbn [aim]; change (Z.of_nat 0) with 0; lia|]. destruct (A k size Hk) as [-> L]. rewrite Nat2Z.inj_succ. cbn [aim]. replace (Z.succ (Z.of_nat k)) with (1 + Z.of_nat k) by lia. split; [reflexivity|]. nia.
      + cbn [aim]. rewrite Nat2Z.inj_succ. replace (Z.succ (Z.of_nat (length sizes))) with (1 + Z.of_nat (length sizes)) by lia. exact B.
    - destruct (sizes_exponential (S (Z.to_nat hi)) m hi first Hm HP Hh ltac:(lia)) as [sizes [E [A B]]]. exists sizes. split; [exact E|]. split.
      + intros [|k] size Hk; cbn [nth_error] in Hk; [injection Hk as <-; cbn [aim]; change (Z.of_nat 0) with 0; rewrite Z.pow_0_r; lia|]. destruct (A k size Hk) as [-> L]. rewrite Nat2Z.inj_succ. cbn [aim]. rewrite <- Z.add_1_r. split; [reflexivity|].
        split; [|exact L]. assert (1 <= m ^ (Z.of_nat k + 1)) by (apply (Z.pow_le_mono_r m 0); lia). nia.
      + cbn [aim]. rewrite Nat2Z.inj_succ, <- Z.add_1_r. exact B. }
  destruct S as [sizes [E [A B]]]. exists sizes. split; [|auto]. unfold range_of_shapes. fold first. destruct l as [|x l']; [congruence|]. set (l := x :: l') in *. replace (1 <? m) with true by lia. cbn [py_assert obind]. rewrite E. cbn [obind].
  replace (fold_left Z.max l 0 =? 0) with false by lia.
  destruct (exists_last (l := first :: sizes) ltac:(discriminate)) as [pre [z EZ]]. destruct (A (length pre) z) as [_ [Z1 Z2]]; [rewrite EZ, nth_error_app2, Nat.sub_diag by lia; reflexivity|].
  rewrite EZ, map_app. cbn [map]. rewrite last_last. pose proof (scaled_cells l z N H Z1). replace (nr_cells (scaled_shape l z) <=? hi) with true by lia. reflexivity.
Qed.
Lemma square_first l : l <> [] -> (forall e, In e l -> 1 <= e) -> (forall e e', In e l -> In e' l -> e = e') -> scaled_shape l (nr_cells l) = l.
Proof.
  intros N H HS. destruct (shape_max l N H) as [HM [HE HI]]. unfold scaled_shape. set (M := fold_left Z.max l 0) in *. set (r := Z.of_nat (length l)). assert (Hr : 1 <= r) by (unfold r; destruct l; [congruence|cbn; lia]).
  assert (EC : nr_cells l = M ^ r).
  { rewrite nr_cells_fold. unfold r. assert (HA : forall e, In e l -> e = M) by (intros; now apply HS). clearbody M. clear - HA. induction l as [|x l IH]; [reflexivity|]. cbn [fold_right length]. rewrite Nat2Z.inj_succ, Z.pow_succ_r by lia. rewrite IH by (intros; apply HA; now right). now rewrite (HA x (or_introl eq_refl)). }
  rewrite EC. assert (HA : forall e, In e l -> scaled_extent r (M ^ r) e M = e).
  { intros e He. rewrite (HS e M He HI). assert (1 <= M ^ r) by (pose proof (Z.pow_le_mono_l 1 M r ltac:(lia)); rewrite Z.pow_1_l in *; lia).
    destruct (scaled_spec r (M ^ r) M M Hr ltac:(lia) ltac:(lia) HM) as [K [A B]]. set (k := scaled_extent r (M ^ r) M M) in *. rewrite <- Z.mul_lt_mono_pos_r in B by lia. rewrite <- Z.mul_le_mono_pos_r in A by lia.
    apply Z.pow_le_mono_l_iff in A; [|lia..]. apply Z.pow_lt_mono_l_iff in B; [|lia..]. lia. }
  clearbody M r. clear - HA. revert HA. generalize (M ^ r). intros size HA. induction l as [|x l IH]; [reflexivity|]. cbn [map]. f_equal; [apply HA; now left|]. apply IH. intros; apply HA. now right.
Qed.
Lemma scaled_forall (l : list Z) (V M rank : Z) :
  (forall e, In e l -> 0 <= scaled_extent rank V e M /\ scaled_extent rank V e M ^ rank * M ^ rank <= V * e ^ rank < (scaled_extent rank V e M + 1) ^ rank * M ^ rank) ->
  Forall2 (fun x e => 0 <= x /\ x ^ rank * M ^ rank <= V * e ^ rank < (x + 1) ^ rank * M ^ rank) (map (fun e => scaled_extent rank V e M) l) l.
Proof. intros HS. induction l as [|e l IH]; cbn [map]; [constructor|]. constructor; [apply HS; now left|]. apply IH. intros; apply HS. now right. Qed.
