(** Proofs about the array shapes of weak scalability experiments (C86). *)
From Verif Require Import Common CommonProofs PoolModel PoolProofs PoolProofs2 ScaleModel.
Open Scope Z_scope.

Lemma pow_pos_1 a r : 1 <= a -> 0 <= r -> 1 <= a ^ r.
Proof. intros. pose proof (Z.pow_pos_nonneg a r). lia. Qed.

Lemma nearest r nr e : 1 <= r -> 1 <= nr -> 1 <= e -> let k := scaled r nr e in 1 <= k /\ (2 * k - 1) ^ r <= nr * (2 * e) ^ r < (2 * k + 1) ^ r.
Proof.
  intros Hr Hn He k. unfold scaled in k. set (P := fun k => (2 * k - 1) ^ r <=? nr * (2 * e) ^ r) in *. pose proof (largest_le (Z.to_nat (nr * e)) P) as L. fold k in L. rewrite Z2Nat.id in L by nia.
  assert (E1 : 1 <= (2 * e) ^ r) by (apply pow_pos_1; lia).
  assert (U : nr * (2 * e) ^ r < (2 * k + 1) ^ r).
  { destruct (Z.eq_dec k (nr * e)) as [E|N].
    - rewrite E. assert ((nr * (2 * e)) ^ r < (2 * (nr * e) + 1) ^ r) by (apply Z.pow_lt_mono_l; nia). rewrite Z.pow_mul_l in H. assert (nr ^ 1 <= nr ^ r) by (apply Z.pow_le_mono_r; lia). rewrite Z.pow_1_r in *. nia.
    - assert (HF : P (k + 1) = false) by (apply largest_max with (n := Z.to_nat (nr * e)); fold k; lia). unfold P in HF. apply Z.leb_gt in HF. replace (2 * (k + 1) - 1) with (2 * k + 1) in HF by ring. exact HF. }
  assert (K1 : 1 <= k). { destruct (Z.eq_dec k 0) as [E|]; [|lia]. rewrite E in U. change (2 * 0 + 1) with 1 in U. rewrite Z.pow_1_l in U by lia. nia. }
  split; [exact K1|]. split; [|exact U].
  assert (PK : P k = true). { apply largest_holds. unfold P. apply Z.leb_le. change (2 * 0 - 1) with (-1). assert (A : Z.abs ((-1) ^ r) = 1). { rewrite Z.abs_pow. change (Z.abs (-1)) with 1. apply Z.pow_1_l. lia. } nia. }
  apply Z.leb_le. exact PK.
Qed.

Lemma nearest_exact r m e : 1 <= r -> 1 <= m -> 1 <= e -> scaled r (m ^ r) e = m * e.
Proof.
  intros Hr Hm He. destruct (nearest r (m ^ r) e Hr (pow_pos_1 m r Hm ltac:(lia)) He) as [K1 [A B]]. set (k := scaled r (m ^ r) e) in *. rewrite <- Z.pow_mul_l in A, B.
  apply Z.pow_le_mono_l_iff in A; [|nia..]. apply Z.pow_lt_mono_l_iff in B; [|nia..]. lia.
Qed.

(** Bernoulli *)
Lemma bernoulli n K : 0 <= n -> 0 <= K -> (K + 1) ^ n * (K + 1 - n) <= K ^ n * (K + 1).
Proof.
  intros Hn HK. revert n Hn. apply natlike_ind.
  - rewrite !Z.pow_0_r. lia.
  - intros n Hn IH. rewrite <- !Z.add_1_r, !Z.pow_add_r, !Z.pow_1_r by lia. assert (0 <= (K + 1) ^ n) by (apply Z.pow_nonneg; lia). assert (0 <= K ^ n) by (apply Z.pow_nonneg; lia).
    assert (A : (K + 1) * (K + 1 - (n + 1)) <= (K + 1 - n) * K) by nia. assert (B : (K + 1) ^ n * ((K + 1) * (K + 1 - (n + 1))) <= (K + 1) ^ n * ((K + 1 - n) * K)) by (apply Z.mul_le_mono_nonneg_l; assumption).
    assert (C : (K + 1) ^ n * (K + 1 - n) * K <= K ^ n * (K + 1) * K) by (apply Z.mul_le_mono_nonneg_r; assumption). nia.
Qed.

Lemma one_upper r nr e K : 1 <= r -> 1 <= nr -> 1 <= K <= 2 * e -> let x := scaled r nr e in (K * x) ^ r <= nr * ((K + 1) * e) ^ r.
Proof.
  intros Hr Hn HK x. destruct (nearest r nr e Hr Hn ltac:(lia)) as [K1 [A _]]. fold x in K1, A.
  assert (H2 : 1 <= 2 ^ r) by (apply pow_pos_1; lia). apply Z.mul_le_mono_pos_l with (p := 2 ^ r); [lia|]. rewrite <- Z.pow_mul_l.
  replace (2 ^ r * (nr * ((K + 1) * e) ^ r)) with ((K + 1) ^ r * (nr * (2 * e) ^ r)) by (rewrite !Z.pow_mul_l; ring).
  assert (0 <= (K + 1) ^ r) by (apply Z.pow_nonneg; lia).
  destruct (Z_le_gt_dec K (2 * x - 1)).
  - transitivity ((K + 1) ^ r * (2 * x - 1) ^ r); [|apply Z.mul_le_mono_nonneg_l; assumption]. rewrite <- Z.pow_mul_l. apply Z.pow_le_mono_l. nia.
  - transitivity ((K + 1) ^ r * (2 * e) ^ r). { rewrite <- Z.pow_mul_l. apply Z.pow_le_mono_l. nia. } apply Z.mul_le_mono_nonneg_l; [assumption|]. assert (1 <= (2 * e) ^ r) by (apply pow_pos_1; lia). nia.
Qed.
Lemma one_lower r nr e K : 1 <= r -> 1 <= nr -> 1 <= K <= 2 * e -> let x := scaled r nr e in nr * ((K - 1) * e) ^ r <= (K * x) ^ r.
Proof.
  intros Hr Hn HK x. destruct (nearest r nr e Hr Hn ltac:(lia)) as [K1 [_ B]]. fold x in K1, B.
  assert (H2 : 1 <= 2 ^ r) by (apply pow_pos_1; lia). apply Z.mul_le_mono_pos_l with (p := 2 ^ r); [lia|]. rewrite <- Z.pow_mul_l.
  replace (2 ^ r * (nr * ((K - 1) * e) ^ r)) with ((K - 1) ^ r * (nr * (2 * e) ^ r)) by (rewrite !Z.pow_mul_l; ring).
  assert (0 <= (K - 1) ^ r) by (apply Z.pow_nonneg; lia). assert (1 <= (2 * e) ^ r) by (apply pow_pos_1; lia).
  assert (L : 2 * e < 2 * x + 1). { apply Z.pow_lt_mono_l_iff with (c := r); [lia..|]. nia. }
  transitivity ((K - 1) ^ r * (2 * x + 1) ^ r); [apply Z.mul_le_mono_nonneg_l; lia|]. rewrite <- Z.pow_mul_l. apply Z.pow_le_mono_l. nia.
Qed.

Lemma pow_1_more b n : 0 <= n -> b ^ (n + 1) = b ^ n * b.
Proof. intros. rewrite Z.pow_add_r, Z.pow_1_r by lia. reflexivity. Qed.
Definition prod (l : list Z) : Z := fold_right Z.mul 1 l.
Lemma products r nr K l : 1 <= r -> 1 <= nr -> 1 <= K -> (forall e, In e l -> K <= 2 * e) ->
  let n := Z.of_nat (length l) in let X := prod (map (scaled r nr) l) in let P := prod l in
  1 <= X /\ 1 <= P /\ (K ^ n * X) ^ r <= nr ^ n * ((K + 1) ^ n * P) ^ r /\ nr ^ n * ((K - 1) ^ n * P) ^ r <= (K ^ n * X) ^ r.
Proof.
  intros Hr Hn HK H. induction l as [|e l IH]; cbv zeta.
  - cbn [map prod fold_right length]. change (Z.of_nat 0) with 0. rewrite !Z.pow_0_r. lia.
  - cbn [map prod fold_right length]. cbv zeta in IH. destruct IH as [X1 [P1 [U L]]]; [intros; apply H; now right|]. fold (prod (map (scaled r nr) l)). fold (prod l). set (X := prod (map (scaled r nr) l)) in *. set (P := prod l) in *. set (n := Z.of_nat (length l)) in *.
    pose proof (H e (or_introl eq_refl)) as He. destruct (nearest r nr e Hr Hn ltac:(lia)) as [x1 _]. pose proof (one_upper r nr e K Hr Hn ltac:(lia)) as OU. pose proof (one_lower r nr e K Hr Hn ltac:(lia)) as OL. cbv zeta in OU, OL. set (x := scaled r nr e) in *.
    assert (Hn0 : 0 <= n) by apply Nat2Z.is_nonneg. rewrite Nat2Z.inj_succ, <- Z.add_1_r. fold n. pose proof (fun b => pow_1_more b n Hn0) as S1. rewrite !S1. clear S1.
    split; [clear - x1 X1; nia|]. split; [clear - He HK P1; nia|].
    replace (K ^ n * K * (x * X)) with ((K * x) * (K ^ n * X)) by ring. replace ((K + 1) ^ n * (K + 1) * (e * P)) with (((K + 1) * e) * ((K + 1) ^ n * P)) by ring. replace ((K - 1) ^ n * (K - 1) * (e * P)) with (((K - 1) * e) * ((K - 1) ^ n * P)) by ring.
    rewrite (Z.pow_mul_l (K * x)), (Z.pow_mul_l ((K + 1) * e)), (Z.pow_mul_l ((K - 1) * e)).
    assert (0 <= K ^ n) by (apply Z.pow_nonneg; clear - HK; lia). assert (0 <= (K - 1) ^ n) by (apply Z.pow_nonneg; clear - HK; lia). assert (0 <= nr ^ n) by (apply Z.pow_nonneg; clear - Hn; lia).
    assert (0 <= (K * x) ^ r) by (apply Z.pow_nonneg; clear - HK x1; nia). assert (0 <= (K ^ n * X) ^ r) by (apply Z.pow_nonneg; clear - H0 X1; nia). assert (0 <= ((K - 1) * e) ^ r) by (apply Z.pow_nonneg; clear - HK He; nia). assert (0 <= ((K - 1) ^ n * P) ^ r) by (apply Z.pow_nonneg; clear - H1 P1; nia).
    split.
    + replace (nr ^ n * nr * (((K + 1) * e) ^ r * ((K + 1) ^ n * P) ^ r)) with ((nr * ((K + 1) * e) ^ r) * (nr ^ n * ((K + 1) ^ n * P) ^ r)) by ring. apply Z.mul_le_mono_nonneg; assumption.
    + replace (nr ^ n * nr * (((K - 1) * e) ^ r * ((K - 1) ^ n * P) ^ r)) with ((nr * ((K - 1) * e) ^ r) * (nr ^ n * ((K - 1) ^ n * P) ^ r)) by ring. apply Z.mul_le_mono_nonneg; try assumption; apply Z.mul_nonneg_nonneg; try assumption; clear - Hn; lia.
Qed.

Lemma close l nr : l <> [] -> 1 <= nr -> (forall e, In e l -> 1000 * Z.of_nat (length l) <= e) ->
  let r := Z.of_nat (length l) in let W := nr_cells (map (scaled r nr) l) in let want := nr * nr_cells l in 1 <= want /\ 1000 * Z.abs (W - want) < want.
Proof.
  intros N Hn H r W want. assert (Hr : 1 <= r) by (unfold r; destruct l; [congruence|cbn; lia]). destruct (products r nr (2000 * r) l Hr Hn ltac:(lia)) as [X1 [P1 [U L]]]; [intros e He; specialize (H e He); fold r in H; lia|].
  fold r in U, L. unfold W, want. rewrite !nr_cells_fold. fold (prod l). fold (prod (map (scaled r nr) l)). set (X := prod (map (scaled r nr) l)) in *. set (P := prod l) in *. set (K := 2000 * r) in *. rewrite <- !Z.pow_mul_l in U, L.
  assert (KK : 1 <= K ^ r) by (apply pow_pos_1; clear - Hr; lia). assert (KL : 0 <= (K - 1) ^ r) by (apply Z.pow_nonneg; clear - Hr; lia). assert (KU : 1 <= (K + 1) ^ r) by (apply pow_pos_1; clear - Hr; lia).
  assert (EK : K = 2000 * r) by reflexivity. clearbody K X P. clear H N W want.
  assert (U' : K ^ r * X <= nr * ((K + 1) ^ r * P)).
  { assert (0 <= nr * ((K + 1) ^ r * P)) by (clear - Hn KU P1; nia). assert (0 <= K ^ r * X) by (clear - KK X1; nia). apply Z.pow_le_mono_l_iff with (c := r); [assumption..|clear - Hr; lia|exact U]. }
  assert (L' : nr * ((K - 1) ^ r * P) <= K ^ r * X).
  { assert (0 <= nr * ((K - 1) ^ r * P)) by (clear - Hn KL P1; nia). assert (0 <= K ^ r * X) by (clear - KK X1; nia). apply Z.pow_le_mono_l_iff with (c := r); [assumption..|clear - Hr; lia|exact L]. }
  clear U L. rename U' into U. rename L' into L.
  assert (R0 : 0 <= r) by (clear - Hr; lia). assert (K0 : 0 <= K - 1) by (clear - Hr EK; lia). assert (K0' : 0 <= K) by (clear - K0; lia).
  pose proof (bernoulli r K R0 K0') as B1. pose proof (bernoulli r (K - 1) R0 K0) as B2. replace (K - 1 + 1) with K in B2 by ring.
  set (T := nr * P). assert (T1 : 1 <= T) by (unfold T; clear - Hn P1; nia). replace (nr * ((K + 1) ^ r * P)) with ((K + 1) ^ r * T) in U by (unfold T; ring). replace (nr * ((K - 1) ^ r * P)) with ((K - 1) ^ r * T) in L by (unfold T; ring).
  split; [exact T1|]. clearbody T. assert (KR : 0 <= K - r /\ 0 <= K + 1 - r) by (clear - Hr EK; lia). destruct KR as [KR1 KR2].
  assert (UU : 1999 * X <= 2000 * T).
  { assert (C : K ^ r * X * (K + 1 - r) <= K ^ r * (K + 1) * T). { transitivity ((K + 1) ^ r * T * (K + 1 - r)); [apply Z.mul_le_mono_nonneg_r; [exact KR2|exact U]|]. replace ((K + 1) ^ r * T * (K + 1 - r)) with (((K + 1) ^ r * (K + 1 - r)) * T) by ring. apply Z.mul_le_mono_nonneg_r; [clear - T1; lia|exact B1]. }
    assert (D : X * (K + 1 - r) <= (K + 1) * T). { apply Z.mul_le_mono_pos_l with (p := K ^ r); [clear - KK; lia|]. replace (K ^ r * (X * (K + 1 - r))) with (K ^ r * X * (K + 1 - r)) by ring. replace (K ^ r * ((K + 1) * T)) with (K ^ r * (K + 1) * T) by ring. exact C. }
    clear - D Hr X1 T1 EK. subst K. nia. }
  assert (LL : 1999 * T <= 2000 * X).
  { assert (C : K ^ r * (K - r) * T <= K ^ r * X * K). { transitivity ((K - 1) ^ r * K * T); [apply Z.mul_le_mono_nonneg_r; [clear - T1; lia|exact B2]|]. replace ((K - 1) ^ r * K * T) with ((K - 1) ^ r * T * K) by ring. apply Z.mul_le_mono_nonneg_r; [exact K0'|exact L]. }
    assert (D : (K - r) * T <= X * K). { apply Z.mul_le_mono_pos_l with (p := K ^ r); [clear - KK; lia|]. replace (K ^ r * ((K - r) * T)) with (K ^ r * (K - r) * T) by ring. replace (K ^ r * (X * K)) with (K ^ r * X * K) by ring. exact C. }
    clear - D Hr X1 T1 EK. subst K. nia. }
  clear - UU LL T1. lia.
Qed.
