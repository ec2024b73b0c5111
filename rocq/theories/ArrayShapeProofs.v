(** Proofs about shapes of arrays and partitions in scalability experiments (C87). *)
From Verif Require Import Common PoolModel PoolProofs ArrayShapeModel.
Open Scope Z_scope.

Lemma array_extent mem r q : 1 <= mem -> 1 <= r -> 1 <= q -> let k := largest (Z.to_nat mem) (fun k => q * k ^ r <=? mem) in 0 <= k /\ q * k ^ r <= mem < q * (k + 1) ^ r.
Proof.
  intros Hm Hr Hq k. set (P := fun k => q * k ^ r <=? mem) in *. pose proof (largest_le (Z.to_nat mem) P) as L. fold k in L. rewrite Z2Nat.id in L by lia. split; [lia|]. split.
  - apply Z.leb_le. change (P k = true). apply largest_holds. unfold P. apply Z.leb_le. rewrite Z.pow_0_l by lia. lia.
  - destruct (Z.eq_dec k mem) as [E|N].
    + rewrite E. assert ((mem + 1) ^ 1 <= (mem + 1) ^ r) by (apply Z.pow_le_mono_r; lia). rewrite Z.pow_1_r in *. nia.
    + assert (HF : P (k + 1) = false) by (apply largest_max with (n := Z.to_nat mem); fold k; lia). unfold P in HF. apply Z.leb_gt in HF. exact HF.
Qed.
Lemma largest_ext n P Q : (forall k, P k = Q k) -> largest n P = largest n Q.
Proof. intros H. induction n as [|n IH]; cbn [largest]; rewrite H; [reflexivity|]. now rewrite IH. Qed.

Lemma py_range_nth start stop step k : 0 < step -> start < stop -> nth_error (py_range start stop step) k = if start + Z.of_nat k * step <? stop then Some (start + Z.of_nat k * step) else None.
Proof.
  intros Hs Hl. unfold py_range, zseq. rewrite map_map, nth_error_map. set (n := (stop - start + step - 1) / step).
  assert (D : n * step <= stop - start + step - 1 < (n + 1) * step) by (unfold n; pose proof (Z.div_mod (stop - start + step - 1) step ltac:(lia)); pose proof (Z.mod_pos_bound (stop - start + step - 1) step Hs); nia).
  assert (N0 : 0 <= n) by nia. destruct (Nat.lt_ge_cases k (Z.to_nat n)) as [L|L].
  - rewrite (nth_error_nth' _ 0%nat) by (rewrite seq_length; exact L). rewrite seq_nth by exact L. cbn [option_map]. destruct (Z.ltb_spec (start + Z.of_nat k * step) stop) as [|G]; [do 2 f_equal; lia|]. exfalso. nia.
  - rewrite (proj2 (nth_error_None _ _)) by (rewrite seq_length; exact L). destruct (Z.ltb_spec (start + Z.of_nat k * step) stop) as [G|]; [|reflexivity]. exfalso. assert (n <= Z.of_nat k) by lia. nia.
Qed.

Lemma shortest_lt k : forall ranges n, (k < fold_left (fun n r => Nat.min n (length r)) ranges n)%nat <-> (k < n)%nat /\ Forall (fun r : list Z => (k < length r)%nat) ranges.
Proof.
  induction ranges as [|r rs IH]; intros n; cbn [fold_left]; [split; [intros; split; [assumption|constructor]|tauto]|]. rewrite IH, Forall_cons_iff, Nat.min_glb_lt_iff. tauto.
Qed.
Lemma zip_nth ranges k : ranges <> [] -> nth_error (zip ranges) k = if forallb (fun r => Nat.ltb k (length r)) ranges then Some (map (fun r => nth k r 0) ranges) else None.
Proof.
  intros N. unfold zip. rewrite nth_error_map. assert (S : (k < shortest ranges)%nat <-> forallb (fun r => Nat.ltb k (length r)) ranges = true).
  { destruct ranges as [|r rs]; [congruence|]. cbn [shortest forallb]. rewrite shortest_lt, andb_true_iff, Nat.ltb_lt, forallb_forall, Forall_forall. split; intros [A B]; (split; [exact A|]); intros x Hx; specialize (B x Hx); apply Nat.ltb_lt; exact B || (apply Nat.ltb_lt in B; exact B). }
  destruct (forallb (fun r => Nat.ltb k (length r)) ranges).
  - assert (L : (k < shortest ranges)%nat) by (apply S; reflexivity). rewrite (nth_error_nth' _ 0%nat) by (rewrite seq_length; exact L). rewrite seq_nth by exact L. reflexivity.
  - rewrite (proj2 (nth_error_None _ _)); [reflexivity|]. rewrite seq_length. destruct (Nat.lt_ge_cases k (shortest ranges)) as [L|L]; [apply S in L; discriminate L|exact L].
Qed.

Lemma shapes_nth step k : forall lo hi, length lo = length hi -> 0 < step -> forallb (fun '(l, h) => l <=? h) (combine lo hi) = true ->
  let ranges := map (fun '(l, h) => py_range l (h + 1) step) (combine lo hi) in
  (forallb (fun r => Nat.ltb k (length r)) ranges = forallb (fun '(l, h) => l + Z.of_nat k * step <=? h) (combine lo hi)) /\
  (forallb (fun r => Nat.ltb k (length r)) ranges = true -> map (fun r => nth k r 0) ranges = map (fun e => e + Z.of_nat k * step) lo).
Proof.
  induction lo as [|l lo IH]; intros [|h hi] E Hs H; try discriminate E; [split; reflexivity|]. cbn [combine map forallb] in *. apply andb_true_iff in H. destruct H as [H1 H2]. apply Z.leb_le in H1. injection E as E.
  destruct (IH hi E Hs H2) as [A B]. pose proof (py_range_nth l (h + 1) step k Hs ltac:(lia)) as R. set (rs := map (fun '(l, h) => py_range l (h + 1) step) (combine lo hi)) in *. set (r := py_range l (h + 1) step) in *.
  assert (C : Nat.ltb k (length r) = (l + Z.of_nat k * step <=? h)).
  { destruct (Z.ltb_spec (l + Z.of_nat k * step) (h + 1)) as [L|L], (Z.leb_spec (l + Z.of_nat k * step) h); try lia.
    - apply Nat.ltb_lt. apply nth_error_Some. rewrite R. discriminate.
    - apply Nat.ltb_ge. now apply nth_error_None. }
  rewrite A, C. split; [reflexivity|]. intros T. apply andb_true_iff in T. destruct T as [T1 T2]. rewrite B by (rewrite A; exact T2). f_equal. apply Z.leb_le in T1. destruct (Z.ltb_spec (l + Z.of_nat k * step) (h + 1)) as [L|L]; [|lia]. now apply nth_error_nth.
Qed.
