From Verif Require Import Common CommonProofs CoreSpec DecompSpec ArraySpec IndexModel IndexProofs DecompModel DecompProofs ArrayModel ArrayRep ArrayProofs
  LocalProofs AggregateProofs IOModel IOSpec IOProofs NumpyModel NumpySpec.

(** ** Strided selections *)
Fixpoint vmul (a b : list Z) : list Z :=
  match a, b with x :: a', y :: b' => x * y :: vmul a' b' | _, _ => [] end.
Lemma vmul_map2 a b : map2 Z.mul a b = vmul a b.
Proof. revert b. induction a as [|x a IH]; intros [|y b]; cbn [map2 vmul]; try reflexivity. now rewrite IH. Qed.
Definition phi (start stride x : list Z) : list Z := vadd start (vmul stride x).

(** Every selected element lies in the array. *)
Fixpoint slab_within (start stride count n : list Z) : Prop :=
  match start, stride, count, n with
  | [], [], [], [] => True
  | s :: start', t :: stride', c :: count', e :: n' => 0 <= s /\ 0 < t /\ 0 <= c /\ (0 < c -> s + t * (c - 1) < e /\ s + t * (c - 1) < SIZES) /\ slab_within start' stride' count' n'
  | _, _, _, _ => False
  end.

Lemma slab_within_length s t c n : slab_within s t c n -> length s = length c /\ length t = length c /\ length n = length c.
Proof. revert t c n. induction s as [|x s IH]; intros [|y t] [|e c] [|m n] H; cbn in *; try tauto. destruct (IH t c n) as [A [B C]]; [tauto|]. lia. Qed.

Lemma phi_in s t c n x : slab_within s t c n -> in_shape c x -> in_shape n (phi s t x).
Proof.
  revert t c n x. induction s as [|a s IH]; intros [|b t] [|e c] [|m n] [|i x] H Hx; cbn in H, Hx; try tauto.
  unfold phi. cbn [vmul vadd in_shape]. destruct H as [H1 [H2 [H3 [H4 H5]]]]. destruct Hx as [Hi Hx]. split; [nia|]. apply (IH t c); assumption.
Qed.

Lemma phi_inj s t c n x y : slab_within s t c n -> in_shape c x -> in_shape c y -> phi s t x = phi s t y -> x = y.
Proof.
  revert t c n x y. induction s as [|a s IH]; intros [|b t] [|e c] [|m n] [|i x] [|j y] H Hx Hy HE; cbn in H, Hx, Hy; try tauto.
  unfold phi in HE. cbn [vmul vadd] in HE. injection HE as E1 E2. f_equal; [nia|]. apply (IH t c n); tauto.
Qed.

Lemma strides_pos s t c n : slab_within s t c n -> existsb (Z.eqb 0) t = false.
Proof.
  revert t c n. induction s as [|x s IH]; intros [|y t] [|e c] [|m n] H; cbn in *; try tauto.
  rewrite (IH t c n) by tauto. destruct y; cbn; try lia; reflexivity.
Qed.
Lemma counts_pos c : Forall (fun e => 0 <= e) c -> existsb (Z.eqb 0) c = false -> pos_shape c.
Proof. induction 1 as [|e c He Hc IH]; cbn [existsb]; intros H; constructor; destruct e; cbn in H; try discriminate; try lia; now apply IH. Qed.
Lemma counts_zero c : Forall (fun e => 0 <= e) c -> existsb (Z.eqb 0) c = true -> prodZ c = 0.
Proof.
  induction 1 as [|e c He Hc IH]; cbn [existsb]; intros H; [discriminate|]. rewrite prodZ_cons.
  destruct (Z.eqb_spec 0 e) as [<-|Hne]; [lia|]. cbn in H. rewrite IH by assumption. lia.
Qed.
Lemma slab_counts s t c n : slab_within s t c n -> Forall (fun e => 0 <= e) c.
Proof. revert t c n. induction s as [|x s IH]; intros [|y t] [|e c] [|m n] H; cbn in *; try tauto; constructor; [tauto|]. apply (IH t c n). tauto. Qed.

Lemma within_ok s t c n : slab_within s t c n -> pos_shape c -> within_extent s t c n = Ok tt.
Proof.
  revert t c n. induction s as [|x s IH]; intros [|y t] [|e c] [|m n] H P; cbn [slab_within within_extent] in *; try tauto.
  inversion P as [|? ? P1 P2]; subst. destruct H as [H1 [H2 [H3 [H4 H5]]]]. destruct H4 as [H4 H6]; [assumption|]. cbv zeta.
  rewrite (proj2 (Z.leb_gt _ _)) by lia. rewrite (proj2 (Z.ltb_lt _ _)) by lia. now apply IH.
Qed.

Lemma select_ok s t c n : slab_within s t c n -> select (Hyperslab s t c) n = Ok tt.
Proof.
  intros H. unfold select. cbn [hs_start hs_stride hs_count]. rewrite (strides_pos _ _ _ _ H). destruct (existsb (Z.eqb 0) c) eqn:HE; [reflexivity|].
  apply within_ok; [assumption|]. apply counts_pos; [|assumption]. eapply slab_counts. eassumption.
Qed.

Lemma strided_position_ok s t c n k : slab_within s t c n -> pos_shape c -> 0 <= k < volume c ->
  exists x, in_shape c x /\ rowmaj c x = k /\ linear_idx_to_idxs k c = x /\ strided_position (Hyperslab s t c) n k = rowmaj n (phi s t x).
Proof.
  intros B P Hk. rewrite volume_prodZ in Hk. exists (linear_idx_to_idxs k c).
  pose proof (linear_to_idxs_in_shape k c P (proj1 Hk)) as Hs. split; [assumption|]. split.
  - rewrite rowmaj_linear' by assumption. now apply linear_roundtrip.
  - split; [reflexivity|]. unfold strided_position. cbn [hs_start hs_stride hs_count]. rewrite vadd_map2, vmul_map2. fold (phi s t (linear_idx_to_idxs k c)). symmetry.
    apply rowmaj_linear'. eapply phi_in; eassumption.
Qed.

Lemma volume_zero_no c x : in_shape c x -> volume c <> 0.
Proof. intros H. pose proof (rowmaj_range _ _ H). lia. Qed.

Lemma slab_cases s t c n : slab_within s t c n -> prodZ c = 0 \/ pos_shape c.
Proof.
  intros H. pose proof (slab_counts _ _ _ _ H) as Hc. destruct (existsb (Z.eqb 0) c) eqn:HE; [left; now apply counts_zero|right; now apply counts_pos].
Qed.

Section Strided.
Context {E : Type}.

Lemma read_strided_ok s t c n d (F : list Z -> E) buffer : slab_within s t c n -> file_holds d n F -> Z.of_nat (length buffer) = volume c ->
  exists data, read_strided (Hyperslab s t c) d buffer = Ok data /\ block_holds c data (fun x => F (phi s t x)).
Proof.
  intros B [Ed Hd] Hl. unfold read_strided. rewrite Ed, select_ok by assumption. cbn [obind hs_count]. rewrite <- volume_prodZ.
  destruct (slab_cases _ _ _ _ B) as [Z0|P].
  - rewrite <- volume_prodZ in Z0. rewrite Z0 in *. exists buffer. split; [reflexivity|]. split; [lia|]. intros x Hx. exfalso. now apply (volume_zero_no _ _ Hx).
  - pose proof (volume_pos c P) as Hv.
    destruct (for_elements_upto (fun k _ => at_z (ds_cells d) (strided_position (Hyperslab s t c) n k)) (fun k => F (phi s t (linear_idx_to_idxs k c))) buffer (volume c)) with (k := Z.to_nat (volume c)) as [out [E1 [L1 H1]]].
    + intros k _ Hk. destruct (strided_position_ok s t c n k B P Hk) as [x [Hx [Ek [Ex Ep]]]]. rewrite Ep, Ex. apply (block_at n); [assumption|]. eapply phi_in; eassumption.
    + assumption.
    + lia.
    + rewrite Z2Nat.id in E1 by lia. exists out. split; [assumption|]. split; [lia|]. intros x Hx. assert (Hr := rowmaj_range _ _ Hx).
      destruct (strided_position_ok s t c n (rowmaj c x) B P Hr) as [x' [Hx' [Ek [Ex Ep]]]]. apply rowmaj_inj in Ek; [|assumption|assumption]. subst x'.
      destruct H1 as [H1 _]. rewrite H1 by lia. rewrite Z2Nat.id by lia. now rewrite Ex.
Qed.

Lemma write_strided_ok s t c n (buffer : list E) g d F : slab_within s t c n ->
  (forall x, in_shape c x -> at_z buffer (rowmaj c x) = Ok (g x)) -> file_holds d n F ->
  exists d' F', write_strided (Hyperslab s t c) (volume c) buffer d = Ok d' /\ file_holds d' n F' /\
    (forall x, in_shape c x -> F' (phi s t x) = g x) /\
    (forall y, in_shape n y -> (forall x, in_shape c x -> y <> phi s t x) -> F' y = F y).
Proof.
  intros B Hb [Ed Hd]. unfold write_strided. rewrite Ed, select_ok by assumption. cbn [obind hs_count]. rewrite <- volume_prodZ, Z.eqb_refl.
  destruct (slab_cases _ _ _ _ B) as [Z0|P].
  { rewrite <- volume_prodZ in Z0. rewrite Z0. exists (Dataset n (ds_cells d)), F. split; [reflexivity|]. split; [split; [reflexivity|assumption]|].
    split; [|reflexivity]. intros x Hx. exfalso. now apply (volume_zero_no _ _ Hx). }
  rewrite (fold_scatter buffer _ (fun k => g (linear_idx_to_idxs k c))).
  2: { intros k Hk. apply in_zseq in Hk. destruct (strided_position_ok s t c n k B P) as [x [Hx [Ek [Ex _]]]]; [lia|]. rewrite Ex, <- Ek. now apply Hb. }
  destruct Hd as [Hl Hd].
  destruct (scatter_ok (map (fun k => (strided_position (Hyperslab s t c) n k, g (linear_idx_to_idxs k c))) (zseq 0 (volume c))) (ds_cells d)) as [cells [E1 [L3 [A3 B3]]]].
  - rewrite map_map. cbn [fst]. apply NoDup_map_in; [|apply zseq_NoDup].
    intros k k' Hk Hk' HE. apply in_zseq in Hk, Hk'.
    destruct (strided_position_ok s t c n k B P) as [x [Hx [Ek [Ex Ep]]]]; [lia|]. destruct (strided_position_ok s t c n k' B P) as [x' [Hx' [Ek' [Ex' Ep']]]]; [lia|].
    rewrite Ep, Ep' in HE. apply rowmaj_inj in HE; [|eapply phi_in; eassumption|eapply phi_in; eassumption].
    apply (phi_inj _ _ _ _ _ _ B) in HE; [congruence|assumption|assumption].
  - intros i v Hin. apply in_map_iff in Hin. destruct Hin as [k [E1 Hk]]. apply (f_equal fst) in E1. cbn [fst] in E1. subst i. apply in_zseq in Hk.
    destruct (strided_position_ok s t c n k B P) as [x [Hx [Ek [Ex Ep]]]]; [lia|]. rewrite Ep, Hl. apply rowmaj_range. eapply phi_in; eassumption.
  - rewrite E1. cbn [obind]. exists (Dataset n cells), (fun y => nth (Z.to_nat (rowmaj n y)) cells (F y)). split; [reflexivity|].
    split; [|split].
    + split; [reflexivity|]. cbn [ds_cells]. split; [lia|]. intros y Hy. apply nth_error_nth'. pose proof (rowmaj_range _ _ Hy). lia.
    + intros x Hx. apply nth_error_nth. assert (Hr := rowmaj_range _ _ Hx). destruct (strided_position_ok s t c n (rowmaj c x) B P Hr) as [x' [Hx' [Ek [Ex Ep]]]].
      apply rowmaj_inj in Ek; [|assumption|assumption]. rewrite Ek in *. apply A3. apply in_map_iff. exists (rowmaj c x). split; [|apply in_zseq; lia]. now rewrite Ep, Ex.
    + intros y Hy Hn. apply nth_error_nth. rewrite B3.
      * apply Hd. assumption.
      * rewrite map_map. cbn [fst]. intros Hin. apply in_map_iff in Hin. destruct Hin as [k [HE Hk]]. apply in_zseq in Hk.
        destruct (strided_position_ok s t c n k B P) as [x [Hx [Ek [Ex Ep]]]]; [lia|]. rewrite Ep in HE. pose proof (rowmaj_range _ _ Hy). rewrite Z2Nat.id in HE by lia.
        apply rowmaj_inj in HE; [|eapply phi_in; eassumption|assumption]. apply (Hn x Hx). congruence.
Qed.
End Strided.

(** ** Slices *)
Lemma strided_filter k i m : 0 < k -> 0 <= m ->
  filter (fun x => (x - i) mod k =? 0) (zseq i m) = map (fun t => i + k * t) (zseq 0 (if 0 <? m then (m - 1) / k + 1 else 0)).
Proof.
  intros Hk Hm. rewrite <- (Z2Nat.id m) by assumption. clear Hm. induction (Z.to_nat m) as [|j IH]; [reflexivity|].
  rewrite Nat2Z.inj_succ, <- Z.add_1_r. rewrite zseq_snoc by lia. rewrite filter_app, IH. cbn [filter]. clear IH.
  rewrite (proj2 (Z.ltb_lt 0 (Z.of_nat j + 1))) by lia. replace (Z.of_nat j + 1 - 1) with (Z.of_nat j) by lia. replace (i + Z.of_nat j - i) with (Z.of_nat j) by lia.
  destruct j as [|j].
  - cbn [Z.of_nat Z.ltb Z.compare]. rewrite Z.mod_0_l, Z.div_0_l by lia. cbn [Z.eqb]. change (zseq 0 (0 + 1)) with [0]. cbn [map]. rewrite Z.mul_0_r. reflexivity.
  - rewrite (proj2 (Z.ltb_lt 0 (Z.of_nat (S j)))) by lia. set (m' := Z.of_nat (S j)). assert (Hm' : 0 < m') by (unfold m'; lia). clearbody m'. clear j m.
    assert (D := Z.div_mod m' k ltac:(lia)). assert (B := Z.mod_pos_bound m' k Hk). destruct (Z.eqb_spec (m' mod k) 0) as [E0|N0].
    + assert (E1 : (m' - 1) / k = m' / k - 1). { symmetry. apply Z.div_unique with (r := k - 1); [lia|]. rewrite E0 in D. clear - D. set (q := m' / k) in *. clearbody q. nia. }
      rewrite E1. replace (m' / k - 1 + 1) with (m' / k) by lia. assert (0 <= m' / k) by (apply Z.div_pos; lia). rewrite zseq_snoc by assumption. rewrite map_app. cbn [map]. do 2 f_equal. lia.
    + assert (E1 : (m' - 1) / k = m' / k). { symmetry. apply Z.div_unique with (r := m' mod k - 1); [lia|]. clear - D. set (q := m' / k) in *. clearbody q. nia. }
      rewrite E1, app_nil_r. reflexivity.
Qed.

Lemma rev_zseq i m : 0 <= m -> rev (zseq i m) = map (fun t => i + m - 1 - t) (zseq 0 m).
Proof.
  intros Hm. rewrite <- (Z2Nat.id m) by assumption. clear Hm. induction (Z.to_nat m) as [|j IH]; [reflexivity|].
  rewrite Nat2Z.inj_succ, <- Z.add_1_r. rewrite zseq_snoc at 1 by lia. rewrite rev_app_distr. cbn [rev app]. rewrite IH.
  rewrite (zseq_cons 0 (Z.of_nat j + 1)) by lia. replace (Z.of_nat j + 1 - 1) with (Z.of_nat j) by lia. cbn [map]. f_equal; [lia|].
  rewrite (zseq_shift (0 + 1)), map_map. apply map_ext. intros t. lia.
Qed.

Lemma filter_map {A B} (f : A -> B) p l : filter p (map f l) = map f (filter (fun a => p (f a)) l).
Proof. induction l as [|a l IH]; [reflexivity|]. cbn. destruct (p (f a)); cbn; now rewrite IH. Qed.

Lemma backward_filter k i j : 0 < k -> j <= i ->
  filter (fun x => (i - x) mod k =? 0) (rev (zseq (j + 1) (i - j))) = map (fun t => i - k * t) (zseq 0 (if 0 <? i - j then (i - j - 1) / k + 1 else 0)).
Proof.
  intros Hk Hij. rewrite rev_zseq by lia. rewrite filter_map. rewrite (filter_ext _ (fun t => (t - 0) mod k =? 0)).
  2: { intros t. do 2 f_equal. lia. }
  rewrite strided_filter by lia. rewrite map_map. apply map_ext. intros t. lia.
Qed.

Definition step_of (step : option Z) : Z := match step with None => 1 | Some k => k end.

Lemma adjust_forward n k v : 0 <= n <= SSIZE_MAX -> 0 < k -> adjust n k (clip v) = bound n 0 n v.
Proof.
  intros Hn Hk. unfold adjust, clip, bound, SSIZE_MAX in *. rewrite (proj2 (Z.ltb_ge k 0)) by lia.
  repeat match goal with |- context[?a <? ?b] => destruct (Z.ltb_spec a b) | |- context[?a <=? ?b] => destruct (Z.leb_spec a b) end; lia.
Qed.
Lemma adjust_backward n k v : 0 <= n <= SSIZE_MAX -> k < 0 -> adjust n k (clip v) = bound n (-1) (n - 1) v.
Proof.
  intros Hn Hk. unfold adjust, clip, bound, SSIZE_MAX in *. rewrite (proj2 (Z.ltb_lt k 0)) by lia.
  repeat match goal with |- context[?a <? ?b] => destruct (Z.ltb_spec a b) | |- context[?a <=? ?b] => destruct (Z.leb_spec a b) end; lia.
Qed.

(** What CPython computes are the positions of the specification. *)
Lemma slice_forward n start stop step : 0 <= n <= SSIZE_MAX -> 0 < step_of step ->
  exists s k c, slice_compute n start stop step = Ok (s, k, c) /\ 0 < k <= SSIZE_MAX /\ 0 <= c <= n /\ 0 <= s <= n /\
    chosen n start stop step = map (fun t => s + k * t) (zseq 0 c) /\ (0 < c -> s + k * (c - 1) < n) /\
    match step with Some v => v <= SSIZE_MAX -> k = v | None => k = 1 end.
Proof.
  intros Hn Hk. unfold slice_compute, chosen. fold (step_of step).
  replace (match step with None => 1 | Some s => Z.max (- SSIZE_MAX) (clip s) end) with (Z.min SSIZE_MAX (step_of step)).
  2: { destruct step as [v|]; cbn [step_of] in *; unfold clip, SSIZE_MAX in *; lia. }
  set (k0 := step_of step) in *. set (k := Z.min SSIZE_MAX k0). assert (Hk' : 0 < k <= SSIZE_MAX) by (unfold k, SSIZE_MAX in *; lia).
  rewrite (proj2 (Z.eqb_neq k 0)) by lia. rewrite (proj2 (Z.ltb_lt 0 k0)) by lia. rewrite (proj2 (Z.ltb_ge k 0)) by lia. cbv zeta. unfold forward.
  set (i := match start with None => 0 | Some v => bound n 0 n v end). set (j := match stop with None => n | Some v => bound n 0 n v end).
  replace (adjust n k (match start with Some s => clip s | None => 0 end)) with i.
  2: { unfold i. destruct start as [v|]; [now rewrite adjust_forward by lia|]. unfold adjust. cbn. destruct (Z.leb_spec n 0); rewrite ?(proj2 (Z.ltb_ge k 0)) by lia; lia. }
  replace (adjust n k (match stop with Some s => clip s | None => SSIZE_MAX end)) with j.
  2: { unfold j. destruct stop as [v|]; [now rewrite adjust_forward by lia|]. unfold adjust. cbn. rewrite (proj2 (Z.ltb_ge k 0)) by lia. destruct (Z.leb_spec n SSIZE_MAX); lia. }
  assert (Hi : 0 <= i <= n) by (unfold i, bound; destruct start; lia). assert (Hj : 0 <= j <= n) by (unfold j, bound; destruct stop; lia).
  clearbody i j. exists i, k, (if i <? j then (j - i - 1) / k + 1 else 0). split; [reflexivity|]. split; [assumption|].
  assert (HC : 0 <= (if i <? j then (j - i - 1) / k + 1 else 0) <= n).
  { destruct (Z.ltb_spec i j); [|lia]. assert (0 <= (j - i - 1) / k) by (apply Z.div_pos; lia). assert ((j - i - 1) / k <= j - i - 1) by (apply Z.div_le_upper_bound; nia). lia. }
  split; [assumption|]. split; [assumption|]. split; [|split].
  - destruct (Z.ltb_spec i j) as [Hij|Hij].
    + rewrite strided_filter by lia. rewrite (proj2 (Z.ltb_lt 0 (j - i))) by lia. destruct (Z_le_gt_dec k0 SSIZE_MAX) as [Hle|Hgt].
      * replace k with k0 by (unfold k; lia). reflexivity.
      * replace k with SSIZE_MAX by (unfold k; lia). rewrite !Z.div_small by (unfold SSIZE_MAX in *; lia). change (zseq 0 (0 + 1)) with [0]. cbn [map]. now rewrite !Z.mul_0_r.
    + rewrite !zseq_nil by lia. reflexivity.
  - destruct (Z.ltb_spec i j) as [Hij|Hij]; [|lia]. intros _. replace ((j - i - 1) / k + 1 - 1) with ((j - i - 1) / k) by lia. pose proof (Z.mul_div_le (j - i - 1) k). lia.
  - unfold k, k0. destruct step; cbn [step_of]; intros; unfold SSIZE_MAX in *; lia.
Qed.

Lemma slice_backward n start stop step : 0 <= n <= SSIZE_MAX -> step_of step < 0 ->
  exists s k c, slice_compute n start stop step = Ok (s, k, c) /\ - SSIZE_MAX <= k < 0 /\ 0 <= c <= n /\ -1 <= s < n /\ (0 < c -> 0 <= s) /\
    chosen n start stop step = map (fun t => s + k * t) (zseq 0 c).
Proof.
  intros Hn Hk. unfold slice_compute, chosen. fold (step_of step).
  replace (match step with None => 1 | Some s => Z.max (- SSIZE_MAX) (clip s) end) with (Z.max (- SSIZE_MAX) (step_of step)).
  2: { destruct step as [v|]; cbn [step_of] in *; unfold clip, SSIZE_MAX in *; lia. }
  set (k0 := step_of step) in *. set (k := Z.max (- SSIZE_MAX) k0). assert (Hk' : - SSIZE_MAX <= k < 0) by (unfold k, SSIZE_MAX in *; lia).
  rewrite (proj2 (Z.eqb_neq k 0)) by lia. rewrite (proj2 (Z.ltb_ge 0 k0)) by lia. rewrite (proj2 (Z.ltb_lt k 0)) by lia. cbv zeta. unfold backward.
  set (i := match start with None => n - 1 | Some v => bound n (-1) (n - 1) v end). set (j := match stop with None => -1 | Some v => bound n (-1) (n - 1) v end).
  replace (adjust n k (match start with Some s => clip s | None => SSIZE_MAX end)) with i.
  2: { unfold i. destruct start as [v|]; [now rewrite adjust_backward by lia|]. unfold adjust. cbn. rewrite (proj2 (Z.ltb_lt k 0)) by lia. destruct (Z.leb_spec n SSIZE_MAX); lia. }
  replace (adjust n k (match stop with Some s => clip s | None => - SSIZE_MAX - 1 end)) with j.
  2: { unfold j. destruct stop as [v|]; [now rewrite adjust_backward by lia|]. unfold adjust. rewrite (proj2 (Z.ltb_lt k 0)) by lia.
       unfold SSIZE_MAX in *. repeat match goal with |- context[?a <? ?b] => destruct (Z.ltb_spec a b) end; lia. }
  assert (Hi : -1 <= i < n \/ (n = 0 /\ i = -1)) by (unfold i, bound; destruct start; lia). assert (Hj : -1 <= j < n \/ (n = 0 /\ j = -1)) by (unfold j, bound; destruct stop; lia).
  clearbody i j. exists i, k, (if j <? i then (i - j - 1) / - k + 1 else 0). split; [reflexivity|]. split; [assumption|].
  assert (HC : 0 <= (if j <? i then (i - j - 1) / - k + 1 else 0) <= n).
  { destruct (Z.ltb_spec j i); [|lia]. assert (0 <= (i - j - 1) / - k) by (apply Z.div_pos; lia). assert ((i - j - 1) / - k <= i - j - 1) by (apply Z.div_le_upper_bound; nia). lia. }
  split; [assumption|]. split; [lia|]. split; [destruct (Z.ltb_spec j i); lia|].
  destruct (Z.ltb_spec j i) as [Hij|Hij].
  - rewrite backward_filter by lia. rewrite (proj2 (Z.ltb_lt 0 (i - j))) by lia. destruct (Z_le_gt_dec (- k0) SSIZE_MAX) as [Hle|Hgt].
    + replace k with k0 by (unfold k; lia). apply map_ext. intros t. lia.
    + replace k with (- SSIZE_MAX) by (unfold k; lia). rewrite !Z.div_small by (unfold SSIZE_MAX in *; lia). change (zseq 0 (0 + 1)) with [0]. cbn [map]. now rewrite !Z.mul_0_r.
  - rewrite !zseq_nil by lia. reflexivity.
Qed.

Lemma slice_zero n start stop : slice_compute n start stop (Some 0) = Throw.
Proof. reflexivity. Qed.
