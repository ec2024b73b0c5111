(** Proofs about downscaling. *)
From Coq Require Import Reals Lra.
From Flocq Require Import Core BinarySingleNaN.
From Verif Require Import Common CommonProofs CoreSpec DecompSpec ArraySpec Float64 Float64Proofs IndexModel IndexProofs DecompModel DecompProofs DecompProofs2 DecompProofs4 ArrayModel ArrayRep
  ArrayProofs GridModel GridProofs GridRaster LocalProofs ResampleModel ResampleSpec.
Local Open Scope R_scope.

Lemma b64_floor_div a b : (0 <= a < 2^53)%Z -> (0 < b <= 2^53)%Z ->
  b64_floor (b64_div (b64_of_Z a) (b64_of_Z b)) = (a / b)%Z.
Proof.
  intros Ha Hb.
  destruct (b64_of_Z_correct a) as [Ea Fa]; [lia|].
  destruct (b64_of_Z_correct b) as [Eb Fb]; [lia|].
  assert (Hb0 : 0 < IZR b) by (apply IZR_lt; lia).
  assert (Ha0 : 0 <= IZR a) by (apply IZR_le; lia).
  assert (Hq0 : 0 <= IZR a / IZR b) by (apply Rmult_le_pos; [lra|apply Rlt_le, Rinv_0_lt_compat; lra]).
  assert (Hqm : IZR a / IZR b * IZR b = IZR a) by (field; lra).
  destruct (b64_div_correct (b64_of_Z a) (b64_of_Z b) a) as [Ed _].
  - rewrite Eb. lra.
  - lia.
  - rewrite Ea, Eb, Rabs_pos_eq by lra. assert (1 <= IZR b) by (apply (IZR_le 1); lia). nra.
  - rewrite b64_floor_correct, Ed, Ea, Eb. set (q := (a / b)%Z).
    assert (Hq : (q * b <= a < q * b + b)%Z) by (pose proof (Z.div_mod a b) as D; pose proof (Z.mod_pos_bound a b) as M; fold q in D; lia).
    assert (Hqr : (0 <= q <= 2^53)%Z) by (split; [apply Z.div_pos; lia|]; unfold q; apply Z.div_le_upper_bound; nia).
    apply Zfloor_imp. split.
    + rewrite <- (rd_Z q) by lia. apply rd_le. apply Rmult_le_reg_r with (IZR b); [lra|]. rewrite Hqm, <- mult_IZR. apply IZR_le; lia.
    + destruct (Z.eq_dec a 0) as [->|Hane].
      { replace (0 / IZR b) with 0 by (field; lra). rewrite rd_0. apply IZR_lt. lia. }
      pose proof (rd_error (IZR a / IZR b)) as [_ He].
      { apply bpow_m1000_le; [lia|]. split; [lia|]. etransitivity; [apply Hb|]. apply Z.pow_le_mono_r; lia. }
      eapply Rle_lt_trans; [exact He|]. apply Rmult_lt_reg_r with (IZR b); [lra|].
      replace (IZR a / IZR b * (1 + bpow radix2 (-53)) * IZR b) with (IZR a * (1 + bpow radix2 (-53))) by (field; lra).
      replace (IZR (q + 1) * IZR b) with (IZR (q * b + b)) by (rewrite !plus_IZR, mult_IZR; ring).
      assert (Hl : IZR a <= IZR (q * b + b) - 1) by (rewrite <- minus_IZR; apply IZR_le; lia).
      assert (Hu : IZR a * bpow radix2 (-53) < 1).
      { assert (IZR a < bpow radix2 53) by (change (bpow radix2 53) with (IZR (2^53)); apply IZR_lt; lia).
        replace 1 with (bpow radix2 53 * bpow radix2 (-53)) by (rewrite <- bpow_plus; reflexivity).
        apply Rmult_lt_compat_r; [apply bpow_gt_0|assumption]. }
      lra.
Qed.
Local Close Scope R_scope.
Local Open Scope Z_scope.

Lemma div_shift rem x count : 0 < count -> 0 <= x < count - rem mod count -> (rem + x) / count = rem / count.
Proof.
  intros Hc Hx. pose proof (Z.div_mod rem count ltac:(lia)) as D. pose proof (Z.mod_pos_bound rem count Hc) as M.
  symmetry. apply Z.div_unique with (rem mod count + x); lia.
Qed.

Lemma copy_loop_fold {A} (F : outcome A -> Z * Z * Z -> outcome A) (G : Z -> A) so rem count n : 0 < count -> 0 <= rem ->
  (forall s t c, 0 <= t -> 0 < c -> t + c <= n -> (forall x, t <= x < t + c -> s = so + (rem + x) / count) -> F (Ok (G t)) (s, t, c) = Ok (G (t + c))) ->
  forall fuel s t k, 0 <= t <= n -> n - t <= Z.of_nat fuel -> (t < n -> k = count - (rem + t) mod count /\ s = so + (rem + t) / count) ->
  fold_left F (copy_loop fuel s t k n count) (Ok (G t)) = Ok (G n).
Proof.
  intros Hc Hrem HF. induction fuel as [|fuel IH]; intros s t k Ht Hn Hk; cbn [copy_loop].
  - cbn [fold_left]. replace t with n by lia. reflexivity.
  - destruct (Z.ltb_spec t n) as [L|L]; [|cbn [fold_left]; replace t with n by lia; reflexivity].
    destruct (Hk L) as [Ek Es]. pose proof (Z.mod_pos_bound (rem + t) count Hc) as M. cbn [fold_left]. rewrite HF; [|lia..|].
    + apply IH; [lia..|]. intros Hlt. assert (Em : Z.min k (n - t) = k) by lia. rewrite Em in *.
      pose proof (Z.div_mod (rem + t) count ltac:(lia)) as D.
      assert (E1 : rem + (t + k) = (1 + (rem + t) / count) * count) by (rewrite Ek; lia).
      rewrite E1. rewrite Z.mod_mul, Z.div_mul by lia. lia.
    + intros x Hx. rewrite Es. f_equal. symmetry. replace (rem + x) with (rem + t + (x - t)) by lia. apply div_shift; lia.
Qed.

Section Cells.
Context {E : Type} (nd : E -> bool) (mark : E -> E) (marker : E) (junk : Z -> E) (Hmark : forall e, mark e = marker).
Definition conv (v : E) : E := if nd v then marker else v.

Lemma assign_cells_ok m0 m1 (src : Z -> Z -> E) so0 so1 count o0 o1 n0 n1 : 0 < count -> 0 <= o0 -> 0 <= o1 -> 0 < n0 -> 0 < n1 ->
  (forall r, 0 <= r < n0 -> 0 <= so0 + (o0 mod count + r) / count < m0) ->
  (forall c, 0 <= c < n1 -> 0 <= so1 + (o1 mod count + c) / count < m1) ->
  assign_partition_cells nd mark junk (gmake m0 m1 src) so0 so1 count o0 o1 n0 n1 =
    Ok (gmake n0 n1 (fun r c => conv (src (so0 + (o0 mod count + r) / count) (so1 + (o1 mod count + c) / count)))).
Proof.
  intros Hc Ho0 Ho1 Hn0 Hn1 R0 R1. unfold assign_partition_cells. cbn [gmake g0 g1].
  pose proof (Z.mod_pos_bound o0 count Hc) as M0. pose proof (Z.mod_pos_bound o1 count Hc) as M1.
  assert (A : forall so m o n, 0 < n -> 0 <= o mod count < count -> (forall r, 0 <= r < n -> 0 <= so + (o mod count + r) / count < m) -> n <= count * (m - so)).
  { clear - Hc. intros so m o n Hn M R. specialize (R (n - 1) ltac:(lia)). pose proof (Z.div_mod (o mod count + (n - 1)) count ltac:(lia)).
    pose proof (Z.mod_pos_bound (o mod count + (n - 1)) count Hc). nia. }
  pose proof (A so0 m0 o0 n0 Hn0 M0 R0) as A0. pose proof (A so1 m1 o1 n1 Hn1 M1 R1) as A1. clear A.
  destruct (Z.leb_spec n0 (count * (m0 - so0))); [|lia]. destruct (Z.leb_spec n1 (count * (m1 - so1))); [|lia]. cbn [negb orb].
  change (Grid m0 m1 (map (fun rc => src (fst rc) (snd rc)) (cells2 0 m0 0 m1))) with (gmake m0 m1 src).
  rewrite fresh_make by lia. unfold copy_cells. rewrite !Z.rem_mod_nonneg by lia.
  set (g := fun r c => conv (src (so0 + (o0 mod count + r) / count) (so1 + (o1 mod count + c) / count))).
  set (f0 := fun r c => junk (r * n1 + c)).
  set (G := fun t => gmake n0 n1 (fun r c => if r <? t then g r c else f0 r c)).
  assert (E0 : gmake n0 n1 f0 = G 0) by (apply gmake_ext; intros r c Hr _; destruct (Z.ltb_spec r 0); [lia|reflexivity]).
  assert (En : gmake n0 n1 g = G n0) by (apply gmake_ext; intros r c Hr _; destruct (Z.ltb_spec r n0); [reflexivity|lia]).
  fold f0. rewrite E0, En. apply (copy_loop_fold _ G so0 (o0 mod count) count n0); try lia.
  - intros s0 t0 c0 Ht0 Hc0 Htn0 Hs0. unfold G.
    set (G1 := fun t => gmake n0 n1 (fun r c => if (r <? t0) || ((r <? t0 + c0) && (c <? t)) then g r c else f0 r c)).
    assert (E1 : gmake n0 n1 (fun r c => if r <? t0 then g r c else f0 r c) = G1 0).
    { apply gmake_ext. intros r c Hr Hcc. destruct (Z.ltb_spec c 0); [lia|]. now rewrite andb_false_r, orb_false_r. }
    assert (E2 : gmake n0 n1 (fun r c => if r <? t0 + c0 then g r c else f0 r c) = G1 n1).
    { apply gmake_ext. intros r c Hr Hcc. destruct (Z.ltb_spec c n1); [|lia]. rewrite andb_true_r. destruct (Z.ltb_spec r t0), (Z.ltb_spec r (t0 + c0)); cbn [orb]; try reflexivity. lia. }
    rewrite E1, E2. apply (copy_loop_fold _ G1 so1 (o1 mod count) count n1); try lia.
    + intros s1 t1 c1 Ht1 Hc1 Htn1 Hs1. cbn [obind].
      assert (S0 : 0 <= s0 < m0) by (rewrite (Hs0 t0) by lia; apply R0; lia). assert (S1 : 0 <= s1 < m1) by (rewrite (Hs1 t1) by lia; apply R1; lia).
      rewrite gget_make by assumption. cbn [obind]. unfold G1 at 1. rewrite (for_rect _ _ _ _ _ _ _ _ (fun _ _ => conv (src s0 s1))); [|lia|].
      * f_equal. apply gmake_ext. intros r c Hr Hcc. unfold in_rect.
        destruct (Z.leb_spec t0 r), (Z.ltb_spec r (t0 + c0)), (Z.leb_spec t1 c), (Z.ltb_spec c (t1 + c1)), (Z.ltb_spec r t0), (Z.ltb_spec c t1); cbn [andb orb]; try lia; try reflexivity.
        unfold g. rewrite <- (Hs0 r) by lia. rewrite <- (Hs1 c) by lia. reflexivity.
      * intros r c Hr Hcc. unfold conv. now rewrite Hmark.
    + intros _. rewrite Z.add_0_r, Z.mod_mod by lia. split; [reflexivity|]. rewrite (Z.div_small (o1 mod count)) by lia. lia.
  - intros _. rewrite Z.add_0_r, Z.mod_mod by lia. split; [reflexivity|]. rewrite (Z.div_small (o0 mod count)) by lia. lia.
Qed.
End Cells.

(** One dimension *)
Lemma mul_div_lt k p c : 0 <= k < c -> 0 < p -> 0 <= k * p / c < p.
Proof. intros Hk Hp. split; [apply Z.div_pos; [apply Z.mul_nonneg_nonneg|]; lia|]. apply Z.div_lt_upper_bound; [lia|]. apply Z.mul_lt_mono_pos_r; lia. Qed.

Lemma last_part_zero c p e : 2 <= c -> 0 < p -> 0 <= e < p -> c * e < p -> (c - 1) * p / c = 0 -> e = 0.
Proof.
  intros Hc Hp He H Hz. assert (e = 0 \/ 1 <= e) as [|E0] by lia; [assumption|]. exfalso.
  assert ((c - 1) * p < c) by (pose proof (Z.div_mod ((c - 1) * p) c ltac:(lia)); pose proof (Z.mod_pos_bound ((c - 1) * p) c ltac:(lia)); lia).
  assert (c <= c * e) by nia. assert (p <= (c - 1) * p) by nia. lia.
Qed.

(** A target partition that starts within the repeated whole source partitions *)
Lemma whole_ok count p N j : 2 <= count -> 0 < p -> 0 <= j < count * N ->
  0 <= j / count < N /\ j * p / count = j / count * p + (j mod count) * p / count /\ (j * p / count) mod p = (j mod count) * p / count.
Proof.
  intros Hc Hp Hj. pose proof (Z.div_mod j count ltac:(lia)) as Dj. pose proof (Z.mod_pos_bound j count ltac:(lia)) as Mj.
  set (k := j mod count) in *. set (i := j / count) in *.
  assert (Hi : 0 <= i < N) by (split; [apply Z.div_pos; lia|apply Z.div_lt_upper_bound; lia]).
  assert (Ejp : j * p / count = i * p + k * p / count) by (replace (j * p) with (k * p + i * p * count) by (rewrite Dj; ring); rewrite Z.div_add by lia; ring).
  pose proof (mul_div_lt k p count Mj Hp) as Ek.
  split; [assumption|]. split; [assumption|]. rewrite Ejp. rewrite Z.add_comm, Z.mod_add by lia. apply Z.mod_small; assumption.
Qed.

Lemma nr_target count a p : 0 < p -> 2 <= count -> (count * (a mod p) < p \/ p < count * (a mod p) < 2 * p) ->
  (count * (a mod p) < p /\ count * a / p = count * (a / p)) \/ (p < count * (a mod p) < 2 * p /\ count * a / p = count * (a / p) + 1).
Proof.
  intros Hp Hc He. pose proof (Z.div_mod a p ltac:(lia)) as Da. pose proof (Z.mod_pos_bound a p ltac:(lia)) as Ma.
  set (e := a mod p) in *. set (N := a / p) in *. clearbody e N. subst a. 
  assert (0 <= count * e) by (apply Z.mul_nonneg_nonneg; lia).
  destruct He as [He|He]; [left|right]; (split; [assumption|]); symmetry.
  - apply Z.div_unique with (count * e); [lia|]. ring.
  - apply Z.div_unique with (count * e - p); [lia|]. ring.
Qed.

Lemma offset_ok count a p j : 2 <= count -> 0 < p <= a -> (count * (a mod p) < p \/ p < count * (a mod p) < 2 * p) ->
  0 <= j < count * a / p ->
  let i := Z.min (j / count) (a / p - 1) in let so := source_area_offset (j * p) (ext1 (count * a) p j) p count in
  i * p + so = j * p / count /\ 0 <= so /\ 0 <= i < a / p.
Proof.
  intros Hc Hp He Hj i so. pose proof (nr_target count a p ltac:(lia) Hc He) as HT.
  pose proof (Z.div_mod a p ltac:(lia)) as Da. pose proof (Z.mod_pos_bound a p ltac:(lia)) as Ma.
  assert (HN : 1 <= a / p) by (apply Z.div_le_lower_bound; lia).
  assert (Hjp : 0 <= j * p) by (apply Z.mul_nonneg_nonneg; lia).
  unfold so, source_area_offset. rewrite Z.quot_div_nonneg by lia. rewrite Z.rem_mod_nonneg by (try lia; apply Z.div_pos; lia). clear so.
  destruct (Z.lt_ge_cases j (count * (a / p))) as [L|L].
  - destruct (whole_ok count p (a / p) j Hc ltac:(lia) (conj (proj1 Hj) L)) as [W1 [W2 W3]].
    assert (Ei : i = j / count) by (unfold i; lia). rewrite W3, W2, Ei.
    pose proof (mul_div_lt (j mod count) p count (Z.mod_pos_bound j count ltac:(lia)) ltac:(lia)) as Ek.
    destruct (negb (ext1 (count * a) p j =? p) && (j mod count * p / count =? 0)) eqn:S; [|lia]. exfalso.
    apply andb_prop in S. destruct S as [S1 S2]. apply negb_true_iff, Z.eqb_neq in S1. apply Z.eqb_eq in S2.
    unfold ext1 in S1. destruct (Z.eqb_spec j (count * a / p - 1)) as [Ej|]; [|lia].
    destruct HT as [[H1 H2]|[H1 H2]]; [|lia]. rewrite H2 in Ej.
    assert (Hk : j mod count = count - 1) by (symmetry; apply (Z.mod_unique _ _ (a / p - 1)); [lia|rewrite Ej; ring]).
    rewrite Hk in S2. assert (E0 : a mod p = 0) by (exact (last_part_zero count p _ Hc (proj1 Hp) Ma H1 S2)).
    apply S1. rewrite Ej. rewrite E0 in Da. rewrite Da at 1. ring.
  - destruct HT as [[H1 H2]|[H1 H2]]; [exfalso; rewrite H2 in Hj; exact (Zle_not_lt _ _ L (proj2 Hj))|].
    assert (Ej : j = count * (a / p)) by (rewrite H2 in Hj; apply Z.le_antisymm; [apply Z.lt_succ_r; exact (proj2 Hj)|exact L]). clear He.
    assert (Ejc : j / count = a / p) by (rewrite Ej, Z.mul_comm, Z.div_mul by lia; reflexivity).
    assert (Ei : i = a / p - 1) by (unfold i; lia).
    assert (Ejp : j * p / count = a / p * p) by (rewrite Ej; replace (count * (a / p) * p) with (a / p * p * count) by ring; apply Z.div_mul; lia).
    rewrite Ejp, Z.mod_mul by lia. rewrite Z.eqb_refl, andb_true_r.
    assert (En : ext1 (count * a) p j = count * (a mod p)).
    { unfold ext1. destruct (Z.eqb_spec j (count * a / p - 1)); [|lia]. rewrite Ej. rewrite Da at 1. ring. }
    rewrite En. destruct (Z.eqb_spec (count * (a mod p)) p); [lia|]. cbn [negb]. rewrite Ei. split; [ring|]. lia.
Qed.

Lemma dim_ok count a p j : 2 <= count -> 0 < p <= a -> (count * (a mod p) < p \/ p < count * (a mod p) < 2 * p) ->
  0 <= j < count * a / p ->
  let i := Z.min (j / count) (a / p - 1) in let n := ext1 (count * a) p j in let so := source_area_offset (j * p) n p count in
  0 <= i < a / p /\ forall x, 0 <= x < n ->
    0 <= so + ((j * p) mod count + x) / count < ext1 a p i /\ i * p + (so + ((j * p) mod count + x) / count) = (j * p + x) / count.
Proof.
  intros Hc Hp He Hj i n so.
  pose proof (offset_ok count a p j Hc Hp He Hj) as Hso. cbv zeta in Hso. fold i n so in Hso. destruct Hso as [H1 [H2 H3]].
  split; [assumption|].
  intros x Hx. pose proof (Z.mod_pos_bound (j * p) count ltac:(lia)) as Mp.
  assert (Ex : i * p + (so + ((j * p) mod count + x) / count) = (j * p + x) / count).
  { rewrite Z.add_assoc, H1. replace (j * p + x) with ((j * p) mod count + x + (j * p / count) * count) by (pose proof (Z.div_mod (j * p) count ltac:(lia)); lia).
    rewrite Z.div_add by lia. lia. }
  split; [|assumption]. assert (0 <= ((j * p) mod count + x) / count) by (clear - Mp Hx Hc; apply Z.div_pos; lia).
  assert (Hca : p <= count * a) by (clear - Hp Hc; nia).
  assert (Hn : j * p + x < count * a) by (apply (ext1_in (count * a) p j x); [split; [apply Hp|exact Hca]|exact Hj|exact Hx]).
  assert (X : (j * p + x) / count < i * p + ext1 a p i);
    [|rewrite <- Ex in X; split; [apply Z.add_nonneg_nonneg; assumption|apply (Zplus_lt_reg_l _ _ (i * p)); exact X]].
  unfold ext1. destruct (Z.eqb_spec i (a / p - 1)) as [Ei|Ei].
  - replace (i * p + (a - i * p)) with a by lia. apply Z.div_lt_upper_bound; [lia|exact Hn].
  - assert (Ej : i = j / count) by (destruct (Z.min_spec (j / count) (a / p - 1)) as [[_ E]|[_ E]]; [exact E|exfalso; exact (Ei E)]). pose proof (Z.div_mod j count ltac:(lia)) as Dj. pose proof (Z.mod_pos_bound j count ltac:(lia)) as Mj. rewrite <- Ej in Dj.
    assert (Exn : n = p).
    { unfold n, ext1. destruct (Z.eqb_spec j (count * a / p - 1)) as [Ej'|]; [|reflexivity]. exfalso.
      destruct (nr_target count a p ltac:(lia) Hc He) as [[_ T]|[_ T]]; rewrite T in Ej'; clear - Ej' Dj Mj Ei H3 Hc; nia. }
    rewrite Exn in Hx. apply Z.div_lt_upper_bound; [lia|]. clear - Dj Mj Hx Hp. nia.
Qed.
