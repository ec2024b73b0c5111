From Verif Require Import Common CommonProofs CoreSpec DecompSpec ArraySpec IndexModel DecompModel ArrayModel ArrayRep
  ArrayProofs GridModel GridProofs GridRaster LocalModel LocalSpec LocalProofs LocalProofs2 FlowModel FlowProofs CreateSpec CreateModel.
Open Scope Z_scope.

Lemma for_each_zseq {S} (body : Z -> S -> outcome S) (Inv : Z -> S -> Prop) n s : 0 <= n -> Inv 0 s ->
  (forall i s, 0 <= i < n -> Inv i s -> exists s', body i s = Ok s' /\ Inv (i + 1) s') ->
  exists s', for_each (zseq 0 n) body s = Ok s' /\ Inv n s'.
Proof.
  intros Hn H0 Hs. rewrite <- (Z2Nat.id n) in * by lia. remember (Z.to_nat n) as k eqn:Ek. clear Ek Hn n.
  induction k as [|k IH].
  - exists s. rewrite zseq_nil by lia. split; [reflexivity|exact H0].
  - destruct IH as [s1 [E1 I1]].
    { intros i s' Hi. apply Hs. lia. }
    destruct (Hs (Z.of_nat k) s1) as [s2 [E2 I2]]; [lia|exact I1|].
    exists s2. replace (Z.of_nat (Datatypes.S k)) with (Z.of_nat k + 1) by lia. rewrite zseq_snoc by lia.
    rewrite for_each_app, E1. cbn [obind for_each]. rewrite Z.add_0_l, E2. split; [reflexivity|exact I2].
Qed.

Section Range.
Context (t : itype) (Ht : int_type t).

Lemma wrap_add v d : wrap t (wrap t v + d) = wrap t (v + d).
Proof.
  unfold wrap. destruct (pow_split t Ht) as [E Hp].
  replace ((v - imin t) mod 2 ^ bits t + imin t + d - imin t) with ((v - imin t) mod 2 ^ bits t + d) by lia.
  rewrite Z.add_mod_idemp_l by lia. do 2 f_equal. lia.
Qed.
Lemma wrap_add_r v d : wrap t (v + wrap t d) = wrap t (v + d).
Proof. now rewrite Z.add_comm, wrap_add, Z.add_comm. Qed.

Lemma wrap_signed v : (signed t = true -> representable t v) -> signed t = true -> wrap t v = v.
Proof. intros H Hs. now apply wrap_id; auto. Qed.

Lemma add_checked b v d : (signed t = true -> representable t v /\ representable t (v + d)) ->
  (if signed t && b && negb (in_range t (wrap t v + d)) then UB else Ok (wrap t (wrap t v + d))) = Ok (wrap t (v + d)).
Proof.
  intros H. destruct (signed t) eqn:Es; cbn [andb].
  - destruct (H eq_refl) as [H1 H2]. rewrite (wrap_id t v Ht H1). apply in_range_iff in H2. rewrite H2. now destruct b.
  - now rewrite wrap_add.
Qed.
Lemma increment_ok v : (signed t = true -> representable t v /\ representable t (v + 1)) -> increment t (wrap t v) = Ok (wrap t (v + 1)).
Proof. apply add_checked. Qed.
Lemma add_count_ok v d : (signed t = true -> representable t v /\ representable t (v + d)) -> add_count t (wrap t v) d = Ok (wrap t (v + d)).
Proof. apply add_checked. Qed.
Lemma add_element_ok v d : (signed t = true -> representable t v /\ representable t d /\ representable t (v + d)) ->
  add_element t (wrap t v) (wrap t d) = Ok (wrap t (v + d)).
Proof.
  intros H. unfold add_element. assert (E : wrap t (wrap t v + wrap t d) = wrap t (v + d)) by (now rewrite wrap_add, wrap_add_r).
  rewrite E. destruct (signed t); [|reflexivity]. destruct (H eq_refl) as [H1 [H2 H3]].
  rewrite (wrap_id t v Ht H1), (wrap_id t d Ht H2). apply in_range_iff in H3. rewrite H3. cbn [negb]. now rewrite andb_false_r.
Qed.

(** One partition whose first cell gets number [v] *)
Lemma range_partition_ok junk n0 n1 v stride : 0 <= n0 -> 0 < n1 <= stride ->
  (signed t = true -> imin t <= v /\ v + n0 * stride <= imax t /\ stride <= imax t) ->
  range_partition t junk n0 n1 (wrap t v) stride = Ok (gmake n0 n1 (fun x y => wrap t (v + x * stride + y))).
Proof.
  intros H0 H1 Hv. unfold range_partition. destruct (Z.ltb_spec stride n1); [lia|].
  rewrite fresh_make by lia.
  destruct (for_each_zseq
    (fun r s => obind (range_row t n1 r s) (fun s => obind (add_element t (fst s) (wrap t (stride - n1))) (fun value => Ok (value, snd s))))
    (fun r s => fst s = wrap t (v + r * stride) /\ exists h, snd s = gmake n0 n1 h /\
       forall x y, 0 <= x < r -> 0 <= y < n1 -> h x y = wrap t (v + x * stride + y))
    n0 (wrap t v, gmake n0 n1 (fun r c => junk (r * n1 + c)))) as [s [E [_ [h [Eh Hh]]]]].
  - lia.
  - cbn [fst snd]. split; [f_equal; lia|]. eexists. split; [reflexivity|]. intros; lia.
  - intros r s Hr [Ef [h [Eh Hh]]].
    assert (B : (r + 1) * stride <= n0 * stride) by nia.
    destruct (for_each_zseq
      (fun c s => obind (gset (snd s) r c (fst s)) (fun data => obind (increment t (fst s)) (fun value => Ok (value, data))))
      (fun c s => fst s = wrap t (v + r * stride + c) /\ exists h, snd s = gmake n0 n1 h /\
         forall x y, (0 <= x < r /\ 0 <= y < n1) \/ (x = r /\ 0 <= y < c) -> h x y = wrap t (v + x * stride + y))
      n1 s) as [s' [E' [Ef' [h' [Eh' Hh']]]]].
    + lia.
    + cbn beta. split; [rewrite Ef; f_equal; lia|]. exists h. split; [exact Eh|]. intros x y [Hxy|Hxy]; [apply Hh; lia|lia].
    + intros c [sv sg] Hc [Ec [hc [Ehc Hhc]]]. cbn [fst snd] in *. subst sv sg. rewrite gset_make by lia. cbn [obind].
      rewrite increment_ok.
      2:{ intros Es. destruct (Hv Es) as [? [? ?]]. unfold representable. nia. }
      cbn [obind]. eexists. split; [reflexivity|]. cbn [fst snd]. split; [f_equal; lia|]. eexists. split; [reflexivity|].
      intros x y Hxy. cbn beta. destruct ((x =? r) && (y =? c)) eqn:Exy.
      * assert (x = r /\ y = c) as [-> ->] by lia. reflexivity.
      * apply Hhc. lia.
    + unfold range_row. rewrite E'. cbn [obind]. rewrite Ef'.
      rewrite add_element_ok.
      2:{ intros Es. destruct (Hv Es) as [? [? ?]]. unfold representable.
          assert (imin t <= 0) by (unfold imin; rewrite Es; pose proof (pow_split t Ht); lia). nia. }
      cbn [obind]. eexists. split; [reflexivity|]. cbn [fst snd]. split; [f_equal; lia|]. exists h'. split; [exact Eh'|].
      intros x y Hx Hy. apply Hh'. lia.
  - rewrite E. cbn [obind]. rewrite Eh. f_equal. apply gmake_ext. intros x y Hx Hy. apply Hh; lia.
Qed.

(** All partitions *)
Context (a0 a1 p0 p1 : Z) (Hp0 : 0 < p0 <= a0) (Hp1 : 0 < p1 <= a1).
(** By how much the numbers are too low after each row of partitions *)
Definition lag : Z := if a1 / p1 =? 1 then 0 else a1 mod p1.
Definition part_row (r : Z) : Z := Z.min (r / p0) (a0 / p0 - 1).
Definition numbers (start : Z) (x : list Z) : Z := wrap t (start + row x * a1 + column x - part_row (row x) * lag).

Lemma part_row_in r x : 0 <= r < a0 / p0 -> 0 <= x < ext1 a0 p0 r -> part_row (r * p0 + x) = r.
Proof.
  intros Hr Hx. unfold part_row. unfold ext1 in Hx. destruct (Z.eqb_spec r (a0 / p0 - 1)) as [E|E].
  - assert (a0 / p0 - 1 <= (r * p0 + x) / p0); [|lia]. apply Z.div_le_lower_bound; nia.
  - replace ((r * p0 + x) / p0) with r; [lia|]. apply (Z.div_unique _ p0 r x); lia.
Qed.
Lemma lag_range : 0 <= lag < a1.
Proof. unfold lag. pose proof (Z.mod_pos_bound a1 p1). destruct (_ =? _); lia. Qed.

Lemma range_ok junk arr f start : raster_of [a0; a1] [p0; p1] arr f -> countable t a0 a1 start ->
  exists out, range t junk arr start = Ok out /\ raster_of [a0; a1] [p0; p1] out (numbers start).
Proof.
  intros Hr [Hst Hsg]. destruct (raster_grid a0 a1 p0 p1 arr f Hr) as [loc Eg].
  destruct Hr as [_ [_ [Ea [Es _]]]]. unfold range, parts2. rewrite Ea, Es.
  change (nth 0 (parts_shape [a0; a1] [p0; p1]) 0) with (a0 / p0). change (nth 1 (parts_shape [a0; a1] [p0; p1]) 0) with (a1 / p1).
  change (nth 1 [a0; a1] 0) with a1. rewrite Eg. set (parts := gmake (a0 / p0) (a1 / p1) (rpart a0 a1 p0 p1 loc f)).
  change (g0 parts) with (a0 / p0). change (g1 parts) with (a1 / p1).
  pose proof (nparts_pos _ _ Hp0) as Hn0. pose proof (nparts_pos _ _ Hp1) as Hn1.
  pose proof lag_range as Hlag.
  pose (Q := fun r c => Placed (loc r c) [r * p0; c * p1] [ext1 a0 p0 r; ext1 a1 p1 c]
     (gmake (ext1 a0 p0 r) (ext1 a1 p1 c) (fun x y => numbers start [r * p0 + x; c * p1 + y]))).
  assert (Big : signed t = true -> a1 <= imax t).
  { intros Sg. specialize (Hsg Sg). destruct (pow_split t Ht) as [Ep Hpw]. unfold representable, imin, imax in *. rewrite Sg in *. nia. }
  assert (Bstart : forall r, 0 <= r < a0 / p0 ->
    start <= start + r * (p0 * a1 - lag) /\ start + r * (p0 * a1 - lag) + ext1 a0 p0 r * a1 <= start + a0 * a1).
  { intros r Hrr. pose proof (ext1_in a0 p0 r (ext1 a0 p0 r - 1) Hp0 Hrr) as Hx. pose proof (ext1_pos a0 p0 r Hp0 Hrr).
    specialize (Hx ltac:(lia)). assert (lag <= p0 * a1) by nia. split; [nia|].
    assert ((r * p0 + ext1 a0 p0 r) * a1 <= a0 * a1) by nia. nia. }
  destruct (for_each_zseq
    (fun idx0 s => obind (gget parts idx0 0) (fun q =>
           let h := nth 0 (pl_shape q) 0 in
           let w := nth 1 (pl_shape q) 0 in
           obind (range_partitions_row t junk parts a1 h w idx0 s) (fun s =>
           obind (add_count t (fst s) ((h - 1) * a1)) (fun start_value => Ok (start_value, snd s)))))
    (fun r s => (r < a0 / p0 -> fst s = wrap t (start + r * (p0 * a1 - lag))) /\ exists h, snd s = gmake (a0 / p0) (a1 / p1) h /\
       forall x y, 0 <= x < r -> 0 <= y < a1 / p1 -> h x y = Q x y)
    (a0 / p0) (start, parts)) as [s [E [_ [h [Eh Hh]]]]].
  - lia.
  - cbn [fst snd]. split; [intros _; symmetry; replace (start + 0 * (p0 * a1 - lag)) with start by lia; apply wrap_id; auto|].
    eexists. split; [reflexivity|]. intros; lia.
  - intros r s Hrr [Ef [h [Eh Hh]]]. specialize (Ef ltac:(lia)).
    unfold parts at 1. rewrite gget_make by lia. cbn [obind]. unfold rpart at 1 2 3. cbn [pl_shape nth].
    set (e0 := ext1 a0 p0 r). set (S := start + r * (p0 * a1 - lag)) in *.
    destruct (Bstart r Hrr) as [Bs1 Bs2]. fold S in Bs1, Bs2. fold e0 in Bs2.
    pose proof (ext1_pos a0 p0 r Hp0 Hrr) as He0. fold e0 in He0.
    assert (Bw : forall c, 0 <= c < a1 / p1 -> 0 <= c * p1 < a1 /\ (c + 1) * p1 <= a1).
    { intros c Hc. pose proof (Z.mul_div_le a1 p1). nia. }
    assert (He1 : forall c, 0 <= c < a1 / p1 -> 0 < ext1 a1 p1 c <= a1).
    { intros c Hc. pose proof (ext1_pos a1 p1 c Hp1 Hc). split; [lia|]. destruct (Bw c Hc). unfold ext1. destruct (c =? _); lia. }
    set (w := ext1 a1 p1 0).
    assert (Hw : w = if a1 / p1 =? 1 then a1 else p1).
    { unfold w, ext1. replace (0 =? a1 / p1 - 1) with (a1 / p1 =? 1) by lia. destruct (_ =? 1); lia. }
    assert (Bw' : forall c, 0 <= c <= a1 / p1 -> 0 <= c * w <= a1).
    { intros c Hc. rewrite Hw. destruct (Z.eqb_spec (a1 / p1) 1) as [E1|E1]; [rewrite E1 in Hc; assert (c = 0 \/ c = 1) as [->| ->] by (clear - Hc; lia); clear - Hp1; lia|]. pose proof (Z.mul_div_le a1 p1 ltac:(clear - Hp1; lia)) as J. pose proof (Z.mul_le_mono_nonneg_r c (a1 / p1) p1 ltac:(clear - Hp1; lia) ltac:(clear - Hc; lia)) as J1. pose proof (Z.mul_nonneg_nonneg c p1 ltac:(clear - Hc; lia) ltac:(clear - Hp1; lia)) as J2. clear - J J1 J2. lia. }
    destruct (for_each_zseq
      (fun idx1 s => obind (gget parts r idx1) (fun q =>
        obind (range_partition t junk (nth 0 (pl_shape q) 0) (nth 1 (pl_shape q) 0) (fst s) a1) (fun data =>
        obind (gset (snd s) r idx1 (Placed (pl_locality q) (pl_offset q) (pl_shape q) data)) (fun out =>
        obind (add_count t (fst s) w) (fun start_value => Ok (start_value, out))))))
      (fun c s => fst s = wrap t (S + c * w) /\ exists h, snd s = gmake (a0 / p0) (a1 / p1) h /\
         forall x y, (0 <= x < r /\ 0 <= y < a1 / p1) \/ (x = r /\ 0 <= y < c) -> h x y = Q x y)
      (a1 / p1) s) as [s' [E' [Ef' [h' [Eh' Hh']]]]].
    + lia.
    + split; [refine (eq_trans Ef _); f_equal; lia|]. exists h. split; [exact Eh|]. intros x y [Hxy|Hxy]; [apply Hh; lia|lia].
    + intros c [sv sg] Hc [Ec [hc [Ehc Hhc]]]. cbn [fst snd] in *. subst sv sg.
      unfold parts. rewrite gget_make by lia. cbn [obind]. unfold rpart. cbn [pl_shape pl_locality pl_offset nth].
      assert (Ecw : c * w = c * p1).
      { rewrite Hw. destruct (Z.eqb_spec (a1 / p1) 1) as [E1|E1]; [|reflexivity]. replace c with 0 by lia. reflexivity. }
      destruct (Bw c Hc) as [Bc1 Bc2].
      rewrite range_partition_ok; [|lia|apply He1; assumption|].
      2:{ intros Sg. specialize (Hsg Sg). specialize (Big Sg). unfold representable in Hst. rewrite Ecw. fold e0. assert (J : (a0 + 1) * a1 = a0 * a1 + a1) by ring. clearbody S e0. clear - J Hst Hsg Big Bs1 Bs2 Bc1. lia. }
      cbn [obind]. rewrite gset_make by lia. cbn [obind].
      rewrite add_count_ok.
      2:{ intros Sg. specialize (Hsg Sg). unfold representable in *. pose proof (Bw' c ltac:(lia)). pose proof (Bw' (c + 1) ltac:(lia)). nia. }
      cbn [obind]. eexists. split; [reflexivity|]. cbn [fst snd]. split; [f_equal; lia|]. eexists. split; [reflexivity|].
      intros x y Hxy. cbn beta. destruct ((x =? r) && (y =? c)) eqn:Exy.
      * assert (x = r /\ y = c) as [-> ->] by lia. unfold Q. f_equal. apply gmake_ext. intros x y Hx Hy. unfold numbers. f_equal.
        unfold row, column. cbn [nth]. rewrite part_row_in by assumption. unfold S. rewrite Ecw. lia.
      * apply Hhc. lia.
    + unfold range_partitions_row. change (g1 parts) with (a1 / p1). rewrite E'. destruct s' as [sv' sg']. cbn [obind fst snd] in *. subst sv' sg'.
      pose proof (Bw' (a1 / p1) ltac:(lia)) as Bl.
      rewrite add_count_ok.
      2:{ intros Sg. specialize (Hsg Sg). unfold representable in *. split; nia. }
      cbn [obind]. eexists. split; [reflexivity|]. cbn [fst snd]. split.
      * intros Hlast. f_equal. unfold S. assert (e0 = p0) as -> by (unfold e0, ext1; destruct (Z.eqb_spec r (a0 / p0 - 1)); lia).
        assert (a1 / p1 * w = a1 - lag); [|lia]. rewrite Hw. unfold lag. pose proof (Z.div_mod a1 p1).
        destruct (Z.eqb_spec (a1 / p1) 1) as [E1|E1]; nia.
      * exists h'. split; [reflexivity|]. intros x y Hx Hy. apply Hh'. lia.
  - match goal with |- exists out, obind ?X ?k = Ok out /\ _ => assert (EX : obind X k = Ok (array2 [a0; a1] (parts_shape [a0; a1] [p0; p1]) (snd s))) by (refine (eq_trans (f_equal (fun z => obind z k) (E : X = Ok s)) _); reflexivity) end.
    rewrite EX. eexists. split; [reflexivity|]. rewrite Eh. unfold array2.
    replace (gmake (a0 / p0) (a1 / p1) h) with (gmake (a0 / p0) (a1 / p1) Q) by (apply gmake_ext; intros; symmetry; auto).
    apply grid_raster; [assumption|assumption|]. intros r c Hr Hc. unfold Q. cbn [pl_offset pl_shape pl_data]. auto.
Qed.
End Range.
