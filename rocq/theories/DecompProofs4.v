(** The decomposition results in the form used by the property theorems. *)
From Verif Require Import Common CommonProofs CoreSpec DecompSpec IndexModel IndexProofs Float64 Float64Proofs
  DecompModel DecompProofs DecompProofs2 DecompProofs3.
Open Scope Z_scope.

Lemma parts_shape_map2 a p : parts_shape a p = map2 Z.div a p.
Proof. revert p. induction a as [|x a IH]; intros [|y p]; cbn; try reflexivity. now rewrite IH. Qed.
Lemma nr_parts_prodZ a p : nr_parts a p = prodZ (map2 Z.div a p).
Proof. unfold nr_parts. now rewrite volume_prodZ, parts_shape_map2. Qed.

Lemma to_accepted L a p : supported L a p -> partition_fits a p -> L <= nr_parts a p -> accepted L a p.
Proof.
  unfold supported, accepted. rewrite nr_parts_prodZ. intros [Hne [Hl [HL Hb]]] Hf HL2.
  split; [split; assumption|]. auto.
Qed.

Lemma c01 {P} (create : Z -> list Z -> list Z -> P) L a p :
  supported L a p -> partition_fits a p -> L <= nr_parts a p ->
  exists parts, instantiate_individually L create a p = Ok parts /\
    (forall q, In q parts -> length (pl_offset q) = length a /\ pos_shape (pl_shape q) /\
       (forall x, in_box (pl_offset q) (pl_shape q) x -> in_shape a x)) /\
    (forall x, in_shape a x -> exists k, forall j,
       (exists q, nth_error parts j = Some q /\ in_box (pl_offset q) (pl_shape q) x) <-> j = k).
Proof. intros. apply tiling, to_accepted; assumption. Qed.

Lemma fits_dec a p : partition_fits a p \/ ~ partition_fits a p.
Proof.
  unfold partition_fits. revert p. induction a as [|x a IH]; intros [|y p].
  - left. constructor.
  - right. intros H. inversion H.
  - right. intros H. inversion H.
  - destruct (IH p) as [H|H].
    + destruct (Z_lt_le_dec 0 y); [destruct (Z_le_gt_dec y x)|].
      * left. constructor; [lia|assumption].
      * right. intros H'. inversion H'; subst. lia.
      * right. intros H'. inversion H'; subst. lia.
    + right. intros H'. inversion H'; subst. contradiction.
Qed.

Lemma c02 {P} (create : Z -> list Z -> list Z -> P) L a p :
  supported L a p -> length a = length p -> is_shape a -> is_shape p ->
  (instantiate_individually L create a p = Throw <-> ~ (partition_fits a p /\ L <= nr_parts a p)) /\
  ((exists parts, instantiate_individually L create a p = Ok parts) <-> partition_fits a p /\ L <= nr_parts a p).
Proof.
  intros Hs Hl Ha Hp.
  assert (H1 : partition_fits a p /\ L <= nr_parts a p -> exists parts, instantiate_individually L create a p = Ok parts).
  { intros [H1 H2]. destruct (c01 create L a p Hs H1 H2) as [parts [E _]]. eauto. }
  assert (H2 : ~ (partition_fits a p /\ L <= nr_parts a p) -> instantiate_individually L create a p = Throw).
  { intros Hn. destruct (is_subset_of p a && negb (prodZ p =? 0)) eqn:E.
    - apply andb_prop in E. destruct E as [E1 E2]. apply negb_true_iff, Z.eqb_neq in E2.
      apply prodZ_pos_inv in E2; [|assumption]. apply is_subset_fits in E1; try assumption.
      apply rejects_localities.
      + split; [apply Hs|assumption].
      + rewrite <- nr_parts_prodZ. destruct (Z_lt_ge_dec (nr_parts a p) L); [assumption|].
        exfalso. apply Hn. split; [assumption|lia].
    - apply rejects; try assumption; [apply Hs|]. intros [_ Hf].
      pose proof (Forall2_fits_pos _ _ Hf) as Hpp. rewrite (proj2 (is_subset_fits a p Hl Hpp) Hf) in E. cbn in E.
      apply negb_false_iff, Z.eqb_eq in E. pose proof (prodZ_pos _ Hpp). lia. }
  assert (Hdec : (partition_fits a p /\ L <= nr_parts a p) \/ ~ (partition_fits a p /\ L <= nr_parts a p)).
  { destruct (Z_le_gt_dec L (nr_parts a p)); [|right; lia].
    destruct (fits_dec a p); [left|right]; tauto. }
  split; split; intros H; auto.
  - intros Hc. destruct (H1 Hc) as [parts E]. congruence.
  - destruct Hdec as [Hd|Hd]; [assumption|]. destruct H as [parts E]. rewrite (H2 Hd) in E. discriminate.
Qed.

Lemma c06 {P} (create : Z -> list Z -> list Z -> P) L a p :
  supported L a p -> partition_fits a p -> L <= nr_parts a p ->
  exists visits parts,
    curve_visits (parts_shape a p) = Ok visits /\
    instantiate_individually L create a p = Ok parts /\
    (forall q, In q parts -> 0 <= pl_locality q < L) /\
    (forall l, 0 <= l < L -> exists b e, 0 <= b < e /\ e <= nr_parts a p /\
       nr_parts a p - 2 * L < (e - b) * L < nr_parts a p + 2 * L /\
       forall k idxs, In (k, idxs) visits ->
         exists i q, idxs_to_linear_idx idxs (parts_shape a p) = Ok i /\
           nth_error parts (Z.to_nat i) = Some q /\ (pl_locality q = l <-> b <= k < e)).
Proof.
  intros Hs Hf HL. pose proof (to_accepted L a p Hs Hf HL) as Hacc.
  destruct (instantiate_individually_ok L create a p Hacc) as [visits [r [Ev [Er [Hl Hh]]]]].
  destruct (accepted_visits L a p Hacc) as [v [Hv [Hfst [Hnd Hin]]]]. rewrite Ev in Hv. injection Hv as <-.
  rewrite nr_parts_prodZ, parts_shape_map2. exists visits, r. split; [assumption|]. split; [assumption|].
  destruct Hacc as [Hff [_ [HL2 Hb]]].
  assert (Hp := sip_pos _ _ Hf). assert (Hne : map2 Z.div a p <> []) by (apply fits_sip_ne, Hff).
  assert (Hk : forall v, In v visits -> 0 <= fst v < prodZ (map2 Z.div a p)).
  { intros v Hv'. apply (in_map fst) in Hv'. rewrite Hfst in Hv'. apply in_zseq in Hv'. lia. }
  split.
  - intros q Hq. apply In_nth_error in Hq. destruct Hq as [n Hq].
    assert (Hn : (n < length r)%nat) by (apply nth_error_Some; congruence).
    destruct (pos_in_visits _ visits n Hp Hin) as [[k c] [Hv ->]]; [lia|].
    rewrite Hh in Hq by assumption. injection Hq as <-. cbn.
    apply loc_of_ok; try assumption. apply (Hk _ Hv).
  - intros l Hll. destruct (locality_runs _ L HL2 Hb l Hll) as [b [e [H1 [H2 [H3 H4]]]]].
    exists b, e. split; [assumption|]. split; [assumption|]. split; [assumption|].
    intros k c Hkc. exists (linear_idx c (map2 Z.div a p)), (expected L create a p (k, c)).
    split; [|split].
    + apply idxs_to_linear_idx_ok; [assumption|]. apply Hin. apply (in_map snd) in Hkc. exact Hkc.
    + exact (Hh _ Hkc).
    + cbn. apply H4. exact (Hk _ Hkc).
Qed.

Lemma c07 {P} (create : Z -> list Z -> list Z -> P) create_batch L a p :
  supported L a p -> partition_fits a p -> L <= nr_parts a p ->
  (forall loc l, l <> [] -> create_batch loc l = map (fun '(o, s) => create loc o s) l) ->
  instantiate_per_locality L create_batch a p = instantiate_individually L create a p.
Proof. intros. apply batches_equal; [assumption|]. apply to_accepted; assumption. Qed.

Lemma c08 {E} (eqb : E -> E -> bool) mark nd buffer L a0 a1 p0 p1 :
  supported L [a0; a1] [p0; p1] -> 0 < p0 <= a0 -> 0 < p1 <= a1 -> L <= nr_parts [a0; a1] [p0; p1] ->
  Z.of_nat (length buffer) = a0 * a1 ->
  exists parts,
    instantiate_individually L (fun _ => from_buffer eqb mark nd buffer [a0; a1]) [a0; a1] [p0; p1] = Ok parts /\
    (forall x0 x1, 0 <= x0 < a0 -> 0 <= x1 < a1 ->
       exists q o0 o1 s0 s1 data, In q parts /\
         pl_offset q = [o0; o1] /\ pl_shape q = [s0; s1] /\ pl_data q = Ok data /\
         o0 <= x0 < o0 + s0 /\ o1 <= x1 < o1 + s1) /\
    (forall q, In q parts -> exists o0 o1 s0 s1 data,
       pl_offset q = [o0; o1] /\ pl_shape q = [s0; s1] /\ pl_data q = Ok data /\
       forall x0 x1, o0 <= x0 < o0 + s0 -> o1 <= x1 < o1 + s1 ->
         exists e, nth_error buffer (Z.to_nat (x0 * a1 + x1)) = Some e /\
         nth_error data (Z.to_nat ((x0 - o0) * s1 + (x1 - o1))) =
         Some (match nd with Some n => if eqb e n then mark else e | None => e end)).
Proof.
  intros Hs H0 H1 HL Hlen.
  assert (Hf : partition_fits [a0; a1] [p0; p1]) by (constructor; [assumption|]; constructor; [assumption|constructor]).
  destruct (array_from_buffer_ok eqb mark nd buffer L a0 a1 p0 p1) as [parts [Ep Hp]];
    [apply to_accepted; assumption|assumption|].
  destruct (c01 (fun _ => from_buffer eqb mark nd buffer [a0; a1]) L _ _ Hs Hf HL) as [parts' [Ep' [Hin Hc]]].
  rewrite Ep in Ep'. injection Ep' as <-.
  exists parts. split; [assumption|]. split.
  - intros x0 x1 Hx0 Hx1. destruct (Hc [x0; x1]) as [k Hk]; [cbn; auto|].
    destruct (proj2 (Hk k) eq_refl) as [q [Hq Hb]]. apply nth_error_In in Hq.
    destruct (Hp q Hq) as [o0 [o1 [s0 [s1 [data [E1 [E2 [E3 _]]]]]]]].
    exists q, o0, o1, s0, s1, data. rewrite E1, E2 in Hb. cbn in Hb. tauto.
  - intros q Hq. destruct (Hp q Hq) as [o0 [o1 [s0 [s1 [data [E1 [E2 [E3 Hd]]]]]]]].
    exists o0, o1, s0, s1, data. repeat split; try assumption. intros x0 x1 Hx0 Hx1.
    destruct (Hin q Hq) as [_ [_ Hi]]. specialize (Hi [x0; x1]). rewrite E1, E2 in Hi. cbn in Hi.
    specialize (Hi ltac:(tauto)).
    destruct (nth_error buffer (Z.to_nat (x0 * a1 + x1))) as [e|] eqn:Ee.
    + exists e. split; [reflexivity|]. rewrite Hd by assumption. rewrite Ee. reflexivity.
    + apply nth_error_None in Ee. exfalso.
      assert (0 <= x0 * a1) by (apply Z.mul_nonneg_nonneg; lia).
      assert ((x0 + 1) * a1 <= a0 * a1) by (apply Z.mul_le_mono_nonneg_r; lia). lia.
Qed.

Lemma c12_refuted : exists a n, a <> [] /\ pos_shape a /\ 0 < n /\
  default_partition_shape 2000 a n = UB /\ ~ partition_fits a (map (fun _ => 2000) a).
Proof.
  exists [1; 1000000000], 2. repeat split; try discriminate; try lia.
  - repeat constructor.
  - intros H. inversion H; subst. lia.
Qed.

Lemma c11_refuted : exists a m, a <> [] /\ pos_shape a /\ 0 < m <= volume a /\
  m = 2 ^ Z.of_nat (length a) /\ max_partition_shape 2 a m = UB.
Proof.
  exists [1; 100], 4. repeat split; try discriminate; try (cbn; lia). repeat constructor.
Qed.

Lemma c10 {E} (l : list E) shape d hb he :
  pos_shape shape -> (d < length shape)%nat -> 0 <= hb <= he -> he <= nth d shape 0 ->
  Z.of_nat (length l) = volume shape ->
  exists l' shape', erase l shape d hb he = Ok (l', shape') /\
    length shape' = length shape /\
    (forall e, (e < length shape)%nat ->
       nth e shape' 0 = if (e =? d)%nat then nth e shape 0 - (he - hb) else nth e shape 0) /\
    Z.of_nat (length l') = volume shape' /\
    (forall before i after, length before = d -> in_shape shape' (before ++ i :: after) ->
       let i' := if i <? hb then i else i + (he - hb) in
       in_shape shape (before ++ i' :: after) /\
       nth_error l' (Z.to_nat (linear_idx (before ++ i :: after) shape')) =
       nth_error l (Z.to_nat (linear_idx (before ++ i' :: after) shape))).
Proof.
  intros Hp Hd Hb He Hl. rewrite volume_prodZ in Hl.
  destruct (erase_ok l shape d hb he Hp Hd Hb He Hl) as [l' [s' [E1 [E2 [E3 E4]]]]].
  exists l', s'. split; [assumption|]. split; [subst s'; apply zset_length|]. split.
  - intros e Hlt. subst s'. change (nth e (zset d (znth d shape - (he - hb)) shape) 0)
      with (znth e (zset d (znth d shape - (he - hb)) shape)).
    rewrite znth_zset by assumption. destruct (Nat.eqb_spec e d); [subst e|]; reflexivity.
  - split; [rewrite volume_prodZ; assumption|]. intros before i after Hlb Hin.
    destruct (E4 _ Hin) as [H1 H2].
    assert (Her : erased_from d hb he (before ++ i :: after) =
                  before ++ (if i <? hb then i else i + (he - hb)) :: after).
    { unfold erased_from. rewrite <- Hlb, zset_app_r, znth_app_r. reflexivity. }
    rewrite Her in H1, H2. cbv zeta. auto.
Qed.

Lemma c36 a p : partition_fits a p \/ Forall2 (fun a p => 0 <= a /\ 0 < p) a p ->
  Forall (fun e => e < 2 ^ 53) a -> Forall (fun e => e <= 2 ^ 53) p ->
  length (shape_in_partitions a p) = length a /\ length (clamp_area_shape a p) = length a /\
  forall d, (d < length a)%nat ->
    let n := nth d (shape_in_partitions a p) 0 in
    let c := nth d (clamp_area_shape a p) 0 in
    c = n * nth d p 0 /\ c - nth d p 0 < nth d a 0 <= c.
Proof.
  intros Hf Ha Hp.
  assert (HF : Forall2 (fun a p => 0 <= a /\ 0 < p) a p).
  { destruct Hf as [Hf|Hf]; [|assumption]. clear - Hf. unfold partition_fits in Hf.
    induction Hf; constructor; [lia|assumption]. }
  clear Hf. induction HF as [|x y a p Hxy HF IH]; [cbn; repeat split; intros; lia|].
  apply Forall_cons_iff in Ha. destruct Ha as [Hx Ha]. apply Forall_cons_iff in Hp. destruct Hp as [Hy Hp].
  destruct (IH Ha Hp) as [H1 [H2 H3]]. unfold shape_in_partitions, clamp_area_shape in *. cbn [map2 length].
  split; [lia|]. split; [lia|]. intros [|d] Hd.
  - cbn [nth]. cbv zeta. rewrite b64_ceil_div by lia. split; [reflexivity|].
    pose proof (Z.div_mod (x + y - 1) y ltac:(lia)) as D. pose proof (Z.mod_pos_bound (x + y - 1) y ltac:(lia)) as M.
    rewrite (Z.mul_comm y) in D. lia.
  - cbn [nth length] in *. apply H3. lia.
Qed.

Lemma exts_nth a p c d : length a = length p -> length c = length p -> (d < length a)%nat ->
  nth d (exts a p c) 0 = ext (nth d a 0) (nth d p 0) (nth d c 0).
Proof.
  revert p c d. induction a as [|x a IH]; intros [|y p] [|z c] d H1 H2 Hd; cbn in *; try discriminate; try lia.
  destruct d; [reflexivity|]. apply IH; lia.
Qed.

Lemma c02_extents {P} (create : Z -> list Z -> list Z -> P) L a p :
  supported L a p -> partition_fits a p -> L <= nr_parts a p ->
  exists parts, instantiate_individually L create a p = Ok parts /\
    Z.of_nat (length parts) = nr_parts a p /\
    forall idxs, in_shape (parts_shape a p) idxs ->
      exists i q, idxs_to_linear_idx idxs (parts_shape a p) = Ok i /\
        nth_error parts (Z.to_nat i) = Some q /\
        forall d, (d < length a)%nat ->
          nth d (pl_offset q) 0 = nth d idxs 0 * nth d p 0 /\
          (nth d idxs 0 < nth d a 0 / nth d p 0 - 1 -> nth d (pl_shape q) 0 = nth d p 0) /\
          (nth d idxs 0 = nth d a 0 / nth d p 0 - 1 ->
             nth d (pl_offset q) 0 + nth d (pl_shape q) 0 = nth d a 0 /\
             nth d p 0 <= nth d (pl_shape q) 0 < 2 * nth d p 0).
Proof.
  intros Hs Hf HL. pose proof (to_accepted L a p Hs Hf HL) as Hacc.
  destruct (instantiate_individually_ok L create a p Hacc) as [visits [r [Ev [Er [Hl Hh]]]]].
  destruct (accepted_visits L a p Hacc) as [v [Hv [Hfst [Hnd Hin]]]]. rewrite Ev in Hv. injection Hv as <-.
  exists r. split; [assumption|]. rewrite nr_parts_prodZ, parts_shape_map2. split; [assumption|].
  intros idxs Hi. apply Hin in Hi as Hm. apply in_map_iff in Hm. destruct Hm as [[k c] [E Hvv]]. cbn in E. subst c.
  exists (linear_idx idxs (map2 Z.div a p)), (expected L create a p (k, idxs)).
  assert (Hlen : length a = length p) by (apply fits_length, Hacc).
  pose proof (in_shape_length _ _ Hi) as Hil. rewrite map2_length in Hil by assumption.
  split; [apply idxs_to_linear_idx_ok; [apply fits_sip_ne, Hacc|assumption]|].
  split; [apply (Hh (k, idxs)); assumption|]. intros d Hd. cbn [expected pl_offset pl_shape].
  rewrite exts_nth by lia. pose proof (znth_map2 Z.mul idxs p d ltac:(lia) ltac:(lia)) as Ho. unfold znth in Ho.
  rewrite Ho. split; [reflexivity|]. pose proof (Forall2_znth _ _ _ d Hf Hd) as Hfd. cbn in Hfd. unfold znth in Hfd.
  pose proof (Z.div_mod (nth d a 0) (nth d p 0) ltac:(lia)). pose proof (Z.mod_pos_bound (nth d a 0) (nth d p 0) ltac:(lia)).
  unfold ext. split; intros Hc; destruct (Z.eqb_spec (nth d idxs 0) (nth d a 0 / nth d p 0 - 1)); try lia.
Qed.
