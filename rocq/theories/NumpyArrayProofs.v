(** From NumPy arrays to LUE arrays and back. *)
From Verif Require Import Common CommonProofs CoreSpec DecompSpec ArraySpec IndexModel IndexProofs DecompModel DecompProofs DecompProofs2 DecompProofs3 DecompProofs4 ArrayModel ArrayRep ArrayProofs IOModel IOSpec IOProofs IOProofs2 IOProofs3.
From Verif Require Import GdalArrayModel GdalArraySpec GdalArrayProofs NumpyArrayModel NumpyArraySpec.

(** ** Row-major order *)
Lemma address_start s0 : forall st x d, address (s0 + d) st x = address s0 st x + d.
Proof. induction st as [|s st IH] in s0 |- *; intros [|i x] d; cbn [address]; try lia. rewrite <- IH. f_equal. lia. Qed.

Lemma rowmaj_cons n s i x : in_shape (n :: s) (i :: x) -> rowmaj (n :: s) (i :: x) = i * volume s + rowmaj s x.
Proof. intros _. reflexivity. Qed.

Lemma strides_row_major : forall n st start, pos_shape n -> row_major_strides n st = true ->
  forall x, in_shape n x -> address start st x = start + rowmaj n x.
Proof.
  induction n as [|e n IH]; intros [|s st] start P H [|i x] Hx; cbn in Hx, H; try contradiction; try discriminate; [cbn; lia|].
  apply andb_true_iff in H. destruct H as [H1 H2]. inversion P as [|? ? Pe Pn]; subst. destruct Hx as [Hi Hx].
  cbn [address]. rewrite (IH st (start + i * s) Pn H2 x Hx). cbn [rowmaj].
  apply orb_true_iff in H1. destruct H1 as [H1|H1]; [apply Z.eqb_eq in H1; assert (i = 0) by lia; subst i; lia|].
  apply Z.eqb_eq in H1. subst s. change (fold_right Z.mul 1 n) with (volume n). lia.
Qed.

Lemma in_shape_zero n : pos_shape n -> in_shape n (map (fun _ => 0) n).
Proof. induction 1; cbn; [exact I|]. split; [lia|assumption]. Qed.
Lemma rowmaj_zero n : rowmaj n (map (fun _ => 0) n) = 0.
Proof. induction n as [|e n IH]; cbn; [reflexivity|]. rewrite IH. lia. Qed.
Lemma address_zero : forall (n st : list Z) s0, address s0 st (map (fun _ => 0) n) = s0.
Proof. induction n as [|e n IH]; intros [|s st] s0; cbn [address map]; try reflexivity. rewrite IH. lia. Qed.

Lemma row_major_strides_iff : forall n st start, pos_shape n -> length st = length n ->
  (forall x, in_shape n x -> address start st x = start + rowmaj n x) -> row_major_strides n st = true.
Proof.
  induction n as [|e n IH]; intros [|s st] start P Hl H; cbn in Hl; try discriminate; [reflexivity|].
  inversion P as [|? ? Pe Pn]; subst. cbn [row_major_strides]. apply andb_true_iff. split.
  - destruct (Z.eqb_spec e 1) as [|Hne]; [reflexivity|]. cbn [orb]. apply Z.eqb_eq.
    specialize (H (1 :: map (fun _ => 0) n)). cbn [address rowmaj] in H. rewrite address_zero, rowmaj_zero in H.
    assert (Hx : in_shape (e :: n) (1 :: map (fun _ => 0) n)) by (cbn; split; [lia|now apply in_shape_zero]). specialize (H Hx).
    change (fold_right Z.mul 1 n) with (volume n). lia.
  - apply (IH st start Pn); [lia|]. intros x Hx. specialize (H (0 :: x)). cbn [address rowmaj] in H.
    replace (start + 0 * s) with start in H by lia. rewrite H by (cbn; split; [lia|assumption]). lia.
Qed.

Lemma no_zero n : pos_shape n -> existsb (Z.eqb 0) n = false.
Proof. induction 1; cbn; [reflexivity|]. destruct x; [lia|cbn; assumption|lia]. Qed.

Lemma contiguous_iff a : pos_shape (nd_shape a) -> length (nd_strides a) = length (nd_shape a) -> (c_contiguous a = true <-> row_major a).
Proof.
  intros P Hl. unfold c_contiguous. rewrite no_zero by assumption. cbn [orb]. split.
  - intros H x Hx. now apply strides_row_major.
  - intros H. eapply row_major_strides_iff; eassumption.
Qed.

(** ** The copy *)
Lemma copy_n_ok {E} (l : list E) s n : 0 <= s -> 0 <= n -> s + n <= Z.of_nat (length l) ->
  exists r, copy_n l s n = Ok r /\ Z.of_nat (length r) = n /\ forall k, 0 <= k < n -> nth_error r (Z.to_nat k) = nth_error l (Z.to_nat (s + k)).
Proof.
  intros Hs Hn H. unfold copy_n. rewrite (proj2 (Z.leb_le 0 s) Hs), (proj2 (Z.leb_le 0 n) Hn), (proj2 (Z.leb_le _ _) H). cbn [andb].
  eexists. split; [reflexivity|]. split; [rewrite firstn_length, skipn_length; lia|]. intros k Hk.
  rewrite nth_error_firstn_skipn by lia. f_equal. lia.
Qed.

Lemma block_length {E} (block : list E) n s F : pos_shape n -> (forall x, in_shape n x -> 0 <= s + rowmaj n x /\ nth_error block (Z.to_nat (s + rowmaj n x)) = Some (F x)) ->
  0 <= s /\ s + volume n <= Z.of_nat (length block).
Proof.
  intros P H. pose proof (volume_pos n P) as V.
  destruct (rowmaj_surj n 0 P ltac:(lia)) as [x [Hx Ex]]. destruct (rowmaj_surj n (volume n - 1) P ltac:(lia)) as [y [Hy Ey]].
  destruct (H x Hx) as [H1 _]. destruct (H y Hy) as [_ H2]. rewrite Ex in H1. split; [lia|].
  assert (Hn : nth_error block (Z.to_nat (s + rowmaj n y)) <> None) by congruence. apply nth_error_Some in Hn. rewrite Ey in Hn. lia.
Qed.

Section Numpy.
Context {E : Type} (kind : element_kind E).

Definition taken (nd : option E) (v : E) : E := match nd with Some x => if ek_equal kind v x then ek_mark kind else v | None => v end.

Lemma taken_ok nd v : taken_from kind nd v (taken nd v).
Proof.
  unfold taken_from, stands_for_no_data, taken. destruct nd as [x|]; split.
  - intros [y [Ey H]]. injection Ey as <-. now rewrite H.
  - intros H. destruct (ek_equal kind v x) eqn:Ee; [|reflexivity]. exfalso. apply H. eauto.
  - intros [y [Ey _]]. discriminate.
  - reflexivity.
Qed.

Lemma taken_unique nd v w : taken_from kind nd v w -> w = taken nd v.
Proof.
  intros [H1 H2]. unfold taken. unfold stands_for_no_data in *. destruct nd as [x|].
  - destruct (ek_equal kind v x) eqn:Ee; [apply H1; eauto|]. apply H2. intros [y [Ey H]]. injection Ey as <-. congruence.
  - apply H2. intros [y [Ey _]]. discriminate.
Qed.

(** ** from_numpy *)
Lemma finish_ok L m buffer pd a0 a1 p F : supported L [a0; a1] p -> partition_fits [a0; a1] p -> L <= nr_parts [a0; a1] p ->
  pd_shape pd = [a0; a1] -> pd_partition_shape pd = p -> nth_error m (pd_buffer pd) = Some buffer -> Z.of_nat (length buffer) = a0 * a1 ->
  (forall x, in_shape [a0; a1] x -> nth_error buffer (Z.to_nat (rowmaj [a0; a1] x)) = Some (F x)) ->
  exists arr, finish kind L m pd = Ok arr /\ raster_of [a0; a1] p arr (fun x => taken (pd_no_data pd) (F x)).
Proof.
  intros Hs Hf HL Es Ep Eb Hlen HF. unfold finish. rewrite Eb, Es, Ep.
  assert (Hne : [a0; a1] <> []) by discriminate. pose proof (to_accepted L [a0; a1] p Hs Hf HL) as Hacc.
  rewrite partition_shapes_ok by (split; assumption). cbn [obind]. rewrite <- parts_shape_map2.
  set (create := fun _ : Z => from_buffer (ek_equal kind) (ek_mark kind) (pd_no_data pd) buffer [a0; a1]).
  destruct (instantiate_individually_ok L create [a0; a1] p Hacc) as [visits [parts [Ev [Er [Hl Hh]]]]].
  destruct (accepted_visits L [a0; a1] p Hacc) as [v [Hv [_ [_ Hin]]]]. rewrite Ev in Hv. assert (v = visits) by congruence. subst v. rewrite Er. cbn [obind].
  destruct (assemble [a0; a1] p (map (fun q => obind (pl_data q) (fun data => Ok (Placed (pl_locality q) (pl_offset q) (pl_shape q) data))) parts)
    (fun x => taken (pd_no_data pd) (F x)) Hne Hf) as [l [E1 R]].
  - rewrite map_length, nr_parts_prodZ. assumption.
  - intros c Hc. assert (Hc' := Hc). rewrite parts_shape_map2 in Hc'. apply Hin in Hc'. apply in_map_iff in Hc'.
    destruct Hc' as [[k c'] [Ek Hvv]]. cbn in Ek. subst c'. specialize (Hh _ Hvv). cbn [snd expected] in Hh. assert (Hc0 : in_shape (parts_shape [a0; a1] p) c) by assumption.
    assert (Epx : part_extent [a0; a1] p c = exts [a0; a1] p c) by now apply part_extent_exts.
    assert (Eo : part_offset p c = map2 Z.mul c p) by (apply part_offset_map2).
    pose proof (length_part_offset [a0; a1] p c Hf Hc0) as Lo. pose proof (length_part_extent [a0; a1] p c Hf Hc0) as Le.
    pose proof (part_box [a0; a1] p c Hf Hc0) as Hb. pose proof (part_extent_pos [a0; a1] p c Hf Hc0) as Pe.
    destruct (part_offset p c) as [|o0 [|o1 [|]]] eqn:Eoo; cbn in Lo; try discriminate.
    destruct (part_extent [a0; a1] p c) as [|s0 [|s1 [|]]] eqn:Eee; cbn in Le; try discriminate.
    cbn in Hb. inversion Pe as [|? ? P0 Pe']; subst. inversion Pe' as [|? ? P1 _]; subst.
    destruct (from_buffer_ok (ek_equal kind) (ek_mark kind) (pd_no_data pd) buffer a0 a1 o0 o1 s0 s1 Hlen) as [data [E2 [L2 H2]]]; try lia.
    eexists. split; [|split; [|split]].
    + rewrite rowmaj_linear' by assumption. rewrite parts_shape_map2, nth_error_map, Hh. cbn [option_map pl_data pl_locality pl_offset pl_shape].
      unfold create. rewrite <- Epx, <- Eo, E2. cbn [obind]. reflexivity.
    + reflexivity.
    + reflexivity.
    + cbn [pl_data]. split; [cbn; lia|]. intros [|i [|j [|]]] Hx; cbn in Hx; try tauto.
      replace (rowmaj [s0; s1] [i; j]) with (i * s1 + j) by (cbn; lia). rewrite H2 by lia.
      pose proof (HF [o0 + i; o1 + j] ltac:(cbn; lia)) as HH. replace (rowmaj [a0; a1] [o0 + i; o1 + j]) with ((o0 + i) * a1 + (o1 + j)) in HH by (cbn; lia).
      rewrite HH. reflexivity.
  - rewrite E1. eexists. split; [reflexivity|]. exact R.
Qed.

Theorem from_numpy_ok default L (m : memory E) a a0 a1 F partition_shape p nd :
  supported L [a0; a1] p -> partition_fits [a0; a1] p -> L <= nr_parts [a0; a1] p ->
  (partition_shape = Some p \/ (partition_shape = None /\ default [a0; a1] = Ok p)) ->
  numpy_holds m a [a0; a1] F -> row_major a ->
  exists m1 pd, from_numpy default m a partition_shape nd = Ok (m1, pd) /\ unchanged m m1 /\
    forall m2, (forall b, (length m <= b)%nat -> nth_error m2 b = nth_error m1 b) ->
    exists arr g, finish kind L m2 pd = Ok arr /\ raster_of [a0; a1] p arr g /\ forall x, in_shape [a0; a1] x -> taken_from kind nd (F x) (g x).
Proof.
  intros Hs Hf HL Hp [Es [Hl [block [Eb HF]]]] Hr.
  assert (P : pos_shape [a0; a1]) by (clear -Hf; induction Hf; constructor; [lia|assumption]).
  unfold from_numpy. rewrite (proj2 (contiguous_iff a ltac:(now rewrite Es) ltac:(now rewrite Es))) by assumption. cbn [negb].
  assert (El : (length (nd_shape a) =? 2)%nat = true) by now rewrite Es. rewrite El. cbn [negb].
  assert (Ep : match partition_shape with Some p0 => if (length p0 =? 2)%nat then Ok p0 else Throw | None => default (nd_shape a) end = Ok p).
  { destruct Hp as [->|[-> Hd]]; [|now rewrite Es]. assert (Lp : length p = 2%nat) by (apply Forall2_len in Hf; cbn in Hf; lia). now rewrite Lp. }
  rewrite Ep. cbn [obind]. rewrite Eb.
  assert (HF' : forall x, in_shape [a0; a1] x -> 0 <= nd_start a + rowmaj [a0; a1] x /\ nth_error block (Z.to_nat (nd_start a + rowmaj [a0; a1] x)) = Some (F x)).
  { intros x Hx. unfold row_major in Hr. rewrite Es in Hr. rewrite <- (Hr x Hx). now apply HF. }
  destruct (block_length block [a0; a1] (nd_start a) F P HF') as [B1 B2]. rewrite Es, nr_elements_volume by discriminate.
  pose proof (volume_pos _ P) as V.
  destruct (copy_n_ok block (nd_start a) (volume [a0; a1]) B1 ltac:(lia) B2) as [copy [Ec [Lc Hc]]]. rewrite Ec. cbn [obind].
  eexists. eexists. split; [reflexivity|]. split.
  - intros b bl H. rewrite nth_error_app1; [assumption|]. apply nth_error_Some. congruence.
  - intros m2 Hm2.
    destruct (finish_ok L m2 copy (Pending (length m) nd [a0; a1] p) a0 a1 p F Hs Hf HL eq_refl eq_refl) as [arr [E1 R]].
    + cbn [pd_buffer]. rewrite Hm2 by lia. rewrite nth_error_app2 by lia. now rewrite Nat.sub_diag.
    + rewrite Lc. cbn. lia.
    + intros x Hx. pose proof (rowmaj_range [a0; a1] x Hx). rewrite Hc by lia. apply HF'; assumption.
    + exists arr, (fun x => taken nd (F x)). split; [exact E1|]. split; [exact R|]. intros x _. apply taken_ok.
Qed.

Theorem from_numpy_refused default (m : memory E) a partition_shape nd : pos_shape (nd_shape a) -> length (nd_strides a) = length (nd_shape a) ->
  (~ row_major a \/ length (nd_shape a) <> 2%nat \/ (exists p, partition_shape = Some p /\ length p <> 2%nat)) ->
  from_numpy default m a partition_shape nd = Throw.
Proof.
  intros P Hl H. unfold from_numpy. destruct (c_contiguous a) eqn:Ec; cbn [negb]; [|reflexivity].
  destruct (Nat.eqb_spec (length (nd_shape a)) 2) as [E2|E2]; cbn [negb]; [|reflexivity].
  destruct H as [H|[H|[p [-> H]]]].
  - exfalso. apply H. now apply contiguous_iff.
  - contradiction.
  - apply Nat.eqb_neq in H. rewrite H. reflexivity.
Qed.

(** ** to_numpy *)
Definition passed (nd : option E) (v : E) : E := match nd with Some x => if is_no_data kind v then x else v | None => v end.

Lemma passed_ok nd v : passed_to kind nd v (passed nd v).
Proof.
  unfold passed_to, passed, is_no_data, missing_in_array. destruct nd as [x|]; [|reflexivity].
  destruct (if ek_floating kind then ek_is_nan kind v else ek_equal kind v (ek_mark kind)) eqn:Ei; split; intros H; try reflexivity.
  - exfalso. apply H. destruct (ek_floating kind); assumption.
  - destruct (ek_floating kind); congruence.
Qed.

Lemma put_ok (b : list E) at_ v : 0 <= at_ -> at_ + Z.of_nat (length v) <= Z.of_nat (length b) ->
  exists b', put b at_ v = Ok b' /\ length b' = length b /\
    forall j, 0 <= j -> nth_error b' (Z.to_nat j) = if (at_ <=? j) && (j <? at_ + Z.of_nat (length v)) then nth_error v (Z.to_nat (j - at_)) else nth_error b (Z.to_nat j).
Proof.
  intros H1 H2. unfold put. rewrite (proj2 (Z.leb_le 0 at_) H1), (proj2 (Z.leb_le _ _) H2). cbn [andb].
  eexists. split; [reflexivity|]. split; [rewrite !app_length, firstn_length, skipn_length; lia|]. intros j Hj.
  destruct (Z.leb_spec at_ j), (Z.ltb_spec j (at_ + Z.of_nat (length v))); cbn [andb].
  - rewrite nth_error_app2; rewrite firstn_length; [|lia]. rewrite nth_error_app1 by lia. f_equal. lia.
  - rewrite nth_error_app2; rewrite firstn_length; [|lia]. rewrite nth_error_app2 by lia.
    rewrite nth_error_skipn. f_equal. lia.
  - rewrite nth_error_app1; [|rewrite firstn_length; lia]. rewrite nth_error_firstn by lia. reflexivity.
  - lia.
Qed.

Lemma copy_rows_ok nd a0 a1 s1 (data : list E) : forall n source target result o1,
  0 < s1 -> 0 <= o1 -> o1 + s1 <= a1 -> 0 <= source -> source + Z.of_nat n * s1 <= Z.of_nat (length data) ->
  Z.of_nat (length result) = a0 * a1 -> forall r0, 0 <= r0 -> target = r0 * a1 + o1 -> r0 + Z.of_nat n <= a0 ->
  exists result', copy_rows kind nd a1 s1 data n source target result = Ok result' /\ length result' = length result /\
    forall i j, 0 <= i < a0 -> 0 <= j < a1 -> nth_error result' (Z.to_nat (i * a1 + j)) =
      if (r0 <=? i) && (i <? r0 + Z.of_nat n) && (o1 <=? j) && (j <? o1 + s1)
      then option_map (passed nd) (nth_error data (Z.to_nat (source + (i - r0) * s1 + (j - o1))))
      else nth_error result (Z.to_nat (i * a1 + j)).
Proof.
  induction n as [|n IH]; intros source target result o1 Hs1 Ho1 Hw Hsrc Hd Hres r0 Hr0 -> Hr.
  - exists result. split; [reflexivity|]. split; [reflexivity|]. intros i j Hi Hj.
    destruct (Z.leb_spec r0 i), (Z.ltb_spec i (r0 + Z.of_nat 0)); cbn [andb]; try reflexivity. lia.
  - cbn [copy_rows]. destruct (copy_n_ok data source s1 Hsrc ltac:(lia) ltac:(nia)) as [row [Erow [Lrow Hrow]]]. rewrite Erow. cbn [obind].
    set (row' := match nd with Some value => map (fun v => if is_no_data kind v then value else v) row | None => row end).
    assert (Erow' : forall k, nth_error row' k = option_map (passed nd) (nth_error row k)).
    { intros k. unfold row', passed. destruct nd; [apply nth_error_map|]. destruct (nth_error row k); reflexivity. }
    assert (Lrow' : length row' = length row) by (unfold row'; destruct nd; [apply map_length|reflexivity]).
    destruct (put_ok result (r0 * a1 + o1) row') as [result1 [E1 [L1 H1]]]; [nia|rewrite Lrow', Lrow; nia|]. rewrite E1. cbn [obind].
    destruct (IH (source + s1) (r0 * a1 + o1 + a1) result1 o1 Hs1 Ho1 Hw ltac:(lia) ltac:(nia) ltac:(now rewrite L1) (r0 + 1) ltac:(lia) ltac:(lia) ltac:(lia)) as [result2 [E2 [L2 H2]]].
    exists result2. split; [exact E2|]. split; [congruence|]. intros i j Hi Hj. rewrite H2 by assumption. rewrite H1 by nia. rewrite Lrow', Lrow.
    destruct (Z.leb_spec o1 j), (Z.ltb_spec j (o1 + s1)).
    + rewrite !andb_true_r.
      destruct (Z.leb_spec (r0 + 1) i), (Z.ltb_spec i (r0 + 1 + Z.of_nat n)), (Z.leb_spec r0 i), (Z.ltb_spec i (r0 + Z.of_nat (S n))); cbn [andb]; try lia.
      * do 3 f_equal. lia.
      * destruct (Z.leb_spec (r0 * a1 + o1) (i * a1 + j)), (Z.ltb_spec (i * a1 + j) (r0 * a1 + o1 + s1)); cbn [andb]; try reflexivity. nia.
      * assert (i = r0) by lia. subst i.
        destruct (Z.leb_spec (r0 * a1 + o1) (r0 * a1 + j)), (Z.ltb_spec (r0 * a1 + j) (r0 * a1 + o1 + s1)); cbn [andb]; try lia.
        rewrite Erow'. rewrite Hrow by lia. do 3 f_equal. lia.
      * destruct (Z.leb_spec (r0 * a1 + o1) (i * a1 + j)), (Z.ltb_spec (i * a1 + j) (r0 * a1 + o1 + s1)); cbn [andb]; try reflexivity. nia.
    + rewrite !andb_false_r.
      destruct (Z.leb_spec (r0 * a1 + o1) (i * a1 + j)), (Z.ltb_spec (i * a1 + j) (r0 * a1 + o1 + s1)); cbn [andb]; try reflexivity.
      exfalso. assert (i = r0 \/ i <= r0 - 1 \/ r0 + 1 <= i) as [->|[Hc|Hc]] by lia; nia.
    + rewrite !andb_false_r. cbn [andb].
      destruct (Z.leb_spec (r0 * a1 + o1) (i * a1 + j)), (Z.ltb_spec (i * a1 + j) (r0 * a1 + o1 + s1)); cbn [andb]; try reflexivity.
      exfalso. assert (i = r0 \/ i <= r0 - 1 \/ r0 + 1 <= i) as [->|[Hc|Hc]] by lia; nia.
    + lia.
Qed.

Lemma copy_partition_ok nd a0 a1 p f q result : partition_fits [a0; a1] p -> part_of [a0; a1] p f q -> Z.of_nat (length result) = a0 * a1 ->
  exists result', copy_partition kind nd [a0; a1] q result = Ok result' /\ length result' = length result /\
    (forall x, in_shape [a0; a1] x -> nth_error result' (Z.to_nat (rowmaj [a0; a1] x)) = nth_error result (Z.to_nat (rowmaj [a0; a1] x)) \/
       nth_error result' (Z.to_nat (rowmaj [a0; a1] x)) = Some (passed nd (f x))) /\
    (forall x, in_shape (pl_shape q) x -> nth_error result' (Z.to_nat (rowmaj [a0; a1] (vadd (pl_offset q) x))) = Some (passed nd (f (vadd (pl_offset q) x)))).
Proof.
  intros Hf Hq Hres. destruct Hq as [c [Hc [Eo [Es [Bl Bh]]]]].
  pose proof (length_part_offset [a0; a1] p c Hf Hc) as Lo. pose proof (length_part_extent [a0; a1] p c Hf Hc) as Le.
  pose proof (part_box [a0; a1] p c Hf Hc) as Hb. pose proof (part_extent_pos [a0; a1] p c Hf Hc) as Pe.
  unfold copy_partition. rewrite Eo, Es in *.
  destruct (part_offset p c) as [|o0 [|o1 [|]]]; cbn in Lo; try discriminate.
  destruct (part_extent [a0; a1] p c) as [|s0 [|s1 [|]]]; cbn in Le; try discriminate.
  cbn in Hb. inversion Pe as [|? ? P0 Pe']; subst. inversion Pe' as [|? ? P1 _]; subst. clear Pe Pe'. cbn in Bl.
  destruct (copy_rows_ok nd a0 a1 s1 (pl_data q) (Z.to_nat s0) 0 (o0 * a1 + o1) result o1) with (r0 := o0) as [result' [E1 [L1 H1]]]; try lia.
  exists result'. split; [exact E1|]. split; [exact L1|].
  assert (HH : forall i j, o0 <= i < o0 + s0 -> o1 <= j < o1 + s1 -> nth_error result' (Z.to_nat (i * a1 + j)) = Some (passed nd (f [i; j]))).
  { intros i j Hi Hj. rewrite H1 by lia.
    rewrite (proj2 (Z.leb_le o0 i)), (proj2 (Z.ltb_lt i (o0 + Z.of_nat (Z.to_nat s0)))), (proj2 (Z.leb_le o1 j)), (proj2 (Z.ltb_lt j (o1 + s1))) by lia. cbn [andb].
    pose proof (Bh [i - o0; j - o1] ltac:(cbn; lia)) as B. replace (rowmaj [s0; s1] [i - o0; j - o1]) with (0 + (i - o0) * s1 + (j - o1)) in B by (cbn; lia).
    rewrite B. cbn [option_map]. replace (vadd [o0; o1] [i - o0; j - o1]) with [i; j] by (cbn; repeat f_equal; lia). reflexivity. }
  split.
  - intros [|i [|j [|]]] Hx; cbn in Hx; try tauto. replace (rowmaj [a0; a1] [i; j]) with (i * a1 + j) by (cbn; lia).
    destruct (Z_le_dec o0 i), (Z_lt_dec i (o0 + s0)), (Z_le_dec o1 j), (Z_lt_dec j (o1 + s1)); try (left; rewrite H1 by lia;
      destruct (Z.leb_spec o0 i), (Z.ltb_spec i (o0 + Z.of_nat (Z.to_nat s0))), (Z.leb_spec o1 j), (Z.ltb_spec j (o1 + s1)); cbn [andb]; try reflexivity; lia).
    right. apply HH; lia.
  - intros [|i [|j [|]]] Hx; cbn in Hx; try tauto. change (vadd [o0; o1] [i; j]) with [o0 + i; o1 + j].
    replace (rowmaj [a0; a1] [o0 + i; o1 + j]) with ((o0 + i) * a1 + (o1 + j)) by (cbn; lia). apply HH; lia.
Qed.

Lemma copy_all_ok nd a0 a1 p f : partition_fits [a0; a1] p -> forall l result, (forall q, In q l -> part_of [a0; a1] p f q) -> Z.of_nat (length result) = a0 * a1 ->
  exists result', fold_left (fun acc q => obind acc (copy_partition kind nd [a0; a1] q)) l (Ok result) = Ok result' /\ length result' = length result /\
    (forall x, in_shape [a0; a1] x -> nth_error result' (Z.to_nat (rowmaj [a0; a1] x)) = nth_error result (Z.to_nat (rowmaj [a0; a1] x)) \/
       nth_error result' (Z.to_nat (rowmaj [a0; a1] x)) = Some (passed nd (f x))) /\
    (forall q x, In q l -> in_shape (pl_shape q) x ->
       nth_error result' (Z.to_nat (rowmaj [a0; a1] (vadd (pl_offset q) x))) = Some (passed nd (f (vadd (pl_offset q) x)))).
Proof.
  intros Hf. induction l as [|q l IH]; intros result Hin Hres.
  - exists result. split; [reflexivity|]. split; [reflexivity|]. split; [auto|]. intros q x [].
  - cbn [fold_left obind]. destruct (copy_partition_ok nd a0 a1 p f q result Hf (Hin q (or_introl eq_refl)) Hres) as [r1 [E1 [L1 [A1 B1]]]]. rewrite E1.
    destruct (IH r1 (fun q Hq => Hin q (or_intror Hq)) ltac:(now rewrite L1)) as [r2 [E2 [L2 [A2 B2]]]]. exists r2. split; [exact E2|]. split; [congruence|]. split.
    + intros x Hx. destruct (A2 x Hx) as [->|H]; [|now right]. apply A1; assumption.
    + intros q' x [->|Hq] Hx; [|now apply B2]. destruct (A2 (vadd (pl_offset q') x)) as [->|H]; [|now apply B1|exact H].
      destruct (Hin q' (or_introl eq_refl)) as [c [Hc [Eo [Es _]]]]. rewrite Eo. eapply part_cell; try eassumption. now rewrite <- Es.
Qed.

Theorem to_numpy_ok junk (m : memory E) a0 a1 p arr f nd : raster_of [a0; a1] p arr f ->
  exists m1 a h, to_numpy kind junk m arr nd = Ok (m1, a) /\ unchanged m m1 /\ (length m <= nd_block a)%nat /\
    numpy_holds m1 a [a0; a1] h /\ row_major a /\ forall x, in_shape [a0; a1] x -> passed_to kind nd (f x) (h x).
Proof.
  intros H. assert (Hx := H). destruct Hx as [Hne [Hf [Es _]]]. assert (P : pos_shape [a0; a1]) by (clear -Hf; induction Hf; constructor; [lia|assumption]).
  pose proof (volume_pos _ P) as V. unfold to_numpy. rewrite Es. rewrite nr_elements_volume by discriminate.
  destruct (copy_all_ok nd a0 a1 p f Hf (pa_parts arr) (fresh junk (volume [a0; a1]))) as [r [E1 [L1 [_ B1]]]].
  - intros q Hq. apply (raster_part_of [a0; a1] p arr); assumption.
  - unfold fresh. rewrite map_length, zseq_length. cbn in *. lia.
  - rewrite E1. cbn [obind]. eexists. eexists. exists (fun x => passed nd (f x)). split; [reflexivity|]. split; [|split; [|split; [|split]]].
    + intros b bl Hb. rewrite nth_error_app1; [assumption|]. apply nth_error_Some. congruence.
    + cbn. lia.
    + split; [reflexivity|]. split; [reflexivity|]. exists r. cbn [nd_block nd_start nd_strides]. split; [rewrite nth_error_app2 by lia; now rewrite Nat.sub_diag|].
      intros y Hy. assert (Ea : address 0 [nth 1 [a0; a1] 0; 1] y = rowmaj [a0; a1] y).
      { destruct y as [|i [|j [|]]]; cbn in Hy; try tauto. cbn. lia. }
      rewrite Ea. pose proof (rowmaj_range _ _ Hy). split; [lia|].
      destruct (cell_part [a0; a1] p y Hf Hy) as [c [x [Hc [Hx ->]]]]. destruct (raster_part [a0; a1] p arr f c H Hc) as [q [Eq [Eo [Esh _]]]].
      rewrite <- Eo. apply B1; [eapply nth_error_In; exact Eq|]. now rewrite Esh.
    + intros y Hy. cbn in Hy. destruct y as [|i [|j [|]]]; try tauto. cbn. lia.
    + intros x _. apply passed_ok.
Qed.
End Numpy.
