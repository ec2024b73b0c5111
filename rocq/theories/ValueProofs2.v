From Verif Require Import Common CoreSpec DecompSpec ArraySpec IndexModel DecompModel ArrayModel IOModel IOSpec NumpyModel NumpySpec ValueModel ValueSpec.
From Verif Require Import CommonProofs IndexProofs DecompProofs DecompProofs3 ArrayProofs AggregateProofs IOProofs NumpyProofs ValueProofs.

Section Values.
Context {E : Type}.
Implicit Types (v : array E) (fill : E).

Lemma existsb_false_forall {A} (p : A -> bool) l : (forall z, In z l -> p z = false) -> existsb p l = false.
Proof. intros H. induction l as [|z l IH]; [reflexivity|]. cbn. rewrite H by now left. apply IH. intros. apply H. now right. Qed.

Lemma range_slab_ok v shape n f l : ds_shape (ar_data v) = n :: shape -> 0 <= f <= l -> l < SIZES ->
  range_slab f l v = Hyperslab (f :: zeros shape) (ones (f :: zeros shape)) (l - f :: shape).
Proof.
  intros H Hf Hl. unfold range_slab, array_shape. rewrite H. cbn [tl]. unfold to_size. rewrite Z.mod_small by lia. reflexivity.
Qed.

Lemma read_stores v shape fill n values f l buffer : array_extents shape -> n < SIZES -> stores v shape fill n values -> 0 <= f <= l -> l <= n ->
  Z.of_nat (length buffer) = (l - f) * volume shape -> read_range f l v buffer = Ok (concat (map values (zseq f (l - f)))).
Proof.
  intros X Hn S Hf Hl Hb. pose proof (extents_pos _ X) as P. pose proof (stores_shape _ _ _ _ _ S) as ES. destruct S as [_ [F [HF HV]]].
  unfold read_range. rewrite (range_slab_ok _ shape n) by (assumption || lia).
  destruct (read_strided_ok (f :: zeros shape) (ones (f :: zeros shape)) (l - f :: shape) (n :: shape) (ar_data v) F buffer) as [data [E1 B]].
  { apply slab_first; [assumption| | | |]; lia. }
  { assumption. }
  { exact Hb. }
  rewrite E1. f_equal. assert (C : block_holds (l - f :: shape) (concat (map values (zseq f (l - f)))) (fun x => F (phi (f :: zeros shape) (ones (f :: zeros shape)) x))).
  { apply concat_block; [assumption|lia|]. intros j Hj. apply HV. lia. }
  destruct (Z.eq_dec l f) as [->|Hne].
  - destruct B as [Lb _], C as [Lc _]. rewrite Z.sub_diag in *. change (volume (0 :: shape)) with 0 in *. destruct data; [|discriminate].
    destruct (concat (map values (zseq f 0))); [reflexivity|discriminate].
  - eapply block_unique; [|exact B|exact C]. constructor; [lia|assumption].
Qed.

Lemma throw_select f l n shape : array_extents shape -> 0 <= f < l -> n < l < SIZES ->
  select (Hyperslab (f :: zeros shape) (ones (f :: zeros shape)) (l - f :: shape)) (n :: shape) = Throw.
Proof.
  intros X Hf Hl. pose proof (extents_pos _ X) as P. unfold select. cbn [hs_stride hs_count hs_start].
  assert (E1 : existsb (Z.eqb 0) (ones (f :: zeros shape)) = false).
  { apply existsb_false_forall. intros z Hz. unfold ones in Hz. apply in_map_iff in Hz. destruct Hz as [? [<- _]]. reflexivity. }
  assert (E2 : existsb (Z.eqb 0) (l - f :: shape) = false).
  { cbn [existsb]. replace (0 =? l - f) with false by lia. apply existsb_false_forall. intros z Hz. unfold pos_shape in P. rewrite Forall_forall in P. specialize (P z Hz). lia. }
  rewrite E1, E2. unfold ones. cbn [map within_extent]. cbn zeta.
  replace (SIZES <=? f + 1 * (l - f - 1)) with false by lia. replace (f + 1 * (l - f - 1) <? n) with false by lia. reflexivity.
Qed.

Lemma read_throws v shape fill n values f l buffer : array_extents shape -> stores v shape fill n values -> 0 <= f < l -> n < l < SIZES ->
  read_range f l v buffer = Throw.
Proof.
  intros X S Hf Hl. pose proof (stores_shape _ _ _ _ _ S) as ES. unfold read_range. rewrite (range_slab_ok _ shape n) by (assumption || lia).
  unfold read_strided. rewrite ES, throw_select by assumption. reflexivity.
Qed.

Lemma write_throws v shape fill n values f l buffer : array_extents shape -> stores v shape fill n values -> 0 <= f < l -> n < l < SIZES ->
  write_range f l buffer v = Throw.
Proof.
  intros X S Hf Hl. pose proof (stores_shape _ _ _ _ _ S) as ES. unfold write_range. rewrite (range_slab_ok _ shape n) by (assumption || lia).
  unfold write_strided. rewrite ES, throw_select by assumption. reflexivity.
Qed.

Lemma part_block shape (buffer : list E) i m fill : pos_shape shape -> 0 <= i < m -> m * volume shape <= Z.of_nat (length buffer) ->
  block_holds shape (part (volume shape) i buffer) (fun y => nth (Z.to_nat (i * volume shape + rowmaj shape y)) buffer fill).
Proof.
  intros P Hi Hm. pose proof (volume_pos _ P) as Hv. assert ((i + 1) * volume shape <= m * volume shape) by (apply Z.mul_le_mono_nonneg_r; lia).
  unfold part. split.
  - rewrite firstn_length, skipn_length. lia.
  - intros y Hy. pose proof (rowmaj_range _ _ Hy). rewrite nth_error_firstn by lia. rewrite nth_error_skipn.
    replace (Z.to_nat (i * volume shape) + Z.to_nat (rowmaj shape y))%nat with (Z.to_nat (i * volume shape + rowmaj shape y)) by lia.
    apply nth_error_nth'. lia.
Qed.

Lemma write_stores v shape fill n values f l buffer : array_extents shape -> n < SIZES -> stores v shape fill n values -> 0 <= f <= l -> l <= n \/ f = l -> l < SIZES ->
  (l - f) * volume shape <= Z.of_nat (length buffer) ->
  exists v', write_range f l buffer v = Ok v' /\
    stores v' shape fill n (fun i => if (f <=? i) && (i <? l) then part (volume shape) (i - f) buffer else values i).
Proof.
  intros X Hn S Hf Hl HL Hb. pose proof (extents_pos _ X) as P. pose proof (volume_pos _ P) as Hv. pose proof (stores_shape _ _ _ _ _ S) as ES.
  unfold write_range. rewrite (range_slab_ok _ shape n) by (assumption || lia). cbn [hs_count]. rewrite <- volume_prodZ.
  destruct S as [Ef [F [HF HV]]].
  destruct (Z.eq_dec f l) as [<-|Hne].
  { unfold write_strided. rewrite ES. unfold select. cbn [hs_stride hs_count]. rewrite Z.sub_diag.
    assert (E1 : existsb (Z.eqb 0) (ones (f :: zeros shape)) = false).
    { apply existsb_false_forall. intros z Hz. unfold ones in Hz. apply in_map_iff in Hz. destruct Hz as [? [<- _]]. reflexivity. }
    rewrite E1. cbn [existsb]. rewrite Z.eqb_refl. cbn [orb obind]. rewrite <- volume_prodZ, Z.eqb_refl. change (volume (0 :: shape)) with 0. cbn [zseq Z.to_nat seq map fold_left obind].
    eexists. split; [reflexivity|]. split; [exact Ef|]. exists F. split.
    - destruct HF as [_ HF]. split; [reflexivity|]. exact HF.
    - intros i Hi. destruct (f <=? i) eqn:E2, (i <? f) eqn:E3; cbn [andb]; try lia; apply HV; lia. }
  destruct (write_strided_ok (f :: zeros shape) (ones (f :: zeros shape)) (l - f :: shape) (n :: shape) buffer
    (fun x => nth (Z.to_nat (rowmaj (l - f :: shape) x)) buffer fill) (ar_data v) F) as [d' [F' [E1 [HF' [H1 H2]]]]].
  { apply slab_first; [assumption| | | |]; lia. }
  { intros x Hx. pose proof (rowmaj_range _ _ Hx) as Hr. change (volume (l - f :: shape)) with ((l - f) * volume shape) in Hr. unfold at_z, nth_z.
    replace (rowmaj (l - f :: shape) x <? 0) with false by lia. rewrite (nth_error_nth' _ fill) by lia. reflexivity. }
  { assumption. }
  rewrite E1. cbn [obind]. eexists. split; [reflexivity|]. split; [exact Ef|]. exists F'. split; [exact HF'|]. intros i Hi.
  destruct ((f <=? i) && (i <? l)) eqn:EC.
  - pose proof (part_block shape buffer (i - f) (l - f) fill P ltac:(lia) Hb) as [LB HB]. split; [exact LB|]. intros y Hy. rewrite (HB y Hy). f_equal.
    assert (Hx : in_shape (l - f :: shape) (i - f :: y)) by (split; [lia|assumption]). specialize (H1 _ Hx). cbn [rowmaj] in H1. rewrite <- H1. f_equal.
    unfold ones. cbn [map]. unfold phi. cbn [vmul vadd]. f_equal; [lia|]. now apply phi_zeros.
  - destruct (HV i Hi) as [LB HB]. split; [exact LB|]. intros y Hy. rewrite (HB y Hy). f_equal. symmetry. apply H2; [split; [lia|assumption]|].
    intros [|j z] Hx HE; [destruct Hx|]. destruct Hx as [Hj Hz]. unfold ones in HE. cbn [map] in HE. unfold phi in HE. cbn [vmul vadd] in HE. apply (f_equal (hd 0)) in HE. cbn [hd] in HE. lia.
Qed.

Lemma stores_ext v shape fill n values values' : stores v shape fill n values -> (forall i, 0 <= i < n -> values' i = values i) -> stores v shape fill n values'.
Proof. intros [H1 [F [H2 H3]]] H. split; [assumption|]. exists F. split; [assumption|]. intros i Hi. rewrite H by assumption. now apply H3. Qed.

Lemma room_nonneg size h : Forall (proper size) h -> 0 <= @room E h.
Proof. induction 1 as [|[k|f l b] h Hp H IH]; cbn in *; lia. Qed.

(** Beyond the room there is, nothing has been written *)
Lemma beyond_room size fill h i : Forall (proper size) h -> room h <= i -> @last_written E size fill h i = repeat fill (Z.to_nat size).
Proof.
  induction 1 as [|[k|f l b] h Hp H IH]; intros Hi; cbn [last_written room] in *; [reflexivity| |].
  - cbn in Hp. apply IH. lia.
  - destruct ((f <=? i) && (i <? l) && (l <=? room h)) eqn:EC; [lia|]. now apply IH.
Qed.

Lemma step_stores op h v shape fill : array_extents shape -> Forall (proper (volume shape)) (op :: h) -> room (op :: h) < SIZES ->
  stores v shape fill (room h) (last_written (volume shape) fill h) ->
  exists v', value_run [op] v = Ok v' /\ stores v' shape fill (room (op :: h)) (last_written (volume shape) fill (op :: h)).
Proof.
  intros X HP HR S. pose proof (Forall_inv HP) as Hop. pose proof (Forall_inv_tail HP) as Hh. pose proof (room_nonneg _ _ Hh) as Hr.
  destruct op as [k|f l b]; cbn [value_run value_step room last_written proper] in *.
  - destruct (expand_stores v shape fill (room h) (last_written (volume shape) fill h) k X) as [v' [E1 S']]; try assumption; try lia.
    { intros i Hi. apply beyond_room; [assumption|lia]. }
    rewrite E1. exists v'. split; [reflexivity|]. rewrite Z.add_comm. exact S'.
  - destruct Hop as [Hf [Hl Hb]]. destruct (Z_le_gt_dec l (room h)) as [L|L].
    + destruct (write_stores v shape fill (room h) _ f l b X HR S Hf (or_introl L) Hl Hb) as [v' [E1 S']]. rewrite E1. exists v'. split; [reflexivity|].
      eapply stores_ext; [exact S'|]. intros i Hi. cbn beta. replace (l <=? room h) with true by lia. rewrite andb_true_r. reflexivity.
    + destruct (Z.eq_dec f l) as [EQ|NE].
      * destruct (write_stores v shape fill (room h) _ f l b X HR S Hf (or_intror EQ) Hl Hb) as [v' [E1 S']]. rewrite E1. exists v'. split; [reflexivity|].
        eapply stores_ext; [exact S'|]. intros i Hi. cbn beta. destruct ((f <=? i) && (i <? l)) eqn:EC; [lia|]. reflexivity.
      * rewrite (write_throws v shape fill (room h) (last_written (volume shape) fill h)) by (assumption || (unfold SIZES in *; lia)). exists v. split; [reflexivity|].
        eapply stores_ext; [exact S|]. intros i Hi. cbn beta. replace (l <=? room h) with false by lia. rewrite andb_false_r. reflexivity.
Qed.

Lemma value_run_app a b v : @value_run E (a ++ b) v = obind (value_run a v) (value_run b).
Proof. revert v. induction a as [|op a IH]; intros v; [reflexivity|]. cbn [app value_run]. destruct (value_step op v); [apply IH|apply IH|reflexivity]. Qed.

Lemma run_stores h shape fill : array_extents shape -> Forall (proper (volume shape)) h -> room h < SIZES ->
  exists v, value_run (rev h) (create_value shape fill) = Ok v /\ stores v shape fill (room h) (last_written (volume shape) fill h).
Proof.
  intros X. induction h as [|op h IH]; intros HP HR.
  - eexists. split; [reflexivity|]. apply create_stores.
  - destruct IH as [v [E1 S]]; [now apply Forall_inv_tail in HP| |].
    { pose proof (Forall_inv HP) as Hop. destruct op; cbn in *; lia. }
    cbn [rev]. rewrite value_run_app, E1. cbn [obind]. now apply step_stores.
Qed.

Lemma stores_shows v shape fill n values : array_extents shape -> n < SIZES -> stores v shape fill n values -> shows v shape n values.
Proof.
  intros X Hn S. pose proof (stores_shape _ _ _ _ _ S) as ES. unfold shows, nr_arrays, array_shape. rewrite ES. split; [reflexivity|]. split; [reflexivity|]. split.
  - intros. eapply read_stores; eassumption.
  - intros. eapply read_throws; eassumption.
Qed.
End Values.
