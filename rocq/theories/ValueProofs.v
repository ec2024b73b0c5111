From Verif Require Import Common CoreSpec DecompSpec ArraySpec IndexModel DecompModel ArrayModel IOModel IOSpec NumpyModel NumpySpec ValueModel ValueSpec.
From Verif Require Import CommonProofs IndexProofs DecompProofs ArrayProofs AggregateProofs IOProofs NumpyProofs.

Section Values.
Context {E : Type}.

Lemma block_unique (n : list Z) (a b : list E) F : pos_shape n -> block_holds n a F -> block_holds n b F -> a = b.
Proof.
  intros P [La Ha] [Lb Hb]. apply nth_error_ext. intros k. destruct (Z_lt_ge_dec (Z.of_nat k) (volume n)) as [L|L].
  - destruct (rowmaj_surj n (Z.of_nat k) P ltac:(lia)) as [x [Hx Ex]]. specialize (Ha x Hx). specialize (Hb x Hx). rewrite Ex, Nat2Z.id in *. congruence.
  - rewrite !(proj2 (nth_error_None _ _)); [reflexivity| |]; lia.
Qed.

Lemma nth_error_concat (L : list (list E)) v j r : (forall l, In l L -> length l = v) -> (r < v)%nat ->
  nth_error (concat L) (j * v + r) = match nth_error L j with Some l => nth_error l r | None => None end.
Proof.
  intros H Hr. revert j. induction L as [|l L IH]; intros j.
  - cbn. destruct j; apply nth_error_None; cbn; lia.
  - cbn [concat]. assert (Hl : length l = v) by (apply H; now left). destruct j as [|j].
    + cbn [Nat.mul Nat.add nth_error]. apply nth_error_app1. lia.
    + cbn [nth_error]. rewrite nth_error_app2 by (cbn; lia). replace (S j * v + r - length l)%nat with (j * v + r)%nat by (cbn; lia).
      apply IH. intros. apply H. now right.
Qed.

Lemma length_concat_same (L : list (list E)) v : (forall l, In l L -> length l = v) -> length (concat L) = (length L * v)%nat.
Proof.
  induction L as [|l L IH]; intros H; [reflexivity|]. cbn. rewrite app_length. rewrite IH; [|intros; apply H; now right]. rewrite (H l); [reflexivity|now left].
Qed.

Definition zeros (shape : list Z) : list Z := map (fun _ => 0) shape.
Definition ones (shape : list Z) : list Z := map (fun _ => 1) shape.

Lemma phi_zeros shape y : in_shape shape y -> phi (zeros shape) (ones (zeros shape)) y = y.
Proof.
  unfold phi. revert y. induction shape as [|e shape IH]; intros [|i y] H; cbn in H; try tauto.
  cbn [zeros ones map vmul vadd]. f_equal; [lia|]. apply IH. tauto.
Qed.

Lemma slab_zeros shape : array_extents shape -> slab_within (zeros shape) (ones (zeros shape)) shape shape.
Proof. induction 1 as [|e shape He H IH]; [exact I|]. cbn [zeros ones map slab_within]. unfold SIZES. split; [lia|]. split; [lia|]. split; [lia|]. split; [lia|]. exact IH. Qed.

Lemma slab_first f m n shape : array_extents shape -> 0 <= f -> 0 <= m -> f + m <= n -> n < SIZES ->
  slab_within (f :: zeros shape) (ones (f :: zeros shape)) (m :: shape) (n :: shape).
Proof. intros X H1 H2 H3 H4. unfold ones. cbn [map slab_within]. split; [lia|]. split; [lia|]. split; [lia|]. split; [lia|]. now apply slab_zeros. Qed.

Lemma extents_pos shape : array_extents shape -> pos_shape shape.
Proof. unfold array_extents, pos_shape. intros H. eapply Forall_impl; [|exact H]. cbn. lia. Qed.

Lemma concat_block shape (F : list Z -> E) c f m : pos_shape shape -> 0 <= m ->
  (forall j, f <= j < f + m -> block_holds shape (c j) (fun y => F (j :: y))) ->
  block_holds (m :: shape) (concat (map c (zseq f m))) (fun x => F (phi (f :: zeros shape) (ones (f :: zeros shape)) x)).
Proof.
  intros P Hm H. pose proof (volume_pos _ P) as Hv.
  assert (HL : forall l, In l (map c (zseq f m)) -> length l = Z.to_nat (volume shape)).
  { intros l Hl. apply in_map_iff in Hl. destruct Hl as [j [<- Hj]]. apply in_zseq in Hj. destruct (H j Hj) as [L _]. lia. }
  split.
  - rewrite (length_concat_same _ _ HL), map_length, zseq_length. cbn [volume]. change (volume (m :: shape)) with (m * volume shape). nia.
  - intros [|j y] Hx; [destruct Hx|]. destruct Hx as [Hj Hy].
    assert (Hr := rowmaj_range _ _ Hy). cbn [rowmaj].
    replace (Z.to_nat (j * volume shape + rowmaj shape y)) with (Z.to_nat j * Z.to_nat (volume shape) + Z.to_nat (rowmaj shape y))%nat by nia.
    rewrite nth_error_concat by (assumption || lia). rewrite nth_error_map.
    assert (EZ : nth_error (zseq f m) (Z.to_nat j) = Some (f + j)).
    { unfold zseq. rewrite nth_error_map. rewrite (nth_error_nth' _ 0%nat) by (rewrite seq_length; lia). rewrite seq_nth by lia. cbn. f_equal. lia. }
    rewrite EZ. cbn [option_map]. destruct (H (f + j)) as [_ B]; [lia|]. rewrite (B y Hy). f_equal. f_equal.
    unfold ones. cbn [map]. unfold phi. cbn [vmul vadd]. f_equal; [lia|]. symmetry. now apply phi_zeros.
Qed.

(** What is invariant: the object arrays are stored one after the other *)
Definition stores (v : array E) (shape : list Z) (fill : E) (n : Z) (values : Z -> list E) : Prop :=
  ar_fill v = fill /\ exists F, file_holds (ar_data v) (n :: shape) F /\ forall i, 0 <= i < n -> block_holds shape (values i) (fun y => F (i :: y)).

Lemma stores_shape v shape fill n values : stores v shape fill n values -> ds_shape (ar_data v) = n :: shape.
Proof. intros [_ [F [[H _] _]]]. exact H. Qed.

Lemma create_stores shape fill values : stores (create_value shape fill) shape fill 0 values.
Proof.
  split; [reflexivity|]. exists (fun _ => fill). split; [|intros; lia]. split; [reflexivity|]. unfold create_value, create_array. cbn [ar_data ds_cells].
  assert (Z0 : prodZ (0 :: shape) = 0). { rewrite <- volume_prodZ. reflexivity. }
  rewrite Z0. split; [reflexivity|]. intros [|i y] Hx; cbn in Hx; [tauto|lia].
Qed.

Lemma repeat_block shape (fill : E) : pos_shape shape -> block_holds shape (repeat fill (Z.to_nat (volume shape))) (fun _ => fill).
Proof.
  intros P. pose proof (volume_pos _ P). split; [rewrite repeat_length; lia|]. intros x Hx. pose proof (rowmaj_range _ _ Hx).
  rewrite (nth_error_nth' _ fill) by (rewrite repeat_length; lia). f_equal. apply nth_repeat.
Qed.

Lemma inside_in n x : in_shape n x -> inside x n = true.
Proof. revert x. induction n as [|e n IH]; intros [|i x] H; cbn in *; try tauto. destruct H. rewrite IH by assumption. lia. Qed.

Lemma expand_stores v shape fill n values k : array_extents shape -> 0 <= n -> 0 <= k -> n + k < SIZES -> stores v shape fill n values ->
  (forall i, n <= i < n + k -> values i = repeat fill (Z.to_nat (volume shape))) ->
  exists v', expand k v = Ok v' /\ stores v' shape fill (n + k) values.
Proof.
  intros X Hn Hk HS S HV. pose proof (extents_pos _ X) as P. pose proof (stores_shape _ _ _ _ _ S) as ES. unfold expand. rewrite ES. eexists. split; [reflexivity|].
  unfold to_size. rewrite Z.mod_small by lia. destruct S as [Efill [F [[_ B] HF]]].
  split; [exact Efill|]. exists (fun x => match x with i :: _ => if i <? n then F x else fill | [] => fill end). split; [split; [reflexivity|]|].
  - cbn [resize ar_data ds_cells]. rewrite ES, Efill. split.
    + rewrite map_length, zseq_length. rewrite <- volume_prodZ. pose proof (volume_pos _ P). change (volume (n + k :: shape)) with ((n + k) * volume shape). nia.
    + intros x Hx. assert (P' : pos_shape (n + k :: shape)).
      { constructor; [|assumption]. destruct x; cbn in Hx; [tauto|lia]. }
      pose proof (rowmaj_range _ _ Hx) as Hr. rewrite nth_error_map. unfold zseq. rewrite nth_error_map.
      rewrite (nth_error_nth' _ 0%nat) by (rewrite seq_length, <- volume_prodZ; lia).
      rewrite seq_nth by (rewrite <- volume_prodZ; lia). cbn [option_map]. f_equal. rewrite Z.add_0_l, Nat.add_0_l, Z2Nat.id by lia.
      assert (EX : linear_idx_to_idxs (rowmaj (n + k :: shape) x) (n + k :: shape) = x).
      { apply (rowmaj_inj (n + k :: shape)); [apply linear_to_idxs_in_shape; [assumption|lia]|assumption|].
        rewrite rowmaj_linear' by (apply linear_to_idxs_in_shape; [assumption|lia]). apply linear_roundtrip; [assumption|]. rewrite <- volume_prodZ. assumption. }
      rewrite EX. destruct x as [|i y]; [destruct Hx|]. destruct Hx as [Hi Hy]. destruct (Z.ltb_spec i n) as [L|L].
      * assert (Hin : in_shape (n :: shape) (i :: y)) by (split; [lia|assumption]). rewrite inside_in by assumption.
        destruct B as [_ B]. specialize (B _ Hin). rewrite rowmaj_linear' in B by assumption. now apply nth_error_nth with (d := fill) in B.
      * cbn [inside]. replace (i <? n) with false by lia. reflexivity.
  - intros i Hi. destruct (Z.ltb_spec i n) as [L|L]; [apply HF; lia|]. rewrite HV by lia. now apply repeat_block.
Qed.
End Values.
