From Coq Require Import QArith Qcanon.
From Verif Require Import Common CommonProofs GdalModel GdalSpec GdalProofs TranslateModel TranslateSpec.
Open Scope Z_scope.

Section Elements.

Context {E : Type}.

(** A table listed row by row *)
Definition listed (f : Z -> Z -> E) (n m : Z) : list E :=
  flat_map (fun i => map (fun j => f i j) (zseq 0 m)) (zseq 0 n).

Lemma listed_len : forall f n m, 0 <= n -> 0 <= m -> length (listed f n m) = Z.to_nat (n * m).
Proof.
  intros f n m N M. unfold listed.
  assert (G : forall l, length (flat_map (fun i => map (fun j => f i j) (zseq 0 m)) l) = (length l * Z.to_nat m)%nat).
  { induction l as [|a l IH]; cbn; [reflexivity|]. rewrite app_length, IH, map_length, zseq_len. lia. }
  rewrite G, zseq_len. lia.
Qed.

Lemma nth_flat_map_even : forall (g : Z -> list E) (m : nat) l d i j, (forall a, length (g a) = m) -> (i < length l)%nat -> (j < m)%nat ->
  nth (i * m + j) (flat_map g l) d = nth j (g (nth i l 0)) d.
Proof.
  intros g m l. induction l as [|a l IH]; intros d i j L I J; cbn [length] in I; [lia|].
  cbn [flat_map]. destruct i as [|i]; cbn [nth].
  - rewrite app_nth1 by (rewrite L; lia). f_equal.
  - rewrite app_nth2 by (rewrite L; lia). rewrite L.
    replace (S i * m + j - m)%nat with (i * m + j)%nat by lia. apply IH; [exact L | lia | exact J].
Qed.

Lemma nth_zseq : forall n i, 0 <= i < n -> nth (Z.to_nat i) (zseq 0 n) 0 = i.
Proof.
  intros n i H. unfold zseq.
  rewrite (nth_indep _ _ (0 + Z.of_nat 0)) by (rewrite map_length, seq_length; lia).
  rewrite map_nth with (f := fun k => 0 + Z.of_nat k). rewrite seq_nth by lia. lia.
Qed.

Lemma nth_listed : forall f n m r c d, 0 <= r < n -> 0 <= c < m ->
  nth (Z.to_nat (r * m + c)) (listed f n m) d = f r c.
Proof.
  intros f n m r c d R C. unfold listed.
  replace (Z.to_nat (r * m + c)) with (Z.to_nat r * Z.to_nat m + Z.to_nat c)%nat by nia.
  rewrite nth_flat_map_even with (m := Z.to_nat m);
    [| intros; rewrite map_length, zseq_len; reflexivity | rewrite zseq_len; lia | lia].
  rewrite nth_zseq by lia.
  rewrite (nth_indep _ _ (f r 0)) by (rewrite map_length, zseq_len; lia).
  rewrite map_nth with (f := fun j => f r j) (d := 0). rewrite nth_zseq by lia. reflexivity.
Qed.

Lemma block_values_listed : forall (b : band E) off,
  block_values b off = listed (fun i j => cell_or_outside b (fst off * fst (b_block b) + i) (snd off * snd (b_block b) + j))
                              (fst (b_block b)) (snd (b_block b)).
Proof. reflexivity. Qed.

Lemma slab_values_listed : forall (a : layer E) off cnt,
  slab_values a off cnt = listed (fun i j => l_cell a (fst off + i) (snd off + j)) (fst cnt) (snd cnt).
Proof. reflexivity. Qed.

(** Strips, at most ten of them (and a single block): one step of the loop, all of the raster *)
Lemma blocks_once : forall nr nc br, 0 < nc -> 0 < br <= nr -> nr <= 10 * br ->
  translate_blocks (nr, nc) (br, nc) = Ok {| bl_raster := (nc, nr); bl_block := (nc, nr); bl_in_blocks := (1, 1) |}.
Proof.
  intros nr nc br C R T. unfold translate_blocks, make_blocks. cbn [fst snd].
  replace ((nc >=? 0) && (br >=? 0) && (nr >=? 0) && (nc >=? 0)) with true by lia.
  replace (Z.min (nc * 10) nc) with nc by lia. replace (Z.min (br * 10) nr) with nr by lia.
  replace ((nc <=? nc) && (nr <=? nr)) with true by lia.
  replace (nc >? 0) with true by lia. replace (nr >? 0) with true by lia.
  pose proof (extent_square 1 nc ltac:(lia) C) as X. pose proof (extent_square 1 nr ltac:(lia) ltac:(lia)) as Y.
  rewrite Z.mul_1_l in X, Y. rewrite X, Y. reflexivity.
Qed.

(** More than ten strips *)
Lemma blocks_more : forall nr nc br, 0 < nc -> 0 < br -> 10 * br < nr ->
  translate_blocks (nr, nc) (br, nc) =
    Ok {| bl_raster := (nc, nr); bl_block := (nc, 10 * br); bl_in_blocks := (1, extent_in_blocks nr (10 * br)) |} /\
  2 <= extent_in_blocks nr (10 * br).
Proof.
  intros nr nc br C R T. split.
  - unfold translate_blocks, make_blocks. cbn [fst snd].
    replace ((nc >=? 0) && (br >=? 0) && (nr >=? 0) && (nc >=? 0)) with true by lia.
    replace (Z.min (nc * 10) nc) with nc by lia. replace (Z.min (br * 10) nr) with (10 * br) by lia.
    replace ((nc <=? nc) && (10 * br <=? nr)) with true by lia.
    replace (nc >? 0) with true by lia. replace (10 * br >? 0) with true by lia.
    pose proof (extent_square 1 nc ltac:(lia) C) as X. rewrite Z.mul_1_l in X. rewrite X. reflexivity.
  - pose proof (extent_bounds nr (10 * br) ltac:(lia)). nia.
Qed.

Lemma valid_whole : forall n, 0 < n -> nr_valid_cells n n 0 = n.
Proof. intros n N. unfold nr_valid_cells. destruct ((0 + 1) * n >? n); lia. Qed.

Lemma repeat_nth : forall (x d : E) n i, (i < n)%nat -> nth i (repeat x n) d = x.
Proof. intros x d n. induction n; intros [|i] H; cbn; try lia; auto. apply IHn. lia. Qed.

(** Import: what is in the layer *)
Lemma import_once : forall zero fill (b : band E) br,
  0 < snd (b_shape b) -> 0 < br <= fst (b_shape b) -> fst (b_shape b) <= 10 * br -> b_block b = (br, snd (b_shape b)) ->
  exists a, gdal_to_lue zero fill b = Ok a /\ l_shape a = b_shape b /\
    l_no_data a = (if b_no_data_set b then Some (b_no_data b) else None) /\
    forall r c, in_shape (b_shape b) r c -> l_cell a r c = if r <? br then b_cell b r c else zero.
Proof.
  intros zero fill b br C R T B. destruct (b_shape b) as [nr nc] eqn:SH. cbn [fst snd] in *.
  unfold gdal_to_lue. rewrite SH, B. rewrite blocks_once by assumption.
  cbn [obind bl_in_blocks bl_block]. change (all_blocks (1, 1)) with [(0, 0)]. cbn [import_blocks].
  unfold shape_in_valid_cells. cbn [bl_raster bl_block fst snd]. rewrite !valid_whole by lia.
  assert (N : length (block_values b (0, 0)) = Z.to_nat (br * nc)).
  { rewrite block_values_len; rewrite B; cbn [fst snd]; try lia. reflexivity. }
  unfold read_block.
  replace (block_exists b (0, 0)) with true by (unfold block_exists; rewrite SH, B; cbn [fst snd]; lia).
  cbn [negb]. rewrite N, repeat_length. unfold nr_elements. cbn [fst snd].
  replace (Nat.ltb (Z.to_nat (nc * nr)) (Z.to_nat (br * nc))) with false by (symmetry; apply Nat.ltb_ge; nia).
  cbn [obind]. unfold write_slab, slab_in, nr_elements. cbn [fst snd l_shape].
  replace (negb _ || negb _) with false by nia.
  rewrite app_length, N, skipn_length, repeat_length.
  replace (Z.of_nat _ <? nr * nc) with false by nia.
  cbn [obind]. eexists. split; [reflexivity|]. cbn [l_shape l_no_data l_cell].
  split; [reflexivity|]. split; [reflexivity|].
  intros r c [Hr Hc]. cbn [fst snd] in Hr, Hc.
  replace ((0 * nc <=? r) && (r <? 0 * nc + nr) && (0 * nr <=? c) && (c <? 0 * nr + nc)) with true by lia.
  replace ((r - 0 * nc) * nc + (c - 0 * nr)) with (r * nc + c) by lia.
  destruct (r <? br) eqn:Q.
  - rewrite app_nth1 by (rewrite N; nia). rewrite block_values_listed, B. cbn [fst snd].
    rewrite nth_listed by lia. replace (0 * br + r) with r by lia. replace (0 * nc + c) with c by lia.
    apply cell_inside. rewrite SH. split; cbn [fst snd]; lia.
  - assert (br * nc <= r * nc + c) by nia. assert (r * nc + c < nr * nc) by nia.
    rewrite app_nth2 by (rewrite N; lia).
    assert (SK : forall k m, (k <= m)%nat -> skipn k (repeat zero m) = repeat zero (m - k)).
    { induction k; intros m K; [rewrite Nat.sub_0_r; reflexivity|]. destruct m; [lia|]. cbn [repeat skipn]. rewrite IHk by lia. reflexivity. }
    rewrite SK by nia. apply repeat_nth. rewrite N. nia.
Qed.

Lemma import_more : forall zero fill (b : band E) br,
  0 < snd (b_shape b) -> 0 < br -> 10 * br < fst (b_shape b) -> b_block b = (br, snd (b_shape b)) ->
  gdal_to_lue zero fill b = Throw.
Proof.
  intros zero fill b br C R T B. destruct (b_shape b) as [nr nc] eqn:SH. cbn [fst snd] in *.
  unfold gdal_to_lue. rewrite SH, B. destruct (blocks_more nr nc br C R T) as [Q X]. rewrite Q.
  cbn [obind bl_in_blocks bl_block].
  assert (AB : exists post, all_blocks (1, extent_in_blocks nr (10 * br)) = (0, 0) :: (0, 1) :: post).
  { unfold all_blocks. cbn [fst snd]. change (zseq 0 1) with [0]. cbn [flat_map].
    unfold zseq. replace (Z.to_nat (extent_in_blocks nr (10 * br))) with (S (S (Z.to_nat (extent_in_blocks nr (10 * br) - 2)))) by lia.
    cbn. eexists. reflexivity. }
  destruct AB as [post AB]. rewrite AB. cbn [import_blocks].
  unfold shape_in_valid_cells. cbn [bl_raster bl_block fst snd]. rewrite valid_whole by lia.
  assert (V : nr_valid_cells nr (10 * br) 0 = 10 * br).
  { unfold nr_valid_cells. replace ((0 + 1) * (10 * br) >? nr) with false by lia. reflexivity. }
  rewrite V.
  assert (N : length (block_values b (0, 0)) = Z.to_nat (br * nc)).
  { rewrite block_values_len; rewrite B; cbn [fst snd]; try lia. reflexivity. }
  unfold read_block at 1.
  replace (block_exists b (0, 0)) with true by (unfold block_exists; rewrite SH, B; cbn [fst snd]; lia).
  cbn [negb]. rewrite N, repeat_length. unfold nr_elements at 1. cbn [fst snd].
  replace (Nat.ltb (Z.to_nat (nc * (10 * br))) (Z.to_nat (br * nc))) with false by (symmetry; apply Nat.ltb_ge; nia).
  cbn [obind]. unfold write_slab at 1, slab_in, nr_elements. cbn [fst snd l_shape].
  replace (negb _ || negb _) with false by nia.
  rewrite app_length, N, skipn_length, repeat_length.
  replace (Z.of_nat _ <? 10 * br * nc) with false by nia.
  cbn [obind]. unfold read_block.
  replace (block_exists b (0, 1)) with false by (unfold block_exists; rewrite SH, B; cbn [fst snd]; lia).
  reflexivity.
Qed.

(** The natural block is larger than the raster: the vector is not large enough *)
Lemma import_large : forall zero fill (b : band E),
  0 < fst (b_shape b) <= fst (b_block b) -> 0 < snd (b_shape b) <= snd (b_block b) -> b_block b <> b_shape b ->
  gdal_to_lue zero fill b = UB.
Proof.
  intros zero fill b R C B. destruct (b_shape b) as [nr nc] eqn:SH. destruct (b_block b) as [br bc] eqn:BL. cbn [fst snd] in *.
  unfold gdal_to_lue. rewrite SH, BL. unfold translate_blocks, make_blocks. cbn [fst snd].
  replace ((bc >=? 0) && (br >=? 0) && (nr >=? 0) && (nc >=? 0)) with true by lia.
  replace (Z.min (bc * 10) nc) with nc by lia. replace (Z.min (br * 10) nr) with nr by lia.
  replace ((nc <=? nc) && (nr <=? nr)) with true by lia.
  replace (nc >? 0) with true by lia. replace (nr >? 0) with true by lia.
  pose proof (extent_square 1 nc ltac:(lia) ltac:(lia)) as X. pose proof (extent_square 1 nr ltac:(lia) ltac:(lia)) as Y.
  rewrite Z.mul_1_l in X, Y. rewrite X, Y.
  cbn [obind bl_in_blocks bl_block]. change (all_blocks (1, 1)) with [(0, 0)]. cbn [import_blocks].
  unfold read_block.
  replace (block_exists b (0, 0)) with true by (unfold block_exists; rewrite SH, BL; cbn [fst snd]; lia).
  cbn [negb]. rewrite block_values_len by (rewrite BL; cbn [fst snd]; lia). rewrite repeat_length, BL. unfold nr_elements. cbn [fst snd].
  assert (nr < br \/ nc < bc).
  { destruct (Z.eq_dec nr br), (Z.eq_dec nc bc); try lia. subst. congruence. }
  replace (Nat.ltb (Z.to_nat (nc * nr)) (Z.to_nat (br * bc))) with true by (symmetry; apply Nat.ltb_lt; nia).
  reflexivity.
Qed.

(** Export *)
Lemma set_no_data_fields : forall v (b : band E),
  b_shape (set_no_data v b) = b_shape b /\ b_block (set_no_data v b) = b_block b /\ b_type (set_no_data v b) = b_type b /\
  b_cell (set_no_data v b) = b_cell b /\ b_outside (set_no_data v b) = b_outside b.
Proof. intros [n|] b; repeat split. Qed.

Lemma export_once : forall zero (a : layer E) (b : band E) br,
  l_shape a = b_shape b ->
  0 < snd (b_shape b) -> 0 < br <= fst (b_shape b) -> fst (b_shape b) <= 10 * br -> b_block b = (br, snd (b_shape b)) ->
  exists b', lue_to_gdal zero a b = Ok b' /\ b_shape b' = b_shape b /\ b_block b' = b_block b /\ b_type b' = b_type b /\
    b_no_data b' = b_no_data (set_no_data (l_no_data a) b) /\ b_no_data_set b' = b_no_data_set (set_no_data (l_no_data a) b) /\
    forall r c, in_shape (b_shape b) r c -> b_cell b' r c = if r <? br then l_cell a r c else b_cell b r c.
Proof.
  intros zero a b br SA C R T B. destruct (b_shape b) as [nr nc] eqn:SH. cbn [fst snd] in *.
  unfold lue_to_gdal.
  destruct (set_no_data_fields (l_no_data a) b) as [F1 [F2 [F3 [F4 F5]]]].
  set (b0 := set_no_data (l_no_data a) b) in *. rewrite F1, F2, SH, B. rewrite blocks_once by assumption.
  cbn [obind bl_in_blocks bl_block]. change (all_blocks (1, 1)) with [(0, 0)]. cbn [export_blocks].
  unfold shape_in_valid_cells. cbn [bl_raster bl_block fst snd]. rewrite !valid_whole by lia.
  assert (N : length (slab_values a (0 * nc, 0 * nr) (nr, nc)) = Z.to_nat (nr * nc)).
  { rewrite slab_values_listed, listed_len by (cbn [fst snd]; lia). reflexivity. }
  unfold read_slab, slab_in. rewrite SA. cbn [fst snd].
  replace (negb _) with false by nia. rewrite N, repeat_length. unfold nr_elements. cbn [fst snd].
  replace (Nat.ltb (Z.to_nat (nc * nr)) (Z.to_nat (nr * nc))) with false by (symmetry; apply Nat.ltb_ge; nia).
  rewrite skipn_all2 by (rewrite repeat_length; nia). rewrite app_nil_r. cbn [obind].
  unfold write_block.
  replace (block_exists b0 (0, 0)) with true by (unfold block_exists; rewrite F1, F2, SH, B; cbn [fst snd]; lia).
  cbn [negb]. rewrite F2, B, N. unfold nr_elements. cbn [fst snd].
  replace (Z.of_nat _ <? br * nc) with false by nia. cbn [obind].
  eexists. split; [reflexivity|]. cbn [b_shape b_block b_type b_no_data b_no_data_set b_cell].
  rewrite F1, F3, F4. repeat split; try assumption; try reflexivity.
  intros r c [Hr Hc]. cbn [fst snd] in Hr, Hc.
  destruct (r <? br) eqn:Q.
  - replace ((0 * br <=? r) && (r <? (0 + 1) * br) && (0 * nc <=? c) && (c <? (0 + 1) * nc)) with true by lia.
    replace ((r - 0 * br) * nc + (c - 0 * nc)) with (r * nc + c) by lia.
    rewrite slab_values_listed. cbn [fst snd]. rewrite nth_listed by lia.
    f_equal; lia.
  - replace ((0 * br <=? r) && (r <? (0 + 1) * br) && (0 * nc <=? c) && (c <? (0 + 1) * nc)) with false by lia. reflexivity.
Qed.

Lemma export_more : forall zero (a : layer E) (b : band E) br,
  l_shape a = b_shape b ->
  0 < snd (b_shape b) -> 0 < br -> 10 * br < fst (b_shape b) -> b_block b = (br, snd (b_shape b)) ->
  lue_to_gdal zero a b = Throw.
Proof.
  intros zero a b br SA C R T B. destruct (b_shape b) as [nr nc] eqn:SH. cbn [fst snd] in *.
  unfold lue_to_gdal.
  destruct (set_no_data_fields (l_no_data a) b) as [F1 [F2 [F3 [F4 F5]]]].
  set (b0 := set_no_data (l_no_data a) b) in *. rewrite F1, F2, SH, B.
  destruct (blocks_more nr nc br C R T) as [Q X]. rewrite Q. cbn [obind bl_in_blocks bl_block].
  assert (AB : exists post, all_blocks (1, extent_in_blocks nr (10 * br)) = (0, 0) :: (0, 1) :: post).
  { unfold all_blocks. cbn [fst snd]. change (zseq 0 1) with [0]. cbn [flat_map].
    unfold zseq. replace (Z.to_nat (extent_in_blocks nr (10 * br))) with (S (S (Z.to_nat (extent_in_blocks nr (10 * br) - 2)))) by lia.
    cbn. eexists. reflexivity. }
  destruct AB as [post AB]. rewrite AB. cbn [export_blocks].
  unfold shape_in_valid_cells. cbn [bl_raster bl_block fst snd]. rewrite valid_whole by lia.
  assert (V : nr_valid_cells nr (10 * br) 0 = 10 * br).
  { unfold nr_valid_cells. replace ((0 + 1) * (10 * br) >? nr) with false by lia. reflexivity. }
  rewrite V. replace (nr_valid_cells nc nc 1) with 0
    by (unfold nr_valid_cells; destruct ((1 + 1) * nc >? nc) eqn:?; lia).
  assert (N : length (slab_values a (0 * nc, 0 * (10 * br)) (10 * br, nc)) = Z.to_nat (10 * br * nc)).
  { rewrite slab_values_listed, listed_len by (cbn [fst snd]; lia). reflexivity. }
  unfold read_slab at 1, slab_in at 1. rewrite SA. cbn [fst snd].
  replace (negb _) with false by nia. rewrite N, repeat_length. unfold nr_elements at 1. cbn [fst snd].
  replace (Nat.ltb (Z.to_nat (nc * (10 * br))) (Z.to_nat (10 * br * nc))) with false by (symmetry; apply Nat.ltb_ge; nia).
  cbn [obind]. unfold write_block at 1.
  replace (block_exists b0 (0, 0)) with true by (unfold block_exists; rewrite F1, F2, SH, B; cbn [fst snd]; lia).
  cbn [negb]. rewrite app_length, N, F2, B. unfold nr_elements. cbn [fst snd].
  replace (Z.of_nat _ <? br * nc) with false by nia. cbn [obind].
  unfold read_slab, slab_in. rewrite SA. cbn [fst snd].
  replace (negb _) with false by nia.
  assert (N0 : slab_values a (0 * nc, 1 * (10 * br)) (10 * br, 0) = []).
  { apply length_zero_iff_nil. rewrite slab_values_listed, listed_len by (cbn [fst snd]; lia). cbn [fst snd].
    rewrite Z.mul_0_r. reflexivity. }
  rewrite N0. cbn [length Nat.ltb Nat.leb app skipn]. unfold write_block, block_exists. cbn [b_block b_shape fst snd].
  rewrite F1, SH. cbn [fst snd]. 
  match goal with |- context [if negb ?t then _ else _] => replace t with false by lia end.
  reflexivity.
Qed.

End Elements.
