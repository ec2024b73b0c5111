From Verif Require Import Common CommonProofs GdalModel GdalSpec.

Lemma extent_bounds : forall n b, 0 < b <= n ->
  0 < extent_in_blocks n b /\ (extent_in_blocks n b - 1) * b < n <= extent_in_blocks n b * b.
Proof.
  intros n b H. unfold extent_in_blocks. rewrite Z.quot_div_nonneg by lia.
  pose proof (Z.div_mod (n + b - 1) b ltac:(lia)) as D.
  pose proof (Z.mod_pos_bound (n + b - 1) b ltac:(lia)) as M.
  set (q := (n + b - 1) / b) in *. assert (0 < q) by nia. nia.
Qed.

Lemma valid_bounds : forall n b k, 0 < b <= n -> 0 <= k < extent_in_blocks n b ->
  0 < nr_valid_cells n b k <= b /\ k * b + nr_valid_cells n b k <= n /\
  (k < extent_in_blocks n b - 1 -> nr_valid_cells n b k = b) /\
  (k = extent_in_blocks n b - 1 -> k * b + nr_valid_cells n b k = n).
Proof.
  intros n b k H K. destruct (extent_bounds n b H) as [P [L U]].
  unfold nr_valid_cells. destruct ((k + 1) * b >? n) eqn:G.
  - assert ((k + 1) * b > n) by lia.
    assert (~ k < extent_in_blocks n b - 1) by nia. assert (k = extent_in_blocks n b - 1) by lia.
    repeat split; try nia.
  - assert ((k + 1) * b <= n) by lia. repeat split; try nia.
Qed.

Lemma tile_1 : forall n b x, 0 < b <= n -> 0 <= x < n ->
  let k := x / b in let i := x mod b in
  0 <= k < extent_in_blocks n b /\ 0 <= i < nr_valid_cells n b k /\ x = k * b + i.
Proof.
  intros n b x H X k i. destruct (extent_bounds n b H) as [P [L U]].
  pose proof (Z.div_mod x b ltac:(lia)) as D. pose proof (Z.mod_pos_bound x b ltac:(lia)) as M.
  fold k in D. fold i in D, M. assert (K : 0 <= k < extent_in_blocks n b) by nia.
  destruct (valid_bounds n b k H K) as [V1 [V2 [V3 V4]]].
  repeat split; try lia.
Qed.

Lemma tile_unique : forall b k i k' i', 0 < b -> 0 <= i < b -> 0 <= i' < b ->
  k * b + i = k' * b + i' -> k = k' /\ i = i'.
Proof. intros. assert (k = k') by nia. subst. lia. Qed.

Theorem blocks_tile : forall shape block, 0 < fst block <= fst shape -> 0 < snd block <= snd shape ->
  exists bs, make_blocks shape block = Ok bs /\ tile shape block bs.
Proof.
  intros [nr nc] [br bc] H1 H2. cbn [fst snd] in *.
  unfold make_blocks. cbn [fst snd].
  assert (T : (br <=? nr) && (bc <=? nc) = true) by lia. rewrite T.
  assert (P1 : br >? 0 = true) by lia. assert (P2 : bc >? 0 = true) by lia. rewrite P1, P2.
  eexists. split; [reflexivity|].
  split; unfold in_shape, shape_in_valid_cells; cbn [fst snd bl_raster bl_block bl_in_blocks].
  - intros r c [Hr Hc].
    destruct (tile_1 nr br r H1 Hr) as [K1 [I1 E1]]. destruct (tile_1 nc bc c H2 Hc) as [K2 [I2 E2]].
    exists (r / br, c / bc), (r mod br), (c mod bc). cbn [fst snd]. split; [tauto|].
    intros [ky kx] i' j' [A1 A2] [B1 B2] C1 C2. cbn [fst snd] in *.
    pose proof (valid_bounds nr br ky H1 A1) as V1. pose proof (valid_bounds nc bc kx H2 A2) as V2.
    pose proof (Z.mod_pos_bound r br ltac:(lia)). pose proof (Z.mod_pos_bound c bc ltac:(lia)).
    destruct (tile_unique br ky i' (r / br) (r mod br)) as [Q1 Q2]; try lia.
    destruct (tile_unique bc kx j' (c / bc) (c mod bc)) as [Q3 Q4]; try lia.
    split; [rewrite Q1, Q3; reflexivity | split; assumption].
  - intros [ky kx] i j [A1 A2] [B1 B2]. cbn [fst snd] in *.
    pose proof (valid_bounds nr br ky H1 A1) as V1. pose proof (valid_bounds nc bc kx H2 A2) as V2.
    repeat split; nia.
Qed.

Section Elements.

Context {E : Type} (eqb : E -> E -> bool) (isnan : E -> bool).

Lemma equal_lists_iff : forall (eq : E -> E -> bool) vs ws, length vs = length ws ->
  (equal_lists eq vs ws = true <-> Forall2 (fun v w => eq v w = true) vs ws).
Proof.
  intros eq vs. induction vs as [|v vs IH]; intros [|w ws] L; try discriminate; cbn.
  - split; auto.
  - injection L as L. rewrite andb_true_iff. rewrite (IH ws L). split.
    + intros [A B]. constructor; auto.
    + intros F. inversion F; subst. auto.
Qed.

Lemma zseq_len : forall a n, length (zseq a n) = Z.to_nat n.
Proof. intros. unfold zseq. rewrite map_length, seq_length. reflexivity. Qed.

Lemma block_values_len : forall (b : band E) off, 0 <= fst (b_block b) -> 0 <= snd (b_block b) ->
  length (block_values b off) = Z.to_nat (nr_elements (b_block b)).
Proof.
  intros b off H1 H2. unfold block_values, nr_elements.
  assert (G : forall l, length (flat_map (fun i => map (fun j => cell_or_outside b (fst off * fst (b_block b) + i)
               (snd off * snd (b_block b) + j)) (zseq 0 (snd (b_block b)))) l)
              = (length l * Z.to_nat (snd (b_block b)))%nat).
  { induction l as [|a l IH]; cbn; [reflexivity|]. rewrite app_length, IH, map_length, zseq_len. lia. }
  rewrite G, zseq_len. lia.
Qed.

Lemma Forall2_map_same : forall {A B C} (P : B -> C -> Prop) (f : A -> B) (g : A -> C) l,
  Forall2 P (map f l) (map g l) <-> Forall (fun a => P (f a) (g a)) l.
Proof.
  intros A B C P f g l. induction l as [|a l IH]; cbn; split; intros H; auto.
  - inversion H; subst. constructor; [assumption|]. apply IH; assumption.
  - inversion H; subst. constructor; [assumption|]. apply IH; assumption.
Qed.

Lemma Forall2_app_iff : forall {A B} (P : A -> B -> Prop) l1 l2 m1 m2, length l1 = length m1 ->
  (Forall2 P (l1 ++ l2) (m1 ++ m2) <-> Forall2 P l1 m1 /\ Forall2 P l2 m2).
Proof.
  intros A B P l1. induction l1 as [|a l1 IH]; intros l2 [|b m1] m2 L; try discriminate; cbn.
  - split; [auto | tauto].
  - injection L as L. split; intros H.
    + inversion H; subst. rewrite IH in H5 by assumption. destruct H5. split; [constructor|]; auto.
    + destruct H as [H1 H2]. inversion H1; subst. constructor; [assumption|]. apply IH; auto.
Qed.

Lemma Forall2_flat_map_same : forall {A B C} (P : B -> C -> Prop) (f : A -> list B) (g : A -> list C) l,
  (forall a, length (f a) = length (g a)) ->
  (Forall2 P (flat_map f l) (flat_map g l) <-> Forall (fun a => Forall2 P (f a) (g a)) l).
Proof.
  intros A B C P f g l L. induction l as [|a l IH]; cbn; split; intros H; auto.
  - rewrite Forall2_app_iff in H by apply L. destruct H. constructor; [assumption|]. apply IH; assumption.
  - inversion H; subst. rewrite Forall2_app_iff by apply L. split; [assumption|]. apply IH; assumption.
Qed.

Lemma in_zseq0 : forall n x, In x (zseq 0 n) <-> 0 <= x < n.
Proof.
  intros n x. unfold zseq. rewrite in_map_iff. split.
  - intros [k [Q I]]. apply in_seq in I. lia.
  - intros H. exists (Z.to_nat x). split; [lia|]. apply in_seq. lia.
Qed.

(** Two blocks with the same shape are equal element by element. *)
Lemma block_values_same : forall (eq : E -> E -> bool) (b1 b2 : band E) off,
  b_block b1 = b_block b2 ->
  (Forall2 (fun v w => eq v w = true) (block_values b1 off) (block_values b2 off) <->
   forall i j, in_shape (b_block b1) i j ->
     let r := fst off * fst (b_block b1) + i in let c := snd off * snd (b_block b1) + j in
     eq (cell_or_outside b1 r c) (cell_or_outside b2 r c) = true).
Proof.
  intros eq b1 b2 off B. unfold block_values. rewrite <- B.
  rewrite Forall2_flat_map_same by (intros; rewrite !map_length; reflexivity).
  rewrite Forall_forall. unfold in_shape. split.
  - intros H i j [Hi Hj]. specialize (H i (proj2 (in_zseq0 _ _) Hi)).
    rewrite Forall2_map_same, Forall_forall in H. exact (H j (proj2 (in_zseq0 _ _) Hj)).
  - intros H i Hi. rewrite Forall2_map_same, Forall_forall. intros j Hj.
    apply (H i j). rewrite in_zseq0 in Hi, Hj. auto.
Qed.

Lemma read_block_exact : forall (b : band E) off buf, block_exists b off = true ->
  length buf = length (block_values b off) -> read_block b off buf = Ok (block_values b off).
Proof.
  intros b off buf X L. unfold read_block. rewrite X. cbn [negb].
  rewrite L, Nat.ltb_irrefl. rewrite <- L, skipn_all, app_nil_r. reflexivity.
Qed.

Lemma valid_full : forall k b x, 0 < b -> 0 <= x < k -> nr_valid_cells (k * b) b x = b.
Proof.
  intros k b x H X. unfold nr_valid_cells. destruct ((x + 1) * b >? k * b) eqn:G; [|reflexivity].
  assert ((x + 1) * b <= k * b) by nia. lia.
Qed.

(** The loops over k by k whole blocks *)
Lemma compare_blocks_square : forall (eq : E -> E -> bool) k br bc bs (b1 b2 : band E),
  0 < k -> 0 < br -> 0 < bc ->
  b_block b1 = (br, bc) -> b_block b2 = (br, bc) -> b_shape b1 = (k * br, k * bc) -> b_shape b2 = (k * br, k * bc) ->
  bl_raster bs = (k * br, k * bc) -> bl_block bs = (br, bc) ->
  forall todo v1 v2, Forall (fun o => in_shape (k, k) (fst o) (snd o)) todo ->
  length v1 = Z.to_nat (br * bc) -> length v2 = Z.to_nat (br * bc) ->
  exists d, compare_blocks eq bs b1 b2 todo v1 v2 = Ok d /\
    (d = false <-> Forall (fun o => Forall2 (fun v w => eq v w = true) (block_values b1 o) (block_values b2 o)) todo).
Proof.
  intros eq k br bc bs b1 b2 K R C B1 B2 S1 S2 Q1 Q2 todo.
  induction todo as [|[y x] todo IH]; intros v1 v2 F L1 L2; cbn [compare_blocks].
  - exists false. split; [reflexivity|]. split; auto.
  - inversion F as [|? ? H F']; subst. destruct H as [Hy Hx]. cbn [fst snd] in Hy, Hx.
    assert (N1 : length (block_values b1 (y, x)) = Z.to_nat (br * bc)).
    { rewrite block_values_len; rewrite B1; cbn [fst snd]; try lia. reflexivity. }
    assert (N2 : length (block_values b2 (y, x)) = Z.to_nat (br * bc)).
    { rewrite block_values_len; rewrite B2; cbn [fst snd]; try lia. reflexivity. }
    rewrite (read_block_exact b1) by
      (first [unfold block_exists; rewrite B1, S1; cbn [fst snd]; nia | congruence]).
    cbn [obind].
    rewrite (read_block_exact b2) by
      (first [unfold block_exists; rewrite B2, S2; cbn [fst snd]; nia | congruence]).
    cbn [obind].
    assert (NV : nr_elements (shape_in_valid_cells bs (x, y)) = br * bc).
    { unfold shape_in_valid_cells, nr_elements. rewrite Q1, Q2. cbn [fst snd].
      rewrite !valid_full by lia. reflexivity. }
    rewrite NV. unfold compare_elements. rewrite N1, N2.
    replace ((br * bc <? 0) || (Z.of_nat (Z.to_nat (br * bc)) <? br * bc) || (Z.of_nat (Z.to_nat (br * bc)) <? br * bc))
      with false by nia.
    cbn [obind].
    rewrite (firstn_all2 (block_values b1 (y, x))) by lia. rewrite (firstn_all2 (block_values b2 (y, x))) by lia.
    destruct (equal_lists eq (block_values b1 (y, x)) (block_values b2 (y, x))) eqn:Q.
    + rewrite equal_lists_iff in Q by congruence.
      destruct (IH (block_values b1 (y, x)) (block_values b2 (y, x)) F' N1 N2) as [d [D1 D2]].
      exists d. split; [exact D1|]. rewrite D2. split; [intros H; constructor; assumption | intros H; inversion H; assumption].
    + exists true. split; [reflexivity|]. split; [discriminate|]. intros H. inversion H; subst.
      rewrite <- equal_lists_iff in H2 by congruence. congruence.
Qed.

Lemma in_all_blocks : forall s o, In o (all_blocks s) <-> in_shape s (fst o) (snd o).
Proof.
  intros s [y x]. unfold all_blocks, in_shape. rewrite in_flat_map. cbn [fst snd]. split.
  - intros [y' [H I]]. apply in_map_iff in I. destruct I as [x' [Q I]]. injection Q as -> ->.
    rewrite in_zseq0 in H, I. auto.
  - intros [H1 H2]. exists y. rewrite in_zseq0. split; [assumption|]. apply in_map_iff. exists x.
    rewrite in_zseq0. auto.
Qed.

Lemma extent_square : forall k b, 0 < k -> 0 < b -> extent_in_blocks (k * b) b = k.
Proof.
  intros k b K B. unfold extent_in_blocks. rewrite Z.quot_div_nonneg by nia.
  replace (k * b + b - 1) with (k * b + (b - 1)) by lia.
  rewrite Z.div_add_l by lia. rewrite Z.div_small by lia. lia.
Qed.

Lemma cell_inside : forall (b : band E) r c, in_shape (b_shape b) r c -> cell_or_outside b r c = b_cell b r c.
Proof. intros b r c [H1 H2]. unfold cell_or_outside. rewrite (proj2 (andb_true_iff _ _)); [reflexivity|]. split; lia. Qed.

Lemma compare_values_square : forall zero (eq : E -> E -> bool) k br bc (b1 b2 : band E),
  0 < k -> 0 < br -> 0 < bc ->
  b_block b1 = (br, bc) -> b_block b2 = (br, bc) -> b_shape b1 = (k * br, k * bc) -> b_shape b2 = (k * br, k * bc) ->
  exists d, compare_values zero eq b1 b2 = Ok d /\
    (d = false <-> forall r c, in_shape (b_shape b1) r c -> eq (b_cell b1 r c) (b_cell b2 r c) = true).
Proof.
  intros zero eq k br bc b1 b2 K R C B1 B2 S1 S2. unfold compare_values, make_blocks. rewrite S1, B1. cbn [fst snd].
  replace ((br <=? k * br) && (bc <=? k * bc)) with true by nia. cbn [obind].
  replace (br >? 0) with true by lia. replace (bc >? 0) with true by lia.
  unfold nr_elements at 1. cbn [fst snd]. replace (br * bc <? 0) with false by nia.
  cbn [bl_in_blocks]. rewrite !extent_square by assumption.
  match goal with |- exists d, compare_blocks _ ?bs _ _ ?l ?v _ = _ /\ _ =>
    destruct (compare_blocks_square eq k br bc bs b1 b2 K R C B1 B2 S1 S2 eq_refl eq_refl l v v) as [d [D1 D2]] end.
  { apply Forall_forall. intros o I. apply in_all_blocks in I. exact I. }
  { rewrite repeat_length. reflexivity. } { rewrite repeat_length. reflexivity. }
  exists d. split; [exact D1|]. rewrite D2, Forall_forall. clear D1 D2 d.
  split.
  - intros H r c [Hr Hc]. cbn [fst snd] in Hr, Hc.
    specialize (H (r / br, c / bc)). 
    assert (I : In (r / br, c / bc) (all_blocks (k, k))).
    { apply in_all_blocks. unfold in_shape. cbn [fst snd].
      split; split; first [apply Z.div_pos; lia | apply Z.div_lt_upper_bound; lia]. }
    specialize (H I). rewrite block_values_same in H by congruence.
    specialize (H (r mod br) (c mod bc)). rewrite B1 in H. cbn [fst snd] in H.
    pose proof (Z.mod_pos_bound r br ltac:(lia)). pose proof (Z.mod_pos_bound c bc ltac:(lia)).
    specialize (H ltac:(split; cbn; lia)).
    replace (r / br * br + r mod br) with r in H by (rewrite (Z.div_mod r br) at 1; lia).
    replace (c / bc * bc + c mod bc) with c in H by (rewrite (Z.div_mod c bc) at 1; lia).
    rewrite !cell_inside in H; [exact H | rewrite S2; split; cbn; lia | rewrite S1; split; cbn; lia].
  - intros H [y x] I. apply in_all_blocks in I. destruct I as [Iy Ix]. cbn [fst snd] in Iy, Ix.
    rewrite block_values_same by congruence. intros i j. rewrite B1. intros [Hi Hj]. cbn [fst snd] in *.
    assert (X : in_shape (k * br, k * bc) (y * br + i) (x * bc + j)) by (split; cbn [fst snd]; nia).
    rewrite !cell_inside; [exact (H _ _ X) | rewrite S2; exact X | rewrite S1; exact X].
Qed.

Lemma pair2_eqb_eq : forall a b, pair2_eqb a b = true <-> a = b.
Proof.
  intros [a1 a2] [b1 b2]. unfold pair2_eqb. cbn [fst snd]. split; intros H.
  - f_equal; lia.
  - injection H as -> ->. lia.
Qed.

Lemma gdal_type_eqb_eq : forall a b, gdal_type_eqb a b = true <-> a = b.
Proof. intros [] []; cbn; split; intros H; try reflexivity; discriminate. Qed.

Lemma compare_bands_square : forall zero k br bc t (b1 b2 : band E),
  0 < k -> 0 < br -> 0 < bc ->
  b_block b1 = (br, bc) -> b_block b2 = (br, bc) -> b_shape b1 = (k * br, k * bc) -> b_shape b2 = (k * br, k * bc) ->
  b_type b1 = t -> b_type b2 = t ->
  exists ds, compare_raster_bands eqb isnan zero (floating t) b1 b2 = Ok ds /\ (ds = [] <-> same_band eqb isnan b1 b2).
Proof.
  intros zero k br bc t b1 b2 K R C B1 B2 S1 S2 T1 T2.
  unfold compare_raster_bands.
  assert (SE : pair2_eqb (b_shape b1) (b_shape b2) = true) by (apply pair2_eqb_eq; congruence).
  assert (TE : gdal_type_eqb (b_type b1) (b_type b2) = true) by (apply gdal_type_eqb_eq; congruence).
  rewrite SE, TE. cbn [report app andb].
  set (ve := if floating t then isnan (b_no_data b1) && isnan (b_no_data b2) || eqb (b_no_data b1) (b_no_data b2)
             else eqb (b_no_data b1) (b_no_data b2)).
  assert (VE : ve = true <-> eqb (b_no_data b1) (b_no_data b2) = true \/
    (floating t = true /\ isnan (b_no_data b1) = true /\ isnan (b_no_data b2) = true)).
  { unfold ve. destruct (floating t); split; intros H.
    - apply orb_true_iff in H. destruct H as [H|H]; [|auto]. apply andb_true_iff in H. tauto.
    - destruct H as [H|[_ [H1 H2]]]; [rewrite H; apply orb_true_r | rewrite H1, H2; reflexivity].
    - auto.
    - destruct H as [H|[H _]]; [exact H | discriminate]. }
  assert (ND : same_no_data eqb isnan b1 b2 <->
    ((b_no_data_set b1 = false /\ b_no_data_set b2 = false) \/ (b_no_data_set b1 = true /\ b_no_data_set b2 = true /\ ve = true))).
  { unfold same_no_data. rewrite VE, T1. tauto. }
  assert (SB : forall eq, (forall v w, eq v w = same_element eqb isnan (floating t) (b_no_data_set b1) (b_no_data b1) v w) ->
     ((forall r c, in_shape (b_shape b1) r c -> eq (b_cell b1 r c) (b_cell b2 r c) = true) <->
      (forall r c, in_shape (b_shape b1) r c -> same_cell eqb isnan b1 b2 r c))).
  { intros eq Q. assert (G : forall r c, eq (b_cell b1 r c) (b_cell b2 r c) = true <-> same_cell eqb isnan b1 b2 r c).
    { intros r c. rewrite Q. unfold same_element, same_cell. rewrite T1.
      destruct (floating t), (b_no_data_set b1), (isnan (b_no_data b1)), (isnan (b_cell b1 r c)), (isnan (b_cell b2 r c)),
        (eqb (b_cell b1 r c) (b_cell b2 r c)); cbn; intuition congruence. }
    split; intros H r c X; apply G; apply H; exact X. }
  assert (SBD : same_band eqb isnan b1 b2 <-> same_no_data eqb isnan b1 b2 /\
      forall r c, in_shape (b_shape b1) r c -> same_cell eqb isnan b1 b2 r c).
  { unfold same_band. split; [tauto|]. intros [X1 X2]. repeat split; try congruence; assumption. }
  setoid_rewrite SBD. setoid_rewrite ND. clear SBD ND.
  destruct (b_no_data_set b1) eqn:N1, (b_no_data_set b2) eqn:N2; cbn [andb orb negb report app].
  - destruct ve eqn:V; cbn [andb orb negb report app].
    + destruct (compare_values_square zero (same_element eqb isnan (floating t) true (b_no_data b1)) k br bc b1 b2
                  K R C B1 B2 S1 S2) as [d [D1 D2]].
      rewrite D1. cbn [obind]. eexists. split; [reflexivity|].
      rewrite SB in D2 by reflexivity. destruct d; cbn [negb report].
      * split; [discriminate|]. intros [_ H]. apply D2 in H. discriminate.
      * split; [intros _|reflexivity]. split; [auto|]. apply D2. reflexivity.
    + eexists. split; [reflexivity|]. split; [discriminate|]. intros [[[H _]|[_ [_ H]]] _]; discriminate.
  - (* only the first is set *)
    assert (NO : ~ ((true = false /\ false = false) \/ (true = true /\ false = true /\ ve = true))) by intuition discriminate.
    destruct ve eqn:V; cbn [andb orb negb report app].
    + destruct (compare_values_square zero (same_element eqb isnan (floating t) false (b_no_data b1)) k br bc b1 b2
                  K R C B1 B2 S1 S2) as [d [D1 D2]].
      rewrite D1. cbn [obind]. eexists. split; [reflexivity|]. split; [discriminate|]. intros [H _]; intuition discriminate.
    + eexists. split; [reflexivity|]. split; [discriminate|]. intros [H _]; intuition discriminate.
  - destruct ve eqn:V; cbn [andb orb negb report app].
    + destruct (compare_values_square zero (same_element eqb isnan (floating t) false (b_no_data b1)) k br bc b1 b2
                  K R C B1 B2 S1 S2) as [d [D1 D2]].
      rewrite D1. cbn [obind]. eexists. split; [reflexivity|]. split; [discriminate|]. intros [H _]; intuition discriminate.
    + eexists. split; [reflexivity|]. split; [discriminate|]. intros [H _]; intuition discriminate.
  - destruct (compare_values_square zero (same_element eqb isnan (floating t) false (b_no_data b1)) k br bc b1 b2
                  K R C B1 B2 S1 S2) as [d [D1 D2]].
    rewrite D1. cbn [obind]. eexists. split; [reflexivity|].
    rewrite SB in D2 by reflexivity. destruct d; cbn [negb report].
    + split; [discriminate|]. intros [_ H]. apply D2 in H. discriminate.
    + split; [intros _|reflexivity]. split; [auto|]. apply D2. reflexivity.
Qed.

Lemma compare_all_square : forall zero k br bc t, 0 < k -> 0 < br -> 0 < bc -> supported t = true ->
  forall (l1 l2 : list (band E)), length l1 = length l2 ->
  Forall (fun b => b_block b = (br, bc) /\ b_shape b = (k * br, k * bc) /\ b_type b = t) l1 ->
  Forall (fun b => b_block b = (br, bc) /\ b_shape b = (k * br, k * bc) /\ b_type b = t) l2 ->
  exists ds, compare_all_bands eqb isnan zero t l1 l2 = Ok ds /\ (ds = [] <-> Forall2 (same_band eqb isnan) l1 l2).
Proof.
  intros zero k br bc t K R C S l1. induction l1 as [|b1 l1 IH]; intros [|b2 l2] L F1 F2; try discriminate;
    cbn [compare_all_bands].
  - exists []. split; [reflexivity|]. split; auto.
  - injection L as L. inversion F1 as [|? ? [X1 [X2 X3]] F1']; subst. inversion F2 as [|? ? [Y1 [Y2 Y3]] F2']; subst.
    rewrite S.
    destruct (compare_bands_square zero k br bc (b_type b1) b1 b2 K R C X1 Y1 X2 Y2 eq_refl Y3) as [d [D1 D2]].
    rewrite D1. cbn [obind]. destruct (IH l2 L F1' F2') as [ds [E1 E2]]. rewrite E1. cbn [obind].
    eexists. split; [reflexivity|]. split.
    + intros H. apply app_eq_nil in H. destruct H as [H1 H2]. constructor; [apply D2 | apply E2]; assumption.
    + intros H. inversion H; subst. apply D2 in H3. apply E2 in H5. subst. reflexivity.
Qed.

Lemma Forall2_length_eq : forall {A B} (P : A -> B -> Prop) l m, Forall2 P l m -> length l = length m.
Proof. intros A B P l m H. induction H; cbn; congruence. Qed.

Lemma geo_eqb_iff : forall g h : list E, geo_eqb eqb g h = true <-> Forall2 (fun x y => eqb x y = true) g h.
Proof.
  intros g h. unfold geo_eqb. rewrite andb_true_iff, Nat.eqb_eq. split.
  - intros [L H]. apply equal_lists_iff; assumption.
  - intros H. assert (L : length g = length h) by (eapply Forall2_length_eq; exact H). split; [exact L|].
    apply equal_lists_iff; assumption.
Qed.

Theorem compare_square : forall zero k block (x y : raster E),
  well_formed x -> well_formed y -> square_grid_of_blocks k block x -> square_grid_of_blocks k block y ->
  exists ds, compare_rasters eqb isnan zero (Some x) (Some y) = Ok ds /\ (ds = [] <-> same_information eqb isnan x y).
Proof.
  intros zero k [br bc] x y [P1 [P2 [P3 P4]]] [Q1 [Q2 [Q3 Q4]]] [K [R [C G1]]] [_ [_ [_ G2]]]. cbn [fst snd] in *.
  unfold compare_rasters.
  destruct (pair2_eqb (r_shape x) (r_shape y)) eqn:SH; cbn [report app andb].
  2:{ eexists. split; [reflexivity|]. split; [discriminate|]. intros [H _]. apply pair2_eqb_eq in H. congruence. }
  destruct (gdal_type_eqb (r_type x) (r_type y)) eqn:TY; cbn [report app andb].
  2:{ eexists. split; [reflexivity|]. split; [discriminate|]. intros [_ [H _]]. apply gdal_type_eqb_eq in H. congruence. }
  apply pair2_eqb_eq in SH. apply gdal_type_eqb_eq in TY.
  destruct (Nat.eqb (length (r_bands x)) (length (r_bands y))) eqn:NB; cbn [report app andb].
  2:{ rewrite andb_false_r. eexists. split; [reflexivity|]. split; [discriminate|]. intros [_ [_ [_ H]]].
      apply Forall2_length_eq in H. apply Nat.eqb_neq in NB. congruence. }
  destruct (geo_eqb eqb (r_geo x) (r_geo y)) eqn:GE; cbn [report app andb].
  2:{ eexists. split; [reflexivity|]. split; [discriminate|]. intros [_ [_ [H _]]]. apply geo_eqb_iff in H. congruence. }
  apply Nat.eqb_eq in NB. apply geo_eqb_iff in GE.
  destruct (compare_all_square zero k br bc (r_type x) K R C P3 (r_bands x) (r_bands y) NB) as [ds [D1 D2]].
  { rewrite Forall_forall in *. intros b I. destruct (P4 b I), (G1 b I). auto. }
  { rewrite Forall_forall in *. intros b I. destruct (Q4 b I), (G2 b I). rewrite TY. auto. }
  rewrite D1. cbn [obind]. exists ds. split; [reflexivity|]. rewrite D2. unfold same_information. tauto.
Qed.

End Elements.
