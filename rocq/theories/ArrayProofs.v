From Verif Require Import Common CommonProofs CoreSpec DecompSpec ArraySpec IndexModel IndexProofs
  DecompModel DecompProofs DecompProofs2 DecompProofs3 DecompProofs4 ArrayModel ArrayRep.
Open Scope Z_scope.

Lemma rowmaj_linear n x : length x = length n -> rowmaj n x = linear_idx x n.
Proof.
  revert x. induction n as [|e n IH]; intros [|i x] H; cbn in H; try discriminate; [reflexivity|].
  injection H as H. cbn [rowmaj]. rewrite linear_idx_cons by congruence. rewrite volume_prodZ, IH by assumption. reflexivity.
Qed.

Lemma rowmaj_linear' n x : in_shape n x -> rowmaj n x = linear_idx x n.
Proof. intros H. apply rowmaj_linear. symmetry. now apply in_shape_length. Qed.

Lemma rowmaj_range n x : in_shape n x -> 0 <= rowmaj n x < volume n.
Proof. intros H. rewrite rowmaj_linear', volume_prodZ by assumption. now apply linear_idx_range'. Qed.

Lemma rowmaj_surj n i : pos_shape n -> 0 <= i < volume n -> exists x, in_shape n x /\ rowmaj n x = i.
Proof.
  intros Hp Hi. rewrite volume_prodZ in Hi. exists (linear_idx_to_idxs i n).
  pose proof (linear_to_idxs_in_shape i n Hp (proj1 Hi)) as Hs. split; [assumption|].
  rewrite rowmaj_linear' by assumption. now apply linear_roundtrip.
Qed.

Lemma rowmaj_inj n x y : in_shape n x -> in_shape n y -> rowmaj n x = rowmaj n y -> x = y.
Proof.
  revert x y. induction n as [|e n IH]; intros [|i x] [|j y] Hx Hy H; cbn in *; try tauto.
  destruct Hx as [Hi Hx], Hy as [Hj Hy].
  pose proof (rowmaj_range n x Hx). pose proof (rowmaj_range n y Hy).
  assert (i = j) by nia. subst. f_equal. apply IH; auto. nia.
Qed.

Lemma volume_pos n : pos_shape n -> 0 < volume n.
Proof. intros. rewrite volume_prodZ. now apply prodZ_pos. Qed.

Lemma parts_shape_pos a p : partition_fits a p -> pos_shape (parts_shape a p).
Proof. rewrite parts_shape_map2. apply sip_pos. Qed.

Lemma part_extent_exts a p c : partition_fits a p -> in_shape (parts_shape a p) c -> part_extent a p c = exts a p c.
Proof.
  intros H. revert c. induction H as [|x y a p Hxy H IH]; intros [|i c] Hc; cbn in *; try tauto.
  destruct Hc as [Hi Hc]. f_equal; [|auto]. unfold ext.
  destruct (Z.eqb_spec i (x / y - 1)) as [->|]; [|reflexivity].
  pose proof (Z.div_mod x y ltac:(lia)). nia.
Qed.

Lemma part_extent_pos a p c : partition_fits a p -> in_shape (parts_shape a p) c -> pos_shape (part_extent a p c).
Proof.
  intros H Hc. rewrite part_extent_exts by assumption. apply exts_pos; [assumption|]. now rewrite <- parts_shape_map2.
Qed.

Lemma part_offset_map2 p c : part_offset p c = map2 Z.mul c p.
Proof. revert c. induction p as [|y p IH]; intros [|i c]; cbn; try reflexivity. now rewrite IH. Qed.

Lemma vadd_in_box o n x : in_shape n x -> length o = length n -> in_box o n (vadd o x).
Proof.
  revert o x. induction n as [|e n IH]; intros [|s o] [|i x] H Hl; cbn in *; try tauto; try discriminate.
  destruct H as [Hi H]. split; [lia|]. apply IH; [assumption|congruence].
Qed.

Lemma in_box_vadd o n y : in_box o n y -> exists x, in_shape n x /\ y = vadd o x.
Proof.
  revert n y. induction o as [|s o IH]; intros [|e n] [|j y] H; cbn in *; try tauto.
  - exists []. cbn. auto.
  - destruct H as [Hj H]. destruct (IH n y H) as [x [Hx ->]]. exists (j - s :: x). cbn. split; [split; [lia|assumption]|f_equal; lia].
Qed.

(** Each cell lies in exactly one partition. *)
Lemma cell_part a p y : partition_fits a p -> in_shape a y ->
  exists c x, in_shape (parts_shape a p) c /\ in_shape (part_extent a p c) x /\ y = vadd (part_offset p c) x.
Proof.
  intros Hf Hy. destruct (tile_nd a p y Hf Hy) as [c [Hc [Hb _]]]. rewrite <- parts_shape_map2 in Hc.
  rewrite <- part_offset_map2, <- (part_extent_exts a p c) in Hb by assumption.
  destruct (in_box_vadd _ _ _ Hb) as [x [Hx ->]]. eauto.
Qed.

Lemma length_part_offset a p c : partition_fits a p -> in_shape (parts_shape a p) c ->
  length (part_offset p c) = length a.
Proof.
  intros H. revert c. induction H as [|x y a p Hxy H IH]; intros [|i c] Hc; cbn in *; try tauto.
  f_equal. apply IH. tauto.
Qed.
Lemma length_part_extent a p c : partition_fits a p -> in_shape (parts_shape a p) c ->
  length (part_extent a p c) = length a.
Proof.
  intros H. revert c. induction H as [|x y a p Hxy H IH]; intros [|i c] Hc; cbn in *; try tauto.
  f_equal. apply IH. tauto.
Qed.

Lemma part_cell a p c x : partition_fits a p -> in_shape (parts_shape a p) c ->
  in_shape (part_extent a p c) x -> in_shape a (vadd (part_offset p c) x).
Proof.
  intros Hf Hc Hx. apply (part_inside a p c); [assumption|now rewrite <- parts_shape_map2|].
  rewrite <- part_offset_map2, <- (part_extent_exts a p c) by assumption.
  apply vadd_in_box; [assumption|]. now rewrite (length_part_offset a p c), (length_part_extent a p c).
Qed.

(** An array holds one raster only. *)
Lemma raster_unique {E} a p (arr : parray E) f g : raster_of a p arr f -> raster_of a p arr g ->
  forall x, in_shape a x -> f x = g x.
Proof.
  intros [Hne [Hf [_ [_ [_ H1]]]]] [_ [_ [_ [_ [_ H2]]]]] y Hy.
  destruct (cell_part a p y Hf Hy) as [c [x [Hc [Hx ->]]]].
  destruct (H1 c Hc) as [d1 [E1 [_ B1]]]. destruct (H2 c Hc) as [d2 [E2 [_ B2]]].
  rewrite E1 in E2. injection E2 as <-. specialize (B1 x Hx). specialize (B2 x Hx). congruence.
Qed.

Lemma raster_ext {E} a p (arr : parray E) f g : (forall x, in_shape a x -> f x = g x) ->
  raster_of a p arr f -> raster_of a p arr g.
Proof.
  intros Hfg [Hne [Hf [E1 [E2 [Hl H]]]]]. repeat (split; [assumption|]). intros c Hc.
  destruct (H c Hc) as [d [Ed [Hd B]]]. exists d. split; [assumption|]. split; [assumption|].
  intros x Hx. rewrite B by assumption. f_equal. apply Hfg. eapply part_cell; eassumption.
Qed.

Lemma sequence_ok {A} (l : list (outcome A)) : (forall k, (k < length l)%nat -> exists q, nth_error l k = Some (Ok q)) ->
  exists r, sequence l = Ok r /\ l = map Ok r.
Proof.
  induction l as [|o l IH]; intros H; cbn; [exists []; auto|].
  destruct (H 0%nat) as [x Hx]; [cbn; lia|]. cbn in Hx. injection Hx as ->.
  destruct IH as [r [E1 E2]]; [intros n Hn; apply (H (S n)); cbn; lia|].
  rewrite E1. cbn. exists (x :: r). split; [reflexivity|]. cbn. congruence.
Qed.

(** Assembling partition results. *)
Lemma assemble {O} a p (l : list (outcome (placed (list O)))) g :
  a <> [] -> partition_fits a p -> Z.of_nat (length l) = nr_parts a p ->
  (forall c, in_shape (parts_shape a p) c ->
     exists q, nth_error l (Z.to_nat (rowmaj (parts_shape a p) c)) = Some (Ok q) /\
       pl_offset q = part_offset p c /\ pl_shape q = part_extent a p c /\
       block_holds (part_extent a p c) (pl_data q) (fun x => g (vadd (part_offset p c) x))) ->
  exists parts, sequence l = Ok parts /\
    raster_of a p (PArray a (parts_shape a p) parts) g.
Proof.
  intros Hne Hf Hl H. destruct (sequence_ok l) as [r [E1 E2]].
  - intros k Hk. destruct (rowmaj_surj (parts_shape a p) (Z.of_nat k) (parts_shape_pos a p Hf)) as [c [Hc Ec]].
    + unfold nr_parts in Hl. lia.
    + destruct (H c Hc) as [q [Eq _]]. rewrite Ec, Nat2Z.id in Eq. eauto.
  - exists r. split; [assumption|]. subst l. rewrite map_length in Hl. split; [assumption|]. split; [assumption|].
    split; [reflexivity|]. split; [reflexivity|]. split; [cbn; now rewrite map_length|].
    intros c Hc. destruct (H c Hc) as [q [Eq [Eo [Es B]]]]. rewrite nth_error_map in Eq.
    cbn [pa_parts]. rewrite nth_error_map. destruct (nth_error r _) as [q'|]; cbn in Eq; [|discriminate].
    injection Eq as ->. cbn. rewrite Eo, Es. eauto.
Qed.

Lemma raster_part {E} a p (arr : parray E) f c : raster_of a p arr f -> in_shape (parts_shape a p) c ->
  exists q, nth_error (pa_parts arr) (Z.to_nat (rowmaj (parts_shape a p) c)) = Some q /\
    pl_offset q = part_offset p c /\ pl_shape q = part_extent a p c /\
    block_holds (part_extent a p c) (pl_data q) (fun x => f (vadd (part_offset p c) x)).
Proof.
  intros [_ [_ [_ [_ [_ H]]]]] Hc. destruct (H c Hc) as [d [E1 B]]. rewrite nth_error_map in E1.
  destruct (nth_error (pa_parts arr) _) as [q|]; cbn in E1; [|discriminate]. injection E1 as E1 E2 E3.
  exists q. rewrite <- E3 in B. auto.
Qed.

Lemma raster_length {E} a p (arr : parray E) f : raster_of a p arr f -> Z.of_nat (length (pa_parts arr)) = nr_parts a p.
Proof. intros [_ [_ [_ [_ [H _]]]]]. now rewrite map_length in H. Qed.

(** Loops over the elements of a buffer. *)
Lemma for_elements_upto {O} (body : Z -> O -> outcome O) (g : Z -> O) (out : list O) n :
  (forall i old, 0 <= i < n -> body i old = Ok (g i)) -> Z.of_nat (length out) = n ->
  forall k, (k <= Z.to_nat n)%nat -> exists out',
    for_elements (Z.of_nat k) body out = Ok out' /\ length out' = length out /\
    (forall i, (i < k)%nat -> nth_error out' i = Some (g (Z.of_nat i))) /\
    (forall i, (k <= i)%nat -> nth_error out' i = nth_error out i).
Proof.
  intros Hb Hl. induction k as [|k IH]; intros Hk.
  - exists out. unfold for_elements. rewrite zseq_nil by lia. cbn. split; [reflexivity|]. split; [reflexivity|].
    split; [lia|]. auto.
  - destruct IH as [o1 [E [Hl1 [H1 H2]]]]; [lia|].
    unfold for_elements in *. replace (Z.of_nat (S k)) with (Z.of_nat k + 1) by lia.
    rewrite zseq_snoc, fold_left_app, E by lia. cbn [fold_left obind].
    unfold at_z. rewrite nth_z_nonneg by lia. replace (Z.to_nat (0 + Z.of_nat k)) with k by lia.
    destruct (nth_error o1 k) as [old|] eqn:Eo; [|apply nth_error_None in Eo; lia].
    cbn [obind]. rewrite Hb by lia. cbn [obind]. rewrite upd_z_nonneg by lia. replace (Z.to_nat (0 + Z.of_nat k)) with k by lia.
    destruct (upd_nth_Some k (g (0 + Z.of_nat k)) o1) as [o2 E2]; [lia|]. rewrite E2.
    exists o2. split; [reflexivity|]. split; [apply upd_nth_length in E2; congruence|]. split.
    + intros i Hi. destruct (Nat.eq_dec i k) as [->|Hne].
      * rewrite (upd_nth_same _ _ _ _ E2). do 2 f_equal.
      * rewrite (upd_nth_other _ _ _ _ _ E2) by lia. apply H1. lia.
    + intros i Hi. rewrite (upd_nth_other _ _ _ _ _ E2) by lia. apply H2. lia.
Qed.

Lemma for_elements_ok {O} (body : Z -> O -> outcome O) (g : Z -> O) junk n : 0 <= n ->
  (forall i old, 0 <= i < n -> body i old = Ok (g i)) ->
  exists out, for_elements n body (fresh junk n) = Ok out /\ Z.of_nat (length out) = n /\
    forall i, 0 <= i < n -> nth_error out (Z.to_nat i) = Some (g i).
Proof.
  intros Hn Hb. assert (Hl : Z.of_nat (length (fresh junk n)) = n) by (unfold fresh; rewrite map_length, zseq_length; lia).
  destruct (for_elements_upto body g (fresh junk n) n Hb Hl (Z.to_nat n) (le_n _)) as [out [E [Hl' [H _]]]].
  rewrite Z2Nat.id in E by lia. exists out. split; [assumption|]. split; [lia|].
  intros i Hi. rewrite H by lia. now rewrite Z2Nat.id by lia.
Qed.

Lemma nr_elements_volume n : n <> [] -> nr_elements n = volume n.
Proof. intros. rewrite volume_prodZ. now apply nr_elements_prod. Qed.

Lemma part_extent_ne a p c : a <> [] -> partition_fits a p -> in_shape (parts_shape a p) c -> part_extent a p c <> [].
Proof.
  intros Hne Hf Hc E. pose proof (length_part_extent a p c Hf Hc) as H. rewrite E in H. destruct a; [contradiction|discriminate].
Qed.

Lemma block_at {E} n (data : list E) f x : block_holds n data f -> in_shape n x ->
  at_z data (rowmaj n x) = Ok (f x).
Proof.
  intros [_ H] Hx. unfold at_z. rewrite nth_z_nonneg by (apply rowmaj_range; assumption). now rewrite H.
Qed.

(** A loop over all elements of a partition computes a block. *)
Lemma for_block {O} n (body : Z -> O -> outcome O) (g : list Z -> O) junk :
  n <> [] -> pos_shape n ->
  (forall x old, in_shape n x -> body (rowmaj n x) old = Ok (g x)) ->
  exists out, for_elements (nr_elements n) body (fresh junk (nr_elements n)) = Ok out /\ block_holds n out g.
Proof.
  intros Hne Hp Hb. rewrite nr_elements_volume by assumption. pose proof (volume_pos n Hp) as Hv.
  destruct (for_elements_ok body (fun i => g (linear_idx_to_idxs i n)) junk (volume n)) as [out [E [Hl H]]]; [lia| |].
  - intros i old Hi. rewrite volume_prodZ in Hi. pose proof (linear_to_idxs_in_shape i n Hp (proj1 Hi)) as Hs.
    rewrite <- Hb with (old := old) by assumption. f_equal.
    rewrite rowmaj_linear' by assumption. symmetry. now apply linear_roundtrip.
  - exists out. split; [assumption|]. split; [assumption|]. intros x Hx.
    pose proof (rowmaj_range n x Hx) as Hr. rewrite H by assumption. do 2 f_equal.
    apply (rowmaj_inj n); [|assumption|].
    + rewrite volume_prodZ in Hr. apply linear_to_idxs_in_shape; [assumption|apply Hr].
    + rewrite rowmaj_linear' by (rewrite volume_prodZ in Hr; apply linear_to_idxs_in_shape; [assumption|apply Hr]).
      rewrite volume_prodZ in Hr. now apply linear_roundtrip.
Qed.

(** Every raster can be held by an array. *)
Definition block_of {E} (n : list Z) (f : list Z -> E) : list E := map f (shape_cells n).

Lemma shape_cells_nth n x : in_shape n x -> nth_error (shape_cells n) (Z.to_nat (rowmaj n x)) = Some x.
Proof. intros H. rewrite rowmaj_linear' by assumption. now apply nth_error_shape_cells. Qed.

Lemma block_of_holds {E} n (f : list Z -> E) : pos_shape n -> block_holds n (block_of n f) f.
Proof.
  intros Hp. unfold block_of. split.
  - rewrite map_length, volume_prodZ. apply shape_cells_length. eapply Forall_impl; [|exact Hp]. cbn. lia.
  - intros x Hx. rewrite nth_error_map, shape_cells_nth by assumption. reflexivity.
Qed.

Lemma instantiate_raster {E} L a p (f : list Z -> E) :
  supported L a p -> partition_fits a p -> L <= nr_parts a p ->
  exists parts,
    instantiate_individually L (fun _ o s => block_of s (fun x => f (vadd o x))) a p = Ok parts /\
    raster_of a p (PArray a (parts_shape a p) parts) f.
Proof.
  intros Hs Hf HL. pose proof (to_accepted L a p Hs Hf HL) as Hacc.
  set (create := fun (_ : Z) o s => block_of s (fun x => f (vadd o x))).
  destruct (instantiate_individually_ok L create a p Hacc) as [visits [r [Ev [Er [Hl Hh]]]]].
  destruct (accepted_visits L a p Hacc) as [v [Hv [Hfst [Hnd Hin]]]]. rewrite Ev in Hv. injection Hv as <-.
  exists r. split; [assumption|]. split; [apply Hs|]. split; [assumption|]. split; [reflexivity|].
  split; [reflexivity|]. split; [rewrite map_length, nr_parts_prodZ; assumption|].
  intros c Hc. cbn [pa_parts]. assert (Hc' := Hc). rewrite parts_shape_map2 in Hc'. apply Hin in Hc'. apply in_map_iff in Hc'.
  destruct Hc' as [[k c'] [E1 Hvv]]. cbn in E1. subst c'.
  specialize (Hh _ Hvv). cbn [snd expected] in Hh.
  rewrite nth_error_map, rowmaj_linear', parts_shape_map2, Hh by assumption. cbn.
  rewrite part_extent_exts, part_offset_map2 by assumption.
  exists (block_of (exts a p c) (fun x => f (vadd (map2 Z.mul c p) x))). split; [reflexivity|].
  apply block_of_holds, exts_pos; [assumption|now rewrite <- parts_shape_map2].
Qed.
