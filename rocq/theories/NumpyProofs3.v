From Verif Require Import Common CommonProofs CoreSpec DecompSpec ArraySpec IndexModel IndexProofs DecompModel DecompProofs ArrayModel ArrayRep ArrayProofs
  LocalProofs AggregateProofs IOModel IOSpec IOProofs NumpyModel NumpySpec NumpyProofs NumpyProofs2.

Section Items.
Context {E : Type}.
Implicit Types (d : dataset E) (F : list Z -> E).

Lemma file_shape_ssize n : file_shape n -> Forall (fun e => 0 <= e <= SSIZE_MAX) n.
Proof. intros [_ H]. exact H. Qed.

Lemma fresh_length {A} (junk : Z -> A) n : 0 <= n -> Z.of_nat (length (fresh junk n)) = n.
Proof. intros. unfold fresh. rewrite map_length, zseq_length. lia. Qed.

Lemma volume_counts_nonneg n ixs : Forall (fun e => 0 <= e) n -> 0 <= volume (counts n ixs).
Proof.
  intros H. rewrite volume_prodZ. apply prodZ_nonneg. revert n H. induction ixs as [|[i|a b k|] ixs IH]; intros n H; destruct H as [|e n He Hn]; cbn [counts]; constructor; try assumption; try lia; now apply IH.
Qed.
Lemma nonneg_of n : Forall (fun e => 0 <= e <= SSIZE_MAX) n -> Forall (fun e => 0 <= e) n.
Proof. apply Forall_impl. lia. Qed.

Theorem get_items_ok junk d n F ixs : file_shape n -> file_holds d n F -> valid_indices n ixs -> not_backward n ixs ->
  exists a, get_items junk d ixs = Ok a /\ nd_holds a (numpy_shape n ixs) (fun r => F (numpy_cell n ixs r)).
Proof.
  intros Hn Hd Hv Hb. apply file_shape_ssize in Hn. destruct (create_valid n ixs Hn Hv Hb) as [s [t [er [E1 [W P]]]]].
  assert (Ed : ds_shape d = n) by apply Hd. unfold get_items. rewrite Ed, E1. cbn [obind]. unfold read_selection. cbn [se_slab se_shape].
  assert (Hvol := volume_counts_nonneg n ixs (nonneg_of n Hn)).
  destruct (read_strided_ok s t (counts n ixs) n d F (fresh junk (prodZ (numpy_shape n ixs))) W Hd) as [data [E2 [L2 H2]]].
  { rewrite <- volume_prodZ, <- counts_shape. now apply fresh_length. }
  rewrite E2. cbn [obind]. eexists. split; [reflexivity|]. split; [reflexivity|]. cbn [nd_values]. split; [now rewrite <- counts_shape|].
  intros r Hr. destruct (expand_ok ixs n r Hr) as [A B]. destruct (shrink_ok ixs n _ A) as [_ [_ C]]. rewrite B in C. rewrite C, H2 by assumption. now rewrite P.
Qed.

Lemma get_single junk d ix : ds_shape d <> [] -> get_item junk d ix = get_items junk d [ix].
Proof. intros H. unfold get_item, get_items. now rewrite single_create. Qed.

Theorem get_items_throw junk d n F ixs : file_shape n -> file_holds d n F -> Forall fits_long ixs -> ~ valid_indices n ixs -> get_items junk d ixs = Throw.
Proof. intros Hn [Ed _] Hf Hv. unfold get_items. rewrite Ed, create_invalid; [reflexivity|now apply file_shape_ssize|assumption|assumption]. Qed.

Theorem set_items_throw d n F ixs values : file_shape n -> file_holds d n F -> Forall fits_long ixs -> ~ valid_indices n ixs -> set_items d ixs values = Throw.
Proof. intros Hn [Ed _] Hf Hv. unfold set_items. rewrite Ed, create_invalid; [reflexivity|now apply file_shape_ssize|assumption|assumption]. Qed.

(** Writing a selection *)
Lemma write_valid n ixs s t er d F memory (buffer : list E) V : create_hyperslab n ixs = Ok (Selection (Hyperslab s t (counts n ixs)) (numpy_shape n ixs) er) ->
  slab_within s t (counts n ixs) n -> (forall r, in_shape (numpy_shape n ixs) r -> phi s t (expand n ixs r) = numpy_cell n ixs r) ->
  file_holds d n F -> memory = volume (numpy_shape n ixs) ->
  (forall r, in_shape (numpy_shape n ixs) r -> at_z buffer (rowmaj (numpy_shape n ixs) r) = Ok (V r)) ->
  exists d' F', write_strided (Hyperslab s t (counts n ixs)) memory buffer d = Ok d' /\ file_holds d' n F' /\
    (forall r, in_shape (numpy_shape n ixs) r -> F' (numpy_cell n ixs r) = V r) /\
    (forall y, in_shape n y -> (forall r, in_shape (numpy_shape n ixs) r -> y <> numpy_cell n ixs r) -> F' y = F y).
Proof.
  intros E1 W P Hd -> HV. rewrite <- counts_shape.
  destruct (write_strided_ok s t (counts n ixs) n buffer (fun x => V (shrink n ixs x)) d F W) as [d' [F' [E2 [H2 [A2 B2]]]]].
  - intros x Hx. destruct (shrink_ok ixs n x Hx) as [A [B C]]. rewrite <- C. now apply HV.
  - assumption.
  - exists d', F'. split; [assumption|]. split; [assumption|]. split.
    + intros r Hr. destruct (expand_ok ixs n r Hr) as [A B]. rewrite <- P by assumption. rewrite A2 by assumption. now rewrite B.
    + intros y Hy Hnot. apply B2; [assumption|]. intros x Hx. destruct (shrink_ok ixs n x Hx) as [A [B C]]. rewrite <- B. rewrite P by assumption. now apply Hnot.
Qed.

Theorem set_items_ok d n F ixs values V : file_shape n -> file_holds d n F -> valid_indices n ixs -> not_backward n ixs -> nd_holds values (numpy_shape n ixs) V ->
  exists d' F', set_items d ixs values = Ok d' /\ file_holds d' n F' /\
    (forall r, in_shape (numpy_shape n ixs) r -> F' (numpy_cell n ixs r) = V r) /\
    (forall y, in_shape n y -> (forall r, in_shape (numpy_shape n ixs) r -> y <> numpy_cell n ixs r) -> F' y = F y).
Proof.
  intros Hn Hd Hv Hb [Es HV]. apply file_shape_ssize in Hn. destruct (create_valid n ixs Hn Hv Hb) as [s [t [er [E1 [W P]]]]].
  assert (Ed : ds_shape d = n) by apply Hd. unfold set_items. rewrite Ed, E1. cbn [obind se_slab]. eapply write_valid; try eassumption.
  - now rewrite Es, volume_prodZ.
  - intros r Hr. now apply block_at.
Qed.

Theorem set_items_number d n F ixs values : file_shape n -> file_holds d n F -> valid_indices n ixs -> not_backward n ixs ->
  volume (nd_shape values) <> volume (numpy_shape n ixs) -> set_items d ixs values = Throw.
Proof.
  intros Hn Hd Hv Hb HN. apply file_shape_ssize in Hn. destruct (create_valid n ixs Hn Hv Hb) as [s [t [er [E1 [W P]]]]].
  assert (Ed : ds_shape d = n) by apply Hd. unfold set_items. rewrite Ed, E1. cbn [obind se_slab]. unfold write_strided. rewrite Ed, select_ok by assumption. cbn [obind hs_count].
  rewrite (proj2 (Z.eqb_neq _ _)); [reflexivity|]. now rewrite <- !volume_prodZ, counts_shape.
Qed.

Theorem set_item_ok d n F ix values V : file_shape n -> file_holds d n F -> valid_indices n [ix] -> not_backward n [ix] -> nd_holds values (numpy_shape n [ix]) V ->
  exists d' F', set_item d ix values = Ok d' /\ file_holds d' n F' /\
    (forall r, in_shape (numpy_shape n [ix]) r -> F' (numpy_cell n [ix] r) = V r) /\
    (forall y, in_shape n y -> (forall r, in_shape (numpy_shape n [ix]) r -> y <> numpy_cell n [ix] r) -> F' y = F y).
Proof.
  intros Hn Hd Hv Hb [Es HV]. assert (Hne : n <> []) by apply Hn. apply file_shape_ssize in Hn. destruct (create_valid n [ix] Hn Hv Hb) as [s [t [er [E1 [W P]]]]].
  assert (Ed : ds_shape d = n) by apply Hd. unfold set_item. rewrite Ed, single_create, E1 by assumption. cbn [obind se_slab hs_count]. eapply write_valid; try eassumption.
  - rewrite Es, <- !volume_prodZ, counts_shape. destruct ix; reflexivity.
  - intros r Hr. now apply block_at.
Qed.

Theorem set_slice_number d n F start stop step values : file_shape n -> file_holds d n F -> valid_indices n [Slice start stop step] -> not_backward n [Slice start stop step] ->
  volume (nd_shape values) <> volume (numpy_shape n [Slice start stop step]) -> set_item d (Slice start stop step) values = Throw.
Proof.
  intros Hn Hd Hv Hb HN. assert (Hne : n <> []) by apply Hn. assert (Ed : ds_shape d = n) by apply Hd.
  rewrite <- (set_items_number d n F [Slice start stop step] values Hn Hd Hv Hb HN). unfold set_item, set_items. rewrite Ed, single_create by assumption. reflexivity.
Qed.

(** Writing a row from an array that is too small *)
Lemma fold_too_small (buffer : list E) pos ks acc : acc <> Throw -> (exists k, In k ks /\ at_z buffer k = UB) ->
  fold_left (fun acc k => obind acc (fun cells => obind (at_z buffer k) (fun v => match upd_z (pos k) v cells with Some cells' => Ok cells' | None => UB end))) ks acc = UB.
Proof.
  intros Ha [k [Hk HU]].
  assert (U : forall ks, fold_left (fun acc k => obind acc (fun cells : list E => obind (at_z buffer k) (fun v => match upd_z (pos k) v cells with Some cells' => Ok cells' | None => UB end))) ks UB = UB) by (intros l; induction l; [reflexivity|assumption]).
  revert acc Ha. induction ks as [|k' ks IH]; intros acc Ha; [destruct Hk|]. cbn [fold_left]. destruct acc as [cells| |]; [|congruence|apply U]. cbn [obind].
  destruct Hk as [->|Hk]; [rewrite HU; apply U|]. apply IH; [assumption|]. unfold at_z. destruct (nth_z k' buffer); cbn [obind]; [|discriminate]. destruct (upd_z (pos k') e cells); discriminate.
Qed.

Theorem set_row_too_small d n F i values : file_shape n -> file_holds d n F -> valid_indices n [Index i] ->
  Z.of_nat (length (nd_values values)) < volume (numpy_shape n [Index i]) -> set_item d (Index i) values = UB.
Proof.
  intros Hn Hd Hv HL. assert (Hne : n <> []) by apply Hn. apply file_shape_ssize in Hn.
  assert (Hb : not_backward n [Index i]) by (destruct n as [|e [|e' n]]; exact I).
  destruct (create_valid n [Index i] Hn Hv Hb) as [s [t [er [E1 [W P]]]]].
  assert (Ed : ds_shape d = n) by apply Hd. unfold set_item. rewrite Ed, single_create, E1 by assumption. cbn [obind se_slab hs_count]. unfold write_strided. rewrite Ed, select_ok by assumption. cbn [obind hs_count].
  rewrite Z.eqb_refl. rewrite fold_too_small; [reflexivity|discriminate|]. rewrite <- counts_shape, volume_prodZ in HL.
  exists (Z.of_nat (length (nd_values values))). split; [apply in_zseq; lia|]. unfold at_z, nth_z. rewrite (proj2 (Z.ltb_ge _ _)) by lia. rewrite Nat2Z.id.
  now rewrite (proj2 (nth_error_None _ _)) by lia.
Qed.

(** ** Filling *)
Lemma fold_sizes l : forall acc, 0 <= acc < SIZES -> fold_left (fun acc '(t, c) => to_size (acc * to_size (t * c))) l acc = to_size (acc * fold_right Z.mul 1 (map (fun '(t, c) => t * c) l)).
Proof.
  induction l as [|[t c] l IH]; intros acc Ha; cbn [fold_left map fold_right].
  - rewrite Z.mul_1_r. symmetry. now apply to_size_small.
  - rewrite IH by (apply Z.mod_pos_bound; reflexivity). unfold to_size. rewrite Z.mul_mod_idemp_r by discriminate. rewrite Z.mul_mod_idemp_l by discriminate. f_equal. lia.
Qed.

Lemma at_repeat (v : E) m k : 0 <= k < m -> at_z (repeat v (Z.to_nat m)) k = Ok v.
Proof. intros H. unfold at_z. rewrite nth_z_nonneg by lia. rewrite (nth_error_nth' _ v) by (rewrite repeat_length; lia). now rewrite nth_repeat. Qed.

Lemma existsb_zero c : existsb (Z.eqb 0) c = true -> volume c = 0.
Proof. induction c as [|e c IH]; cbn [existsb volume]; intros H; [discriminate|]. destruct (Z.eqb_spec 0 e) as [<-|Hne]; [lia|]. rewrite IH by exact H. lia. Qed.

Lemma nr_elements_ones s t c n : slab_within s t c n -> c <> [] -> (Forall (eq 1) t \/ volume c = 0) -> volume c < SIZES -> slab_nr_elements (Hyperslab s t c) = volume c.
Proof.
  intros W Hc Ht Hv. destruct (slab_within_length _ _ _ _ W) as [L1 [L2 L3]]. unfold slab_nr_elements, slab_empty. cbn [hs_start hs_stride hs_count].
  destruct s as [|s0 s]; [destruct c; [congruence|discriminate]|]. rewrite (strides_pos _ _ _ _ W), Bool.orb_false_r. destruct (existsb (Z.eqb 0) c) eqn:HE.
  - symmetry. now apply existsb_zero.
  - assert (P := counts_pos c (slab_counts _ _ _ _ W) HE). pose proof (volume_pos c P). destruct Ht as [Ht|Ht]; [|lia].
    rewrite fold_sizes by (unfold SIZES; lia). replace (1 * _) with (volume c); [apply to_size_small; lia|]. rewrite Z.mul_1_l. clear - Ht L2. revert t Ht L2. induction c as [|e c IH]; intros [|b t] Ht L2; try discriminate; [reflexivity|].
    inversion Ht; subst. cbn [combine map fold_right volume]. rewrite <- IH; [lia|assumption|]. cbn in L2. lia.
Qed.

(** The strides *)
Lemma create_strides1 n ix s t c sh er : n <> [] -> Forall (fun e => 0 <= e <= SSIZE_MAX) n -> create_hyperslab n [ix] = Ok (Selection (Hyperslab s t c) sh er) ->
  match ix with
  | Index _ => Forall (eq 1) t
  | Slice start stop step => exists e n' a k m, n = e :: n' /\ slice_compute e start stop step = Ok (a, k, m) /\ t = to_size k :: map (fun _ => 1) n'
  | NotAnIndex => False
  end.
Proof.
  intros Hne Hn H. destruct n as [|e n]; [congruence|]. unfold create_hyperslab in H. cbn [length] in H. change (S (length n) <? 1)%nat with false in H. cbn iota in H. rewrite hyperslab_zeros in H.
  assert (X := updates_dims [ix] (e :: n) [] [] [] [] [] 0 eq_refl eq_refl eq_refl eq_refl ltac:(cbn; lia)). cbn [app length Z.of_nat] in X.
  assert (O : Forall (eq 1) (map (fun _ : Z => 1) n)) by (clear; induction n; constructor; auto).
  destruct ix as [i|start stop step|]; cbn [dims] in X.
  - cbv zeta in X. destruct (e <=? _); [congruence|]. replace (dims n []) with (Ok (map (fun _ => 0) n, map (fun _ => 1) n, n, n)) in X by (destruct n; reflexivity). cbn [obind] in X. destruct X as [er' X].
    rewrite X in H. injection H as <- <- <- <-. constructor; [reflexivity|exact O].
  - destruct (slice_compute e start stop step) as [[[a k] m]| |] eqn:Ec; cbn [obind] in X.
    + replace (dims n []) with (Ok (map (fun _ => 0) n, map (fun _ => 1) n, n, n)) in X by (destruct n; reflexivity). cbn [obind] in X. destruct X as [er' X]. rewrite X in H. injection H as <- <- <- <-.
      exists e, n, a, k, m. split; [reflexivity|]. split; [assumption|reflexivity].
    + congruence.
    + exfalso. clear - Ec. unfold slice_compute in Ec. cbv zeta in Ec. destruct (_ =? 0) in Ec; discriminate.
  - congruence.
Qed.

(** Integers, and slices with a step of one (or that select nothing), can be used to fill. *)
Theorem fill_item_ok d n F ix (v : E) : file_shape n -> file_holds d n F -> valid_indices n [ix] ->
  volume (numpy_shape n [ix]) < SIZES ->
  match ix with Slice _ _ (Some k) => k = 1 \/ (not_backward n [ix] /\ volume (numpy_shape n [ix]) = 0) | _ => True end ->
  exists d' F', fill_item d ix v = Ok d' /\ file_holds d' n F' /\
    (forall r, in_shape (numpy_shape n [ix]) r -> F' (numpy_cell n [ix] r) = v) /\
    (forall y, in_shape n y -> (forall r, in_shape (numpy_shape n [ix]) r -> y <> numpy_cell n [ix] r) -> F' y = F y).
Proof.
  intros Hn Hd Hv HV Hk. assert (Hne : n <> []) by apply Hn. apply file_shape_ssize in Hn.
  assert (Hb : not_backward n [ix]).
  { destruct n as [|e n]; [congruence|]. destruct ix as [i|start stop [k|]|]; cbn [not_backward]; try (destruct n; exact I).
    - destruct Hk as [->|[Hk _]]; [split; [left; lia|destruct n; exact I]|]. exact Hk.
    - split; [left; exact I|destruct n; exact I]. }
  destruct (create_valid n [ix] Hn Hv Hb) as [s [t [er [E1 [W P]]]]].
  assert (Ed : ds_shape d = n) by apply Hd. unfold fill_item. rewrite Ed, single_create, E1 by assumption. cbn [obind se_slab]. cbv zeta.
  assert (Hc : counts n [ix] <> []) by (destruct n; [congruence|]; destruct ix; discriminate).
  assert (HT : Forall (eq 1) t \/ volume (counts n [ix]) = 0).
  { pose proof (create_strides1 n ix s t _ _ er Hne Hn E1) as X. destruct ix as [i|start stop step|]; [left; exact X| |destruct X].
    destruct X as [e [n' [a [k [m [En [Ec Et]]]]]]]. assert (O : Forall (eq 1) (map (fun _ : Z => 1) n')) by (clear; induction n'; constructor; auto).
    destruct step as [k'|].
    - destruct Hk as [->|[_ Hk]]; [left|right; now rewrite counts_shape]. rewrite Et. constructor; [|exact O]. unfold slice_compute in Ec. cbv zeta in Ec.
      change (Z.max (- SSIZE_MAX) (clip 1)) with 1 in Ec. cbn iota in Ec. change (1 =? 0) with false in Ec. cbn iota in Ec. injection Ec as _ <- _. reflexivity.
    - left. rewrite Et. constructor; [|exact O]. unfold slice_compute in Ec. cbv zeta in Ec. change (1 =? 0) with false in Ec. cbn iota in Ec. injection Ec as _ <- _. reflexivity. }
  rewrite (nr_elements_ones s t _ n W Hc HT) by now rewrite counts_shape.
  eapply write_valid; try eassumption.
  - apply counts_shape.
  - intros r Hr. apply at_repeat. rewrite counts_shape. now apply rowmaj_range.
Qed.

(** Slices with a larger step cannot be used to fill. *)
Theorem fill_strided d e F start stop k (v : E) : file_shape [e] -> file_holds d [e] F -> 1 < k <= SSIZE_MAX -> chosen e start stop (Some k) <> [] ->
  k * Z.of_nat (length (chosen e start stop (Some k))) < SIZES -> fill_item d (Slice start stop (Some k)) v = Throw.
Proof.
  intros Hn Hd Hk Hch HS. apply file_shape_ssize in Hn. inversion Hn as [|? ? He _]; subst. assert (Ed : ds_shape d = [e]) by apply Hd. unfold fill_item. rewrite Ed, single_create by discriminate.
  assert (Hv : valid_indices [e] [Slice start stop (Some k)]) by (split; [cbn; intros X; injection X as X; lia|exact I]).
  assert (Hb : not_backward [e] [Slice start stop (Some k)]) by (split; [left; lia|exact I]).
  destruct (create_valid [e] _ Hn Hv Hb) as [s [t [er [E1 [W P]]]]]. rewrite E1. cbn [obind se_slab]. cbv zeta. cbn [counts] in *. set (m := Z.of_nat (length (chosen e start stop (Some k)))) in *.
  assert (Hm : 0 < m) by (unfold m; destruct (chosen e start stop (Some k)); [congruence|cbn; lia]).
  destruct (create_strides1 [e] _ s t _ _ er ltac:(discriminate) Hn E1) as [e' [n' [a [k' [m' [En [Ec Et]]]]]]]. injection En as <- <-. cbn [map] in Et.
  destruct (slice_forward e start stop (Some k) He ltac:(cbn; lia)) as [a1 [k1 [m1 [Ec1 [_ [_ [_ [_ [_ Hk1]]]]]]]]]. rewrite Ec1 in Ec. injection Ec as -> -> ->. cbn in Hk1. rewrite Hk1 in * by lia. clear Hk1.
  rewrite to_size_small in Et by (unfold SIZES, SSIZE_MAX in *; lia). subst t.
  unfold write_strided. rewrite Ed, select_ok by assumption. cbn [obind hs_count].
  unfold slab_nr_elements, slab_empty. cbn [hs_start hs_stride hs_count]. destruct s as [|s0 s]; [cbn in W; tauto|]. cbn [existsb]. rewrite !(proj2 (Z.eqb_neq 0 _)) by lia. cbn [orb].
  cbn [combine fold_left]. rewrite Z.mul_1_l. rewrite !to_size_small; [|nia|rewrite to_size_small; nia]. rewrite prodZ_cons, prodZ_nil.
  rewrite (proj2 (Z.eqb_neq _ _)) by nia. reflexivity.
Qed.

(** Reading backwards *)
Theorem get_backward junk d e F : 1 < e -> file_shape [e] -> file_holds d [e] F -> get_item junk d (Slice None None (Some (-1))) = UB.
Proof.
  intros He1 Hn Hd. apply file_shape_ssize in Hn. inversion Hn as [|? ? He _]; subst. assert (Ed : ds_shape d = [e]) by apply Hd.
  unfold get_item. rewrite Ed, single_create by discriminate. unfold create_hyperslab. cbn [length Nat.ltb Nat.leb]. rewrite hyperslab_zeros.
  assert (X := updates_dims [Slice None None (Some (-1))] [e] [] [] [] [] [] 0 eq_refl eq_refl eq_refl eq_refl ltac:(cbn; lia)). cbn [app length Z.of_nat dims] in X.
  assert (S : slice_compute e None None (Some (-1)) = Ok (e - 1, -1, e)).
  { unfold slice_compute. change (Z.max (- SSIZE_MAX) (clip (-1))) with (-1). cbv zeta. change (-1 =? 0) with false. change (-1 <? 0) with true. cbn iota. unfold adjust.
    change (SSIZE_MAX <? 0) with false. change (- SSIZE_MAX - 1 <? 0) with true. change (-1 <? 0) with true. cbn iota. rewrite (proj2 (Z.leb_le e SSIZE_MAX)) by lia.
    rewrite (proj2 (Z.ltb_lt (- SSIZE_MAX - 1 + e) 0)) by lia. rewrite (proj2 (Z.ltb_lt (-1) (e - 1))) by lia. change (- -1) with 1. rewrite Z.div_1_r. do 2 f_equal. lia. }
  rewrite S in X. cbn [obind] in X. destruct X as [er X]. rewrite X. cbn [obind]. unfold read_selection, read_strided. cbn [se_slab se_shape]. rewrite Ed. unfold select. cbn [hs_stride hs_count hs_start existsb].
  change (to_size (-1)) with 18446744073709551615. rewrite !to_size_small by (unfold SIZES, SSIZE_MAX in *; lia). change (0 =? 18446744073709551615) with false. rewrite (proj2 (Z.eqb_neq 0 e)) by lia. cbn [orb within_extent].
  cbv zeta. rewrite (proj2 (Z.leb_le SIZES _)); [reflexivity|]. unfold SIZES, SSIZE_MAX in *. lia.
Qed.
End Items.
