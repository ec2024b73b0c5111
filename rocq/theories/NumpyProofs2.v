From Verif Require Import Common CommonProofs CoreSpec DecompSpec ArraySpec IndexModel IndexProofs DecompModel DecompProofs ArrayModel ArrayRep ArrayProofs
  LocalProofs AggregateProofs IOModel IOSpec IOProofs NumpyModel NumpySpec NumpyProofs.

(** ** The hyperslab, dimension by dimension *)
Fixpoint dims (n : list Z) (ixs : list index) : outcome (list Z * list Z * list Z * list Z) :=
  match n, ixs with
  | n, [] => Ok (map (fun _ => 0) n, map (fun _ => 1) n, n, n)
  | [], _ :: _ => UB
  | e :: n', Index i :: ixs' =>
      let i := if i <? 0 then e + i else i in
      if e <=? to_size i then Throw
      else obind (dims n' ixs') (fun '(s, t, c, sh) => Ok (to_size i :: s, 1 :: t, 1 :: c, sh))
  | e :: n', Slice start stop step :: ixs' =>
      obind (slice_compute e start stop step) (fun '(a, k, m) =>
      obind (dims n' ixs') (fun '(s, t, c, sh) => Ok (to_size a :: s, to_size k :: t, to_size m :: c, to_size m :: sh)))
  | _ :: _, NotAnIndex :: _ => Throw
  end.

Lemma put_app p x y r : put (p ++ x :: r) (Z.of_nat (length p)) y = Ok (p ++ y :: r).
Proof.
  unfold put, upd_z. rewrite (proj2 (Z.ltb_ge _ 0)) by lia. rewrite Nat2Z.id.
  assert (H : upd_nth (length p) y (p ++ x :: r) = Some (p ++ y :: r)) by (induction p as [|z p IH]; cbn; [reflexivity|]; now rewrite IH).
  now rewrite H.
Qed.
Lemma at_app p (x : Z) r : at_z (p ++ x :: r) (Z.of_nat (length p)) = Ok x.
Proof. unfold at_z, nth_z. rewrite (proj2 (Z.ltb_ge _ 0)) by lia. rewrite Nat2Z.id, nth_error_app2, Nat.sub_diag by lia. reflexivity. Qed.
Lemma erase_app p (x : Z) r : erase (p ++ x :: r) (Z.of_nat (length p)) = p ++ r.
Proof.
  unfold erase. rewrite Nat2Z.id. rewrite firstn_app, Nat.sub_diag, firstn_all, firstn_O, app_nil_r. f_equal.
  rewrite skipn_app. rewrite skipn_all2 by lia. replace (S (length p) - length p)%nat with 1%nat by lia. reflexivity.
Qed.

Lemma put_dimension_app ps s rs pt t rt pc c rc a k m : length pt = length ps -> length pc = length ps ->
  put_dimension (Hyperslab (ps ++ s :: rs) (pt ++ t :: rt) (pc ++ c :: rc)) (Z.of_nat (length ps)) a k m = Ok (Hyperslab (ps ++ a :: rs) (pt ++ k :: rt) (pc ++ m :: rc)).
Proof.
  intros E1 E2. unfold put_dimension. cbn [hs_start hs_stride hs_count]. rewrite put_app. cbn [obind]. rewrite <- E1, put_app. cbn [obind]. rewrite E1, <- E2, put_app. reflexivity.
Qed.

Lemma updates_dims : forall ixs n pn ps pt pc psh erased, length ps = length pn -> length pt = length pn -> length pc = length pn ->
  Z.of_nat (length psh) = Z.of_nat (length pn) - erased -> (length ixs <= length n)%nat ->
  match dims n ixs with
  | Ok (s, t, c, sh) => exists erased', updates (pn ++ n) (Selection (Hyperslab (ps ++ map (fun _ => 0) n) (pt ++ map (fun _ => 1) n) (pc ++ n)) (psh ++ n) erased) (Z.of_nat (length pn)) ixs =
      Ok (Selection (Hyperslab (ps ++ s) (pt ++ t) (pc ++ c)) (psh ++ sh) erased')
  | Throw => updates (pn ++ n) (Selection (Hyperslab (ps ++ map (fun _ => 0) n) (pt ++ map (fun _ => 1) n) (pc ++ n)) (psh ++ n) erased) (Z.of_nat (length pn)) ixs = Throw
  | UB => True
  end.
Proof.
  induction ixs as [|ix ixs IH]; intros n pn ps pt pc psh erased L1 L2 L3 L4 L5.
  - replace (dims n []) with (Ok (map (fun _ => 0) n, map (fun _ => 1) n, n, n)) by (destruct n; reflexivity). cbn [updates]. eexists. reflexivity.
  - destruct n as [|e n]; [cbn in L5; lia|]. cbn [length] in L5. destruct ix as [i|start stop step|]; [| |reflexivity].
    + cbn [dims updates update]. unfold update_by_index. rewrite at_app. cbn [obind]. cbv zeta. set (i' := if i <? 0 then e + i else i).
      destruct (e <=? to_size i'); [reflexivity|]. cbn [map se_slab se_shape se_erased]. rewrite <- L1, put_dimension_app by congruence. cbn [obind].
      rewrite L1, <- L4, put_app. cbn [obind]. rewrite erase_app.
      assert (X := IH n (pn ++ [e]) (ps ++ [to_size i']) (pt ++ [1]) (pc ++ [1]) psh (erased + 1)). rewrite !app_length in X. cbn [length] in X.
      specialize (X ltac:(lia) ltac:(lia) ltac:(lia) ltac:(lia) ltac:(lia)). rewrite <- !app_assoc in X. cbn [app] in X. rewrite Nat2Z.inj_add in X. change (Z.of_nat 1) with 1 in X.
      destruct (dims n ixs) as [[[[s t] c] sh]| |]; cbn [obind]; [|exact X|exact I]. destruct X as [er X]. exists er. rewrite X, <- !app_assoc. reflexivity.
    + cbn [dims updates update]. unfold update_by_slice. rewrite at_app. cbn [obind]. destruct (slice_compute e start stop step) as [[[a k] m]| |]; cbn [obind]; [|reflexivity|exact I].
      cbn [map se_slab se_shape se_erased]. rewrite <- L1, put_dimension_app by congruence. cbn [obind].
      rewrite L1, <- L4, put_app. cbn [obind].
      assert (X := IH n (pn ++ [e]) (ps ++ [to_size a]) (pt ++ [to_size k]) (pc ++ [to_size m]) (psh ++ [to_size m]) erased). rewrite !app_length in X. cbn [length] in X.
      specialize (X ltac:(lia) ltac:(lia) ltac:(lia) ltac:(lia) ltac:(lia)). rewrite <- !app_assoc in X. cbn [app] in X. rewrite Nat2Z.inj_add in X. change (Z.of_nat 1) with 1 in X.
      destruct (dims n ixs) as [[[[s t] c] sh]| |]; cbn [obind]; [|exact X|exact I]. destruct X as [er X]. exists er. rewrite X, <- !app_assoc. reflexivity.
Qed.

Lemma hyperslab_zeros n : selection_of n = Selection (Hyperslab (map (fun _ => 0) n) (map (fun _ => 1) n) n) n 0.
Proof. unfold selection_of, hyperslab_of_shape, hyperslab_of. rewrite map_map. reflexivity. Qed.

(** ** Dimensions that are selected from with an integer have one element *)
Fixpoint expand (n : list Z) (ixs : list index) (r : list Z) : list Z :=
  match n, ixs, r with
  | e :: n', Index i :: ixs', r => 0 :: expand n' ixs' r
  | e :: n', Slice _ _ _ :: ixs', x :: r' => x :: expand n' ixs' r'
  | _, _, r => r
  end.
Fixpoint shrink (n : list Z) (ixs : list index) (x : list Z) : list Z :=
  match n, ixs, x with
  | e :: n', Index i :: ixs', _ :: x' => shrink n' ixs' x'
  | e :: n', Slice _ _ _ :: ixs', i :: x' => i :: shrink n' ixs' x'
  | _, _, x => x
  end.
Fixpoint counts (n : list Z) (ixs : list index) : list Z :=
  match n, ixs with
  | e :: n', Index _ :: ixs' => 1 :: counts n' ixs'
  | e :: n', Slice start stop step :: ixs' => Z.of_nat (length (chosen e start stop step)) :: counts n' ixs'
  | n, _ => n
  end.

Lemma counts_shape ixs : forall n, volume (counts n ixs) = volume (numpy_shape n ixs).
Proof. induction ixs as [|[i|a b k|] ixs IH]; intros [|e n]; try reflexivity; cbn [counts numpy_shape volume]; rewrite IH; lia. Qed.

Lemma shrink_ok ixs : forall n x, in_shape (counts n ixs) x ->
  in_shape (numpy_shape n ixs) (shrink n ixs x) /\ expand n ixs (shrink n ixs x) = x /\ rowmaj (numpy_shape n ixs) (shrink n ixs x) = rowmaj (counts n ixs) x.
Proof.
  induction ixs as [|[i|a b k|] ixs IH]; intros n x Hx.
  - destruct n; cbn [counts numpy_shape shrink] in *; (split; [exact Hx|split; reflexivity]).
  - destruct n as [|e n]; [cbn in *; destruct x; tauto|]. cbn [counts] in Hx. destruct x as [|j x]; [cbn in Hx; tauto|]. cbn [in_shape] in Hx. destruct Hx as [Hj Hx].
    destruct (IH n x Hx) as [A [B C]]. cbn [numpy_shape shrink expand counts rowmaj]. split; [exact A|]. split; [f_equal; [lia|exact B]|]. rewrite C. assert (j = 0) by lia. subst j. lia.
  - destruct n as [|e n]; [cbn in *; destruct x; tauto|]. cbn [counts] in Hx. destruct x as [|j x]; [cbn in Hx; tauto|]. cbn [in_shape] in Hx. destruct Hx as [Hj Hx].
    destruct (IH n x Hx) as [A [B C]]. cbn [numpy_shape shrink expand counts rowmaj in_shape]. split; [split; assumption|]. split; [now f_equal|]. rewrite C, counts_shape. reflexivity.
  - destruct n; cbn [counts numpy_shape shrink] in *; (split; [exact Hx|split; reflexivity]).
Qed.
Lemma expand_ok ixs : forall n r, in_shape (numpy_shape n ixs) r ->
  in_shape (counts n ixs) (expand n ixs r) /\ shrink n ixs (expand n ixs r) = r.
Proof.
  induction ixs as [|[i|a b k|] ixs IH]; intros n r Hr.
  - destruct n; cbn [counts numpy_shape expand] in *; (split; [exact Hr|reflexivity]).
  - destruct n as [|e n]; [cbn in *; destruct r; tauto|]. cbn [numpy_shape] in Hr. destruct (IH n r Hr) as [A B]. cbn [counts expand shrink in_shape]. split; [split; [lia|exact A]|exact B].
  - destruct n as [|e n]; [cbn in *; destruct r; tauto|]. cbn [numpy_shape] in Hr. destruct r as [|j r]; [cbn in Hr; tauto|]. cbn [in_shape] in Hr. destruct Hr as [Hj Hr].
    destruct (IH n r Hr) as [A B]. cbn [counts expand shrink in_shape]. split; [split; assumption|now f_equal].
  - destruct n; cbn [counts numpy_shape expand] in *; (split; [exact Hr|reflexivity]).
Qed.

(** ** Valid indices select what NumPy selects *)
Lemma to_size_small v : 0 <= v < SIZES -> to_size v = v.
Proof. intros. unfold to_size. now apply Z.mod_small. Qed.

Lemma nth_map_zseq (f : Z -> Z) c x d : 0 <= x < c -> nth (Z.to_nat x) (map f (zseq 0 c)) d = f x.
Proof. intros H. apply nth_error_nth. rewrite nth_error_map, nth_error_zseq by lia. cbn. f_equal. f_equal. lia. Qed.

Lemma slab_within_all n : Forall (fun e => 0 <= e <= SSIZE_MAX) n -> slab_within (map (fun _ => 0) n) (map (fun _ => 1) n) n n.
Proof. induction 1 as [|e n He Hn IH]; cbn [map slab_within]; [exact I|]. unfold SSIZE_MAX, SIZES in *. split; [lia|]. split; [lia|]. split; [lia|]. split; [lia|assumption]. Qed.
Lemma phi_all n x : in_shape n x -> phi (map (fun _ => 0) n) (map (fun _ => 1) n) x = x.
Proof.
  revert x. induction n as [|e n IH]; intros [|i x] H; cbn in H; try tauto. unfold phi. cbn [map vmul vadd]. f_equal; [lia|]. apply IH. tauto.
Qed.

Lemma dims_valid ixs : forall n, Forall (fun e => 0 <= e <= SSIZE_MAX) n -> valid_indices n ixs -> not_backward n ixs ->
  exists s t, dims n ixs = Ok (s, t, counts n ixs, numpy_shape n ixs) /\ slab_within s t (counts n ixs) n /\
    forall r, in_shape (numpy_shape n ixs) r -> phi s t (expand n ixs r) = numpy_cell n ixs r.
Proof.
  induction ixs as [|ix ixs IH]; intros n Hn Hv Hb.
  - exists (map (fun _ => 0) n), (map (fun _ => 1) n). split; [destruct n; reflexivity|]. replace (counts n []) with n by (destruct n; reflexivity). split; [now apply slab_within_all|].
    intros r Hr. replace (numpy_shape n []) with n in Hr by (destruct n; reflexivity). replace (expand n [] r) with r by (destruct n; reflexivity). replace (numpy_cell n [] r) with r by (destruct n; reflexivity).
    now apply phi_all.
  - destruct n as [|e n]; [cbn in Hv; tauto|]. inversion Hn as [|? ? He Hn']; subst. cbn [valid_indices] in Hv. destruct Hv as [Hi Hv].
    assert (Hb' : not_backward n ixs) by (destruct ix; cbn in Hb; tauto). destruct (IH n Hn' Hv Hb') as [s [t [E1 [W P]]]].
    destruct ix as [i|start stop step|]; cbn [valid_index] in Hi; [| |tauto].
    + cbn [dims]. cbv zeta. set (i' := if i <? 0 then e + i else i). assert (Hi' : 0 <= i' < e) by (unfold i'; destruct (Z.ltb_spec i 0); lia).
      rewrite to_size_small by (unfold SIZES, SSIZE_MAX in *; lia). rewrite (proj2 (Z.leb_gt e i')) by lia. rewrite E1. cbn [obind]. exists (i' :: s), (1 :: t). split; [reflexivity|]. split.
      * cbn [counts slab_within]. unfold SIZES, SSIZE_MAX in *. split; [lia|]. split; [lia|]. split; [lia|]. split; [lia|exact W].
      * intros r Hr. cbn [numpy_shape] in Hr. cbn [expand numpy_cell]. unfold phi. cbn [vmul vadd]. fold (phi s t (expand n ixs r)). rewrite P by assumption. f_equal. unfold i'. lia.
    + cbn [dims]. assert (Hstep : 0 < step_of step \/ step_of step < 0) by (destruct step as [[| |]|]; cbn; try lia; exfalso; now apply Hi).
      destruct Hstep as [Hk|Hk].
      * destruct (slice_forward e start stop step He Hk) as [a [k [m [Ec [Kk [Km [Ka [Ech [Klast _]]]]]]]]]. rewrite Ec, E1. cbn [obind].
        rewrite !to_size_small by (unfold SIZES, SSIZE_MAX in *; lia). assert (Lm : Z.of_nat (length (chosen e start stop step)) = m) by (rewrite Ech, map_length, zseq_length; lia).
        exists (a :: s), (k :: t). cbn [counts numpy_shape]. rewrite Lm. split; [reflexivity|]. split.
        -- cbn [slab_within]. split; [lia|]. split; [lia|]. split; [lia|]. split; [|exact W]. intros Hm. specialize (Klast Hm). unfold SIZES, SSIZE_MAX in *. lia.
        -- intros [|x r] Hr; cbn [in_shape] in Hr; [tauto|]. cbn [expand numpy_cell]. unfold phi. cbn [vmul vadd]. fold (phi s t (expand n ixs r)). rewrite P by tauto. rewrite Ech, nth_map_zseq by tauto. reflexivity.
      * destruct (slice_backward e start stop step He Hk) as [a [k [m [Ec [Kk [Km [Ka [Kz Ech]]]]]]]]. rewrite Ec, E1. cbn [obind].
        assert (Lm : Z.of_nat (length (chosen e start stop step)) = m) by (rewrite Ech, map_length, zseq_length; lia).
        cbn [not_backward] in Hb. destruct Hb as [[Hb|Hb] _]; [destruct step; cbn [step_of] in Hk; lia|]. assert (Hm1 : m <= 1) by lia.
        assert (Tk : 0 < to_size k < SIZES). { unfold to_size. pose proof (Z.mod_pos_bound k SIZES ltac:(reflexivity)). assert (E2 : k mod SIZES = k + SIZES) by (symmetry; apply Z.mod_unique with (q := -1); unfold SIZES, SSIZE_MAX in *; lia). unfold SIZES, SSIZE_MAX in *. lia. }
        assert (Ta : 0 <= to_size a) by (unfold to_size; pose proof (Z.mod_pos_bound a SIZES ltac:(reflexivity)); lia).
        rewrite (to_size_small m) by (unfold SIZES, SSIZE_MAX in *; lia).
        exists (to_size a :: s), (to_size k :: t). cbn [counts numpy_shape]. rewrite Lm. split; [reflexivity|]. split.
        -- cbn [slab_within]. split; [lia|]. split; [lia|]. split; [lia|]. split; [|exact W]. intros Hm. assert (m = 1) by lia. subst m. specialize (Kz Hm).
           rewrite to_size_small by (unfold SIZES, SSIZE_MAX in *; lia). unfold SIZES, SSIZE_MAX in *. lia.
        -- intros [|x r] Hr; cbn [in_shape] in Hr; [tauto|]. cbn [expand numpy_cell]. unfold phi. cbn [vmul vadd]. fold (phi s t (expand n ixs r)). rewrite P by tauto. rewrite Ech, nth_map_zseq by tauto.
           assert (x = 0 /\ m = 1) as [-> ->] by lia. rewrite to_size_small by (unfold SIZES, SSIZE_MAX in *; lia). f_equal. lia.
Qed.

Lemma dims_shapes ixs : forall n s t c sh, dims n ixs = Ok (s, t, c, sh) -> prodZ c = prodZ sh.
Proof.
  induction ixs as [|ix ixs IH]; intros n s t c sh H.
  - destruct n; cbn in H; congruence.
  - destruct n as [|e n]; [discriminate|]. destruct ix as [i|start stop step|]; cbn [dims] in H; [| |discriminate].
    + cbv zeta in H. destruct (e <=? _); [discriminate|]. destruct (dims n ixs) as [[[[s1 t1] c1] sh1]| |] eqn:E1; try discriminate. cbn [obind] in H. injection H as <- <- <- <-.
      rewrite prodZ_cons. rewrite (IH n s1 t1 c1 sh1 E1). lia.
    + destruct (slice_compute e start stop step) as [[[a k] m]| |]; try discriminate. cbn [obind] in H. destruct (dims n ixs) as [[[[s1 t1] c1] sh1]| |] eqn:E1; try discriminate. cbn [obind] in H. injection H as <- <- <- <-.
      rewrite !prodZ_cons. now rewrite (IH n s1 t1 c1 sh1 E1).
Qed.

Lemma dims_invalid ixs : forall n, Forall (fun e => 0 <= e <= SSIZE_MAX) n -> Forall fits_long ixs -> (length ixs <= length n)%nat -> ~ valid_indices n ixs -> dims n ixs = Throw.
Proof.
  induction ixs as [|ix ixs IH]; intros n Hn Hf Hl Hv; [destruct n; exfalso; apply Hv; exact I|]. destruct n as [|e n]; [cbn in Hl; lia|].
  inversion Hn as [|? ? He Hn']; subst. inversion Hf as [|? ? Hf1 Hf2]; subst. cbn [length] in Hl.
  assert (D : ~ valid_index e ix \/ ~ valid_indices n ixs).
  { cbn [valid_indices] in Hv. destruct ix as [i|start stop step|]; cbn [valid_index] in *.
    - destruct (Z_le_gt_dec (- e) i); [destruct (Z_lt_ge_dec i e)|]; [right; tauto|left; lia|left; lia].
    - destruct step as [[| |]|]; [left; congruence| | |]; right; intros X; apply Hv; (split; [discriminate|assumption]).
    - left. tauto. }
  destruct ix as [i|start stop step|]; cbn [dims valid_index] in *; [| |reflexivity].
  - cbv zeta. destruct (e <=? to_size (if i <? 0 then e + i else i)) eqn:HE; [reflexivity|]. apply Z.leb_gt in HE. destruct D as [D|D].
    + exfalso. cbn [fits_long] in Hf1. unfold to_size, SIZES, SSIZE_MAX in *. destruct (Z.ltb_spec i 0).
      * assert (e + i < 0) by lia. assert (E2 : (e + i) mod 18446744073709551616 = e + i + 18446744073709551616) by (symmetry; apply Z.mod_unique with (q := -1); lia). lia.
      * rewrite Z.mod_small in HE by lia. lia.
    + rewrite IH by (try assumption; lia). reflexivity.
  - destruct step as [[|p|p]|].
    + reflexivity.
    + destruct D as [D|D]; [exfalso; apply D; discriminate|]. destruct (slice_forward e start stop (Some (Z.pos p)) He eq_refl) as [a [k [m [Ec _]]]]. rewrite Ec. cbn [obind]. rewrite IH by (try assumption; lia). reflexivity.
    + destruct D as [D|D]; [exfalso; apply D; discriminate|]. destruct (slice_backward e start stop (Some (Z.neg p)) He eq_refl) as [a [k [m [Ec _]]]]. rewrite Ec. cbn [obind]. rewrite IH by (try assumption; lia). reflexivity.
    + destruct D as [D|D]; [exfalso; apply D; discriminate|]. destruct (slice_forward e start stop None He eq_refl) as [a [k [m [Ec _]]]]. rewrite Ec. cbn [obind]. rewrite IH by (try assumption; lia). reflexivity.
Qed.

Lemma valid_length ixs : forall n, valid_indices n ixs -> (length ixs <= length n)%nat.
Proof. induction ixs as [|ix ixs IH]; intros [|e n] H; cbn in *; try tauto; try lia. specialize (IH n). apply le_n_S. tauto. Qed.

Lemma create_valid n ixs : Forall (fun e => 0 <= e <= SSIZE_MAX) n -> valid_indices n ixs -> not_backward n ixs ->
  exists s t er, create_hyperslab n ixs = Ok (Selection (Hyperslab s t (counts n ixs)) (numpy_shape n ixs) er) /\ slab_within s t (counts n ixs) n /\
    forall r, in_shape (numpy_shape n ixs) r -> phi s t (expand n ixs r) = numpy_cell n ixs r.
Proof.
  intros Hn Hv Hb. pose proof (valid_length _ _ Hv) as L. destruct (dims_valid ixs n Hn Hv Hb) as [s [t [E1 [W P]]]].
  unfold create_hyperslab. rewrite (proj2 (Nat.ltb_ge _ _)) by assumption. rewrite hyperslab_zeros.
  assert (X := updates_dims ixs n [] [] [] [] [] 0 eq_refl eq_refl eq_refl eq_refl L). rewrite E1 in X. cbn [app length Z.of_nat] in X. destruct X as [er X].
  exists s, t, er. split; [exact X|]. split; assumption.
Qed.
Lemma create_invalid n ixs : Forall (fun e => 0 <= e <= SSIZE_MAX) n -> Forall fits_long ixs -> ~ valid_indices n ixs -> create_hyperslab n ixs = Throw.
Proof.
  intros Hn Hf Hv. unfold create_hyperslab. destruct (Nat.ltb_spec (length n) (length ixs)) as [H|H]; [reflexivity|].
  assert (X := updates_dims ixs n [] [] [] [] [] 0 eq_refl eq_refl eq_refl eq_refl H). rewrite dims_invalid in X by assumption. cbn [app length Z.of_nat] in X. rewrite hyperslab_zeros. exact X.
Qed.
Lemma single_create n ix : n <> [] -> single_hyperslab n ix = create_hyperslab n [ix].
Proof.
  intros H. unfold single_hyperslab, create_hyperslab. destruct n as [|e n]; [congruence|]. cbn [length]. change (S (length n) <? 1)%nat with false. cbn iota. cbn [updates].
  destruct (update (e :: n) (selection_of (e :: n)) 0 ix); reflexivity.
Qed.
