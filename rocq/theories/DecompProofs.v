(** Proofs about the domain decomposition model. *)
From Verif Require Import Common CommonProofs CoreSpec IndexModel IndexProofs Float64 Float64Proofs DecompModel.
From Coq Require Import Znumtheory.
Open Scope Z_scope.

Definition cell_eq_dec : forall a b : list Z, {a = b} + {a <> b} := list_eq_dec Z.eq_dec.

Lemma upd_nth_map {A B} (dec : forall x y : A, {x = y} + {x <> y}) (g : A -> B) n x v l :
  NoDup l -> nth_error l n = Some x ->
  upd_nth n v (map g l) = Some (map (fun c => if dec c x then v else g c) l).
Proof.
  revert n. induction l as [|h t IH]; intros [|n] Hnd Hn; try discriminate; cbn.
  - injection Hn as ->. destruct (dec x x) as [_|]; [|congruence]. do 2 f_equal.
    apply map_ext_in. intros c Hc. destruct (dec c x) as [->|]; [|reflexivity].
    inversion Hnd; contradiction.
  - inversion Hnd as [|? ? Hni Hnd']; subst. rewrite (IH n) by assumption. cbn.
    destruct (dec h x) as [->|]; [|reflexivity].
    exfalso. apply Hni. eapply nth_error_In; eassumption.
Qed.

Lemma nth_z_nonneg {A} i (l : list A) : 0 <= i -> nth_z i l = nth_error l (Z.to_nat i).
Proof. intros H. unfold nth_z. destruct (Z.ltb_spec i 0); [lia|reflexivity]. Qed.
Lemma upd_z_nonneg {A} i (a : A) l : 0 <= i -> upd_z i a l = upd_nth (Z.to_nat i) a l.
Proof. intros H. unfold upd_z. destruct (Z.ltb_spec i 0); [lia|reflexivity]. Qed.

Lemma fold_reshape sip d new g cells :
  sip <> [] -> NoDup cells -> (forall c, In c cells -> in_shape sip c) ->
  fold_left
    (fun acc cell =>
       obind acc (fun l =>
         match nth_z (linear_idx cell sip) l with
         | Some sh =>
             match upd_z (linear_idx cell sip) (zset d new sh) l with
             | Some l' => Ok l' | None => UB end
         | None => UB
         end)) cells (Ok (map g (shape_cells sip))) =
  Ok (map (fun c => if in_dec cell_eq_dec c cells then zset d new (g c) else g c) (shape_cells sip)).
Proof.
  intros Hne Hnd Hin. revert g. induction Hnd as [|x cells Hni Hnd IH]; intros g.
  - cbn. reflexivity.
  - cbn [fold_left obind].
    pose proof (linear_idx_range sip x Hne (Hin x (or_introl eq_refl))) as Hr.
    pose proof (nth_error_shape_cells sip x (Hin x (or_introl eq_refl))) as Hx.
    rewrite nth_z_nonneg by lia.
    rewrite (map_nth_error g _ _ Hx). rewrite upd_z_nonneg by lia.
    rewrite (upd_nth_map cell_eq_dec g _ x _ _ (shape_cells_NoDup sip) Hx).
    rewrite IH by (intros; apply Hin; now right). f_equal. apply map_ext_in.
    intros c Hc. destruct (in_dec cell_eq_dec c (x :: cells)) as [Hi|Hi].
    + destruct Hi as [->|Hi].
      * destruct (in_dec cell_eq_dec c cells); [contradiction|]. destruct (cell_eq_dec c c); congruence.
      * destruct (in_dec cell_eq_dec c cells); [|contradiction].
        destruct (cell_eq_dec c x) as [->|]; [contradiction|reflexivity].
    + destruct (in_dec cell_eq_dec c cells) as [Hi'|]; [exfalso; apply Hi; now right|].
      destruct (cell_eq_dec c x) as [->|]; [exfalso; apply Hi; now left|reflexivity].
Qed.

(** Extent of a partition: the last one in a dimension takes the remaining cells. *)
Definition ext (a p c : Z) : Z := if c =? a / p - 1 then p + a mod p else p.

Fixpoint ext_upto (k : nat) (a p c : list Z) : list Z :=
  match a, p, c with
  | a :: a', p :: p', c :: c' =>
      (match k with O => p | S _ => ext a p c end) :: ext_upto (pred k) a' p' c'
  | _, _, _ => []
  end.

Fixpoint exts (a p c : list Z) : list Z :=
  match a, p, c with
  | a :: a', p :: p', c :: c' => ext a p c :: exts a' p' c'
  | _, _, _ => []
  end.

Lemma ext_upto_0 a p c : length a = length p -> length c = length p -> ext_upto 0 a p c = p.
Proof.
  revert p c. induction a as [|x a IH]; intros [|y p] [|z c] H1 H2; cbn in *; try discriminate; [reflexivity|].
  f_equal. apply IH; lia.
Qed.

Lemma ext_upto_full k a p c : length a = length p -> length c = length p -> (length a <= k)%nat ->
  ext_upto k a p c = exts a p c.
Proof.
  revert k p c. induction a as [|x a IH]; intros k [|y p] [|z c] H1 H2 H3; cbn in *; try discriminate; [reflexivity|].
  destruct k; [lia|]. f_equal. apply IH; lia.
Qed.

Lemma ext_upto_S_set d a p c v : length a = length p -> length c = length p -> (d < length a)%nat ->
  v = ext (znth d a) (znth d p) (znth d c) ->
  zset d v (ext_upto d a p c) = ext_upto (S d) a p c.
Proof.
  unfold znth. revert a p c. induction d as [|d IH]; intros [|x a] [|y p] [|z c] H1 H2 H3 Hv; cbn in *; try discriminate; try lia.
  - subst v. f_equal.
  - f_equal. rewrite (IH a p c) by (try lia; assumption). cbn. reflexivity.
Qed.

Lemma ext_upto_S_same d a p c : length a = length p -> length c = length p -> (d < length a)%nat ->
  znth d p = ext (znth d a) (znth d p) (znth d c) ->
  ext_upto d a p c = ext_upto (S d) a p c.
Proof.
  unfold znth. revert a p c. induction d as [|d IH]; intros [|x a] [|y p] [|z c] H1 H2 H3 Hv; cbn in *; try discriminate; try lia.
  - f_equal. assumption.
  - f_equal. rewrite (IH a p c) by (try lia; assumption). cbn. reflexivity.
Qed.

(** Well-formed request. *)
Definition fits (a p : list Z) : Prop :=
  a <> [] /\ Forall2 (fun a p => 0 < p <= a) a p.

Lemma fits_length a p : fits a p -> length a = length p.
Proof. intros [_ H]. induction H; cbn; congruence. Qed.

Lemma map2_length {A B C} (f : A -> B -> C) l1 l2 : length l1 = length l2 -> length (map2 f l1 l2) = length l1.
Proof. revert l2. induction l1 as [|x l1 IH]; intros [|y l2] H; cbn in *; try discriminate; auto. Qed.

Lemma map2_quot_div a p : Forall2 (fun a p => 0 < p <= a) a p -> map2 Z.quot a p = map2 Z.div a p.
Proof.
  induction 1 as [|x y a p Hxy Hf IH]; cbn; [reflexivity|].
  rewrite Z.quot_div_nonneg by lia. now rewrite IH.
Qed.

Lemma sip_pos a p : Forall2 (fun a p => 0 < p <= a) a p -> pos_shape (map2 Z.div a p).
Proof.
  induction 1 as [|x y a p Hxy _ IH]; cbn; constructor; try assumption.
  apply Z.div_str_pos. lia.
Qed.

Lemma znth_map2 f a p d : length a = length p -> (d < length a)%nat ->
  znth d (map2 f a p) = f (znth d a) (znth d p).
Proof.
  unfold znth. revert a p. induction d as [|d IH]; intros [|x a] [|y p] H1 H2; cbn in *; try lia.
  apply IH; lia.
Qed.

Lemma Forall2_znth (R : Z -> Z -> Prop) a p d : Forall2 R a p -> (d < length a)%nat -> R (znth d a) (znth d p).
Proof.
  intros H. unfold znth. revert d. induction H as [|x y a p Hxy H IH]; intros d Hd; cbn in *; [lia|].
  destruct d; [assumption|]. apply IH. lia.
Qed.

Lemma znth_zset d e v l : (d < length l)%nat -> znth e (zset d v l) = if (e =? d)%nat then v else znth e l.
Proof.
  unfold znth. revert d e. induction l as [|h t IH]; intros d e H; cbn in H; [lia|].
  destruct d, e; cbn; try reflexivity. apply IH. lia.
Qed.

Lemma in_shape_znth n c : in_shape n c <-> length c = length n /\ forall d, (d < length n)%nat -> 0 <= znth d c < znth d n.
Proof.
  unfold znth. revert c. induction n as [|e n IH]; intros [|i c]; cbn; split; try tauto; try (intros [H _]; discriminate).
  - intros _. split; [reflexivity|]. intros; lia.
  - intros [Hi Hc]. apply IH in Hc. destruct Hc as [Hl Hc]. split; [lia|].
    intros [|d] Hd; [assumption|]. apply Hc. lia.
  - intros [Hl H]. split; [apply (H O); lia|]. apply IH. split; [lia|].
    intros d Hd. apply (H (S d)). lia.
Qed.

(** The cells visited for dimension d are those that are last in dimension d. *)
Lemma reshape_visits sip d : sip <> [] -> pos_shape sip -> (d < length sip)%nat ->
  let cells := visit_array (zset d (znth d sip - 1) (map (fun _ => 0) sip)) (zset d (znth d sip) sip) in
  NoDup cells /\ (forall c, In c cells <-> in_shape sip c /\ znth d c = znth d sip - 1).
Proof.
  intros Hne Hp Hd cells.
  destruct (visit_array_ok (zset d (znth d sip - 1) (map (fun _ => 0) sip)) (zset d (znth d sip) sip)) as [_ [Hnd Hin]].
  - rewrite !zset_length, map_length. reflexivity.
  - intros E. apply (f_equal (@length Z)) in E. rewrite zset_length, map_length in E. destruct sip; [congruence|discriminate].
  - split; [assumption|]. intros c. unfold cells. rewrite Hin. rewrite in_shape_znth, zset_length, map_length.
    assert (H0 : forall e, nth e (map (fun _ : Z => 0) sip) 0 = 0).
    { clear. induction sip as [|x s IH]; intros [|e]; cbn; auto. }
    split.
    + intros [Hl H]. split; [split; [assumption|]|].
      * intros e He. specialize (H e He).
        change (znth e (zset d (znth d sip - 1) (map (fun _ => 0) sip)) <= nth e c 0
                < znth e (zset d (znth d sip) sip)) in H.
        rewrite !znth_zset in H by (rewrite ?map_length; assumption).
        change (nth e c 0) with (znth e c) in H. destruct (Nat.eqb_spec e d) as [E|E]; [subst e|].
        -- assert (0 < znth d sip); [|lia]. unfold pos_shape in Hp. rewrite Forall_forall in Hp. apply Hp. apply nth_In. assumption.
        -- unfold znth at 1 in H. rewrite H0 in H. assumption.
      * specialize (H d Hd).
        change (znth d (zset d (znth d sip - 1) (map (fun _ => 0) sip)) <= nth d c 0
                < znth d (zset d (znth d sip) sip)) in H.
        rewrite !znth_zset, !Nat.eqb_refl in H by (rewrite ?map_length; assumption).
        fold (znth d c) in H. lia.
    + intros [[Hl H] Hc]. split; [assumption|]. intros e He.
      change (znth e (zset d (znth d sip - 1) (map (fun _ => 0) sip)) <= znth e c
                < znth e (zset d (znth d sip) sip)).
      rewrite !znth_zset by (rewrite ?map_length; assumption).
      destruct (Nat.eqb_spec e d) as [E|E]; [subst e|].
      * lia.
      * unfold znth at 1. rewrite H0. apply H. assumption.
Qed.

Lemma map_const {A B} (f : A -> B) b l : (forall a, In a l -> f a = b) -> map f l = repeat b (length l).
Proof. induction l as [|x l IH]; intros H; cbn; [reflexivity|]. f_equal; [apply H; now left|]. apply IH. intros; apply H; now right. Qed.

Lemma nr_elements_prod s : s <> [] -> nr_elements s = prodZ s.
Proof. destruct s; [congruence|reflexivity]. Qed.

Lemma fits_pos a p : fits a p -> pos_shape a /\ pos_shape p.
Proof.
  intros [_ H]. split; induction H as [|x y a p Hxy H IH]; constructor; try assumption; lia.
Qed.

Lemma fits_sip_ne a p : fits a p -> map2 Z.div a p <> [].
Proof. intros [Hne H]. inversion H; subst; [congruence|discriminate]. Qed.

Lemma is_subset_fits a p : length a = length p -> pos_shape p ->
  is_subset_of p a = true <-> Forall2 (fun a p => 0 < p <= a) a p.
Proof.
  unfold is_subset_of. intros Hl Hp. revert p Hl Hp. induction a as [|x a IH]; intros [|y p] Hl Hp; cbn in *; try discriminate.
  - split; [constructor|reflexivity].
  - inversion Hp; subst. rewrite andb_true_iff, IH by (try lia; assumption). split.
    + intros [H ?]. constructor; [lia|assumption].
    + intros H. inversion H; subst. split; [lia|assumption].
Qed.

Lemma new_extent_eq a p : 0 < p <= a -> p + a - a / p * p = p + a mod p.
Proof. intros H. pose proof (Z.div_mod a p). lia. Qed.

Lemma partition_shapes_ok a p : fits a p ->
  partition_shapes a p =
  Ok (map2 Z.div a p, map (fun c => exts a p c) (shape_cells (map2 Z.div a p))).
Proof.
  intros Hf. pose proof (fits_length _ _ Hf) as Hl. pose proof (fits_pos _ _ Hf) as [Hpa Hpp].
  pose proof (fits_sip_ne _ _ Hf) as Hsne. destruct Hf as [Hne HF].
  assert (Hpne : p <> []) by (intros ->; destruct a; [congruence|discriminate]).
  unfold partition_shapes. rewrite (nr_elements_prod a), (nr_elements_prod p) by assumption.
  pose proof (prodZ_pos _ Hpa). pose proof (prodZ_pos _ Hpp).
  destruct (Z.eqb_spec (prodZ a) 0); [lia|]. destruct (Z.eqb_spec (prodZ p) 0); [lia|].
  rewrite (proj2 (is_subset_fits a p Hl Hpp) HF). cbn [negb].
  rewrite (map2_quot_div a p HF). cbv zeta.
  set (sip := map2 Z.div a p) in *.
  assert (Hsl : length sip = length a) by (apply map2_length; assumption).
  assert (Hsp : pos_shape sip) by (apply sip_pos; assumption).
  assert (Hiss : is_shape sip) by (eapply Forall_impl; [|exact Hsp]; cbn; lia).
  rewrite (nr_elements_prod sip) by assumption.
  assert (Hfold : forall m k, (k + m = length a)%nat ->
    fold_left (fun acc d =>
           let new_extent := znth d p + znth d a - znth d sip * znth d p in
           if new_extent <? 2 * znth d p then
             if new_extent =? znth d p then acc
             else reshape_shapes sip acc
                 (zset d (znth d sip - 1) (map (fun _ => 0) sip))
                 (zset d (znth d sip) sip) d new_extent
           else UB) (seq k m) (Ok (map (ext_upto k a p) (shape_cells sip))) =
    Ok (map (ext_upto (length a) a p) (shape_cells sip))).
  { induction m as [|m IH]; intros k Hk; cbn [seq fold_left].
    - replace k with (length a) by lia. reflexivity.
    - assert (Hka : (k < length a)%nat) by lia.
      pose proof (Forall2_znth _ _ _ _ HF Hka) as Hkp. cbv beta in Hkp.
      assert (Hsk : znth k sip = znth k a / znth k p) by (unfold sip; rewrite znth_map2 by assumption; reflexivity).
      cbv zeta. rewrite Hsk. rewrite new_extent_eq by assumption.
      pose proof (Z.mod_pos_bound (znth k a) (znth k p)) as Hm.
      destruct (Z.ltb_spec (znth k p + znth k a mod znth k p) (2 * znth k p)); [|lia].
      rewrite <- (IH (S k)) by lia. f_equal.
      destruct (Z.eqb_spec (znth k p + znth k a mod znth k p) (znth k p)) as [E|E].
      + f_equal. apply map_ext_in. intros c Hc. apply in_shape_cells in Hc. apply in_shape_length in Hc.
        apply ext_upto_S_same; try lia. unfold ext. destruct (_ =? _); lia.
      + unfold reshape_shapes.
        destruct (reshape_visits sip k Hsne Hsp) as [Hnd Hin]; [lia|].
        rewrite <- Hsk.
        rewrite fold_reshape; [|assumption|assumption|intros c Hc; now apply Hin in Hc].
        f_equal. apply map_ext_in. intros c Hc. apply in_shape_cells in Hc. pose proof (in_shape_length _ _ Hc) as Hcl.
        destruct (in_dec _ _ _) as [Hi|Hi].
        * apply Hin in Hi. destruct Hi as [_ Hi]. apply ext_upto_S_set; try lia.
          unfold ext. rewrite Hi, Hsk, Z.eqb_refl. reflexivity.
        * apply ext_upto_S_same; try lia. unfold ext.
          destruct (Z.eqb_spec (znth k c) (znth k a / znth k p - 1)) as [Ec|]; [|reflexivity].
          exfalso. apply Hi, Hin. split; [assumption|]. rewrite Hsk. exact Ec. }
  assert (Hrep : repeat p (Z.to_nat (prodZ sip)) = map (ext_upto 0 a p) (shape_cells sip)).
  { symmetry. rewrite (map_const _ p).
    - f_equal. pose proof (shape_cells_length sip Hiss). lia.
    - intros c Hc. apply in_shape_cells in Hc. apply in_shape_length in Hc. apply ext_upto_0; lia. }
  rewrite Hrep, Hfold by reflexivity. cbn [obind]. do 2 f_equal.
  apply map_ext_in. intros c Hc. apply in_shape_cells in Hc. apply in_shape_length in Hc.
  apply ext_upto_full; lia.
Qed.

Lemma partition_shapes_throw a p : length a = length p -> is_shape a -> is_shape p -> a <> [] ->
  ~ fits a p -> partition_shapes a p = Throw.
Proof.
  intros Hl Ha Hp Hne Hnf. unfold partition_shapes.
  assert (Hpne : p <> []) by (intros ->; destruct a; [congruence|discriminate]).
  rewrite (nr_elements_prod a), (nr_elements_prod p) by assumption.
  destruct (Z.eqb_spec (prodZ a) 0) as [|E1]; [reflexivity|].
  destruct (Z.eqb_spec (prodZ p) 0) as [|E2]; [reflexivity|].
  destruct (is_subset_of p a) eqn:E; [|reflexivity].
  exfalso. apply Hnf. split; [assumption|]. apply is_subset_fits in E; try assumption.
  apply prodZ_pos_inv; assumption.
Qed.

(** ** Curves *)

Lemma curve_visits_ok sip : sip <> [] -> (length sip <= 3)%nat -> pos_shape sip ->
  exists visits, curve_visits sip = Ok visits /\
    map fst visits = zseq 0 (prodZ sip) /\ NoDup (map snd visits) /\
    (forall c, In c (map snd visits) <-> in_shape sip c).
Proof.
  intros Hne Hl Hp.
  assert (Hs : is_shape sip) by (eapply Forall_impl; [|exact Hp]; cbn; lia).
  assert (Hlin : map fst (linear_curve sip) = zseq 0 (prodZ sip) /\ NoDup (map snd (linear_curve sip)) /\
    (forall c, In c (map snd (linear_curve sip)) <-> in_shape sip c)).
  { destruct (linear_curve_ok sip Hne Hl Hs) as [H1 H2]. rewrite volume_prodZ in H1.
    split; [assumption|]. unfold linear_curve in *.
    rewrite nr_elements_prod in * by assumption.
    destruct (Z.ltb_spec 0 (prodZ sip)); [|pose proof (prodZ_pos _ Hp); lia].
    rewrite number_visits_snd, linear_curve_cells_ok by assumption.
    split; [apply shape_cells_NoDup|apply in_shape_cells]. }
  destruct sip as [|n0 [|n1 [|n2 [|]]]]; try congruence; cbn in Hl; try lia.
  - exists (linear_curve [n0]). split; [reflexivity|exact Hlin].
  - inversion Hs as [|? ? Hs0 Hs']; subst. inversion Hs' as [|? ? Hs1 _]; subst.
    destruct (hilbert_curve_ok n0 n1 Hs0 Hs1) as [v [Hv [H1 [H2 H3]]]].
    cbn [curve_visits]. rewrite Hv. eexists. split; [reflexivity|].
    assert (E1 : map fst (map (fun '(k, (i, j)) => (k, [i; j])) v) = map fst v).
    { rewrite map_map. apply map_ext. intros [k [i j]]. reflexivity. }
    assert (E2 : map snd (map (fun '(k, (i, j)) => (k, [i; j])) v) = map (fun '(i, j) => [i; j]) (map snd v)).
    { rewrite !map_map. apply map_ext. intros [k [i j]]. reflexivity. }
    rewrite E1, E2. split; [|split].
    + rewrite H1. f_equal. rewrite !prodZ_cons, prodZ_nil. lia.
    + apply FinFun.Injective_map_NoDup; [|assumption]. intros [? ?] [? ?] E. congruence.
    + intros c. rewrite in_map_iff. split.
      * intros [[i j] [<- Hin]]. apply H3 in Hin. cbn. lia.
      * intros Hc. destruct c as [|i [|j [|]]]; cbn in Hc; try tauto. exists (i, j). split; [reflexivity|]. apply H3. lia.
  - exists (linear_curve [n0; n1; n2]). split; [reflexivity|exact Hlin].
Qed.

(** ** Locality of a partition *)

Lemma locality_idx_ok n L v : 0 < L <= n -> 0 <= v < n -> L * n <= 2 ^ 50 ->
  exists r, locality_idx_by_partition_idx n L v = Ok r /\ 0 <= r < L /\
    (v * L - 1) / n <= r <= v * L / n /\ (L = n -> r = v).
Proof.
  intros HL Hv Hb. unfold locality_idx_by_partition_idx, map_to_range.
  destruct (Z.leb_spec 0 (n - 1)); [|lia]. destruct (Z.leb_spec 0 (L - 1)); [|lia].
  destruct (Z.leb_spec 0 v); [|lia]. destruct (Z.leb_spec v (n - 1)); [|lia]. cbn [andb].
  assert (Hlt : v * L / n < L) by (apply Z.div_lt_upper_bound; nia).
  destruct (Z.ltb_spec 0 (n - 1)) as [Hn|Hn].
  - replace (n - 1 - 0 + 1) with n by lia. replace (L - 1 - 0 + 1) with L by lia.
    rewrite Z.sub_0_r, Z.add_0_l.
    destruct (b64_floor_scale L n v HL Hv Hb) as [Hs1 [Hs2 Hs3]]. cbv zeta in *.
    set (r := b64_floor _) in *.
    destruct (Z.leb_spec 0 r); [|lia]. destruct (Z.leb_spec r (L - 1)); [|lia].
    exists r. repeat split; try assumption; try lia; try reflexivity.
  - assert (n = 1) by lia. assert (L = 1) by lia. assert (v = 0) by lia. subst.
    cbn. exists 0. repeat split; try reflexivity; try lia; cbn; lia.
Qed.

(** The locality used in the proofs. *)
Definition loc_of (n L v : Z) : Z :=
  match locality_idx_by_partition_idx n L v with Ok r => r | _ => 0 end.

Lemma loc_of_ok n L v : 0 < L <= n -> 0 <= v < n -> L * n <= 2 ^ 50 ->
  locality_idx_by_partition_idx n L v = Ok (loc_of n L v) /\ 0 <= loc_of n L v < L /\
  (v * L - 1) / n <= loc_of n L v <= v * L / n /\ (L = n -> loc_of n L v = v).
Proof.
  intros H1 H2 H3. destruct (locality_idx_ok n L v H1 H2 H3) as [r [E H]].
  unfold loc_of. rewrite E. auto.
Qed.

Lemma loc_of_mono n L v w : 0 < L <= n -> 0 <= v < w -> w < n -> L * n <= 2 ^ 50 ->
  loc_of n L v <= loc_of n L w.
Proof.
  intros HL Hv Hw Hb.
  destruct (loc_of_ok n L v) as [_ [_ [[_ H1] _]]]; try lia.
  destruct (loc_of_ok n L w) as [_ [_ [[H2 _] _]]]; try lia.
  etransitivity; [exact H1|]. etransitivity; [|exact H2]. apply Z.div_le_mono; nia.
Qed.

Lemma loc_of_step n L v : 0 < L <= n -> 0 <= v -> v + 1 < n -> L * n <= 2 ^ 50 ->
  loc_of n L (v + 1) <= loc_of n L v + 1.
Proof.
  intros HL Hv Hw Hb.
  destruct (loc_of_ok n L v) as [_ [_ [[H1 _] E1]]]; try lia.
  destruct (loc_of_ok n L (v + 1)) as [_ [_ [[_ H2] E2]]]; try lia.
  destruct (Z.eq_dec L n) as [->|]; [rewrite E1, E2 by reflexivity; lia|].
  etransitivity; [exact H2|].
  assert ((v + 1) * L / n <= (v * L - 1) / n + 1); [|lia].
  rewrite <- Z.div_add by lia. apply Z.div_le_mono; nia.
Qed.

Lemma loc_of_last n L : 0 < L <= n -> L * n <= 2 ^ 50 -> loc_of n L (n - 1) = L - 1.
Proof.
  intros HL Hb. destruct (loc_of_ok n L (n - 1)) as [_ [Hr [[H _] E]]]; try lia.
  destruct (Z.eq_dec L n) as [->|]; [apply E; reflexivity|].
  assert (L - 1 <= ((n - 1) * L - 1) / n); [|lia]. apply Z.div_le_lower_bound; nia.
Qed.

Lemma loc_of_first n L : 0 < L <= n -> L * n <= 2 ^ 50 -> loc_of n L 0 = 0.
Proof.
  intros HL Hb. destruct (loc_of_ok n L 0) as [_ [Hr [[_ H] E]]]; try lia.
  rewrite Z.mul_0_l, Z.div_0_l in H by lia. lia.
Qed.

(** First partition along the curve with a locality index of at least l. *)
Lemma loc_boundary n L l : 0 < L <= n -> L * n <= 2 ^ 50 -> 0 <= l <= L ->
  exists b, 0 <= b <= n /\ l * n <= b * L < l * n + 2 * L /\
    (forall v, 0 <= v < n -> (b <= v <-> l <= loc_of n L v)) /\
    (l < L -> b < n) /\ (l = 0 -> b = 0) /\ (l = L -> b = n).
Proof.
  intros HL Hb Hl.
  destruct (Z.eq_dec l L) as [->|Hne].
  { exists n. split; [lia|]. split; [lia|]. split.
    - intros v Hv. destruct (loc_of_ok n L v) as [_ [Hr _]]; lia.
    - lia. }
  set (v0 := (l * n + L - 1) / L).
  assert (Hv0 : l * n <= v0 * L < l * n + L).
  { unfold v0. pose proof (Z.div_mod (l * n + L - 1) L). pose proof (Z.mod_pos_bound (l * n + L - 1) L). nia. }
  assert (Hv0n : 0 <= v0 < n).
  { split; [apply Z.div_pos; nia|]. unfold v0. apply Z.div_lt_upper_bound; [lia|].
    destruct (Z.eq_dec L n); nia. }
  assert (Hlow : forall v, 0 <= v < v0 -> loc_of n L v < l).
  { intros v Hv. destruct (loc_of_ok n L v) as [_ [_ [[_ H] _]]]; try lia.
    assert (v * L / n < l); [|lia]. apply Z.div_lt_upper_bound; nia. }
  assert (Hhigh : forall v, v0 < v < n -> l <= loc_of n L v).
  { intros v Hv. destruct (loc_of_ok n L v) as [_ [_ [[H _] _]]]; try lia.
    assert (l <= (v * L - 1) / n); [|lia]. apply Z.div_le_lower_bound; nia. }
  destruct (Z_le_gt_dec l (loc_of n L v0)) as [Hc|Hc].
  - exists v0. split; [lia|]. split; [lia|]. split; [|split; [lia|split; [|lia]]].
    + intros v Hv. split.
      * intros Hle. destruct (Z.eq_dec v0 v) as [<-|]; [assumption|]. apply Hhigh. lia.
      * intros Hle. destruct (Z_lt_ge_dec v v0); [|lia]. specialize (Hlow v). lia.
    + intros ->. unfold v0. apply Z.div_small. lia.
  - assert (v0 < n - 1).
    { destruct (Z.eq_dec v0 (n - 1)) as [E|]; [|lia]. rewrite E, loc_of_last in Hc by assumption. lia. }
    exists (v0 + 1). split; [lia|]. split; [lia|]. split; [|split; [lia|split; [|lia]]].
    + intros v Hv. split.
      * intros Hle. apply Hhigh. lia.
      * intros Hle. destruct (Z_lt_ge_dec v v0) as [Hvl|]; [specialize (Hlow v); lia|].
        destruct (Z.eq_dec v v0) as [->|]; lia.
    + intros ->. destruct (loc_of_ok n L v0) as [_ [Hr _]]; lia.
Qed.

Lemma locality_runs n L : 0 < L <= n -> L * n <= 2 ^ 50 ->
  forall l, 0 <= l < L -> exists b e, 0 <= b < e /\ e <= n /\
    n - 2 * L < (e - b) * L < n + 2 * L /\
    (forall v, 0 <= v < n -> (loc_of n L v = l <-> b <= v < e)).
Proof.
  intros HL Hb l Hl.
  destruct (loc_boundary n L l HL Hb) as [b [Hb1 [Hb2 [Hb3 [Hb4 [Hb5 Hb6]]]]]]; [lia|].
  destruct (loc_boundary n L (l + 1) HL Hb) as [e [He1 [He2 [He3 [He4 [He5 He6]]]]]]; [lia|].
  exists b, e.
  assert (Hlt : b < e).
  { specialize (Hb4 ltac:(lia)).
    assert (Hlb : loc_of n L b = l).
    { assert (l <= loc_of n L b) by (apply Hb3; lia).
      destruct (Z.eq_dec b 0) as [->|].
      - rewrite loc_of_first in * by assumption. lia.
      - pose proof (loc_of_step n L (b - 1) HL ltac:(lia) ltac:(lia) Hb) as Hs.
        replace (b - 1 + 1) with b in Hs by lia.
        assert (~ l <= loc_of n L (b - 1)) by (rewrite <- Hb3 by lia; lia). lia. }
    destruct (Z_lt_ge_dec b e); [assumption|exfalso].
    assert (l + 1 <= loc_of n L b) by (apply He3; lia). lia. }
  split; [lia|]. split; [lia|]. split; [clear - Hb2 He2; nia|].
  intros v Hv. specialize (Hb3 v Hv). specialize (He3 v Hv). clear - Hb3 He3. lia.
Qed.
