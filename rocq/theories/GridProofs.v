From Verif Require Import Common CommonProofs CoreSpec DecompSpec ArraySpec IndexModel DecompModel ArrayModel ArrayProofs AggregateModel
  AggregateSpec AggregateProofs GridModel.
Open Scope Z_scope.

Lemma nth_z_nat {A} (l : list A) i : 0 <= i -> nth_z i l = nth_error l (Z.to_nat i).
Proof. intros. unfold nth_z. destruct (Z.ltb_spec i 0); [lia|reflexivity]. Qed.

Lemma in_cells2 r0 n0 c0 n1 r c : In (r, c) (cells2 r0 n0 c0 n1) <-> r0 <= r < r0 + n0 /\ c0 <= c < c0 + n1.
Proof.
  unfold cells2. rewrite in_flat_map. split.
  - intros [x [Hx H]]. apply in_map_iff in H. destruct H as [y [E Hy]]. injection E as <- <-.
    apply in_zseq in Hx. apply in_zseq in Hy. auto.
  - intros [A B]. exists r. split; [now apply in_zseq|]. apply in_map_iff. exists c. split; [reflexivity|now apply in_zseq].
Qed.

Lemma cells2_length r0 n0 c0 n1 : 0 <= n0 -> 0 <= n1 -> length (cells2 r0 n0 c0 n1) = Z.to_nat (n0 * n1).
Proof.
  intros H0 H1. unfold cells2.
  assert (G : forall l, length (flat_map (fun r : Z => map (fun c => (r, c)) (zseq c0 n1)) l) = (length l * Z.to_nat n1)%nat).
  { induction l as [|x l IH]; cbn [flat_map length]; [reflexivity|]. rewrite app_length, map_length, zseq_length, IH. lia. }
  rewrite G, zseq_length. lia.
Qed.

Lemma nth_cells2 r0 n0 c0 n1 r c : 0 <= r < n0 -> 0 <= c < n1 ->
  nth_error (cells2 r0 n0 c0 n1) (Z.to_nat (r * n1 + c)) = Some (r0 + r, c0 + c).
Proof.
  intros Hr Hc. unfold cells2.
  assert (G : forall (k : nat) s n, (k < Z.to_nat n)%nat ->
    nth_error (flat_map (fun r : Z => map (fun c => (r, c)) (zseq c0 n1)) (zseq s n)) (k * Z.to_nat n1 + Z.to_nat c) = Some (s + Z.of_nat k, c0 + c)).
  { induction k as [|k IH]; intros s n Hk; rewrite (zseq_cons s n) by lia; cbn [flat_map].
    - rewrite nth_error_app1 by (rewrite map_length, zseq_length; lia).
      rewrite nth_error_map, nth_error_zseq by lia. cbn [option_map Nat.mul Nat.add]. do 2 f_equal; lia.
    - rewrite nth_error_app2 by (rewrite map_length, zseq_length; lia). rewrite map_length, zseq_length.
      replace (S k * Z.to_nat n1 + Z.to_nat c - Z.to_nat n1)%nat with (k * Z.to_nat n1 + Z.to_nat c)%nat by lia.
      rewrite IH by lia. do 2 f_equal; lia. }
  replace (Z.to_nat (r * n1 + c)) with (Z.to_nat r * Z.to_nat n1 + Z.to_nat c)%nat by nia.
  rewrite G by lia. do 2 f_equal; lia.
Qed.

Lemma in_grid_spec {A} (g : grid A) r c : in_grid g r c = true <-> 0 <= r < g0 g /\ 0 <= c < g1 g.
Proof. unfold in_grid. lia. Qed.

Lemma gmake_ext {A} n0 n1 (f f' : Z -> Z -> A) : (forall r c, 0 <= r < n0 -> 0 <= c < n1 -> f r c = f' r c) ->
  gmake n0 n1 f = gmake n0 n1 f'.
Proof.
  intros H. unfold gmake. f_equal. apply map_ext_in. intros [r c] Hin. apply in_cells2 in Hin. cbn. apply H; lia.
Qed.

Lemma gget_make {A} n0 n1 (f : Z -> Z -> A) r c : 0 <= r < n0 -> 0 <= c < n1 -> gget (gmake n0 n1 f) r c = Ok (f r c).
Proof.
  intros Hr Hc. unfold gget. replace (in_grid (gmake n0 n1 f) r c) with true by (symmetry; apply in_grid_spec; cbn; lia).
  unfold at_z. rewrite nth_z_nat by (cbn; nia). unfold gmake. cbn [g1 gl].
  rewrite nth_error_map, nth_cells2 by lia. reflexivity.
Qed.
Lemma gget_out {A} n0 n1 (f : Z -> Z -> A) r c : ~ (0 <= r < n0 /\ 0 <= c < n1) -> gget (gmake n0 n1 f) r c = UB.
Proof.
  intros H. unfold gget. destruct (in_grid (gmake n0 n1 f) r c) eqn:E; [|reflexivity]. apply in_grid_spec in E. cbn in E. contradiction.
Qed.

(** A grid with a full buffer is determined by what can be read from it. *)
Lemma grid_eq_make {A} (g : grid A) (f : Z -> Z -> A) : 0 <= g0 g -> 0 <= g1 g ->
  Z.of_nat (length (gl g)) = g0 g * g1 g ->
  (forall r c, 0 <= r < g0 g -> 0 <= c < g1 g -> gget g r c = Ok (f r c)) -> g = gmake (g0 g) (g1 g) f.
Proof.
  intros H0 H1 HL H. destruct g as [n0 n1 l]. cbn [g0 g1 gl] in *. unfold gmake. f_equal. apply nth_error_ext.
  intros k. destruct (Nat.lt_ge_cases k (length l)) as [Hk|Hk].
  - set (r := Z.of_nat k / n1). set (c := Z.of_nat k mod n1).
    assert (0 < n1) by nia. assert (E : Z.of_nat k = r * n1 + c) by (unfold r, c; rewrite (Z.div_mod (Z.of_nat k) n1) at 1 by lia; lia).
    assert (0 <= c < n1) by (apply Z.mod_pos_bound; lia). assert (0 <= r < n0) by nia.
    specialize (H r c ltac:(lia) ltac:(lia)). unfold gget in H.
    replace (in_grid {| g0 := n0; g1 := n1; gl := l |} r c) with true in H by (symmetry; apply in_grid_spec; cbn; lia).
    unfold at_z in H. cbn [g1 gl] in H. rewrite nth_z_nat in H by nia. rewrite <- E, Nat2Z.id in H.
    rewrite nth_error_map. pose proof (nth_cells2 0 n0 0 n1 r c ltac:(lia) ltac:(lia)) as N. rewrite <- E, Nat2Z.id in N.
    rewrite N. cbn [option_map fst snd]. rewrite !Z.add_0_l. destruct (nth_error l k); congruence.
  - assert (nth_error l k = None) as -> by (apply nth_error_None; lia). symmetry. apply nth_error_None.
    rewrite map_length, cells2_length by lia. lia.
Qed.

Lemma make_length {A} n0 n1 (f : Z -> Z -> A) : 0 <= n0 -> 0 <= n1 -> length (gl (gmake n0 n1 f)) = Z.to_nat (n0 * n1).
Proof. intros. unfold gmake. cbn [gl]. now rewrite map_length, cells2_length. Qed.

Lemma gset_make {A} n0 n1 (f : Z -> Z -> A) r c v : 0 <= r < n0 -> 0 <= c < n1 ->
  gset (gmake n0 n1 f) r c v = Ok (gmake n0 n1 (fun x y => if (x =? r) && (y =? c) then v else f x y)).
Proof.
  intros Hr Hc. unfold gset. replace (in_grid (gmake n0 n1 f) r c) with true by (symmetry; apply in_grid_spec; cbn; lia).
  change (g1 (gmake n0 n1 f)) with n1. change (g0 (gmake n0 n1 f)) with n0.
  assert (Hi : 0 <= r * n1 + c < n0 * n1) by nia.
  unfold upd_z. destruct (Z.ltb_spec (r * n1 + c) 0); [lia|].
  destruct (upd_nth_Some (Z.to_nat (r * n1 + c)) v (gl (gmake n0 n1 f))) as [l El].
  { rewrite make_length by lia. lia. }
  rewrite El. f_equal.
  pose proof (upd_nth_length _ _ _ _ El) as HL. rewrite make_length in HL by lia.
  apply (grid_eq_make {| g0 := n0; g1 := n1; gl := l |}); cbn [g0 g1 gl]; try lia.
  intros x y Hx Hy. unfold gget. replace (in_grid {| g0 := n0; g1 := n1; gl := l |} x y) with true by (symmetry; apply in_grid_spec; cbn; lia).
  unfold at_z. cbn [g1 gl]. rewrite nth_z_nat by nia.
  destruct ((x =? r) && (y =? c)) eqn:E.
  - assert (x = r /\ y = c) as [-> ->] by lia. now rewrite (upd_nth_same _ _ _ _ El).
  - assert (NE : r * n1 + c <> x * n1 + y).
    { intros C. assert (x < r \/ r < x \/ x = r) as [L|[L|L]] by lia; [nia|nia|]. subst x. lia. }
    rewrite (upd_nth_other _ (Z.to_nat (x * n1 + y)) _ _ _ El) by nia.
    pose proof (gget_make n0 n1 f x y Hx Hy) as G. unfold gget in G.
    replace (in_grid (gmake n0 n1 f) x y) with true in G by (symmetry; apply in_grid_spec; cbn; lia).
    unfold at_z in G. change (g1 (gmake n0 n1 f)) with n1 in G. rewrite nth_z_nat in G by nia. exact G.
Qed.

Definition mem2 (l : list (Z * Z)) (r c : Z) : bool := existsb (fun rc => (fst rc =? r) && (snd rc =? c)) l.
Lemma mem2_spec l r c : mem2 l r c = true <-> In (r, c) l.
Proof.
  unfold mem2. rewrite existsb_exists. split.
  - intros [[x y] [Hin E]]. cbn in E. assert (x = r /\ y = c) as [-> ->] by lia. exact Hin.
  - intros H. exists (r, c). cbn. split; [exact H|lia].
Qed.

Lemma for_cells_app {A} l l' (body : Z -> Z -> A -> outcome A) g :
  for_cells (l ++ l') body g = obind (for_cells l body g) (for_cells l' body).
Proof.
  unfold for_cells. rewrite fold_left_app. destruct (fold_left _ l (Ok g)); [reflexivity| |]; cbn [obind];
    (clear; induction l' as [|x l' IH]; [reflexivity|exact IH]).
Qed.
Lemma for_cells_cons {A} r c l (body : Z -> Z -> A -> outcome A) g :
  for_cells ((r, c) :: l) body g =
  obind (obind (gget g r c) (fun old => obind (body r c old) (fun new => gset g r c new))) (for_cells l body).
Proof. change ((r, c) :: l) with ([(r, c)] ++ l). rewrite for_cells_app. reflexivity. Qed.

(** General form: the new value may depend on the old one; no cell is visited twice. *)
Lemma for_cells_old {A} l n0 n1 (f : Z -> Z -> A) (body : Z -> Z -> A -> outcome A) h :
  NoDup l -> (forall r c, In (r, c) l -> 0 <= r < n0 /\ 0 <= c < n1) ->
  (forall r c, In (r, c) l -> body r c (f r c) = Ok (h r c)) ->
  for_cells l body (gmake n0 n1 f) = Ok (gmake n0 n1 (fun r c => if mem2 l r c then h r c else f r c)).
Proof.
  revert f. induction l as [|[r c] l IH]; intros f Hd Hin Hb.
  - reflexivity.
  - inversion Hd as [|? ? Hn Hd']; subst. rewrite for_cells_cons. destruct (Hin r c (or_introl eq_refl)) as [Hr Hc].
    rewrite gget_make by assumption. cbn [obind]. rewrite Hb by (now left). cbn [obind]. rewrite gset_make by assumption. cbn [obind].
    rewrite IH; [|assumption|intros; apply Hin; now right|].
    + f_equal. apply gmake_ext. intros x y Hx Hy. unfold mem2. cbn [existsb fst snd].
      destruct ((r =? x) && (c =? y)) eqn:E.
      * assert (x = r /\ y = c) as [-> ->] by lia. cbn [orb].
        fold (mem2 l r c). destruct (mem2 l r c) eqn:M; [reflexivity|]. now rewrite !Z.eqb_refl.
      * cbn [orb]. destruct (existsb _ l); [reflexivity|]. destruct ((x =? r) && (y =? c)) eqn:E'; [lia|reflexivity].
    + intros x y Hxy. cbn. destruct ((x =? r) && (y =? c)) eqn:E.
      * assert (x = r /\ y = c) as [-> ->] by lia. contradiction.
      * apply Hb. now right.
Qed.

Lemma cells2_NoDup r0 n0 c0 n1 : NoDup (cells2 r0 n0 c0 n1).
Proof.
  unfold cells2. apply NoDup_flat_map; [apply zseq_NoDup| |].
  - intros x _. apply FinFun.Injective_map_NoDup; [intros a b H; congruence|apply zseq_NoDup].
  - intros x y b _ _ Hx Hy. apply in_map_iff in Hx. apply in_map_iff in Hy. destruct Hx as [? [<- _]]. destruct Hy as [? [E _]]. congruence.
Qed.

Definition in_rect (r0 n0 c0 n1 r c : Z) : bool := (r0 <=? r) && (r <? r0 + n0) && (c0 <=? c) && (c <? c0 + n1).
Lemma mem2_rect r0 n0 c0 n1 r c : mem2 (cells2 r0 n0 c0 n1) r c = in_rect r0 n0 c0 n1 r c.
Proof.
  destruct (mem2 _ r c) eqn:E.
  - apply mem2_spec, in_cells2 in E. unfold in_rect. lia.
  - destruct (in_rect r0 n0 c0 n1 r c) eqn:E'; [|reflexivity]. rewrite <- E. apply mem2_spec, in_cells2. unfold in_rect in E'. lia.
Qed.

Lemma for_rect {A} r0 m0 c0 m1 n0 n1 (f : Z -> Z -> A) (body : Z -> Z -> A -> outcome A) h :
  (forall r c, r0 <= r < r0 + m0 -> c0 <= c < c0 + m1 -> 0 <= r < n0 /\ 0 <= c < n1) ->
  (forall r c, r0 <= r < r0 + m0 -> c0 <= c < c0 + m1 -> body r c (f r c) = Ok (h r c)) ->
  for_cells (cells2 r0 m0 c0 m1) body (gmake n0 n1 f) =
  Ok (gmake n0 n1 (fun r c => if in_rect r0 m0 c0 m1 r c then h r c else f r c)).
Proof.
  intros H1 H2. rewrite (for_cells_old _ n0 n1 f body h).
  - f_equal. apply gmake_ext. intros r c _ _. now rewrite mem2_rect.
  - apply cells2_NoDup.
  - intros r c Hin. apply in_cells2 in Hin. apply H1; lia.
  - intros r c Hin. apply in_cells2 in Hin. apply H2; lia.
Qed.

(** All cells written once: only the bodies matter. *)
Lemma for_all_cells {A} n0 n1 (f : Z -> Z -> A) (body : Z -> Z -> A -> outcome A) h :
  (forall r c, 0 <= r < n0 -> 0 <= c < n1 -> body r c (f r c) = Ok (h r c)) ->
  for_cells (cells2 0 n0 0 n1) body (gmake n0 n1 f) = Ok (gmake n0 n1 h).
Proof.
  intros H. rewrite (for_rect 0 n0 0 n1 n0 n1 f body h); [|lia|intros; apply H; lia].
  f_equal. apply gmake_ext. intros r c Hr Hc. unfold in_rect. replace (_ && _) with true by lia. reflexivity.
Qed.

Lemma sequence_map_ok {A B} (f : A -> outcome B) (h : A -> B) l : (forall x, In x l -> f x = Ok (h x)) ->
  sequence (map f l) = Ok (map h l).
Proof.
  induction l as [|x l IH]; intros H; [reflexivity|]. cbn [map sequence]. rewrite H by (now left). cbn [obind].
  rewrite IH by (intros; apply H; now right). reflexivity.
Qed.

Lemma cells2_shift r0 n0 c0 n1 : cells2 r0 n0 c0 n1 = map (fun rc => (r0 + fst rc, c0 + snd rc)) (cells2 0 n0 0 n1).
Proof.
  unfold cells2. rewrite (zseq_shift r0). rewrite flat_map_concat_map, map_map, <- flat_map_concat_map.
  rewrite <- flat_map_map_out. apply flat_map_ext. intros r. rewrite (zseq_shift c0), !map_map. reflexivity.
Qed.

Lemma gslice_make {A} n0 n1 (f : Z -> Z -> A) rb re cb ce : 0 <= rb <= re -> re <= n0 -> 0 <= cb <= ce -> ce <= n1 ->
  gslice (gmake n0 n1 f) rb re cb ce = Ok (gmake (re - rb) (ce - cb) (fun r c => f (rb + r) (cb + c))).
Proof.
  intros H1 H2 H3 H4. unfold gslice. change (g0 (gmake n0 n1 f)) with n0. change (g1 (gmake n0 n1 f)) with n1.
  replace (_ && _) with true by lia.
  rewrite (sequence_map_ok _ (fun rc => f (fst rc) (snd rc))).
  - cbn [obind]. unfold gmake. do 2 f_equal. rewrite cells2_shift, map_map. reflexivity.
  - intros [r c] Hin. apply in_cells2 in Hin. cbn. apply gget_make; lia.
Qed.

Lemma gl_make {A} n0 n1 (f : Z -> Z -> A) : gl (gmake n0 n1 f) = map (fun rc => f (fst rc) (snd rc)) (cells2 0 n0 0 n1).
Proof. reflexivity. Qed.

(** A fresh buffer is some grid. *)
Lemma fresh_make {A} (junk : Z -> A) n0 n1 : 0 <= n0 -> 0 <= n1 ->
  Grid n0 n1 (fresh junk (n0 * n1)) = gmake n0 n1 (fun r c => junk (r * n1 + c)).
Proof.
  intros H0 H1. apply (grid_eq_make {| g0 := n0; g1 := n1; gl := fresh junk (n0 * n1) |}); cbn [g0 g1 gl]; try assumption.
  - unfold fresh. rewrite map_length, zseq_length. nia.
  - intros r c Hr Hc. unfold gget. replace (in_grid _ r c) with true by (symmetry; apply in_grid_spec; cbn; lia).
    unfold at_z. cbn [g1 gl]. rewrite nth_z_nat by nia. unfold fresh. rewrite nth_error_map, nth_error_zseq by nia.
    cbn [option_map]. do 2 f_equal. nia.
Qed.

(** Loops whose bodies may throw *)
Lemma for_cells_throw {A} l (body : Z -> Z -> A -> outcome A) n0 n1 (f : Z -> Z -> A) :
  (forall r c, In (r, c) l -> 0 <= r < n0 /\ 0 <= c < n1) ->
  (forall r c v, In (r, c) l -> body r c v <> UB) ->
  (exists r c, In (r, c) l /\ forall v, body r c v = Throw) ->
  for_cells l body (gmake n0 n1 f) = Throw.
Proof.
  revert f. induction l as [|[r c] l IH]; intros f Hin Hub [r' [c' [Hx Ht]]]; [contradiction|].
  rewrite for_cells_cons. destruct (Hin r c (or_introl eq_refl)) as [Hr Hc]. rewrite gget_make by assumption. cbn [obind].
  destruct (body r c (f r c)) as [v| |] eqn:E; cbn [obind].
  - rewrite gset_make by assumption. cbn [obind]. apply IH.
    + intros; apply Hin; now right.
    + intros; apply Hub; now right.
    + exists r', c'. split; [|exact Ht]. destruct Hx as [Hx|Hx]; [|exact Hx]. injection Hx as -> ->. congruence.
  - reflexivity.
  - exfalso. apply (Hub r c (f r c)); [now left|exact E].
Qed.

Lemma gbuild_ok {A} n0 n1 (body : Z -> Z -> outcome A) h :
  (forall r c, 0 <= r < n0 -> 0 <= c < n1 -> body r c = Ok (h r c)) -> gbuild n0 n1 body = Ok (gmake n0 n1 h).
Proof.
  intros H. unfold gbuild. rewrite (sequence_map_ok _ (fun rc => h (fst rc) (snd rc))); [reflexivity|].
  intros [r c] Hin. apply in_cells2 in Hin. cbn [fst snd]; apply H; lia.
Qed.

Lemma make33 {A} (h : Z -> Z -> A) : gmake 3 3 h = Grid 3 3 [h 0 0; h 0 1; h 0 2; h 1 0; h 1 1; h 1 2; h 2 0; h 2 1; h 2 2].
Proof. reflexivity. Qed.

Lemma gmake_eq {A} a b c d (f g : Z -> Z -> A) : a = c -> b = d ->
  (forall x y, 0 <= x < c -> 0 <= y < d -> f x y = g x y) -> gmake a b f = gmake c d g.
Proof. intros -> -> H. now apply gmake_ext. Qed.
Lemma gget33 {A} (h : Z -> Z -> A) r c : 0 <= r < 3 -> 0 <= c < 3 -> gget (gmake 3 3 h) r c = Ok (h r c).
Proof. apply gget_make. Qed.

