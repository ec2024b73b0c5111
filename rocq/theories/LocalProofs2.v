From Coq Require Import Reals Lra.
From Flocq Require Import Core BinarySingleNaN.
From Verif Require Import Common CommonProofs CoreSpec DecompSpec ArraySpec Float64 Float64Proofs IndexModel IndexProofs
  DecompModel DecompProofs DecompProofs2 DecompProofs4 ArrayModel ArrayRep ArrayProofs LocalModel LocalSpec LocalProofs.
Open Scope Z_scope.

Ltac bools := repeat match goal with |- context [if ?b then _ else _] => destruct b eqn:? end; cbn in *; try reflexivity; try congruence.

Section U.
Context {I O : Type} (pol : unary_policies I O) (functor : I -> O) (nd : O).
Context (Hm : forall o, u_mark pol o = nd).
Definition ures (v : I) : O := unary_cell pol functor v nd.
Lemma ures_cell u old : unary_cell pol functor u old = ures u.
Proof. unfold ures, unary_cell. rewrite !Hm. bools. Qed.
End U.

Lemma c13_unary :
  forall (I O : Type) (pol : unary_policies I O) (functor : I -> O) (nd : O) (junk : Z -> O) a p x f,
  (forall o, u_mark pol o = nd) ->
  raster_of a p x f ->
  exists out g, unary_local_operation pol functor junk x = Ok out /\ raster_of a p out g /\
    forall c, in_shape a c ->
      (u_no_data pol (f c) = false -> u_domain pol (f c) = true -> u_range pol (f c) (functor (f c)) = true ->
         g c = functor (f c)) /\
      (u_no_data pol (f c) = true \/ u_domain pol (f c) = false \/ u_range pol (f c) (functor (f c)) = false ->
         g c = nd).
Proof.
  intros I O pol functor nd junk a p x f Hm Hx.
  destruct (unary_ok pol functor junk a p x f _ (ures_cell pol functor nd Hm) Hx) as [out [E R]].
  exists out. eexists. split; [exact E|]. split; [exact R|]. intros c _. cbn beta. unfold ures, unary_cell. rewrite !Hm.
  split; [intros -> -> ->; reflexivity|].
  destruct (u_no_data pol (f c)), (u_domain pol (f c)), (u_range pol (f c) (functor (f c))); cbn; intuition congruence.
Qed.

Section B.
Context {I1 I2 O : Type} (pol : binary_policies I1 I2 O) (functor : I1 -> I2 -> O) (nd : O).
Context (Hm : forall o, b_mark pol o = nd).
Definition bres (u : I1) (v : I2) : O := binary_cell pol functor u v nd.
Lemma bres_cell u v old : binary_cell pol functor u v old = bres u v.
Proof. unfold bres, binary_cell. rewrite !Hm. bools. Qed.
Lemma bres_cell2 u v old : binary_cell_scalar2 pol functor u v old = bres u v.
Proof.
  unfold bres, binary_cell, binary_cell_scalar2. rewrite !Hm.
  destruct (b_no_data1 pol u), (b_no_data2 pol v); cbn; bools.
Qed.
Lemma bres_cell1 u v old : binary_cell_scalar1 pol functor u v old = bres u v.
Proof.
  unfold bres, binary_cell, binary_cell_scalar1. rewrite !Hm.
  destruct (b_no_data1 pol u), (b_no_data2 pol v); cbn; bools.
Qed.
Lemma bres_spec u v :
  (b_no_data1 pol u = false -> b_no_data2 pol v = false -> b_domain pol u v = true ->
   b_range pol u v (functor u v) = true -> bres u v = functor u v) /\
  (b_no_data1 pol u = true \/ b_no_data2 pol v = true \/ b_domain pol u v = false \/
   b_range pol u v (functor u v) = false -> bres u v = nd).
Proof.
  unfold bres, binary_cell. rewrite !Hm. split; [intros -> -> -> ->; reflexivity|].
  destruct (b_no_data1 pol u), (b_no_data2 pol v), (b_domain pol u v), (b_range pol u v (functor u v)); cbn; intuition congruence.
Qed.
End B.

Lemma c13_binary :
  forall (I1 I2 O : Type) (pol : binary_policies I1 I2 O) (functor : I1 -> I2 -> O) (nd : O) (junk : Z -> O) a p x y f1 f2,
  (forall o, b_mark pol o = nd) ->
  raster_of a p x f1 -> raster_of a p y f2 ->
  exists out g, binary_local_operation pol functor junk x y = Ok out /\ raster_of a p out g /\
    forall c, in_shape a c ->
      (b_no_data1 pol (f1 c) = false -> b_no_data2 pol (f2 c) = false -> b_domain pol (f1 c) (f2 c) = true ->
       b_range pol (f1 c) (f2 c) (functor (f1 c) (f2 c)) = true -> g c = functor (f1 c) (f2 c)) /\
      (b_no_data1 pol (f1 c) = true \/ b_no_data2 pol (f2 c) = true \/ b_domain pol (f1 c) (f2 c) = false \/
       b_range pol (f1 c) (f2 c) (functor (f1 c) (f2 c)) = false -> g c = nd).
Proof.
  intros I1 I2 O pol functor nd junk a p x y f1 f2 Hm Hx Hy.
  destruct (binary_ok pol functor junk a p x y f1 f2 _ (bres_cell pol functor nd Hm) Hx Hy) as [out [E R]].
  exists out. eexists. split; [exact E|]. split; [exact R|]. intros c _. now apply bres_spec.
Qed.

Lemma c13_scalar2 :
  forall (I1 I2 O : Type) (pol : binary_policies I1 I2 O) (functor : I1 -> I2 -> O) (nd : O) (junk : Z -> O) a p x s f1,
  (forall o, b_mark pol o = nd) ->
  raster_of a p x f1 ->
  exists out g, binary_local_operation_scalar2 pol functor junk x s = Ok out /\ raster_of a p out g /\
    forall c, in_shape a c ->
      (b_no_data1 pol (f1 c) = false -> b_no_data2 pol s = false -> b_domain pol (f1 c) s = true ->
       b_range pol (f1 c) s (functor (f1 c) s) = true -> g c = functor (f1 c) s) /\
      (b_no_data1 pol (f1 c) = true \/ b_no_data2 pol s = true \/ b_domain pol (f1 c) s = false \/
       b_range pol (f1 c) s (functor (f1 c) s) = false -> g c = nd).
Proof.
  intros I1 I2 O pol functor nd junk a p x s f1 Hm Hx.
  destruct (binary_scalar2_ok pol functor junk a p x f1 s (bres pol functor nd)) as [out [E R]]; [intros; now apply bres_cell2|exact Hx|].
  exists out. eexists. split; [exact E|]. split; [exact R|]. intros c _. now apply bres_spec.
Qed.

Lemma c13_scalar1 :
  forall (I1 I2 O : Type) (pol : binary_policies I1 I2 O) (functor : I1 -> I2 -> O) (nd : O) (junk : Z -> O) a p s y f2,
  (forall o, b_mark pol o = nd) ->
  raster_of a p y f2 ->
  exists out g, binary_local_operation_scalar1 pol functor junk s y = Ok out /\ raster_of a p out g /\
    forall c, in_shape a c ->
      (b_no_data1 pol s = false -> b_no_data2 pol (f2 c) = false -> b_domain pol s (f2 c) = true ->
       b_range pol s (f2 c) (functor s (f2 c)) = true -> g c = functor s (f2 c)) /\
      (b_no_data1 pol s = true \/ b_no_data2 pol (f2 c) = true \/ b_domain pol s (f2 c) = false \/
       b_range pol s (f2 c) (functor s (f2 c)) = false -> g c = nd).
Proof.
  intros I1 I2 O pol functor nd junk a p s y f2 Hm Hx.
  destruct (binary_scalar1_ok pol functor junk a p y f2 s (bres pol functor nd)) as [out [E R]]; [intros; now apply bres_cell1|exact Hx|].
  exists out. eexists. split; [exact E|]. split; [exact R|]. intros c _. now apply bres_spec.
Qed.

Lemma c13_repartition :
  forall (I1 I2 O : Type) (pol : binary_policies I1 I2 O) (functor : I1 -> I2 -> O) (nd : O) (junk junk' : Z -> O)
    a p p' x y x' y' f1 f2,
  (forall o, b_mark pol o = nd) ->
  raster_of a p x f1 -> raster_of a p y f2 -> raster_of a p' x' f1 -> raster_of a p' y' f2 ->
  exists out out' g, binary_local_operation pol functor junk x y = Ok out /\
    binary_local_operation pol functor junk' x' y' = Ok out' /\
    raster_of a p out g /\ raster_of a p' out' g.
Proof.
  intros I1 I2 O pol functor nd junk junk' a p p' x y x' y' f1 f2 Hm H1 H2 H3 H4.
  destruct (binary_ok pol functor junk a p x y f1 f2 _ (bres_cell pol functor nd Hm) H1 H2) as [out [E R]].
  destruct (binary_ok pol functor junk' a p' x' y' f1 f2 _ (bres_cell pol functor nd Hm) H3 H4) as [out' [E' R']].
  eauto 10.
Qed.

Lemma c13_shapes :
  forall (I1 I2 O : Type) (pol : binary_policies I1 I2 O) (functor : I1 -> I2 -> O) (junk : Z -> O) a a' p p' x y f1 f2,
  raster_of a p x f1 -> raster_of a' p' y f2 -> a <> a' ->
  binary_local_operation pol functor junk x y = Throw.
Proof.
  intros I1 I2 O pol functor junk a a' p p' x y f1 f2 [_ [_ [E1 _]]] [_ [_ [E2 _]]] Hne.
  unfold binary_local_operation, verify_compatible, shape_eqb. rewrite E1, E2.
  destruct (list_eq_dec Z.eq_dec a a'); [contradiction|]. reflexivity.
Qed.

(** Deciding [raster_of] for one-dimensional examples. *)
Lemma c13_unequal :
  let x := PArray [10] [2] [Placed 0 [0] [4] [0; 1; 2; 3]; Placed 0 [4] [6] [4; 5; 6; 7; 8; 9]] in
  let y := PArray [10] [2] [Placed 0 [0] [5] [0; 1; 2; 3; 4]; Placed 0 [5] [5] [5; 6; 7; 8; 9]] in
  raster_of [10] [4] x (fun c => nth 0 c 0) /\
  raster_of [10] [5] y (fun c => nth 0 c 0) /\
  binary_local_operation (arith_policies (IType 32 true) Add) (arith_functor (IType 32 true) Add) (fun _ => 0) x y = UB.
Proof.
  cbn zeta. split; [|split; [|vm_compute; reflexivity]].
  - split; [discriminate|]. split; [repeat constructor; cbn; lia|]. split; [reflexivity|]. split; [reflexivity|].
    split; [reflexivity|]. intros [|i [|? ?]] H; cbn in H; try tauto.
    assert (i = 0 \/ i = 1) as [-> | ->] by (change (10/4) with 2 in *; lia); cbn; (eexists; split; [reflexivity|]);
      (split; [reflexivity|]); intros [|k [|? ?]] Hk; cbn in Hk; try tauto.
    + assert (k = 0 \/ k = 1 \/ k = 2 \/ k = 3) as [-> |[-> |[-> | ->]]] by lia; reflexivity.
    + assert (k = 0 \/ k = 1 \/ k = 2 \/ k = 3 \/ k = 4 \/ k = 5) as [-> |[-> |[-> |[-> |[-> | ->]]]]] by lia; reflexivity.
  - split; [discriminate|]. split; [repeat constructor; cbn; lia|]. split; [reflexivity|]. split; [reflexivity|].
    split; [reflexivity|]. intros [|i [|? ?]] H; cbn in H; try tauto.
    assert (i = 0 \/ i = 1) as [-> | ->] by (change (10/5) with 2 in *; lia); cbn; (eexists; split; [reflexivity|]);
      (split; [reflexivity|]); intros [|k [|? ?]] Hk; cbn in Hk; try tauto;
      assert (k = 0 \/ k = 1 \/ k = 2 \/ k = 3 \/ k = 4) as [-> |[-> |[-> |[-> | ->]]]] by lia; reflexivity.
Qed.

Lemma c29 :
  forall (E : Type) (pol : where_policies E) (nd : E) (junk : Z -> E) a p condition t f fc ft ff,
  (forall o, w_mark pol o = nd) ->
  (match t with WArray _ => True | WScalar _ => forall v, w_no_data2 pol v = w_no_data3 pol v end) ->
  raster_of a p condition fc -> warg_holds a p t ft -> warg_holds a p f ff ->
  exists out g, where3 pol junk condition t f = Ok out /\ raster_of a p out g /\
    forall c, in_shape a c ->
      (w_no_data1 pol (fc c) = true -> g c = nd) /\
      (w_no_data1 pol (fc c) = false -> fc c <> 0 -> w_no_data2 pol (ft c) = true -> g c = nd) /\
      (w_no_data1 pol (fc c) = false -> fc c <> 0 -> w_no_data2 pol (ft c) = false -> g c = ft c) /\
      (w_no_data1 pol (fc c) = false -> fc c = 0 -> w_no_data3 pol (ff c) = true -> g c = nd) /\
      (w_no_data1 pol (fc c) = false -> fc c = 0 -> w_no_data3 pol (ff c) = false -> g c = ff c).
Proof.
  intros E pol nd junk a p condition t f fc ft ff Hm Hp Hc Ht Hf.
  destruct (where3_ok pol junk a p condition t f fc ft ff (fun c t f => where_cell pol c t f nd)) as [out [E1 R]]; try assumption.
  { intros cv tv fv old. destruct t; unfold where_cell, where_cell_swapped; rewrite !Hm; [bools|rewrite Hp, <- Hp; bools]. }
  exists out. eexists. split; [exact E1|]. split; [exact R|]. intros c _. cbn beta. unfold where_cell. rewrite !Hm.
  destruct (w_no_data1 pol (fc c)), (Z.eqb_spec (fc c) 0), (w_no_data2 pol (ft c)), (w_no_data3 pol (ff c)); cbn; intuition congruence.
Qed.

Lemma c29_where2 :
  forall (E : Type) (pol : where_policies E) (nd : E) (junk : Z -> E) a p condition t fc ft,
  (forall o, w_mark pol o = nd) ->
  raster_of a p condition fc -> raster_of a p t ft ->
  exists out g, where2 pol junk condition t = Ok out /\ raster_of a p out g /\
    forall c, in_shape a c ->
      (w_no_data1 pol (fc c) = false -> fc c <> 0 -> w_no_data2 pol (ft c) = false -> g c = ft c) /\
      (w_no_data1 pol (fc c) = true \/ fc c = 0 \/ w_no_data2 pol (ft c) = true -> g c = nd).
Proof.
  intros E pol nd junk a p condition t fc ft Hm Hc Ht.
  destruct (c13_binary _ _ _ (where2_policies pol) (fun _ t => t) nd junk a p condition t fc ft Hm Hc Ht) as [out [g [E1 [R H]]]].
  exists out, g. split; [exact E1|]. split; [exact R|]. intros c Hin. destruct (H c Hin) as [H1 H2]. cbn in *. split.
  - intros. apply H1; try assumption; try reflexivity. destruct (Z.eqb_spec (fc c) 0); [contradiction|reflexivity].
  - intros H3. apply H2. destruct H3 as [H3|[-> |H3]]; auto.
Qed.

Lemma lookup_in {V} (table : list (Z * V)) k v : NoDup (map fst table) -> In (k, v) table -> lookup table k = Some v.
Proof.
  unfold lookup. induction table as [|[k' v'] table IH]; cbn; intros Hd Hi; [contradiction|].
  inversion Hd as [|? ? Hn Hd']; subst. destruct Hi as [Hi|Hi].
  - injection Hi as -> ->. now rewrite Z.eqb_refl.
  - destruct (Z.eqb_spec k' k) as [->|]; [|now apply IH].
    exfalso. apply Hn. apply in_map_iff. exists (k, v). auto.
Qed.
Lemma lookup_some {V} (table : list (Z * V)) k v : lookup table k = Some v -> In (k, v) table.
Proof.
  unfold lookup. induction table as [|[k' v'] table IH]; cbn; [discriminate|].
  destruct (Z.eqb_spec k' k) as [->|]; cbn; [intros H; injection H as ->; auto|auto].
Qed.

Lemma c30 :
  forall (V : Type) (no_data : Z -> bool) (mark : V -> V) (nd : V) (junk : Z -> V) table a p x f,
  (forall o, mark o = nd) -> NoDup (map fst table) ->
  raster_of a p x f ->
  exists out g, reclassify no_data mark junk table x = Ok out /\ raster_of a p out g /\
    forall c, in_shape a c ->
      (forall v, no_data (f c) = false -> In (f c, v) table -> g c = v) /\
      (no_data (f c) = true \/ (forall v, ~ In (f c, v) table) -> g c = nd).
Proof.
  intros V no_data mark nd junk table a p x f Hm Hd Hx.
  destruct (reclassify_ok no_data mark junk table a p x f (fun u => reclassify_cell no_data mark table u nd)) as [out [E R]].
  { intros. unfold reclassify_cell. rewrite !Hm. reflexivity. }
  { exact Hx. }
  exists out. eexists. split; [exact E|]. split; [exact R|]. intros c _. cbn beta. unfold reclassify_cell. rewrite !Hm. split.
  - intros v -> Hin. now rewrite (lookup_in _ _ _ Hd Hin).
  - destruct (no_data (f c)); [reflexivity|]. intros [H|H]; [discriminate|].
    destruct (lookup table (f c)) as [v|] eqn:E1; [|reflexivity]. exfalso. eapply H, lookup_some, E1.
Qed.

(** Integers *)
Lemma pow_split t : int_type t -> 2 ^ bits t = 2 * 2 ^ (bits t - 1) /\ 0 < 2 ^ (bits t - 1).
Proof.
  intros H. unfold int_type in H. split; [|apply Z.pow_pos_nonneg; lia].
  rewrite <- Z.pow_succ_r by lia. f_equal. lia.
Qed.
Lemma wrap_id t z : int_type t -> representable t z -> wrap t z = z.
Proof.
  intros Ht. destruct (pow_split t Ht) as [E Hp]. unfold representable, wrap, imin, imax. intros H.
  rewrite Z.mod_small; [lia|]. destruct (signed t); lia.
Qed.
Lemma in_range_iff t z : in_range t z = true <-> representable t z.
Proof. unfold in_range, representable. lia. Qed.
Lemma in_range_false t z : in_range t z = false <-> ~ representable t z.
Proof. rewrite <- in_range_iff. destruct (in_range t z); split; congruence. Qed.

Lemma quot_exact a b : b <> 0 ->
  Z.abs b * Z.abs (Z.quot a b) <= Z.abs a < Z.abs b * (Z.abs (Z.quot a b) + 1) /\ 0 <= Z.quot a b * (a * b).
Proof.
  intros Hb. pose proof (Z.quot_abs a b Hb) as E.
  rewrite Z.quot_div_nonneg in E by lia.
  pose proof (Z.div_mod (Z.abs a) (Z.abs b) ltac:(lia)). pose proof (Z.mod_pos_bound (Z.abs a) (Z.abs b) ltac:(lia)).
  split; [rewrite <- E; lia|].
  destruct (Z_le_gt_dec 0 a), (Z_le_gt_dec 0 b).
  - pose proof (Z.quot_pos a b ltac:(lia) ltac:(lia)). nia.
  - pose proof (Z.quot_pos a (- b) ltac:(lia) ltac:(lia)). rewrite Z.quot_opp_r in * by lia. nia.
  - pose proof (Z.quot_pos (- a) b ltac:(lia) ltac:(lia)). rewrite Z.quot_opp_l in * by lia. nia.
  - pose proof (Z.quot_pos (- a) (- b) ltac:(lia) ltac:(lia)). rewrite Z.quot_opp_opp in * by lia. nia.
Qed.

Lemma quot_unique a b r : exact Divide a b r -> r = Z.quot a b.
Proof.
  cbn. intros [Hb [H S]]. destruct (quot_exact a b Hb) as [H' S'].
  assert (E : Z.abs r = Z.abs (Z.quot a b)) by nia.
  set (q := Z.quot a b) in *. clearbody q.
  destruct (Z.eq_dec a 0) as [->|Ha]; [assert (Z.abs r = 0) by nia; lia|].
  assert (a * b <> 0) by nia. assert (0 <= r * q * ((a*b)*(a*b))) by nia. assert (0 < (a*b)*(a*b)) by nia.
  assert (0 <= r * q) by nia. destruct (Z.eq_dec r 0); [lia|]. nia.
Qed.
Lemma rem_unique a b r : exact Modulus a b r -> r = Z.rem a b.
Proof.
  cbn. intros [Hb [H [S [q E]]]]. pose proof (Z.quot_rem' a b) as E'. pose proof (Z.rem_bound_abs a b Hb) as B.
  pose proof (Z.rem_sign_mul a b Hb) as S'. set (r' := Z.rem a b) in *. set (q' := Z.quot a b) in *. clearbody r' q'.
  assert (r - r' = b * (q' - q)) by lia.
  destruct (Z.eq_dec (q' - q) 0) as [Z0|Z0]; [rewrite Z0 in *; lia|exfalso].
  destruct (Z.eq_dec a 0) as [->|Ha]; [|assert (Z.abs (r - r') < Z.abs b) by nia; nia].
  assert (r' = - b * q') by lia. assert (Z.abs r' = Z.abs b * Z.abs q') by (rewrite <- Z.abs_mul; lia). 
  assert (q' = 0) by nia. assert (r = - b * q) by lia. assert (Z.abs r = Z.abs b * Z.abs q) by (rewrite <- Z.abs_mul; lia).
  assert (q = 0) by nia. lia.
Qed.

Lemma quot_representable t a b : int_type t -> representable t a -> representable t b -> ~ is_no_data t a -> b <> 0 ->
  representable t (Z.quot a b).
Proof.
  intros Ht Ha Hb Hn Hb0. destruct (quot_exact a b Hb0) as [H S]. unfold representable, is_no_data, no_data_value in *.
  destruct (pow_split t Ht) as [E Hp]. unfold imin, imax in *. set (q := Z.quot a b) in *. clearbody q.
  assert (Z.abs q <= Z.abs a) by nia. destruct (signed t); [lia|]. 
  assert (0 <= q); [|lia]. destruct (Z.eq_dec a 0) as [->|]; [assert (q = 0) by lia; lia|]. nia.
Qed.
Lemma rem_representable t a b : int_type t -> representable t a -> representable t b -> b <> 0 ->
  representable t (Z.rem a b).
Proof.
  intros Ht Ha Hb Hb0. pose proof (Z.rem_bound_abs a b Hb0) as B. pose proof (Z.rem_sign_mul a b Hb0) as S.
  unfold representable in *. destruct (pow_split t Ht) as [E Hp]. unfold imin, imax in *.
  set (r := Z.rem a b) in *. 
  destruct (signed t); [lia|]. assert (0 <= r); [|lia]. unfold r. apply Z.rem_nonneg; lia.
Qed.

Lemma arith_cell t op a b : int_type t -> representable t a -> representable t b ->
  let pol := arith_policies t op in let fn := arith_functor t op in
  ~ is_no_data t a -> ~ is_no_data t b ->
  (forall r, exact op a b r -> representable t r -> b_domain pol a b = true /\ b_range pol a b (fn a b) = true /\ fn a b = r) /\
  ((forall r, exact op a b r -> ~ representable t r) -> b_domain pol a b = false \/ b_range pol a b (fn a b) = false).
Proof.
  intros Ht Ha Hb pol fn Na Nb. subst pol fn. unfold arith_functor. destruct op; cbn.
  - split.
    + intros r -> Hr. rewrite in_range_iff, wrap_id by assumption. auto.
    + intros H. right. apply in_range_false. now apply H.
  - split.
    + intros r -> Hr. rewrite in_range_iff, wrap_id by assumption. auto.
    + intros H. right. apply in_range_false. now apply H.
  - split.
    + intros r -> Hr. rewrite in_range_iff, wrap_id by assumption. auto.
    + intros H. right. apply in_range_false. now apply H.
  - split.
    + intros r Hex Hr. pose proof (quot_unique a b r Hex). subst r. rewrite wrap_id by assumption.
      destruct Hex as [Hb0 _]. destruct (Z.eqb_spec b 0); [contradiction|auto].
    + intros H. left. destruct (Z.eqb_spec b 0); [reflexivity|]. exfalso.
      eapply (H (Z.quot a b)); [|now apply quot_representable]. split; [assumption|now apply quot_exact].
  - split.
    + intros r Hex Hr. pose proof (rem_unique a b r Hex). subst r. rewrite wrap_id by assumption.
      destruct Hex as [Hb0 _]. destruct (Z.eqb_spec b 0); [contradiction|auto].
    + intros H. left. destruct (Z.eqb_spec b 0); [reflexivity|]. exfalso.
      eapply (H (Z.rem a b)); [|now apply rem_representable]. split; [assumption|].
      split; [now apply Z.rem_bound_abs|]. split; [now apply Z.rem_sign_mul|]. exists (Z.quot a b). apply Z.quot_rem'.
Qed.

Lemma arith_nd1 t op v : b_no_data1 (arith_policies t op) v = (v =? no_data_value t).
Proof. destruct op; reflexivity. Qed.
Lemma arith_nd2 t op v : b_no_data2 (arith_policies t op) v = (v =? no_data_value t).
Proof. destruct op; reflexivity. Qed.

Lemma c37 :
  forall (t : itype) (op : arith_op) (junk : Z -> Z) a p x y f1 f2,
  int_type t ->
  raster_of a p x f1 -> raster_of a p y f2 ->
  (forall c, in_shape a c -> representable t (f1 c) /\ representable t (f2 c)) ->
  exists out g, binary_local_operation (arith_policies t op) (arith_functor t op) junk x y = Ok out /\ raster_of a p out g /\
    forall c, in_shape a c ->
      (forall r, ~ is_no_data t (f1 c) -> ~ is_no_data t (f2 c) -> exact op (f1 c) (f2 c) r -> representable t r -> g c = r) /\
      (is_no_data t (f1 c) \/ is_no_data t (f2 c) \/ (forall r, exact op (f1 c) (f2 c) r -> ~ representable t r) -> is_no_data t (g c)).
Proof.
  intros t op junk a p x y f1 f2 Ht Hx Hy Hr.
  destruct (c13_binary _ _ _ (arith_policies t op) (arith_functor t op) (no_data_value t) junk a p x y f1 f2) as [out [g [E [R H]]]];
    try assumption; [destruct op; reflexivity|].
  exists out, g. split; [exact E|]. split; [exact R|]. intros c Hc. destruct (Hr c Hc) as [R1 R2]. destruct (H c Hc) as [H1 H2].
  rewrite arith_nd1, arith_nd2 in *. unfold is_no_data in *.
  pose proof (arith_cell t op (f1 c) (f2 c) Ht R1 R2) as HA. cbn zeta in HA. unfold is_no_data in HA.
  split.
  - intros r N1 N2 Hex Hrep. destruct (HA N1 N2) as [HA1 _]. destruct (HA1 r Hex Hrep) as [D1 [D2 D3]].
    rewrite H1, D3; try assumption; [reflexivity| |]; now apply Z.eqb_neq.
  - intros Hn. apply H2. destruct (Z.eqb_spec (f1 c) (no_data_value t)); [auto|].
    destruct (Z.eqb_spec (f2 c) (no_data_value t)); [auto|]. destruct Hn as [Hn|[Hn|Hn]]; try contradiction.
    right. right. now apply HA.
Qed.

Lemma c37_abs :
  forall (t : itype) (junk : Z -> Z) a p x f,
  int_type t -> signed t = true ->
  raster_of a p x f -> (forall c, in_shape a c -> representable t (f c)) ->
  exists out1 out2 g1 g2,
    unary_local_operation (abs_policies t) (abs_functor t) junk x = Ok out1 /\ raster_of a p out1 g1 /\
    unary_local_operation (negate_policies t) (negate_functor t) junk x = Ok out2 /\ raster_of a p out2 g2 /\
    forall c, in_shape a c ->
      (is_no_data t (f c) -> is_no_data t (g1 c) /\ is_no_data t (g2 c)) /\
      (~ is_no_data t (f c) -> g1 c = Z.abs (f c) /\ g2 c = - f c).
Proof.
  intros t junk a p x f Ht Hs Hx Hr.
  destruct (c13_unary _ _ (abs_policies t) (abs_functor t) (no_data_value t) junk a p x f) as [out1 [g1 [E1 [R1 H1]]]]; [reflexivity|assumption|].
  destruct (c13_unary _ _ (negate_policies t) (negate_functor t) (no_data_value t) junk a p x f) as [out2 [g2 [E2 [R2 H2]]]]; [reflexivity|assumption|].
  exists out1, out2, g1, g2. repeat (split; [assumption|]). intros c Hc. destruct (H1 c Hc) as [A1 B1]. destruct (H2 c Hc) as [A2 B2].
  specialize (Hr c Hc). cbn in *. rewrite Hs in *. unfold is_no_data in *. split.
  - intros E. split; [apply B1|apply B2]; left; now apply Z.eqb_eq.
  - intros N. assert (Hneg : representable t (- f c) /\ representable t (Z.abs (f c)) /\ f c <> imin t).
    { unfold representable, no_data_value, imin, imax in *. rewrite Hs in *. lia. }
    destruct Hneg as [V1 [V2 V3]]. rewrite A1, A2; try reflexivity; try (now apply Z.eqb_neq).
    + split; [now apply wrap_id|now apply wrap_id].
    + destruct (Z.eqb_spec (f c) (imin t)); [contradiction|reflexivity].
Qed.

Lemma cast_range_iff from to v : int_type from -> int_type to -> representable from v ->
  cast_range from to v = true <-> representable to v.
Proof.
  intros Hf Ht Hv. unfold cast_range, is_narrowing, representable, imin, imax, int_type in *.
  destruct from as [bf sf], to as [bt st]. cbn [bits signed] in *.
  destruct (pow_split (IType bf sf) Hf) as [Ef Pf]. destruct (pow_split (IType bt st) Ht) as [Et Pt]. cbn [bits signed] in *.
  destruct sf, st; cbn [andb negb].
  - destruct ((- 2 ^ (bt - 1) <=? - 2 ^ (bf - 1)) && (2 ^ (bf - 1) - 1 <=? 2 ^ (bt - 1) - 1)) eqn:C; cbn [negb]; lia.
  - destruct (Z.leb_spec bf bt); [|lia].
    assert (2 ^ (bf - 1) <= 2 ^ (bt - 1)) by (apply Z.pow_le_mono_r; lia). lia.
  - destruct (Z.leb_spec bt bf); [lia|].
    assert (2 ^ (bf) <= 2 ^ (bt - 1)) by (apply Z.pow_le_mono_r; lia). lia.
  - destruct ((0 <=? 0) && (2 ^ bf - 1 <=? 2 ^ bt - 1)) eqn:C; cbn [negb]; lia.
Qed.

Lemma c38 :
  forall (from to : itype) (junk : Z -> Z) a p x f,
  int_type from -> int_type to ->
  raster_of a p x f -> (forall c, in_shape a c -> representable from (f c)) ->
  exists out g, unary_local_operation (cast_policies from to) (cast_functor to) junk x = Ok out /\ raster_of a p out g /\
    forall c, in_shape a c ->
      (~ is_no_data from (f c) -> representable to (f c) -> g c = f c) /\
      (is_no_data from (f c) \/ ~ representable to (f c) -> is_no_data to (g c)).
Proof.
  intros from to junk a p x f Hfrom Hto Hx Hr.
  destruct (c13_unary _ _ (cast_policies from to) (cast_functor to) (no_data_value to) junk a p x f) as [out [g [E [R H]]]]; [reflexivity|assumption|].
  exists out, g. split; [exact E|]. split; [exact R|]. intros c Hc. destruct (H c Hc) as [H1 H2]. specialize (Hr c Hc).
  cbn in *. unfold is_no_data in *. pose proof (cast_range_iff from to (f c) Hfrom Hto Hr) as HR. split.
  - intros N V. rewrite H1; [now apply wrap_id|now apply Z.eqb_neq|reflexivity|now apply HR].
  - intros [N|N]; apply H2; [left; now apply Z.eqb_eq|right; right]. destruct (cast_range from to (f c)); [|reflexivity].
    exfalso. now apply N, HR.
Qed.

(** Floats *)
Lemma imin_imax_53 t : int_type t -> bits t <= 53 -> Z.abs (imin t) <= 2 ^ 53 /\ Z.abs (imax t) <= 2 ^ 53.
Proof.
  intros Ht Hb. destruct (pow_split t Ht) as [E Hp]. assert (2 ^ bits t <= 2 ^ 53) by (apply Z.pow_le_mono_r; lia).
  unfold imin, imax. destruct (signed t); lia.
Qed.

Lemma Bleb_R (x y : b64) : is_finite x = true -> is_finite y = true -> Bleb x y = Rle_bool (B2R x) (B2R y).
Proof. intros. now apply Bleb_correct. Qed.

Lemma trunc_in t r : (IZR (imin t) <= r <= IZR (imax t))%R -> representable t (Ztrunc r).
Proof.
  intros [H1 H2]. unfold representable. split.
  - rewrite <- (Ztrunc_IZR (imin t)). now apply Ztrunc_le.
  - rewrite <- (Ztrunc_IZR (imax t)). now apply Ztrunc_le.
Qed.

Lemma c38_float :
  forall (unspecified : b64 -> Z) (to : itype) (junk : Z -> Z) a p x (f : list Z -> b64),
  int_type to -> bits to <= 53 ->
  raster_of a p x f ->
  exists out g, unary_local_operation (cast_f64_policies to) (cast_f64_functor unspecified to) junk x = Ok out /\
    raster_of a p out g /\
    forall c, in_shape a c ->
      (is_finite (f c) = true -> (IZR (imin to) <= B2R (f c) <= IZR (imax to))%R -> g c = Ztrunc (B2R (f c))) /\
      (is_finite (f c) = false \/ (B2R (f c) < IZR (imin to))%R \/ (IZR (imax to) < B2R (f c))%R -> is_no_data to (g c)).
Proof.
  intros unspecified to junk a p x f Ht Hb Hx.
  destruct (c13_unary _ _ (cast_f64_policies to) (cast_f64_functor unspecified to) (no_data_value to) junk a p x f) as [out [g [E [R H]]]]; [reflexivity|assumption|].
  exists out, g. split; [exact E|]. split; [exact R|]. intros c Hc. destruct (H c Hc) as [H1 H2]. cbn in *. clear H.
  destruct (imin_imax_53 to Ht Hb) as [M1 M2].
  destruct (b64_of_Z_correct _ M1) as [V1 F1]. destruct (b64_of_Z_correct _ M2) as [V2 F2].
  unfold cast_f64_range in *. split.
  - intros Hfin Hrange. rewrite H1.
    + unfold cast_f64_functor. rewrite Hfin. cbn.
      assert (ET : Btrunc (f c) = Ztrunc (B2R (f c))).
      { apply eq_IZR. rewrite Btrunc_correct by reflexivity. now rewrite round_FIX0. }
      rewrite ET. rewrite (proj2 (in_range_iff _ _)); [reflexivity|]. now apply trunc_in.
    + destruct (f c); cbn in *; congruence.
    + reflexivity.
    + rewrite !Bleb_R by assumption. rewrite V1, V2. rewrite !Rle_bool_true by apply Hrange. reflexivity.
  - intros Hbad. apply H2. destruct (is_finite (f c)) eqn:Hfin.
    + right. right. destruct Hbad as [Hbad|Hbad]; [discriminate|]. rewrite !Bleb_R by assumption. rewrite V1, V2.
      destruct Hbad as [Hbad|Hbad]; rewrite (Rle_bool_false _ _ Hbad); [reflexivity|apply andb_false_r].
    + destruct (f c) as [s|s| |s m e B]; try discriminate; [|left; reflexivity].
      right. right. clear - F1 F2. destruct s; cbn.
      * destruct (b64_of_Z (imin to)) as [? |? | |[] ? ? ?]; try discriminate; reflexivity.
      * destruct (b64_of_Z (imax to)) as [? |? | |[] ? ? ?]; try discriminate; rewrite andb_comm; reflexivity.
Qed.

Lemma c38_float_64 :
  (B2R (b64_of_Z (2 ^ 63)) > IZR (imax (IType 64 true)))%R /\
  forall unspecified junk,
    unary_local_operation (cast_f64_policies (IType 64 true)) (cast_f64_functor unspecified (IType 64 true)) junk
      (PArray [1] [1] [Placed 0 [0] [1] [b64_of_Z (2 ^ 63)]])
    = Ok (PArray [1] [1] [Placed 0 [0] [1] [unspecified (b64_of_Z (2 ^ 63))]]).
Proof.
  split.
  - assert (E : B2R (b64_of_Z (2 ^ 63)) = IZR (2 ^ 63)).
    { assert (E1 : B2SF (b64_of_Z (2^63)) = SpecFloat.S754_finite false 4503599627370496 11) by (vm_compute; reflexivity).
      rewrite <- SF2R_B2SF, E1. unfold SF2R, F2R. cbn -[IZR]. rewrite <- mult_IZR. reflexivity. }
    rewrite E. apply Rlt_gt, IZR_lt. reflexivity.
  - intros.
    assert (E0 : is_nan (b64_of_Z (2 ^ 63)) = false) by (vm_compute; reflexivity).
    assert (E1 : cast_f64_range (IType 64 true) (b64_of_Z (2 ^ 63)) = true) by (vm_compute; reflexivity).
    assert (E2 : is_finite (b64_of_Z (2 ^ 63)) && in_range (IType 64 true) (Btrunc (b64_of_Z (2 ^ 63))) = false) by (vm_compute; reflexivity).
    generalize dependent (b64_of_Z (2 ^ 63)). intros v E0 E1 E2.
    assert (E3 : forall old, unary_cell (cast_f64_policies (IType 64 true)) (cast_f64_functor unspecified (IType 64 true)) v old = unspecified v).
    { intros old. unfold unary_cell. cbn [u_no_data u_domain u_range cast_f64_policies]. rewrite E0, E1. cbn [negb].
      unfold cast_f64_functor. rewrite E2. reflexivity. }
    unfold unary_local_operation, unary_partition. cbn [pa_parts map pl_shape pl_data].
    change (nr_elements [1]) with 1. unfold for_elements, fresh. change (zseq 0 1) with [0]. cbn [fold_left map].
    cbn [at_z nth_z obind Z.ltb Z.compare Z.to_nat nth_error]. rewrite E3. reflexivity.
Qed.
