(** Lemmas about gradients, slope and aspect. *)
From Coq Require Import Reals Psatz.
From Verif Require Import Common CommonProofs CoreSpec DecompSpec ArraySpec IndexModel DecompModel ArrayModel ArrayRep
  GridModel GridProofs LocalModel LocalSpec LocalProofs LocalProofs2 FlowSpec FocalModel FocalSpec FocalRep FocalFunctorsModel FocalProofs5 ResampleProofs2 TerrainSpec TerrainProofs SlopeSpec SlopeModel.
Open Scope R_scope.

(** The neighbourhood of a cell *)
Definition empty_neighbourhood (z : Z -> Z -> number) (r c : Z) : Prop :=
  forall dr dc, (-1 <= dr <= 1)%Z -> (-1 <= dc <= 1)%Z -> z (r + dr)%Z (c + dc)%Z = None.

Fixpoint rsum (l : list R) : R := match l with [] => 0 | x :: l => x + rsum l end.

Lemma fold_valid {D} (w : D -> R) (v : D -> option R) (l : list D) s :
  fold_left (lift2 Rplus) (map (fun d => lift1 (Rmult (w d)) (v d)) (filter (fun d => negb (is_none (v d))) l)) (Some s) =
  Some (s + rsum (map (fun d => w d * value_or_zero (v d)) l)).
Proof.
  revert s. induction l as [|d l IH]; intros s; cbn [filter map fold_left rsum]; [f_equal; ring|].
  destruct (v d) as [x|] eqn:E; cbn [is_none negb map fold_left value_or_zero].
  - rewrite E. cbn [lift1 lift2]. rewrite IH. f_equal. ring.
  - rewrite IH. f_equal. ring.
Qed.

Lemma filter_nil {D} (p : D -> bool) l : filter p l = [] <-> forall d, In d l -> p d = false.
Proof.
  induction l as [|d l IH]; cbn; [split; [intros _ d []|reflexivity]|]. destruct (p d) eqn:E; split; intros H.
  - discriminate.
  - specialize (H d (or_introl eq_refl)). congruence.
  - intros d' [<-|Hd]; [exact E|]. apply (proj1 IH H d' Hd).
  - apply IH. intros d' Hd. apply H. right. exact Hd.
Qed.

Lemma offsets1 : offsets 1 = [(-1, -1); (-1, 0); (-1, 1); (0, -1); (0, 0); (0, 1); (1, -1); (1, 0); (1, 1)]%Z.
Proof. reflexivity. Qed.

Section Neighbourhood.
Context (z : Z -> Z -> number) (r c : Z).
Lemma neighbourhood_empty : filter (fun d => negb (is_none (z (r + fst d)%Z (c + snd d)%Z))) (offsets 1) = [] <-> empty_neighbourhood z r c.
Proof.
  rewrite filter_nil, offsets1. split.
  - intros H dr dc Hr Hc. specialize (H (dr, dc)). cbn [fst snd] in H. destruct (z (r + dr)%Z (c + dc)%Z); [|reflexivity]. exfalso. cbn [is_none negb] in H.
    assert (true = false); [|discriminate]. apply H. cbn [In].
    assert (dr = -1 \/ dr = 0 \/ dr = 1)%Z as [->|[->| ->]] by lia; assert (dc = -1 \/ dc = 0 \/ dc = 1)%Z as [->|[->| ->]] by lia; tauto.
  - intros H [dr dc] Hd. cbn [fst snd]. rewrite H; [reflexivity|..]; cbn [In] in Hd; repeat (destruct Hd as [Hd|Hd]; [injection Hd as <- <-; lia|]); destruct Hd.
Qed.
End Neighbourhood.

Lemma convolve_ok (w : Z -> Z -> R) junk a0 a1 p0 p1 arr f : raster_of [a0; a1] [p0; p1] arr f ->
  (3 <= smallest_block a0 p0)%Z -> (3 <= smallest_block a1 p1)%Z ->
  exists out g, convolve (gmake 3 3 w) junk arr = Ok out /\ raster_of [a0; a1] [p0; p1] out g /\
    forall r c, let z := surrounded a0 a1 None f in
      (empty_neighbourhood z r c -> g [r; c] = None) /\
      (~ empty_neighbourhood z r c -> g [r; c] = Some (rsum (map (fun d => w (1 + fst d)%Z (1 + snd d)%Z * value_or_zero (z (r + fst d)%Z (c + snd d)%Z)) (offsets 1)))).
Proof.
  intros H H0 H1. destruct (c19_convolve _ _ (Some 0) (lift2 Rplus) (fun w => lift1 (Rmult w)) is_none None w 1 junk junk (constant_halo None) a0 a1 p0 p1 arr f
    ltac:(lia) H H0 H1) as [out [g [Eo [Hg V]]]].
  exists out, g. split; [exact Eo|]. split; [exact Hg|]. intros r c z. specialize (V r c). cbv zeta in V.
  assert (EF : filter (fun d => negb (is_none (padded a0 a1 (border_of (constant_halo None)) (fun r c => f [r; c]) (r + fst d)%Z (c + snd d)%Z))) (offsets 1) =
    filter (fun d => negb (is_none (z (r + fst d)%Z (c + snd d)%Z))) (offsets 1)).
  { apply filter_ext. intros d. rewrite padded_constant. reflexivity. }
  rewrite EF in V. destruct V as [V1 V2]. split; intros Hn.
  - apply V1. apply neighbourhood_empty. exact Hn.
  - rewrite V2 by (intros Q; apply Hn, neighbourhood_empty, Q).
    erewrite map_ext by (intros d; rewrite padded_constant; reflexivity). fold z.
    rewrite (fold_valid (fun d => w (1 + fst d)%Z (1 + snd d)%Z) (fun d => z (r + fst d)%Z (c + snd d)%Z)). f_equal. ring.
Qed.

Definition weight_x (i j : Z) : R := nth (Z.to_nat (i * 3 + j)) [-1; 0; 1; -2; 0; 2; -1; 0; 1] 0.
Definition weight_y (i j : Z) : R := nth (Z.to_nat (i * 3 + j)) [-1; -2; -1; 0; 0; 0; 1; 2; 1] 0.
Lemma kernel_x : dz_dx_kernel = gmake 3 3 weight_x. Proof. reflexivity. Qed.
Lemma kernel_y : dz_dy_kernel = gmake 3 3 weight_y. Proof. reflexivity. Qed.

Lemma in2 (a0 a1 r c : Z) : in_shape [a0; a1] [r; c] <-> (0 <= r < a0 /\ 0 <= c < a1)%Z.
Proof.
  split.
  - intros H. destruct (in_shape2 _ _ _ H) as [i [j [E Q]]]. injection E as -> ->. exact Q.
  - intros [A B]. repeat constructor; lia.
Qed.

Lemma gradient_ok (w : Z -> Z -> R) junk a0 a1 p0 p1 arr f h : raster_of [a0; a1] [p0; p1] arr f ->
  (3 <= smallest_block a0 p0)%Z -> (3 <= smallest_block a1 p1)%Z -> h <> 0 ->
  exists mid out g, convolve (gmake 3 3 w) junk arr = Ok mid /\ divide_scalar junk mid (8 * h) = Ok out /\ raster_of [a0; a1] [p0; p1] out g /\
    forall r c, (0 <= r < a0)%Z -> (0 <= c < a1)%Z -> let z := surrounded a0 a1 None f in
      (empty_neighbourhood z r c -> g [r; c] = None) /\
      (~ empty_neighbourhood z r c -> g [r; c] = Some (rsum (map (fun d => w (1 + fst d)%Z (1 + snd d)%Z * value_or_zero (z (r + fst d)%Z (c + snd d)%Z)) (offsets 1)) / (8 * h))).
Proof.
  intros H H0 H1 Hh. destruct (convolve_ok w junk a0 a1 p0 p1 arr f H H0 H1) as [mid [g [Em [Hg V]]]].
  destruct (c13_scalar2 _ _ _ divide_policies (lift2 Rdiv) None junk [a0; a1] [p0; p1] mid (Some (8 * h)) g ltac:(reflexivity) Hg) as [out [g' [Eo [Hg' V']]]].
  exists mid, out, g'. split; [exact Em|]. split; [exact Eo|]. split; [exact Hg'|]. intros r c Hr Hc z. specialize (V r c). cbv zeta in V. fold z in V.
  destruct V as [V1 V2]. destruct (V' [r; c] (proj2 (in2 a0 a1 r c) (conj Hr Hc))) as [W1 W2]. cbn [divide_policies b_no_data1 b_no_data2 b_domain b_range] in W1, W2.
  split; intros Hn.
  - rewrite (V1 Hn) in W2. apply W2. left. reflexivity.
  - rewrite (V2 Hn) in W1. rewrite W1; [reflexivity|reflexivity|reflexivity| |reflexivity].
    cbn [is_zero]. destruct (Req_EM_T (8 * h) 0); [exfalso; lra|reflexivity].
Qed.

Lemma gradients_ok junk a0 a1 p0 p1 arr f h : raster_of [a0; a1] [p0; p1] arr f ->
  (3 <= smallest_block a0 p0)%Z -> (3 <= smallest_block a1 p1)%Z -> h <> 0 ->
  exists outx outy gx gy, gradients junk arr h = Ok (outx, outy) /\ raster_of [a0; a1] [p0; p1] outx gx /\ raster_of [a0; a1] [p0; p1] outy gy /\
    forall r c, (0 <= r < a0)%Z -> (0 <= c < a1)%Z -> let z := surrounded a0 a1 None f in
      (empty_neighbourhood z r c -> gx [r; c] = None /\ gy [r; c] = None) /\
      (~ empty_neighbourhood z r c -> gx [r; c] = Some (horn_east (fun r c => value_or_zero (z r c)) h r c) /\
                                      gy [r; c] = Some (horn_south (fun r c => value_or_zero (z r c)) h r c)).
Proof.
  intros H H0 H1 Hh. destruct (gradient_ok weight_x junk a0 a1 p0 p1 arr f h H H0 H1 Hh) as [mx [ox [gx [E1 [E2 [Hx Vx]]]]]].
  destruct (gradient_ok weight_y junk a0 a1 p0 p1 arr f h H H0 H1 Hh) as [my [oy [gy [E3 [E4 [Hy Vy]]]]]].
  exists ox, oy, gx, gy. split; [unfold gradients; rewrite kernel_x, kernel_y, E1; cbn [obind]; rewrite E2; cbn [obind]; rewrite E3; cbn [obind]; rewrite E4; reflexivity|].
  split; [exact Hx|]. split; [exact Hy|]. intros r c Hr Hc z. destruct (Vx r c Hr Hc) as [X1 X2]. destruct (Vy r c Hr Hc) as [Y1 Y2]. fold z in X1, X2, Y1, Y2.
  split; intros Hn; [split; [exact (X1 Hn)|exact (Y1 Hn)]|]. rewrite (X2 Hn), (Y2 Hn). clear.
  rewrite offsets1. unfold horn_east, horn_south. cbn [map rsum fst snd].
  replace (1 + -1)%Z with 0%Z by lia. replace (1 + 0)%Z with 1%Z by lia. replace (1 + 1)%Z with 2%Z by lia.
  replace (r + -1)%Z with (r - 1)%Z by lia. replace (r + 0)%Z with r by lia. replace (c + -1)%Z with (c - 1)%Z by lia. replace (c + 0)%Z with c by lia.
  assert (W : forall i j, weight_x i j = nth (Z.to_nat (i * 3 + j)) [-1; 0; 1; -2; 0; 2; -1; 0; 1] 0) by reflexivity.
  assert (W' : forall i j, weight_y i j = nth (Z.to_nat (i * 3 + j)) [-1; -2; -1; 0; 0; 0; 1; 2; 1] 0) by reflexivity.
  rewrite !W, !W'. clear W W'.
  change (Z.to_nat (0 * 3 + 0)) with 0%nat. change (Z.to_nat (0 * 3 + 1)) with 1%nat. change (Z.to_nat (0 * 3 + 2)) with 2%nat.
  change (Z.to_nat (1 * 3 + 0)) with 3%nat. change (Z.to_nat (1 * 3 + 1)) with 4%nat. change (Z.to_nat (1 * 3 + 2)) with 5%nat.
  change (Z.to_nat (2 * 3 + 0)) with 6%nat. change (Z.to_nat (2 * 3 + 1)) with 7%nat. change (Z.to_nat (2 * 3 + 2)) with 8%nat.
  cbn [nth]. split; f_equal; unfold Rdiv; ring.
Qed.

Lemma slope_ok junk a0 a1 p0 p1 arr f h : raster_of [a0; a1] [p0; p1] arr f ->
  (3 <= smallest_block a0 p0)%Z -> (3 <= smallest_block a1 p1)%Z -> h <> 0 ->
  exists out g, slope junk arr h = Ok out /\ raster_of [a0; a1] [p0; p1] out g /\
    forall r c, (0 <= r < a0)%Z -> (0 <= c < a1)%Z -> let z := surrounded a0 a1 None f in
      (empty_neighbourhood z r c -> g [r; c] = None) /\
      (~ empty_neighbourhood z r c ->
         let e := horn_east (fun r c => value_or_zero (z r c)) h r c in let s := horn_south (fun r c => value_or_zero (z r c)) h r c in
         g [r; c] = Some (sqrt (e * e + s * s))).
Proof.
  intros H H0 H1 Hh. destruct (gradients_ok junk a0 a1 p0 p1 arr f h H H0 H1 Hh) as [ox [oy [gx [gy [Eg [Hx [Hy V]]]]]]].
  destruct (c13_scalar2 _ _ _ pow2_policies (lift2 (fun x _ => x * x)) None junk [a0; a1] [p0; p1] ox (Some 2) gx ltac:(reflexivity) Hx) as [px [g1 [E1 [H2 V1]]]].
  destruct (c13_scalar2 _ _ _ pow2_policies (lift2 (fun x _ => x * x)) None junk [a0; a1] [p0; p1] oy (Some 2) gy ltac:(reflexivity) Hy) as [py [g2 [E2 [H3 V2]]]].
  destruct (c13_binary _ _ _ add_policies (lift2 Rplus) None junk [a0; a1] [p0; p1] px py g1 g2 ltac:(reflexivity) H2 H3) as [ps [g3 [E3 [H4 V3]]]].
  destruct (c13_unary _ _ sqrt_policies (lift1 sqrt) None junk [a0; a1] [p0; p1] ps g3 ltac:(reflexivity) H4) as [out [g [E4 [H5 V4]]]].
  exists out, g. split.
  { unfold slope. rewrite Eg. cbn [obind]. unfold slope_of_gradients, pow2. cbn [fst snd]. rewrite E1. cbn [obind]. rewrite E2. cbn [obind]. rewrite E3. cbn [obind]. exact E4. }
  split; [exact H5|]. intros r c Hr Hc z. pose proof (proj2 (in2 a0 a1 r c) (conj Hr Hc)) as Hi.
  destruct (V r c Hr Hc) as [A B]. fold z in A, B.
  specialize (V1 _ Hi). specialize (V2 _ Hi). specialize (V3 _ Hi). specialize (V4 _ Hi).
  cbn [pow2_policies add_policies sqrt_policies b_no_data1 b_no_data2 b_domain b_range u_no_data u_domain u_range] in V1, V2, V3, V4.
  split; intros Hn.
  - destruct (A Hn) as [A1 A2]. rewrite A1 in V1. apply (proj2 V4). left.
    rewrite (proj2 V3); [reflexivity|]. left. rewrite (proj2 V1); [reflexivity|]. left. reflexivity.
  - destruct (B Hn) as [A1 A2]. intros e s. rewrite A1 in V1. rewrite A2 in V2.
    assert (G1 : g1 [r; c] = Some (e * e)) by (rewrite (proj1 V1); reflexivity).
    assert (G2 : g2 [r; c] = Some (s * s)) by (rewrite (proj1 V2); reflexivity).
    rewrite G1, G2 in V3. assert (G3 : g3 [r; c] = Some (e * e + s * s)) by (rewrite (proj1 V3); reflexivity).
    rewrite G3 in V4. rewrite (proj1 V4); [reflexivity|reflexivity| |reflexivity]. cbn [non_negative].
    destruct (Rle_dec 0 (e * e + s * s)) as [|N]; [reflexivity|]. exfalso. apply N. nra.
Qed.

Lemma interior_in a0 a1 r c : interior a0 a1 r c -> (0 <= r < a0)%Z /\ (0 <= c < a1)%Z.
Proof. unfold interior. lia. Qed.

Lemma plane_gradient a0 a1 level south east h r c : interior a0 a1 r c -> h <> 0 ->
  let z := surrounded a0 a1 None (plane level south east) in
  ~ empty_neighbourhood z r c /\ horn_east (fun r c => value_or_zero (z r c)) h r c = east / h /\ horn_south (fun r c => value_or_zero (z r c)) h r c = south / h.
Proof.
  intros Hi Hh z. unfold interior in Hi.
  assert (EZ : forall i j, (0 <= i < a0)%Z -> (0 <= j < a1)%Z -> z i j = Some (level + south * IZR i + east * IZR j)).
  { intros i j A B. unfold z, surrounded, insideb. cbn [fst snd]. replace ((0 <=? i) && (i <? a0) && (0 <=? j) && (j <? a1))%Z with true by lia. reflexivity. }
  split; [|split].
  - intros E. specialize (E 0%Z 0%Z ltac:(lia) ltac:(lia)). rewrite EZ in E by lia. discriminate.
  - unfold horn_east. rewrite !EZ by lia. cbn [value_or_zero]. rewrite !plus_IZR, !minus_IZR. field. exact Hh.
  - unfold horn_south. rewrite !EZ by lia. cbn [value_or_zero]. rewrite !plus_IZR, !minus_IZR. field. exact Hh.
Qed.

Lemma slope_plane junk a0 a1 p0 p1 arr level south east h : raster_of [a0; a1] [p0; p1] arr (plane level south east) ->
  (3 <= smallest_block a0 p0)%Z -> (3 <= smallest_block a1 p1)%Z -> 0 < h ->
  exists out g, slope junk arr h = Ok out /\ raster_of [a0; a1] [p0; p1] out g /\
    forall r c, interior a0 a1 r c -> g [r; c] = Some (sqrt (east * east + south * south) / h).
Proof.
  intros H H0 H1 Hh. destruct (slope_ok junk a0 a1 p0 p1 arr _ h H H0 H1 ltac:(lra)) as [out [g [Eo [Hg V]]]].
  exists out, g. split; [exact Eo|]. split; [exact Hg|]. intros r c Hi. destruct (interior_in _ _ _ _ Hi) as [Hr Hc].
  destruct (plane_gradient a0 a1 level south east h r c Hi ltac:(lra)) as [N [Ee Es]]. destruct (V r c Hr Hc) as [_ V2]. specialize (V2 N). cbv zeta in V2, Ee, Es, N.
  rewrite V2. f_equal. rewrite Ee, Es.
  assert (Q : (east / h * (east / h) + south / h * (south / h) = (east * east + south * south) / (h * h))%R) by (field; lra).
  transitivity (sqrt ((east * east + south * south) / (h * h))); [f_equal; exact Q|].
  rewrite sqrt_div_alt by nra. rewrite sqrt_square by lra. reflexivity.
Qed.

(** ** Aspect *)
Lemma aspect_ok junk a0 a1 p0 p1 arr f : raster_of [a0; a1] [p0; p1] arr f ->
  (3 <= smallest_block a0 p0)%Z -> (3 <= smallest_block a1 p1)%Z ->
  exists out g, aspect junk arr = Ok out /\ raster_of [a0; a1] [p0; p1] out g /\
    forall r c, (0 <= r < a0)%Z -> (0 <= c < a1)%Z -> let z := surrounded a0 a1 None f in
      (empty_neighbourhood z r c -> g [r; c] = None) /\
      (~ empty_neighbourhood z r c -> g [r; c] = Some (aspect_functor (horn_east (fun r c => value_or_zero (z r c)) 1 r c) (horn_south (fun r c => value_or_zero (z r c)) 1 r c))).
Proof.
  intros H H0 H1. destruct (gradients_ok junk a0 a1 p0 p1 arr f 1 H H0 H1 ltac:(lra)) as [ox [oy [gx [gy [Eg [Hx [Hy V]]]]]]].
  destruct (c13_binary _ _ _ aspect_policies (lift2 aspect_functor) None junk [a0; a1] [p0; p1] ox oy gx gy ltac:(reflexivity) Hx Hy) as [out [g [E3 [H4 V3]]]].
  exists out, g. split; [unfold aspect; rewrite Eg; exact E3|]. split; [exact H4|]. intros r c Hr Hc z. pose proof (proj2 (in2 a0 a1 r c) (conj Hr Hc)) as Hi.
  destruct (V r c Hr Hc) as [A B]. fold z in A, B. specialize (V3 _ Hi). cbn [aspect_policies b_no_data1 b_no_data2 b_domain b_range] in V3.
  split; intros Hn.
  - apply (proj2 V3). left. rewrite (proj1 (A Hn)). reflexivity.
  - destruct (B Hn) as [B1 B2]. rewrite B1, B2 in V3. rewrite (proj1 V3); reflexivity.
Qed.

Lemma aspect_range x y : 0 <= aspect_functor x y <= 2 * PI.
Proof.
  pose proof PI_RGT_0. unfold aspect_functor. destruct (Req_EM_T x 0); [destruct (Rlt_dec y 0); [lra|]; destruct (Rlt_dec 0 y); lra|].
  destruct (Req_EM_T y 0); [destruct (Rlt_dec x 0); [lra|]; destruct (Rlt_dec 0 x); lra|].
  pose proof (atan_bound (x / y)). destruct (Rlt_dec x 0); lra.
Qed.

(** Sine and cosine of the angle, if neither gradient is 0 *)
Lemma aspect_oblique x y : x <> 0 -> y <> 0 -> exists k, 0 < k /\ sin (aspect_functor x y) = x * k /\ cos (aspect_functor x y) = - (x * x / y) * k.
Proof.
  intros Hx Hy. unfold aspect_functor. destruct (Req_EM_T x 0); [contradiction|]. destruct (Req_EM_T y 0); [contradiction|].
  set (t := x / y). pose proof (cos_atan t) as C. pose proof (sin_atan t) as S.
  assert (Q : 0 < sqrt (1 + t²)) by (apply sqrt_lt_R0; pose proof (Rle_0_sqr t); lra).
  set (q := sqrt (1 + t²)) in *. destruct (Rlt_dec x 0) as [L|L].
  - exists (/ (q * - x)). split; [apply Rinv_0_lt_compat; nra|].
    replace (atan t + (PI + PI / 2)) with ((atan t + PI) + PI / 2) by ring.
    rewrite (sin_plus (atan t + PI)), (cos_plus (atan t + PI)), cos_PI2, sin_PI2, neg_cos, neg_sin, C, S. unfold t. split; field; repeat split; lra.
  - exists (/ (q * x)). split; [apply Rinv_0_lt_compat; nra|].
    rewrite sin_plus, cos_plus, cos_PI2, sin_PI2, C, S. unfold t. split; field; repeat split; lra.
Qed.

Lemma aspect_functor_wrong x y : x <> 0 \/ y <> 0 -> ~ has_azimuth (- x) y (aspect_functor x y).
Proof.
  intros H [k [Hk [A B]]]. destruct (Req_dec x 0) as [->|Hx]; [|destruct (Req_dec y 0) as [->|Hy]].
  - destruct H as [H|H]; [lra|]. unfold aspect_functor in B. destruct (Req_EM_T 0 0); [|lra].
    destruct (Rlt_dec y 0); [rewrite cos_0 in B; lra|]. destruct (Rlt_dec 0 y); [rewrite cos_PI in B; lra|lra].
  - unfold aspect_functor in A. destruct (Req_EM_T x 0); [lra|]. destruct (Req_EM_T 0 0); [|lra].
    destruct (Rlt_dec x 0); [rewrite sin_plus, cos_PI2, sin_PI2, cos_PI in A; lra|]. destruct (Rlt_dec 0 x); [rewrite sin_PI2 in A; lra|lra].
  - destruct (aspect_oblique x y Hx Hy) as [q [Hq [S C]]]. rewrite S in A. assert (x * (1 + k * q) = 0) by lra.
    apply Rmult_integral in H0. destruct H0 as [H0|H0]; [contradiction|]. pose proof (Rmult_lt_0_compat k q Hk Hq). lra.
Qed.

Lemma aspect_functor_opposite x y : x <> 0 \/ y <> 0 ->
  has_azimuth x (- y) (aspect_functor x y) <-> x = 0 \/ y = 0 \/ x = y \/ x = - y.
Proof.
  intros H. split.
  - intros [k [Hk [A B]]]. destruct (Req_dec x 0) as [Hx|Hx]; [left; exact Hx|]. destruct (Req_dec y 0) as [Hy|Hy]; [right; left; exact Hy|].
    right. right. destruct (aspect_oblique x y Hx Hy) as [q [Hq [S C]]]. rewrite S in A. rewrite C in B.
    assert (K : k * q = 1) by (apply (Rmult_eq_reg_l x); lra).
    assert (E : y = x * x / y * (k * q)) by lra. rewrite K in E.
    assert (E2 : y * y = x * x) by (rewrite E at 1; field; exact Hy).
    assert (P : (x - y) * (x + y) = 0) by lra. apply Rmult_integral in P. destruct P; [left|right]; lra.
  - intros G. destruct (Req_dec x 0) as [->|Hx]; [|destruct (Req_dec y 0) as [->|Hy]].
    + destruct H as [H|H]; [lra|]. unfold aspect_functor. destruct (Req_EM_T 0 0); [|lra]. destruct (Rlt_dec y 0).
      * exists (- y). rewrite sin_0, cos_0. repeat split; lra.
      * destruct (Rlt_dec 0 y); [|lra]. exists y. rewrite sin_PI, cos_PI. repeat split; lra.
    + unfold aspect_functor. destruct (Req_EM_T x 0); [lra|]. destruct (Req_EM_T 0 0); [|lra]. destruct (Rlt_dec x 0).
      * exists (- x). rewrite sin_plus, cos_plus, cos_PI2, sin_PI2, cos_PI, sin_PI. repeat split; lra.
      * destruct (Rlt_dec 0 x); [|lra]. exists x. rewrite sin_PI2, cos_PI2. repeat split; lra.
    + destruct G as [G|[G|G]]; [contradiction|contradiction|]. destruct (aspect_oblique x y Hx Hy) as [q [Hq [S C]]].
      exists (/ q). rewrite S, C. split; [apply Rinv_0_lt_compat; exact Hq|]. split; [field; lra|]. destruct G as [->| ->]; field; lra.
Qed.

Lemma aspect_plane junk a0 a1 p0 p1 arr level south east : raster_of [a0; a1] [p0; p1] arr (plane level south east) ->
  (3 <= smallest_block a0 p0)%Z -> (3 <= smallest_block a1 p1)%Z -> south <> 0 \/ east <> 0 ->
  exists out g theta, aspect junk arr = Ok out /\ raster_of [a0; a1] [p0; p1] out g /\ 0 <= theta <= 2 * PI /\
    (forall r c, interior a0 a1 r c -> g [r; c] = Some theta) /\ ~ has_azimuth (- east) south theta /\
    (has_azimuth east (- south) theta <-> east = 0 \/ south = 0 \/ east = south \/ east = - south).
Proof.
  intros H H0 H1 Hp. destruct (aspect_ok junk a0 a1 p0 p1 arr _ H H0 H1) as [out [g [Eo [Hg V]]]].
  exists out, g, (aspect_functor east south). split; [exact Eo|]. split; [exact Hg|]. split; [apply aspect_range|]. split.
  - intros r c Hi. destruct (interior_in _ _ _ _ Hi) as [Hr Hc].
    destruct (plane_gradient a0 a1 level south east 1 r c Hi ltac:(lra)) as [N [Ee Es]]. destruct (V r c Hr Hc) as [_ V2]. specialize (V2 N). cbv zeta in V2, Ee, Es, N.
    rewrite V2, Ee, Es. do 2 f_equal; field.
  - split; [apply aspect_functor_wrong; tauto|apply aspect_functor_opposite; tauto].
Qed.
Close Scope R_scope.
