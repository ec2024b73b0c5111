(** Proofs of the property theorems about focal operations. *)
From Verif Require Import Common CommonProofs CoreSpec DecompSpec ArraySpec IndexModel DecompModel ArrayModel ArrayRep
  ArrayProofs GridModel GridProofs GridRaster LocalModel LocalSpec AggregateModel AggregateSpec ZonalSpec ZonalProofs
  FocalSpec FocalModel FocalRep FocalProofs FocalProofs2 FocalProofs3 FocalFunctorsModel FocalProofs4 LocalProofs2 RasterCheck.

Lemma focal_lift {E O W} (functor : kernel W -> grid E -> outcome O) (w : Z -> Z -> W) (nd : O)
    (Q : (Z -> Z -> E) -> O -> Prop) R junk ojunk hp a0 a1 p0 p1 arr f :
  0 <= R -> raster_of [a0; a1] [p0; p1] arr f ->
  2 * R + 1 <= smallest_block a0 p0 -> 2 * R + 1 <= smallest_block a1 p1 ->
  (forall m, exists v, functor (gmake (2 * R + 1) (2 * R + 1) w) (gmake (2 * R + 1) (2 * R + 1) m) = Ok v /\ Q m v) ->
  exists out g, focal functor (gmake (2 * R + 1) (2 * R + 1) w) junk ojunk hp arr = Ok out /\ raster_of [a0; a1] [p0; p1] out g /\
    forall r c, Q (fun i j => padded a0 a1 (border_of hp) (fun r c => f [r; c]) (r - R + i) (c - R + j)) (g [r; c]).
Proof.
  intros HR H H0 H1 HQ. set (K := gmake (2 * R + 1) (2 * R + 1) w) in *.
  set (F := fun m => match functor K (gmake (2 * R + 1) (2 * R + 1) m) with Ok v => v | _ => nd end).
  destruct (focal_op_ok R (functor K) F junk ojunk hp) with (a0 := a0) (a1 := a1) (p0 := p0) (p1 := p1) (arr := arr) (f := f)
    as [out [g [E1 [E2 E3]]]]; try assumption.
  - intros m. unfold F. destruct (HQ m) as [v [-> _]]. reflexivity.
  - exists out, g. split; [|split; [assumption|]].
    + unfold focal, K. rewrite (radius_make R). exact E1.
    + intros r c. rewrite E3. unfold F. destruct (HQ (fun i j => padded a0 a1 (border_of hp) (fun r c => f [r; c]) (r - R + i) (c - R + j))) as [v [-> Hv]].
      exact Hv.
Qed.

Lemma focal_values_at {E} R (w : Z -> Z -> Z) (valid : E -> bool) a0 a1 b (f : list Z -> E) r c :
  sel R w valid (fun i j => padded a0 a1 b (fun r c => f [r; c]) (r - R + i) (c - R + j)) =
  focal_values R (fun dr dc => negb (w (R + dr) (R + dc) =? 0)) valid (padded a0 a1 b (fun r c => f [r; c])) r c.
Proof. apply sel_spec. Qed.

Lemma circle_ok {W} R (zero value : W) : 0 <= R ->
  circle_kernel zero R value =
  Ok (gmake (2 * R + 1) (2 * R + 1) (fun i j => if (i - R) * (i - R) + (j - R) * (j - R) <=? R * R then value else zero)).
Proof. intros HR. unfold circle_kernel. apply for_all_cells. intros r c Hr Hc. reflexivity. Qed.

Lemma wrap_fold t : int_type t -> forall l s, fold_left (fun a v => wrap t (a + v)) l (wrap t s) = wrap t (s + sumZ l).
Proof.
  intros Ht. induction l as [|x l IH]; intros s; cbn [fold_left]; [unfold sumZ; cbn [fold_right]; f_equal; lia|].
  rewrite wrap_wrap by assumption. rewrite IH. f_equal. unfold sumZ. cbn [fold_right]. lia.
Qed.

Section Extreme.
Context {E : Type} (ltb : E -> E -> bool)
  (asym : forall u v, ltb u v = true -> ltb v u = false)
  (cotrans : forall u v w, ltb u w = true -> ltb u v = true \/ ltb v w = true).
Lemma fold_min l x : least_of ltb (x :: l) (fold_left (std_min ltb) l x).
Proof.
  revert x. induction l as [|y l IH]; intros x; cbn [fold_left].
  - split; [now left|]. intros v [->|[]]. destruct (ltb v v) eqn:e; [pose proof (asym _ _ e); congruence|reflexivity].
  - destruct (IH (std_min ltb x y)) as [I1 I2]. set (m := fold_left (std_min ltb) l (std_min ltb x y)) in *.
    split.
    + destruct I1 as [<-|I1]; [|now right; right]. unfold std_min. destruct (ltb y x); [right; now left|now left].
    + pose proof (I2 _ (or_introl eq_refl)) as Hm. unfold std_min in Hm. intros v Hv.
      destruct Hv as [->|[->|Hv]]; [| |apply I2; now right].
      * destruct (ltb y v) eqn:e; [|exact Hm]. destruct (ltb v m) eqn:e2; [|reflexivity].
        destruct (cotrans y m v e) as [C|C]; [congruence|]. pose proof (asym _ _ C). congruence.
      * destruct (ltb v x) eqn:e; [exact Hm|]. destruct (ltb v m) eqn:e2; [|reflexivity].
        destruct (cotrans v x m e2) as [C|C]; congruence.
Qed.
Lemma fold_max l x : largest_of ltb (x :: l) (fold_left (std_max ltb) l x).
Proof.
  revert x. induction l as [|y l IH]; intros x; cbn [fold_left].
  - split; [now left|]. intros v [->|[]]. destruct (ltb v v) eqn:e; [pose proof (asym _ _ e); congruence|reflexivity].
  - destruct (IH (std_max ltb x y)) as [I1 I2]. set (m := fold_left (std_max ltb) l (std_max ltb x y)) in *.
    split.
    + destruct I1 as [<-|I1]; [|now right; right]. unfold std_max. destruct (ltb x y); [right; now left|now left].
    + pose proof (I2 _ (or_introl eq_refl)) as Hm. unfold std_max in Hm. intros v Hv.
      destruct Hv as [->|[->|Hv]]; [| |apply I2; now right].
      * destruct (ltb v y) eqn:e; [|exact Hm]. destruct (ltb m v) eqn:e2; [|reflexivity].
        destruct (cotrans m y v e2) as [C|C]; [congruence|]. pose proof (asym _ _ C). congruence.
      * destruct (ltb x v) eqn:e; [exact Hm|]. destruct (ltb m v) eqn:e2; [|reflexivity].
        destruct (cotrans m x v e2) as [C|C]; congruence.
Qed.
End Extreme.

Lemma c19_sum :
  forall (E : Type) (zero : E) (plus : E -> E -> E) no_data nd (weight : Z -> Z -> Z) R junk ojunk hp a0 a1 p0 p1 arr f,
  0 <= R -> raster_of [a0; a1] [p0; p1] arr f ->
  2 * R + 1 <= smallest_block a0 p0 -> 2 * R + 1 <= smallest_block a1 p1 ->
  exists out g,
    focal (fun k => focal_sum_functor no_data nd k zero plus) (gmake (2 * R + 1) (2 * R + 1) weight) junk ojunk hp arr = Ok out /\
    raster_of [a0; a1] [p0; p1] out g /\
    forall r c,
      let l := focal_values R (fun dr dc => negb (weight (R + dr) (R + dc) =? 0)) (fun v => negb (no_data v))
                 (padded a0 a1 (border_of hp) (fun r c => f [r; c])) r c in
      (l = [] -> g [r; c] = nd) /\ (l <> [] -> g [r; c] = fold_left plus l zero).
Proof.
  intros E zero plus no_data nd w R junk ojunk hp a0 a1 p0 p1 arr f HR H H0 H1.
  apply (focal_lift (fun k => focal_sum_functor no_data nd k zero plus) w nd
    (fun m v => let l := sel R w (fun v => negb (no_data v)) m in (l = [] -> v = nd) /\ (l <> [] -> v = fold_left plus l zero))) with (R := R) (junk := junk) (ojunk := ojunk) (hp := hp) in H; try assumption.
  - destruct H as [out [g [E1 [E2 E3]]]]. exists out, g. split; [exact E1|]. split; [exact E2|]. intros r c.
    rewrite <- focal_values_at. apply E3.
  - intros m. rewrite sum_functor_ok by assumption. destruct (sel R w _ m); eexists; (split; [reflexivity|]); split; intros; congruence.
Qed.

Lemma c19_sum_of_integers :
  forall (t : itype) no_data nd (weight : Z -> Z -> Z) R junk ojunk hp a0 a1 p0 p1 arr f,
  int_type t -> 0 <= R -> raster_of [a0; a1] [p0; p1] arr f ->
  2 * R + 1 <= smallest_block a0 p0 -> 2 * R + 1 <= smallest_block a1 p1 ->
  exists out g,
    focal (fun k => focal_sum_functor no_data nd k 0 (fun s v => wrap t (s + v))) (gmake (2 * R + 1) (2 * R + 1) weight) junk ojunk hp arr = Ok out /\
    raster_of [a0; a1] [p0; p1] out g /\
    forall r c,
      let l := focal_values R (fun dr dc => negb (weight (R + dr) (R + dc) =? 0)) (fun v => negb (no_data v))
                 (padded a0 a1 (border_of hp) (fun r c => f [r; c])) r c in
      (l = [] -> g [r; c] = nd) /\ (l <> [] -> g [r; c] = wrap t (sumZ l)).
Proof.
  intros t no_data nd w R junk ojunk hp a0 a1 p0 p1 arr f Ht HR H H0 H1.
  apply (focal_lift (fun k => focal_sum_functor no_data nd k 0 (fun s v => wrap t (s + v))) w nd
    (fun m v => let l := sel R w (fun v => negb (no_data v)) m in (l = [] -> v = nd) /\ (l <> [] -> v = wrap t (sumZ l)))) with (R := R) (junk := junk) (ojunk := ojunk) (hp := hp) in H; try assumption.
  - destruct H as [out [g [E1 [E2 E3]]]]. exists out, g. split; [exact E1|]. split; [exact E2|]. intros r c.
    rewrite <- focal_values_at. apply E3.
  - intros m. rewrite sum_functor_ok by assumption. destruct (sel R w _ m) as [|x l]; eexists; (split; [reflexivity|]); split; intros; try congruence.
    pose proof (wrap_fold t Ht (x :: l) 0) as HW. rewrite Z.add_0_l in HW. rewrite <- HW. f_equal. symmetry. apply wrap_id; [assumption|]. unfold representable, imin, imax; destruct (signed t); cbn; unfold int_type in Ht; pose proof (Z.pow_pos_nonneg 2 (bits t - 1)); pose proof (Z.pow_pos_nonneg 2 (bits t)); lia.
Qed.

Lemma c19_mean :
  forall (E : Type) (zero : E) (plus : E -> E -> E) (divide : E -> Z -> E) no_data nd (weight : Z -> Z -> Z) R junk ojunk hp a0 a1 p0 p1 arr f,
  0 <= R -> raster_of [a0; a1] [p0; p1] arr f ->
  2 * R + 1 <= smallest_block a0 p0 -> 2 * R + 1 <= smallest_block a1 p1 ->
  exists out g,
    focal (fun k => focal_mean_functor no_data nd k zero plus divide) (gmake (2 * R + 1) (2 * R + 1) weight) junk ojunk hp arr = Ok out /\
    raster_of [a0; a1] [p0; p1] out g /\
    forall r c,
      let l := focal_values R (fun dr dc => negb (weight (R + dr) (R + dc) =? 0)) (fun v => negb (no_data v))
                 (padded a0 a1 (border_of hp) (fun r c => f [r; c])) r c in
      (l = [] -> g [r; c] = nd) /\ (l <> [] -> g [r; c] = divide (fold_left plus l zero) (Z.of_nat (length l))).
Proof.
  intros E zero plus divide no_data nd w R junk ojunk hp a0 a1 p0 p1 arr f HR H H0 H1.
  apply (focal_lift (fun k => focal_mean_functor no_data nd k zero plus divide) w nd
    (fun m v => let l := sel R w (fun v => negb (no_data v)) m in (l = [] -> v = nd) /\ (l <> [] -> v = divide (fold_left plus l zero) (Z.of_nat (length l))))) with (R := R) (junk := junk) (ojunk := ojunk) (hp := hp) in H; try assumption.
  - destruct H as [out [g [E1 [E2 E3]]]]. exists out, g. split; [exact E1|]. split; [exact E2|]. intros r c.
    rewrite <- focal_values_at. apply E3.
  - intros m. rewrite mean_functor_ok by assumption. destruct (sel R w _ m); eexists; (split; [reflexivity|]); split; intros; congruence.
Qed.

Lemma c19_minimum :
  forall (E : Type) (ltb : E -> E -> bool) (zero : E) no_data nd (weight : Z -> Z -> Z) R junk ojunk hp a0 a1 p0 p1 arr f,
  (forall u v, ltb u v = true -> ltb v u = false) ->
  (forall u v w, ltb u w = true -> ltb u v = true \/ ltb v w = true) ->
  0 <= R -> raster_of [a0; a1] [p0; p1] arr f ->
  2 * R + 1 <= smallest_block a0 p0 -> 2 * R + 1 <= smallest_block a1 p1 ->
  exists out g,
    focal (fun k => focal_minimum_functor no_data nd k ltb zero) (gmake (2 * R + 1) (2 * R + 1) weight) junk ojunk hp arr = Ok out /\
    raster_of [a0; a1] [p0; p1] out g /\
    forall r c,
      let l := focal_values R (fun dr dc => negb (weight (R + dr) (R + dc) =? 0)) (fun v => negb (no_data v))
                 (padded a0 a1 (border_of hp) (fun r c => f [r; c])) r c in
      (l = [] -> g [r; c] = nd) /\ (l <> [] -> least_of ltb l (g [r; c])).
Proof.
  intros E ltb zero no_data nd w R junk ojunk hp a0 a1 p0 p1 arr f Ha Hc HR H H0 H1.
  apply (focal_lift (fun k => focal_minimum_functor no_data nd k ltb zero) w nd
    (fun m v => let l := sel R w (fun v => negb (no_data v)) m in (l = [] -> v = nd) /\ (l <> [] -> least_of ltb l v))) with (R := R) (junk := junk) (ojunk := ojunk) (hp := hp) in H; try assumption.
  - destruct H as [out [g [E1 [E2 E3]]]]. exists out, g. split; [exact E1|]. split; [exact E2|]. intros r c.
    rewrite <- focal_values_at. apply E3.
  - intros m. unfold focal_minimum_functor. rewrite extreme_functor_ok by assumption. destruct (sel R w _ m); eexists; (split; [reflexivity|]); split; intros; try congruence. now apply fold_min.
Qed.

Lemma c19_maximum :
  forall (E : Type) (ltb : E -> E -> bool) (zero : E) no_data nd (weight : Z -> Z -> Z) R junk ojunk hp a0 a1 p0 p1 arr f,
  (forall u v, ltb u v = true -> ltb v u = false) ->
  (forall u v w, ltb u w = true -> ltb u v = true \/ ltb v w = true) ->
  0 <= R -> raster_of [a0; a1] [p0; p1] arr f ->
  2 * R + 1 <= smallest_block a0 p0 -> 2 * R + 1 <= smallest_block a1 p1 ->
  exists out g,
    focal (fun k => focal_maximum_functor no_data nd k ltb zero) (gmake (2 * R + 1) (2 * R + 1) weight) junk ojunk hp arr = Ok out /\
    raster_of [a0; a1] [p0; p1] out g /\
    forall r c,
      let l := focal_values R (fun dr dc => negb (weight (R + dr) (R + dc) =? 0)) (fun v => negb (no_data v))
                 (padded a0 a1 (border_of hp) (fun r c => f [r; c])) r c in
      (l = [] -> g [r; c] = nd) /\ (l <> [] -> largest_of ltb l (g [r; c])).
Proof.
  intros E ltb zero no_data nd w R junk ojunk hp a0 a1 p0 p1 arr f Ha Hc HR H H0 H1.
  apply (focal_lift (fun k => focal_maximum_functor no_data nd k ltb zero) w nd
    (fun m v => let l := sel R w (fun v => negb (no_data v)) m in (l = [] -> v = nd) /\ (l <> [] -> largest_of ltb l v))) with (R := R) (junk := junk) (ojunk := ojunk) (hp := hp) in H; try assumption.
  - destruct H as [out [g [E1 [E2 E3]]]]. exists out, g. split; [exact E1|]. split; [exact E2|]. intros r c.
    rewrite <- focal_values_at. apply E3.
  - intros m. unfold focal_maximum_functor. rewrite extreme_functor_ok by assumption. destruct (sel R w _ m); eexists; (split; [reflexivity|]); split; intros; try congruence. now apply fold_max.
Qed.

Lemma c19_diversity :
  forall (t : itype) no_data nd (weight : Z -> Z -> Z) R junk ojunk hp a0 a1 p0 p1 arr f,
  0 <= R -> raster_of [a0; a1] [p0; p1] arr f ->
  2 * R + 1 <= smallest_block a0 p0 -> 2 * R + 1 <= smallest_block a1 p1 ->
  exists out g,
    focal (fun k => focal_diversity_functor t no_data nd k) (gmake (2 * R + 1) (2 * R + 1) weight) junk ojunk hp arr = Ok out /\
    raster_of [a0; a1] [p0; p1] out g /\
    forall r c,
      let l := focal_values R (fun dr dc => negb (weight (R + dr) (R + dc) =? 0)) (fun v => negb (no_data v))
                 (padded a0 a1 (border_of hp) (fun r c => f [r; c])) r c in
      (l = [] -> g [r; c] = nd) /\ (l <> [] -> g [r; c] = wrap t (Z.of_nat (length (nodup Z.eq_dec l)))).
Proof.
  intros t no_data nd w R junk ojunk hp a0 a1 p0 p1 arr f HR H H0 H1.
  apply (focal_lift (fun k => focal_diversity_functor t no_data nd k) w nd
    (fun m v => let l := sel R w (fun v => negb (no_data v)) m in (l = [] -> v = nd) /\ (l <> [] -> v = wrap t (Z.of_nat (length (nodup Z.eq_dec l)))))) with (R := R) (junk := junk) (ojunk := ojunk) (hp := hp) in H; try assumption.
  - destruct H as [out [g [E1 [E2 E3]]]]. exists out, g. split; [exact E1|]. split; [exact E2|]. intros r c.
    rewrite <- focal_values_at. apply E3.
  - intros m. rewrite diversity_functor_ok by assumption. destruct (sel R w _ m); eexists; (split; [reflexivity|]); split; intros; congruence.
Qed.

Lemma c19_majority :
  forall  no_data nd (weight : Z -> Z -> Z) R junk ojunk hp a0 a1 p0 p1 arr f,
  0 <= R -> raster_of [a0; a1] [p0; p1] arr f ->
  2 * R + 1 <= smallest_block a0 p0 -> 2 * R + 1 <= smallest_block a1 p1 ->
  exists out g,
    focal (fun k => focal_majority_functor no_data nd k) (gmake (2 * R + 1) (2 * R + 1) weight) junk ojunk hp arr = Ok out /\
    raster_of [a0; a1] [p0; p1] out g /\
    forall r c,
      let l := focal_values R (fun dr dc => negb (weight (R + dr) (R + dc) =? 0)) (fun v => negb (no_data v))
                 (padded a0 a1 (border_of hp) (fun r c => f [r; c])) r c in
      (l = [] -> g [r; c] = nd) /\ (l <> [] -> smallest_majority_of l (g [r; c])).
Proof.
  intros  no_data nd w R junk ojunk hp a0 a1 p0 p1 arr f HR H H0 H1.
  apply (focal_lift (fun k => focal_majority_functor no_data nd k) w nd
    (fun m v => let l := sel R w (fun v => negb (no_data v)) m in (l = [] -> v = nd) /\ (l <> [] -> smallest_majority_of l v))) with (R := R) (junk := junk) (ojunk := ojunk) (hp := hp) in H; try assumption.
  - destruct H as [out [g [E1 [E2 E3]]]]. exists out, g. split; [exact E1|]. split; [exact E2|]. intros r c.
    rewrite <- focal_values_at. apply E3.
  - intros m. apply majority_functor_ok. assumption.
Qed.

Lemma c19_high_pass :
  forall (E : Type) (zero : E) (plus : E -> E -> E) (combine : E -> Z -> E -> E) no_data nd (weight : Z -> Z -> Z) R junk ojunk hp a0 a1 p0 p1 arr f,
  0 <= R -> raster_of [a0; a1] [p0; p1] arr f ->
  2 * R + 1 <= smallest_block a0 p0 -> 2 * R + 1 <= smallest_block a1 p1 ->
  exists out g,
    focal (fun k => focal_high_pass_functor no_data nd k zero plus combine) (gmake (2 * R + 1) (2 * R + 1) weight) junk ojunk hp arr = Ok out /\
    raster_of [a0; a1] [p0; p1] out g /\
    forall r c,
      let raster := padded a0 a1 (border_of hp) (fun r c => f [r; c]) in
      let neighbours := focal_values R (fun dr dc => negb ((dr =? 0) && (dc =? 0)) && negb (weight (R + dr) (R + dc) =? 0))
                          (fun v => negb (no_data v)) raster r c in
      (neighbours = [] -> g [r; c] = nd) /\
      (neighbours <> [] -> g [r; c] = combine (raster r c) (Z.of_nat (length neighbours)) (fold_left plus neighbours zero)).
Proof.
  intros E zero plus combine no_data nd w R junk ojunk hp a0 a1 p0 p1 arr f HR H H0 H1.
  apply (focal_lift (fun k => focal_high_pass_functor no_data nd k zero plus combine) w nd
    (fun m v => let l := sel_others R w (fun v => negb (no_data v)) m in (l = [] -> v = nd) /\
       (l <> [] -> v = combine (m R R) (Z.of_nat (length l)) (fold_left plus l zero)))) with (R := R) (junk := junk) (ojunk := ojunk) (hp := hp) in H; try assumption.
  - destruct H as [out [g [E1 [E2 E3]]]]. exists out, g. split; [exact E1|]. split; [exact E2|]. intros r c raster neighbours.
    specialize (E3 r c). cbv zeta in E3. unfold sel_others in E3. rewrite focal_values_at in E3.
    replace (padded a0 a1 (border_of hp) (fun r c => f [r; c]) (r - R + R) (c - R + R)) with (raster r c) in E3 by (unfold raster; f_equal; lia).
    assert (EN : forall v, focal_values R (fun dr dc => negb ((if (R + dr =? R) && (R + dc =? R) then 0 else w (R + dr) (R + dc)) =? 0)) v raster r c =
      focal_values R (fun dr dc => negb ((dr =? 0) && (dc =? 0)) && negb (w (R + dr) (R + dc) =? 0)) v raster r c).
    { intros v. unfold focal_values. do 2 f_equal. apply filter_ext. intros [dr dc]. cbn [fst snd].
      replace (R + dr =? R) with (dr =? 0) by lia. replace (R + dc =? R) with (dc =? 0) by lia.
      destruct ((dr =? 0) && (dc =? 0)); reflexivity. }
    rewrite EN in E3. exact E3.
  - intros m. rewrite high_pass_functor_ok by assumption. destruct (sel_others R w _ m); eexists; (split; [reflexivity|]); split; intros; congruence.
Qed.

Lemma c19_convolve :
  forall (E W : Type) (zero : E) (plus : E -> E -> E) (times : W -> E -> E) no_data nd (weight : Z -> Z -> W) R junk ojunk hp a0 a1 p0 p1 arr f,
  0 <= R -> raster_of [a0; a1] [p0; p1] arr f ->
  2 * R + 1 <= smallest_block a0 p0 -> 2 * R + 1 <= smallest_block a1 p1 ->
  exists out g,
    focal (fun k => convolve_functor no_data nd k zero plus times) (gmake (2 * R + 1) (2 * R + 1) weight) junk ojunk hp arr = Ok out /\
    raster_of [a0; a1] [p0; p1] out g /\
    forall r c,
      let raster := padded a0 a1 (border_of hp) (fun r c => f [r; c]) in
      let valid := filter (fun d => negb (no_data (raster (r + fst d) (c + snd d)))) (offsets R) in
      (valid = [] -> g [r; c] = nd) /\
      (valid <> [] -> g [r; c] =
         fold_left plus (map (fun d => times (weight (R + fst d) (R + snd d)) (raster (r + fst d) (c + snd d))) valid) zero).
Proof.
  intros E W zero plus times no_data nd w R junk ojunk hp a0 a1 p0 p1 arr f HR H H0 H1.
  apply (focal_lift (fun k => convolve_functor no_data nd k zero plus times) w nd
    (fun m v => let l := filter (fun rc => negb (no_data (m (fst rc) (snd rc)))) (cells2 0 (2 * R + 1) 0 (2 * R + 1)) in (l = [] -> v = nd) /\
       (l <> [] -> v = fold_left plus (map (fun rc => times (w (fst rc) (snd rc)) (m (fst rc) (snd rc))) l) zero))) with (R := R) (junk := junk) (ojunk := ojunk) (hp := hp) in H; try assumption.
  - destruct H as [out [g [E1 [E2 E3]]]]. exists out, g. split; [exact E1|]. split; [exact E2|]. intros r c raster valid.
    specialize (E3 r c). cbv zeta in E3. fold raster in E3.
    set (l := filter _ (cells2 0 (2 * R + 1) 0 (2 * R + 1))) in E3.
    assert (EV : valid = map (fun rc => (- R + fst rc, - R + snd rc)) l).
    { unfold valid, l. change (offsets R) with (cells2 (- R) (2 * R + 1) (- R) (2 * R + 1)). rewrite cells2_shift, filter_map_comm. f_equal.
      apply filter_ext. intros [i j]. cbn [fst snd]. do 3 f_equal; lia. }
    rewrite EV. split.
    + intros En. apply (proj1 E3). destruct l; [reflexivity|discriminate].
    + intros En. rewrite (proj2 E3) by (intros X; apply En; rewrite X; reflexivity). rewrite map_map. f_equal. apply map_ext.
      intros [i j]. cbn [fst snd]. f_equal; f_equal; lia.
  - intros m. rewrite convolve_functor_ok by assumption. destruct (filter _ _); eexists; (split; [reflexivity|]); split; intros; congruence.
Qed.

Lemma c39 :
  forall (W : Type) (zero value : W) R, 0 <= R ->
  exists k, circle_kernel zero R value = Ok k /\
    kernel_radius k = R /\ kernel_size k = 2 * R + 1 /\ g0 k = 2 * R + 1 /\ g1 k = 2 * R + 1 /\
    kernel_radius (box_kernel R value) = R /\ kernel_size (box_kernel R value) = 2 * R + 1 /\
    forall dr dc, - R <= dr <= R -> - R <= dc <= R ->
      gget (box_kernel R value) (R + dr) (R + dc) = Ok value /\
      (dr * dr + dc * dc <= R * R -> gget k (R + dr) (R + dc) = Ok value) /\
      (R * R < dr * dr + dc * dc -> gget k (R + dr) (R + dc) = Ok zero).
Proof.
  intros W zero value R HR. eexists. split; [now apply circle_ok|]. unfold kernel_size, box_kernel. rewrite !radius_make.
  repeat split.
  - rewrite gget_make by lia. reflexivity.
  - intros Hd. rewrite gget_make by lia. replace (R + dr - R) with dr by lia. replace (R + dc - R) with dc by lia.
    replace (dr * dr + dc * dc <=? R * R) with true by lia. reflexivity.
  - intros Hd. rewrite gget_make by lia. replace (R + dr - R) with dr by lia. replace (R + dc - R) with dc by lia.
    replace (dr * dr + dc * dc <=? R * R) with false by lia. reflexivity.
Qed.

Lemma c40 :
  let plus (u v : option Z) := match u, v with Some x, Some y => Some (x + y) | _, _ => None end in
  let divide (u : option Z) (n : Z) := option_map (fun x => x / n) u in
  let no_data (u : option Z) := match u with None => true | _ => false end in
  let f (x : list Z) := if (nth 0 x 0 =? 1) && (nth 1 x 0 =? 1) then None else Some 8 in
  exists out g,
    raster_of [3; 3] [3; 3] (raster_array [3; 3] [3; 3] f) f /\ f [1; 1] = None /\
    focal (fun k => focal_mean_functor no_data None k (Some 0) plus divide) (box_kernel 1 1)
      (fun _ => None) (fun _ => None) (constant_halo None) (raster_array [3; 3] [3; 3] f) = Ok out /\
    raster_of [3; 3] [3; 3] out g /\ g [1; 1] = Some 8.
Proof.
  cbv zeta. set (f := fun x : list Z => if (nth 0 x 0 =? 1) && (nth 1 x 0 =? 1) then None else Some 8).
  assert (HR : raster_of [3; 3] [3; 3] (raster_array [3; 3] [3; 3] f) f).
  { apply raster_array_ok; [discriminate|]. repeat constructor; vm_compute; congruence. }
  pose proof (c19_mean (option Z) (Some 0) (fun u v => match u, v with Some x, Some y => Some (x + y) | _, _ => None end)
    (fun u n => option_map (fun x => x / n) u) (fun u => match u with None => true | _ => false end) None (fun _ _ => 1) 1
    (fun _ => None) (fun _ => None) (constant_halo None) 3 3 3 3 (raster_array [3; 3] [3; 3] f) f) as T.
  destruct T as [out [g [E1 [E2 E3]]]]; try assumption; try lia; try (vm_compute; congruence).
  exists out, g. split; [exact HR|]. split; [reflexivity|]. split; [exact E1|]. split; [exact E2|].
  destruct (E3 1 1) as [_ E]. rewrite E; [vm_compute; reflexivity|]. vm_compute. congruence.
Qed.
