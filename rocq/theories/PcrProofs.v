From Coq Require Import Lia.
From Verif Require Import Common CommonProofs CoreSpec DecompSpec ArraySpec IndexModel DecompModel DecompProofs DecompProofs2 DecompProofs3 DecompProofs4
  ArrayModel ArrayRep ArrayProofs LocalModel LocalSpec LocalProofs LocalProofs2 PcrModel PcrSpec.

Lemma sequence_oks {A} (l : list A) : sequence (map Ok l) = Ok l.
Proof. induction l as [|x l IH]; [reflexivity|]. cbn [map sequence]. rewrite IH. reflexivity. Qed.

Section Proofs.
Context {F P : Type} (fo : float_ops F P) (junk : forall t, Z -> @elt F t).

Lemma arg_as_same t x : @arg_as F P t (Arg t x) = Some x.
Proof. destruct t; reflexivity. Qed.

Lemma arg_as_other t s x : t <> s -> @arg_as F P t (Arg s x) = None.
Proof. intros H. unfold arg_as. destruct (dtype_eq_dec s t); [congruence|reflexivity]. Qed.

Lemma create_array_ok cfg a p t (v : @elt F t) : clone cfg a p ->
  exists x, create_array cfg v = Ok x /\ raster_of a p x (fun _ => v).
Proof.
  intros [Ea [Ep [Hl [Hf [HL Hb]]]]]. unfold create_array. rewrite Ea, Ep. set (L := cfg_localities cfg) in *.
  assert (Hne : a <> []) by (destruct a; [discriminate Hl|discriminate]).
  assert (Hacc : accepted L a p).
  { apply to_accepted; [|exact Hf|lia]. split; [exact Hne|]. rewrite Hl. repeat split; [lia|lia|exact Hb]. }
  rewrite partition_shapes_ok by (split; assumption). cbn [obind]. rewrite <- parts_shape_map2.
  set (create := fun (_ : Z) (_ shape : list Z) => repeat v (Z.to_nat (nr_elements shape))).
  destruct (instantiate_individually_ok L create a p Hacc) as [visits [parts [Ev [Er [Hlen Hh]]]]].
  destruct (accepted_visits L a p Hacc) as [w [Hv [_ [_ Hin]]]]. rewrite Ev in Hv. assert (w = visits) by congruence. subst w.
  rewrite Er. cbn [obind].
  destruct (assemble a p (map Ok parts) (fun _ => v) Hne Hf) as [l [E1 R]].
  - rewrite map_length, nr_parts_prodZ. assumption.
  - intros c Hc. assert (Hc' := Hc). rewrite parts_shape_map2 in Hc'. apply Hin in Hc'. apply in_map_iff in Hc'.
    destruct Hc' as [[k c'] [Ek Hvv]]. cbn in Ek. subst c'. specialize (Hh _ Hvv). cbn [snd expected] in Hh.
    assert (Epx : part_extent a p c = exts a p c) by now apply part_extent_exts.
    assert (Eo : part_offset p c = map2 Z.mul c p) by (apply part_offset_map2).
    pose proof (part_extent_pos a p c Hf Hc) as Pe.
    eexists. split; [|split; [|split]].
    + rewrite rowmaj_linear' by assumption. rewrite parts_shape_map2, nth_error_map, Hh. cbn [option_map]. reflexivity.
    + cbn [pl_offset]. congruence.
    + cbn [pl_shape]. congruence.
    + cbn [pl_data]. unfold create. rewrite <- Epx.
      assert (Hep : part_extent a p c <> []) by (apply part_extent_ne; assumption).
      rewrite nr_elements_volume by assumption. pose proof (volume_pos _ Pe) as Vp. split.
      * rewrite repeat_length. lia.
      * intros x Hx. apply rowmaj_range in Hx. apply nth_error_repeat. lia.
  - rewrite sequence_oks in E1. injection E1 as <-. eexists. split; [reflexivity|]. exact R.
Qed.

Lemma receive_ok a p t e f : stands_for fo a p t e f -> exists x, receive fo t e = Ok x /\ warg_holds a p x f.
Proof.
  intros [x g R|v g H|n v g H1 H2]; unfold receive.
  - rewrite arg_as_same. eauto.
  - rewrite arg_as_same. eauto.
  - rewrite H1. cbn [obind]. eauto.
Qed.

Lemma holds_stands a p t (x : where_arg (elt t)) f : warg_holds a p x f -> stands_for fo a p t (@Arg F P t x) f.
Proof. destruct x; intros H; [now apply an_array|now apply a_scalar]. Qed.

Lemma harmonize_ok a p t e1 e2 f1 f2 : stands_for fo a p t e1 f1 -> stands_for fo a p t e2 f2 -> typed t e1 e2 ->
  exists x1 x2, harmonize_types fo e1 e2 = Ok (PairOfArgs t x1 x2) /\ warg_holds a p x1 f1 /\ warg_holds a p x2 f2.
Proof.
  intros H1 H2 T. unfold harmonize_types.
  destruct H1 as [x f R|v f H|n v f L H]; destruct (receive_ok a p t e2 f2 H2) as [x2 [E2 W2]].
  - destruct H2 as [y g R2|w g K|m w g L2 K]; cbn [obind].
    + rewrite arg_as_same. eauto 6.
    + rewrite arg_as_same. eauto 6.
    + rewrite E2. cbn [obind]. eauto 6.
  - destruct H2 as [y g R2|w g K|m w g L2 K]; cbn [obind].
    + rewrite arg_as_same. exists (WScalar v), (WArray y). auto.
    + rewrite arg_as_same. exists (WScalar v), (WScalar w). auto.
    + rewrite E2. cbn [obind]. exists (WScalar v), x2. auto.
  - destruct H2 as [y g R2|w g K|m w g L2 K]; cbn [obind].
    + unfold receive. rewrite L. cbn [obind]. exists (WScalar v), (WArray y). auto.
    + unfold receive. rewrite L. cbn [obind]. exists (WScalar v), (WScalar w). auto.
    + cbn in T. rewrite T. cbn [obind]. rewrite L. cbn [obind]. rewrite E2. cbn [obind]. exists (WScalar v), x2. auto.
Qed.

Lemma non_spatial_ok cfg a p t v : clone cfg a p ->
  exists x, non_spatial_to_spatial fo cfg (Arg t (WScalar v)) = Ok (Arg t (WArray x)) /\ raster_of a p x (fun _ => v).
Proof.
  intros C. unfold non_spatial_to_spatial. cbn [obind]. destruct (create_array_ok cfg a p t v C) as [x [E R]].
  rewrite E. cbn [obind]. eauto.
Qed.

Context (PF : proper_floats fo).

Lemma mark_missing t : missing fo t (mark fo t).
Proof. destruct t; [reflexivity|reflexivity|apply (pf_mark fo PF)]. Qed.

Lemma missing_dec t v : {missing fo t v} + {no_data fo t v = false}.
Proof. unfold missing. destruct (no_data fo t v); auto. Qed.

Lemma not_missing t v : ~ missing fo t v <-> no_data fo t v = false.
Proof. unfold missing. destruct (no_data fo t v); split; congruence. Qed.

(** ** where *)
Lemma where3_ok a p t (c : parray Z) fc x y f1 f2 e :
  raster_of a p c fc -> warg_holds a p x f1 -> receive fo t e = Ok y -> warg_holds a p y f2 ->
  (match x, e with WScalar _, Value _ => False | _, _ => True end) ->
  exists out g, py_where3 fo junk (Arg U8 (WArray c)) x e = Ok (Arg t (WArray out)) /\ raster_of a p out g /\
    forall k, in_shape a k -> chosen fo t fc f1 f2 g k.
Proof.
  intros Rc H1 E H2 N. unfold py_where3. cbn [condition_array obind].
  assert (Ex : (match x, e with WScalar _, Value _ => Throw | _, _ => receive fo t e end) = Ok y).
  { destruct x, e; try exact E. destruct N. }
  rewrite Ex. cbn [obind].
  destruct (c29 (elt t) (default_where fo t) (mark fo t) (junk t) a p c x y fc f1 f2) as [out [g [E1 [R G]]]].
  - reflexivity.
  - destruct x; auto.
  - exact Rc.
  - exact H1.
  - exact H2.
  - rewrite E1. cbn [obind]. exists out, g. split; [reflexivity|]. split; [exact R|]. intros k Hk.
    destruct (G k Hk) as [G1 [G2 [G3 [G4 G5]]]]. cbn [default_where w_no_data1 w_no_data2 w_no_data3] in *.
    repeat split.
    + intros M. rewrite (G1 M). apply mark_missing.
    + intros M. apply not_missing in H. rewrite (G2 H H0 M). apply mark_missing.
    + intros M. apply not_missing in H, M. exact (G3 H H0 M).
    + intros M. apply not_missing in H. rewrite (G4 H H0 M). apply mark_missing.
    + intros M. apply not_missing in H, M. exact (G5 H H0 M).
Qed.

(** ** Comparison *)
Lemma reflected_ok op t (v w : elt t) : compare_elements fo (reflected op) t v w = compare_elements fo op t w v.
Proof.
  destruct op, t; cbn [reflected compare_elements].
  - rewrite Z.geb_leb. reflexivity.
  - rewrite Z.geb_leb. reflexivity.
  - apply (pf_le_ge fo PF).
  - apply Z.geb_leb.
  - apply Z.geb_leb.
  - symmetry. apply (pf_le_ge fo PF).
  - now rewrite Z.eqb_sym.
  - now rewrite Z.eqb_sym.
  - rewrite !(pf_ne fo PF), andb_comm. reflexivity.
Qed.

Definition compared op t (f g : list Z -> @elt F t) (h : list Z -> Z) (c : list Z) : Prop :=
  (missing fo t (f c) \/ missing fo t (g c) -> missing fo U8 (h c)) /\
  (~ missing fo t (f c) -> ~ missing fo t (g c) -> h c = Z.b2z (compare_elements fo op t (f c) (g c))).

Lemma compare_ok op a p t (x y : where_arg (elt t)) f g : warg_holds a p x f -> warg_holds a p y g ->
  exists r h, compare fo junk op x y = Ok r /\ warg_holds a p r h /\ (forall c, in_shape a c -> compared op t f g h c) /\
    match x, y with WScalar _, WScalar _ => exists v, r = WScalar v | _, _ => exists z, r = WArray z end.
Proof.
  intros Hx Hy. unfold compare. destruct x as [x|x]; destruct y as [y|y]; cbn [warg_holds] in Hx, Hy.
  - destruct (c13_binary (elt t) (elt t) Z (compare_policies fo t) (compare_functor fo op t) (mark fo U8) (junk U8) a p x y f g) as [out [h [E [R G]]]]; auto.
    rewrite E. cbn [obind]. exists (WArray out), h. split; [reflexivity|]. split; [exact R|]. split; [|eauto].
    intros c Hc. destruct (G c Hc) as [G1 G2]. cbn [compare_policies b_no_data1 b_no_data2 b_domain b_range] in *. split.
    + intros M. rewrite G2; [reflexivity|]. destruct M; auto.
    + intros M1 M2. apply not_missing in M1, M2. apply G1; auto.
  - destruct (c13_scalar2 (elt t) (elt t) Z (compare_policies fo t) (compare_functor fo op t) (mark fo U8) (junk U8) a p x y f) as [out [h [E [R G]]]]; auto.
    rewrite E. cbn [obind]. exists (WArray out), h. split; [reflexivity|]. split; [exact R|]. split; [|eauto].
    intros c Hc. destruct (G c Hc) as [G1 G2]. cbn [compare_policies b_no_data1 b_no_data2 b_domain b_range] in *. unfold compared. rewrite (Hy c). split.
    + intros M. rewrite G2; [reflexivity|]. destruct M; auto.
    + intros M1 M2. apply not_missing in M1, M2. apply G1; auto.
  - destruct (c13_scalar2 (elt t) (elt t) Z (compare_policies fo t) (compare_functor fo (reflected op) t) (mark fo U8) (junk U8) a p y x g) as [out [h [E [R G]]]]; auto.
    rewrite E. cbn [obind]. exists (WArray out), h. split; [reflexivity|]. split; [exact R|]. split; [|eauto].
    intros c Hc. destruct (G c Hc) as [G1 G2]. cbn [compare_policies b_no_data1 b_no_data2 b_domain b_range] in *. unfold compared. rewrite (Hx c). split.
    + intros M. rewrite G2; [reflexivity|]. destruct M; auto.
    + intros M1 M2. apply not_missing in M1, M2. rewrite G1; auto. unfold compare_functor. now rewrite reflected_ok.
  - eexists _, (fun _ => _). split; [reflexivity|]. split; [intros c; reflexivity|]. split; [|eauto].
    intros c Hc. unfold compared, binary_scalar. rewrite (Hx c), (Hy c). cbn [compare_policies b_no_data1 b_no_data2 b_domain b_range b_mark]. split.
    + intros M. unfold missing in M. replace (no_data fo t x || no_data fo t y || negb true) with true; [reflexivity|].
      symmetry. destruct M as [->| ->]; rewrite ?orb_true_r; reflexivity.
    + intros M1 M2. apply not_missing in M1, M2. rewrite M1, M2. reflexivity.
Qed.

(** ** max, min *)
Definition selected op t (f1 f2 g : list Z -> @elt F t) (c : list Z) : Prop :=
  (missing fo t (f1 c) \/ missing fo t (f2 c) -> missing fo t (g c)) /\
  (~ missing fo t (f1 c) -> ~ missing fo t (f2 c) -> g c = if compare_elements fo op t (f1 c) (f2 c) then f1 c else f2 c).

Lemma select2_ok op cfg a p t e1 e2 f1 f2 : clone cfg a p ->
  stands_for fo a p t e1 f1 -> stands_for fo a p t e2 f2 -> typed t e1 e2 ->
  exists out g, select2 fo junk op cfg e1 e2 = Ok (Arg t (WArray out)) /\ raster_of a p out g /\
    forall c, in_shape a c -> selected op t f1 f2 g c.
Proof.
  intros C H1 H2 T. unfold select2. destruct (harmonize_ok a p t e1 e2 f1 f2 H1 H2 T) as [x1 [x2 [E [W1 W2]]]].
  rewrite E. cbn [obind]. destruct (compare_ok op a p t x1 x2 f1 f2 W1 W2) as [r [h [E2 [Wr [Hh Hr]]]]]. rewrite E2. cbn [obind].
  assert (Q : exists z k, (match r with WScalar _ => non_spatial_to_spatial fo cfg (Arg U8 r) | WArray _ => Ok (Arg U8 r) end) = Ok (Arg U8 (WArray z)) /\
    raster_of a p z k /\ forall c, in_shape a c -> compared op t f1 f2 k c).
  { destruct r as [z|v].
    - exists z, h. auto.
    - destruct (non_spatial_ok cfg a p U8 v C) as [z [E3 R3]]. exists z, (fun _ => v). split; [exact E3|]. split; [exact R3|].
      intros c Hc. specialize (Hh c Hc). unfold compared in *. rewrite (Wr c) in Hh. exact Hh. }
  destruct Q as [z [k [E3 [R3 Hk]]]]. rewrite E3. cbn [obind].
  destruct (where3_ok a p t z k x1 x2 f1 f2 (Arg t x2) R3 W1) as [out [g [E4 [R4 G]]]].
  - unfold receive. rewrite arg_as_same. reflexivity.
  - exact W2.
  - destruct x1; exact I.
  - exists out, g. split; [exact E4|]. split; [exact R4|]. intros c Hc. destruct (G c Hc) as [G1 [G2 G3]]. destruct (Hk c Hc) as [K1 K2]. split.
    + intros M. auto.
    + intros M1 M2. specialize (K2 M1 M2).
      destruct (compare_elements fo op t (f1 c) (f2 c)) eqn:Q; cbn [Z.b2z] in K2.
      * apply G2; [unfold missing; rewrite K2; cbn; discriminate|lia|exact M1].
      * apply G3; [unfold missing; rewrite K2; cbn; discriminate|exact K2|exact M2].
Qed.

Definition related op (t : dtype) : @elt F t -> @elt F t -> Prop := fun v w => compare_elements fo op t v w = true.

Lemma related_total op t v w : op <> NotEqual -> ~ missing fo t v -> ~ missing fo t w -> compare_elements fo op t v w = false -> related op t w v.
Proof.
  unfold related. intros N Hv Hw. apply not_missing in Hv, Hw.
  destruct op, t; cbn [compare_elements no_data] in *; try congruence; intros H; try (rewrite ?Z.geb_leb in *; lia).
  - exact (pf_total fo PF v w Hv Hw H).
  - rewrite (pf_le_ge fo PF) in *. exact (pf_total fo PF w v Hw Hv H).
Qed.
Lemma related_refl op t v : op <> NotEqual -> ~ missing fo t v -> related op t v v.
Proof.
  unfold related. intros N Hv. apply not_missing in Hv.
  destruct op, t; cbn [compare_elements no_data] in *; try congruence; try (rewrite ?Z.geb_leb in *; lia).
  - exact (pf_refl fo PF v Hv).
  - rewrite (pf_le_ge fo PF). exact (pf_refl fo PF v Hv).
Qed.
Lemma related_trans op t u v w : op <> NotEqual -> related op t u v -> related op t v w -> related op t u w.
Proof.
  unfold related. intros N. destruct op, t; cbn [compare_elements] in *; try congruence; try (rewrite ?Z.geb_leb in *; lia).
  - apply (pf_trans fo PF).
  - rewrite !(pf_le_ge fo PF). intros H1 H2. exact (pf_trans fo PF _ _ _ H2 H1).
Qed.

Lemma extreme2 op t f1 f2 g c : op <> NotEqual -> selected op t f1 f2 g c -> extreme fo (related op) t [f1; f2] c (g c).
Proof.
  intros N [S1 S2]. split.
  - intros [f [[<-|[<-|[]]] M]]; auto.
  - intros H. assert (M1 : ~ missing fo t (f1 c)) by (apply H; cbn; auto). assert (M2 : ~ missing fo t (f2 c)) by (apply H; cbn; auto).
    rewrite (S2 M1 M2). destruct (compare_elements fo op t (f1 c) (f2 c)) eqn:Q; (split; [eexists; split; [|reflexivity]; cbn; auto|]).
    + intros f [<-|[<-|[]]]; [now apply related_refl|exact Q].
    + intros f [<-|[<-|[]]]; [now apply related_total|now apply related_refl].
Qed.

Lemma extreme_cons op t f fs r g c : op <> NotEqual -> fs <> [] -> extreme fo (related op) t fs c (r c) -> selected op t f r g c ->
  extreme fo (related op) t (f :: fs) c (g c).
Proof.
  intros N Ne [R1 R2] [S1 S2]. split.
  - intros [h [[<-|I] M]]; [auto|]. apply S1. right. apply R1. eauto.
  - intros H. assert (M1 : ~ missing fo t (f c)) by (apply H; cbn; auto).
    destruct R2 as [[h [I E]] R2]; [intros; apply H; cbn; auto|].
    assert (M2 : ~ missing fo t (r c)) by (rewrite E; apply H; cbn; auto).
    rewrite (S2 M1 M2). destruct (compare_elements fo op t (f c) (r c)) eqn:Q.
    + split; [exists f; cbn; auto|]. intros k [<-|Ik]; [now apply related_refl|]. eapply related_trans; [exact N|exact Q|auto].
    + split; [exists h; cbn; auto|]. intros k [<-|Ik]; [now apply related_total|auto].
Qed.

Lemma typed_array t e (x : parray (elt t)) : typed t e (@Arg F P t (WArray x)).
Proof. destruct e; exact I. Qed.

Lemma select_ok op cfg a p t e1 e2 f1 f2 : op <> NotEqual -> clone cfg a p ->
  stands_for fo a p t e1 f1 -> stands_for fo a p t e2 f2 -> typed t e1 e2 ->
  forall es fs, Forall2 (stands_for fo a p t) es fs ->
  exists out g, select fo junk op cfg (es ++ [e1; e2]) = Ok (Arg t (WArray out)) /\ raster_of a p out g /\
    forall c, in_shape a c -> extreme fo (related op) t (fs ++ [f1; f2]) c (g c).
Proof.
  intros N C H1 H2 T es fs H. induction H as [|e f es fs He H [out [g [E [R G]]]]].
  - destruct (select2_ok op cfg a p t e1 e2 f1 f2 C H1 H2 T) as [out [g [E [R G]]]]. exists out, g. split.
    + cbn [app select obind]. exact E.
    + split; [exact R|]. intros c Hc. apply extreme2; auto.
  - destruct (select2_ok op cfg a p t e (Arg t (WArray out)) f g C He (an_array fo a p t out g R) (typed_array t e out)) as [out' [g' [E' [R' G']]]].
    exists out', g'. split.
    + cbn [app]. assert (Q : es ++ [e1; e2] <> []) by (destruct es; discriminate).
      destruct (es ++ [e1; e2]) as [|x l] eqn:Ql; [congruence|]. change (select fo junk op cfg (e :: x :: l)) with
        (obind (select fo junk op cfg (x :: l)) (fun r => select2 fo junk op cfg e r)). rewrite E. exact E'.
    + split; [exact R'|]. intros c Hc. cbn [app]. eapply extreme_cons; [exact N|destruct fs; discriminate|apply G; exact Hc|apply G'; exact Hc].
Qed.

(** ** cover *)
Lemma valid_ok a p t (x : parray (elt t)) f : raster_of a p x f ->
  exists out h, py_valid fo junk (WArray x) = Ok (WArray out) /\ raster_of a p out h /\
    forall c, in_shape a c -> (missing fo t (f c) -> h c = 0) /\ (~ missing fo t (f c) -> h c = 1).
Proof.
  intros R. unfold py_valid.
  destruct (c13_unary (elt t) Z (valid_policies fo t) (fun _ => 1) 0 (junk U8) a p x f) as [out [h [E [R' G]]]]; auto.
  rewrite E. cbn [obind]. exists out, h. split; [reflexivity|]. split; [exact R'|]. intros c Hc. destruct (G c Hc) as [G1 G2].
  cbn [valid_policies u_no_data u_domain u_range] in *. split; intros M.
  - apply G2. auto.
  - apply not_missing in M. apply G1; auto.
Qed.

Lemma cover_with_ok a p t (x : parray (elt t)) e f1 f2 : raster_of a p x f1 -> stands_for fo a p t e f2 ->
  exists out g, cover_with fo junk t (WArray x) e = Ok (Arg t (WArray out)) /\ raster_of a p out g /\
    forall c, in_shape a c ->
      (~ missing fo t (f1 c) -> g c = f1 c) /\ (missing fo t (f1 c) -> ~ missing fo t (f2 c) -> g c = f2 c) /\
      (missing fo t (f1 c) -> missing fo t (f2 c) -> missing fo t (g c)).
Proof.
  intros R H. unfold cover_with. destruct (valid_ok a p t x f1 R) as [v [h [E [Rv G]]]]. rewrite E. cbn [obind].
  destruct (receive_ok a p t e f2 H) as [y [E2 W2]].
  destruct (where3_ok a p t v h (WArray x) y f1 f2 e Rv R E2 W2 I) as [out [g [E3 [R3 G3]]]].
  exists out, g. split; [exact E3|]. split; [exact R3|]. intros c Hc. destruct (G c Hc) as [V0 V1]. destruct (G3 c Hc) as [K1 [K2 K3]].
  split; [|split].
  - intros M. apply K2; [unfold missing; rewrite (V1 M); cbn; discriminate|rewrite (V1 M); lia|exact M].
  - intros M M2. apply K3; [unfold missing; rewrite (V0 M); cbn; discriminate|exact (V0 M)|exact M2].
  - intros M M2. apply K3; [unfold missing; rewrite (V0 M); cbn; discriminate|exact (V0 M)|exact M2].
Qed.

Lemma first_valid_snoc t fs f c v w : first_valid fo t fs c v ->
  (~ missing fo t v -> w = v) -> (missing fo t v -> ~ missing fo t (f c) -> w = f c) -> (missing fo t v -> missing fo t (f c) -> missing fo t w) ->
  first_valid fo t (fs ++ [f]) c w.
Proof.
  intros [V1 V2] W1 W2 W3. split.
  - intros before g after E Hb Hg. destruct (exists_last (l := g :: after)) as [l [z El]]; [discriminate|].
    rewrite El, app_assoc in E. apply app_inj_tail in E. destruct E as [E <-]. destruct l as [|g' l].
    + cbn in El. injection El as -> ->. rewrite app_nil_r in E. subst before. apply W2; [|exact Hg]. apply V2. exact Hb.
    + injection El as <- El. assert (v = g c) by (eapply V1; eauto). subst v. apply W1. exact Hg.
  - intros H. apply W3; [apply V2; intros; apply H; apply in_or_app; auto|apply H; apply in_or_app; cbn; auto].
Qed.

Lemma cover_rest a p t : forall es hs, Forall2 (stands_for fo a p t) es hs -> forall (x : parray (elt t)) f fs,
  raster_of a p x f -> (forall c, in_shape a c -> first_valid fo t fs c (f c)) ->
  exists out g, fold_left (fun result e =>
        obind result (fun result => match arg_as t result with Some x => cover_with fo junk t x e | None => Throw end)) es (Ok (Arg t (WArray x))) =
      Ok (Arg t (WArray out)) /\ raster_of a p out g /\ forall c, in_shape a c -> first_valid fo t (fs ++ hs) c (g c).
Proof.
  intros es hs H. induction H as [|e h es hs He H IH]; intros x f fs R G.
  - exists x, f. split; [reflexivity|]. rewrite app_nil_r. auto.
  - destruct (cover_with_ok a p t x e f h R He) as [out [g [E [R2 G2]]]].
    destruct (IH out g (fs ++ [h]) R2) as [out' [g' [E' [R' G']]]].
    + intros c Hc. destruct (G2 c Hc) as [A [B D]]. eapply first_valid_snoc; eauto.
    + exists out', g'. rewrite <- app_assoc in G'. split; [|auto]. cbn [fold_left obind]. rewrite arg_as_same, E. exact E'.
Qed.

Theorem cover_ok cfg a p t e1 e2 es f1 f2 fs : clone cfg a p ->
  stands_for fo a p t e1 f1 -> stands_for fo a p t e2 f2 -> typed t e1 e2 -> Forall2 (stands_for fo a p t) es fs ->
  exists out g, cover fo junk cfg e1 e2 es = Ok (Arg t (WArray out)) /\ raster_of a p out g /\
    forall c, in_shape a c -> first_valid fo t (f1 :: f2 :: fs) c (g c).
Proof.
  intros C H1 H2 T H. unfold cover. destruct (harmonize_ok a p t e1 e2 f1 f2 H1 H2 T) as [x1 [x2 [E [W1 W2]]]].
  rewrite E. cbn [obind].
  assert (Q : exists x, (match x1 with WScalar _ => non_spatial_to_spatial fo cfg (Arg t x1) | WArray _ => Ok (Arg t x1) end) = Ok (Arg t (WArray x)) /\ raster_of a p x f1).
  { destruct x1 as [x|v]; [eauto|]. destruct (non_spatial_ok cfg a p t v C) as [x [E3 R3]]. exists x. split; [exact E3|].
    eapply raster_ext; [|exact R3]. intros c Hc. cbn beta. symmetry. apply W1. }
  destruct Q as [x [Ex Rx]]. rewrite Ex. cbn [obind]. rewrite arg_as_same.
  destruct (cover_with_ok a p t x (Arg t x2) f1 f2 Rx (holds_stands a p t x2 f2 W2)) as [out [g [E2 [R2 G2]]]]. rewrite E2. cbn [obind].
  destruct (cover_rest a p t es fs H out g [f1; f2] R2) as [out' [g' [E' [R' G']]]].
  - intros c Hc. destruct (G2 c Hc) as [A [B D]]. apply (first_valid_snoc t [f1] f2 c (f1 c)); auto.
    split.
    + intros before k after Eq Hb Hk. destruct before as [|b before]; [injection Eq as <- <-; reflexivity|]. destruct before; discriminate.
    + intros M. apply M. cbn. auto.
  - exists out', g'. auto.
Qed.

(** ** ifthen, ifthenelse *)
Lemma condition_ok cfg a p e fc : clone cfg a p -> stands_for fo a p U8 e fc ->
  exists x, spatial_condition fo cfg e = Ok (Arg U8 (WArray x)) /\ raster_of a p x fc.
Proof.
  intros C [x f R|v f H|n v f L H]; unfold spatial_condition.
  - eauto.
  - destruct (non_spatial_ok cfg a p U8 v C) as [x [E R]]. exists x. split; [exact E|]. eapply raster_ext; [|exact R]. intros c _. symmetry. apply H.
  - rewrite L. cbn [obind]. destruct (non_spatial_ok cfg a p U8 v C) as [x [E R]]. exists x. split; [exact E|].
    eapply raster_ext; [|exact R]. intros c _. symmetry. apply H.
Qed.

Lemma scalar_if_value_ok a p t e f : stands_for fo a p t e f -> (forall n, e = Value n -> numpy_scalar_type n = Ok t) ->
  exists x, scalar_if_value fo e = Ok (Arg t x) /\ warg_holds a p x f.
Proof.
  intros [x g R|v g H|n v g L H] T; unfold scalar_if_value.
  - eauto.
  - exists (WScalar v). auto.
  - rewrite (T n eq_refl). cbn [obind]. rewrite L. cbn [obind]. exists (WScalar v). auto.
Qed.

Theorem ifthen_ok cfg a p t ec e fc f : clone cfg a p -> stands_for fo a p U8 ec fc ->
  stands_for fo a p t e f -> (forall n, e = Value n -> numpy_scalar_type n = Ok t) ->
  exists out g, ifthen fo junk cfg ec e = Ok (Arg t (WArray out)) /\ raster_of a p out g /\
    forall c, in_shape a c ->
      (~ missing fo U8 (fc c) -> fc c <> 0 -> ~ missing fo t (f c) -> g c = f c) /\
      (missing fo U8 (fc c) \/ fc c = 0 \/ missing fo t (f c) -> missing fo t (g c)).
Proof.
  intros C Hc H T. unfold ifthen. destruct (condition_ok cfg a p ec fc C Hc) as [z [E1 R1]]. rewrite E1. cbn [obind].
  destruct (scalar_if_value_ok a p t e f H T) as [x [E2 W2]]. rewrite E2. cbn [obind]. unfold py_where2. cbn [condition_array obind].
  destruct x as [x|v]; cbn [warg_holds] in W2.
  - destruct (c29_where2 (elt t) (default_where fo t) (mark fo t) (junk t) a p z x fc f) as [out [g [E [R G]]]]; auto.
    rewrite E. cbn [obind]. exists out, g. split; [reflexivity|]. split; [exact R|]. intros c Hk. destruct (G c Hk) as [G1 G2].
    cbn [default_where w_no_data1 w_no_data2] in *. split.
    + intros M1 N M2. apply not_missing in M1, M2. auto.
    + intros M. rewrite (G2 M). apply mark_missing.
  - destruct (c13_scalar2 Z (elt t) (elt t) (where2_policies (default_where fo t)) (fun _ v => v) (mark fo t) (junk t) a p z v fc) as [out [g [E [R G]]]]; auto.
    rewrite E. cbn [obind]. exists out, g. split; [reflexivity|]. split; [exact R|]. intros c Hk. destruct (G c Hk) as [G1 G2].
    cbn [where2_policies default_where w_no_data1 w_no_data2 b_no_data1 b_no_data2 b_domain b_range] in *. rewrite (W2 c). split.
    + intros M1 N M2. apply not_missing in M1, M2. apply G1; auto. destruct (fc c =? 0) eqn:Q; [apply Z.eqb_eq in Q; congruence|reflexivity].
    + intros M. rewrite G2; [apply mark_missing|]. destruct M as [M|[M|M]]; auto. right. right. left. rewrite M. reflexivity.
Qed.

Theorem ifthenelse_ok cfg a p t ec e1 e2 fc f1 f2 : clone cfg a p -> stands_for fo a p U8 ec fc ->
  stands_for fo a p t e1 f1 -> (forall n, e1 = Value n -> numpy_scalar_type n = Ok t) ->
  stands_for fo a p t e2 f2 -> (forall n, e2 = Value n -> numpy_scalar_type n = Ok t) ->
  exists out g, ifthenelse fo junk cfg ec e1 e2 = Ok (Arg t (WArray out)) /\ raster_of a p out g /\
    forall c, in_shape a c -> chosen fo t fc f1 f2 g c.
Proof.
  intros C Hc H1 T1 H2 T2. unfold ifthenelse. destruct (condition_ok cfg a p ec fc C Hc) as [z [E1 R1]]. rewrite E1. cbn [obind].
  destruct (scalar_if_value_ok a p t e1 f1 H1 T1) as [x [E2 W2]]. rewrite E2. cbn [obind].
  destruct (scalar_if_value_ok a p t e2 f2 H2 T2) as [y [E3 W3]]. rewrite E3. cbn [obind].
  apply (where3_ok a p t z fc x y f1 f2 (Arg t y)); auto.
  - unfold receive. now rewrite arg_as_same.
  - destruct x; exact I.
Qed.

(** ** boolean, defined *)
Lemma is_zero_compare t v : is_zero fo t v <-> compare_elements fo NotEqual t v (of_Z fo t 0) = false.
Proof. destruct t; cbn [is_zero compare_elements of_Z]; try reflexivity; rewrite negb_false_iff, Z.eqb_eq; reflexivity. Qed.

Lemma zero_valid t : ~ missing fo t (of_Z fo t 0).
Proof. apply not_missing. destruct t; [reflexivity|reflexivity|apply (pf_zero fo PF)]. Qed.

Lemma compared_boolean t f h c : compared NotEqual t f (fun _ => of_Z fo t 0) h c -> truth fo t (f c) (h c).
Proof.
  intros [C1 C2]. split; [auto|]. split; intros M N; rewrite is_zero_compare in N; rewrite (C2 M (zero_valid t)).
  - rewrite N. reflexivity.
  - destruct (compare_elements fo NotEqual t (f c) (of_Z fo t 0)); [reflexivity|congruence].
Qed.

Lemma pow_bounds first : int_type first -> 2 <= 2 ^ (bits first - 1) /\ 4 <= 2 ^ bits first.
Proof.
  unfold int_type. intros IT. split.
  - change 2 with (2 ^ 1) at 1. apply Z.pow_le_mono_r; lia.
  - change 4 with (2 ^ 2). apply Z.pow_le_mono_r; lia.
Qed.
Lemma first_no_data first : int_type first -> no_data_value first <> 0 /\ no_data_value first <> 1.
Proof.
  intros IT. destruct (pow_bounds first IT) as [B1 B2]. unfold no_data_value, imin, imax.
  generalize dependent (2 ^ (bits first - 1)). generalize dependent (2 ^ bits first). intros. destruct (signed first); lia.
Qed.
Lemma first_representable first g : int_type first -> g = no_data_value first \/ g = 1 \/ g = 0 -> representable first g.
Proof.
  intros IT. destruct (pow_bounds first IT) as [B1 B2]. unfold representable, no_data_value, imin, imax.
  generalize dependent (2 ^ (bits first - 1)). generalize dependent (2 ^ bits first). intros ? ? ? ? [->|[->| ->]]; destruct (signed first); lia.
Qed.
Lemma u8_type : int_type u8.
Proof. unfold int_type. cbn. lia. Qed.
Lemma u8_bit g : g = 0 \/ g = 1 -> representable u8 g /\ ~ is_no_data u8 g.
Proof. unfold representable, is_no_data. cbn. lia. Qed.

Lemma boolean_array_eq first ff t (x : parray (elt t)) z w out : t <> U8 ->
  compare fo junk NotEqual (WArray x) (WScalar (of_Z fo t 0)) = Ok (WArray z) ->
  where3 (WherePolicies (no_data fo U8) (fun v => v =? no_data_value first) (fun v => v =? no_data_value first) (fun _ => no_data_value first))
    ff z (WScalar 1) (WScalar 0) = Ok w ->
  unary_local_operation (cast_policies first u8) (cast_functor u8) (junk U8) w = Ok out ->
  boolean fo junk first ff (Arg t (WArray x)) = Ok (Arg U8 (WArray out)).
Proof.
  intros Nt E1 E2 E3. unfold boolean. destruct t; [congruence|..]; rewrite E1; unfold obind at 1, condition_array; unfold obind at 1; unfold obind at 1;
    rewrite E2; unfold obind at 1; rewrite E3; reflexivity.
Qed.

Lemma boolean_array_ok first ff a p t (x : parray (elt t)) f : int_type first -> t <> U8 -> raster_of a p x f ->
  exists out h, boolean fo junk first ff (Arg t (WArray x)) = Ok (Arg U8 (WArray out)) /\ raster_of a p out h /\
    forall c, in_shape a c -> truth fo t (f c) (h c).
Proof.
  intros IT Nt R.
  destruct (compare_ok NotEqual a p t (WArray x) (WScalar (of_Z fo t 0)) f (fun _ => of_Z fo t 0) R (fun _ => eq_refl)) as [r [k [E [Wr [G [z ->]]]]]].
  cbn [warg_holds] in Wr.
  destruct (c29 Z (WherePolicies (no_data fo U8) (fun v => v =? no_data_value first) (fun v => v =? no_data_value first) (fun _ => no_data_value first))
     (no_data_value first) ff a p z (WScalar 1) (WScalar 0) k (fun _ => 1) (fun _ => 0)) as [w [g [E2 [R2 G2]]]];
    [reflexivity|reflexivity|exact Wr|intros c; reflexivity|intros c; reflexivity|].
  destruct (first_no_data first IT) as [ND0 ND1].
  assert (Q : forall c, in_shape a c -> (no_data fo U8 (k c) = true -> g c = no_data_value first) /\
     (no_data fo U8 (k c) = false -> k c <> 0 -> g c = 1) /\ (no_data fo U8 (k c) = false -> k c = 0 -> g c = 0)).
  { intros c Hc. destruct (G2 c Hc) as [K1 [K2 [K3 [K4 K5]]]]. cbn [w_no_data1 w_no_data2 w_no_data3] in *.
    split; [exact K1|]. split; intros; [apply K3|apply K5]; auto; apply Z.eqb_neq; congruence. }
  destruct (c38 first u8 (junk U8) a p w g IT u8_type R2) as [out [h [E3 [R3 G3]]]].
  - intros c Hc. apply first_representable; auto. destruct (Q c Hc) as [K1 [K2 K3]].
    destruct (no_data fo U8 (k c)) eqn:M; [left; auto|]. destruct (Z.eq_dec (k c) 0); auto.
  - exists out, h. split; [exact (boolean_array_eq first ff t x z w out Nt E E2 E3)|].
    split; [exact R3|]. intros c Hc. destruct (compared_boolean _ _ _ _ (G c Hc)) as [C1 [C2 C3]].
    destruct (Q c Hc) as [K1 [K2 K3]]. destruct (G3 c Hc) as [L1 L2].
    assert (V : g c = 0 \/ g c = 1 -> h c = g c).
    { intros Eg. destruct (u8_bit _ Eg) as [U1 U2]. apply L1; auto. unfold is_no_data. destruct Eg as [-> | ->]; congruence. }
    split; [|split].
    + intros M. apply Z.eqb_eq. exact (L2 (or_introl (K1 (C1 M)))).
    + intros M Z0. assert (Eg : g c = 0) by (apply K3; [rewrite (C2 M Z0); reflexivity|auto]). rewrite V; auto.
    + intros M Z0. assert (Eg : g c = 1) by (apply K2; rewrite (C3 M Z0); [reflexivity|discriminate]). rewrite V; auto.
Qed.

(** Rasters of different types are refused. *)
Lemma harmonize_different t s (x : where_arg (elt t)) (y : where_arg (elt s)) : t <> s -> harmonize_types fo (Arg t x) (Arg s y) = Throw.
Proof. intros N. unfold harmonize_types. cbn [obind]. rewrite arg_as_other by assumption. reflexivity. Qed.

Lemma boolean_scalar_ok first ff t (v : elt t) : t <> U8 ->
  exists b, boolean fo junk first ff (Arg t (WScalar v)) = Ok (Arg U8 (WScalar b)) /\ truth fo t v b.
Proof.
  intros Nt.
  destruct (compare_ok NotEqual [1] [1] t (WScalar v) (WScalar (of_Z fo t 0)) (fun _ => v) (fun _ => of_Z fo t 0) (fun _ => eq_refl) (fun _ => eq_refl))
    as [r [k [E [W [G _]]]]].
  cbn [compare] in E. injection E as <-. cbn [warg_holds] in W.
  eexists. split; [unfold boolean; destruct t; [congruence|reflexivity..]|]. rewrite <- (W [0]). apply (compared_boolean t (fun _ => v) k [0]). apply G.
  cbn. repeat constructor; lia.
Qed.

Lemma defined_array_ok a p t (x : parray (elt t)) f : raster_of a p x f ->
  exists out g, defined fo junk (@Arg F P t (WArray x)) = Ok (Arg U8 (WArray out)) /\ raster_of a p out g /\
    forall c, in_shape a c -> (missing fo t (f c) -> g c = 0) /\ (~ missing fo t (f c) -> g c = 1).
Proof.
  intros R. destruct (valid_ok a p t x f R) as [out [g [E [R2 G]]]]. exists out, g. split; [unfold defined; rewrite E; reflexivity|].
  split; [exact R2|]. exact G.
Qed.

Lemma related_at_least t v w : related GreaterEqual t v w -> at_least fo t v w.
Proof. unfold related, at_least. destruct t; cbn [compare_elements]; rewrite ?Z.geb_leb; try lia; auto. Qed.
Lemma related_at_most t v w : related LessEqual t v w -> at_most fo t v w.
Proof. unfold related, at_most. destruct t; cbn [compare_elements]; try lia; auto. Qed.
Lemma extreme_weaken (R S : forall t, @elt F t -> @elt F t -> Prop) t fs c v : (forall t v w, R t v w -> S t v w) -> extreme fo R t fs c v -> extreme fo S t fs c v.
Proof. intros H [H1 H2]. split; [exact H1|]. intros N. destruct (H2 N) as [E A]. split; [exact E|]. auto. Qed.
End Proofs.
