From Verif Require Import Common CommonProofs CoreSpec DecompSpec ArraySpec IndexModel IndexProofs
  DecompModel DecompProofs DecompProofs2 DecompProofs4 ArrayModel ArrayRep ArrayProofs LocalModel.
Open Scope Z_scope.

(** Cell-wise operations on one array. *)
Lemma map_parts {I O} a p (arr : parray I) f (F : placed (list I) -> outcome (placed (list O))) g :
  raster_of a p arr f ->
  (forall q c, in_shape (parts_shape a p) c -> In q (pa_parts arr) ->
     pl_offset q = part_offset p c -> pl_shape q = part_extent a p c ->
     block_holds (part_extent a p c) (pl_data q) (fun x => f (vadd (part_offset p c) x)) ->
     exists q', F q = Ok q' /\ pl_offset q' = part_offset p c /\ pl_shape q' = part_extent a p c /\
       block_holds (part_extent a p c) (pl_data q') (fun x => g (vadd (part_offset p c) x))) ->
  exists parts, sequence (map F (pa_parts arr)) = Ok parts /\
    raster_of a p (PArray a (parts_shape a p) parts) g.
Proof.
  intros H HF. apply assemble; [apply H|apply H|rewrite map_length; eapply raster_length; eassumption|].
  intros c Hc. destruct (raster_part a p arr f c H Hc) as [q [E1 [Eo [Es B]]]].
  destruct (HF q c Hc (nth_error_In _ _ E1) Eo Es B) as [q' [E2 R]]. exists q'. rewrite nth_error_map, E1. cbn. rewrite E2. auto.
Qed.

Section Cellwise.
Context {I O : Type} (cell : I -> O -> O) (g : I -> O) (junk : Z -> O).
Context (Hcell : forall i old, cell i old = g i).

Definition cellwise (q : placed (list I)) : outcome (placed (list O)) :=
  let n := nr_elements (pl_shape q) in
  obind
    (for_elements n (fun i old => obind (at_z (pl_data q) i) (fun input => Ok (cell input old))) (fresh junk n))
    (fun data => Ok (Placed (pl_locality q) (pl_offset q) (pl_shape q) data)).

Lemma cellwise_ok a p (arr : parray I) f : raster_of a p arr f ->
  exists parts, sequence (map cellwise (pa_parts arr)) = Ok parts /\
    raster_of a p (PArray a (parts_shape a p) parts) (fun x => g (f x)).
Proof.
  intros H. eapply map_parts; [exact H|]. intros q c Hc _ Eo Es B. unfold cellwise. rewrite Es.
  destruct (for_block (part_extent a p c)
    (fun i old => obind (at_z (pl_data q) i) (fun input => Ok (cell input old)))
    (fun x => g (f (vadd (part_offset p c) x))) junk) as [out [E1 B1]].
  - apply part_extent_ne; try assumption; apply H.
  - apply part_extent_pos; [apply H|assumption].
  - intros x old Hx. rewrite (block_at _ _ _ _ B Hx). cbn. now rewrite Hcell.
  - rewrite E1. cbn. eexists. split; [reflexivity|]. cbn. auto.
Qed.
End Cellwise.

Lemma verify_ok {A B} a p (x : parray A) (y : parray B) f g : raster_of a p x f -> raster_of a p y g ->
  verify_compatible x y = Ok tt.
Proof.
  intros [_ [_ [E1 [E2 _]]]] [_ [_ [E3 [E4 _]]]]. unfold verify_compatible, shape_eqb. rewrite E1, E2, E3, E4.
  destruct (list_eq_dec Z.eq_dec a a); [|contradiction]. cbn.
  destruct (list_eq_dec Z.eq_dec (parts_shape a p) (parts_shape a p)); [|contradiction]. reflexivity.
Qed.

Lemma map2_nth {A B C} (f : A -> B -> C) l1 l2 k a b : nth_error l1 k = Some a -> nth_error l2 k = Some b ->
  nth_error (map2 f l1 l2) k = Some (f a b).
Proof.
  revert l2 k. induction l1 as [|x l1 IH]; intros [|y l2] [|k] H1 H2; cbn in *; try discriminate; [congruence|auto].
Qed.

Lemma binary_ok {I1 I2 O} (pol : binary_policies I1 I2 O) functor (junk : Z -> O) a p x y f g h :
  (forall u v old, binary_cell pol functor u v old = h u v) ->
  raster_of a p x f -> raster_of a p y g ->
  exists out, binary_local_operation pol functor junk x y = Ok out /\ raster_of a p out (fun c => h (f c) (g c)).
Proof.
  intros Hc Hx Hy. unfold binary_local_operation. rewrite (verify_ok a p x y f g Hx Hy). cbn [obind].
  destruct (assemble a p (map2 (binary_partition pol functor junk) (pa_parts x) (pa_parts y)) (fun c => h (f c) (g c)))
    as [parts [E R]].
  - apply Hx.
  - apply Hx.
  - pose proof (raster_length _ _ _ _ Hx). pose proof (raster_length _ _ _ _ Hy). rewrite map2_length; [assumption|lia].
  - intros c Hin. destruct (raster_part a p x f c Hx Hin) as [q1 [E1 [Eo1 [Es1 B1]]]].
    destruct (raster_part a p y g c Hy Hin) as [q2 [E2 [Eo2 [Es2 B2]]]].
    rewrite (map2_nth _ _ _ _ _ _ E1 E2). unfold binary_partition. rewrite Es1, Es2, Z.eqb_refl.
    destruct (for_block (part_extent a p c)
      (fun i old => obind (at_z (pl_data q1) i) (fun u => obind (at_z (pl_data q2) i) (fun v =>
            Ok (binary_cell pol functor u v old))))
      (fun z => h (f (vadd (part_offset p c) z)) (g (vadd (part_offset p c) z))) junk) as [out [E3 B3]].
    + apply part_extent_ne; try assumption; apply Hx.
    + apply part_extent_pos; [apply Hx|assumption].
    + intros z old Hz. rewrite (block_at _ _ _ _ B1 Hz). cbn. rewrite (block_at _ _ _ _ B2 Hz). cbn. now rewrite Hc.
    + rewrite E3. cbn. eexists. split; [reflexivity|]. cbn. auto.
  - rewrite E. cbn. eexists. split; [reflexivity|].
    destruct Hx as [_ [_ [Ea [Es _]]]]. rewrite Ea, Es. exact R.
Qed.

Lemma raster_out {E} a p (x : parray E) f parts (g : list Z -> E) : raster_of a p x f ->
  raster_of a p (PArray a (parts_shape a p) parts) g -> raster_of a p (PArray (pa_shape x) (pa_sip x) parts) g.
Proof. intros [_ [_ [-> [-> _]]]]. auto. Qed.

Lemma unary_ok {I O} (pol : unary_policies I O) functor (junk : Z -> O) a p x f h :
  (forall u old, unary_cell pol functor u old = h u) ->
  raster_of a p x f ->
  exists out, unary_local_operation pol functor junk x = Ok out /\ raster_of a p out (fun c => h (f c)).
Proof.
  intros Hc Hx. destruct (cellwise_ok (unary_cell pol functor) h junk Hc a p x f Hx) as [parts [E R]].
  unfold unary_local_operation. change (unary_partition pol functor junk) with (cellwise (unary_cell pol functor) junk).
  rewrite E. cbn. eexists. split; [reflexivity|]. destruct Hx as [_ [_ [-> [-> _]]]]. exact R.
Qed.

Lemma binary_scalar2_ok {I1 I2 O} (pol : binary_policies I1 I2 O) functor (junk : Z -> O) a p x f b h :
  (forall u old, binary_cell_scalar2 pol functor u b old = h u b) ->
  raster_of a p x f ->
  exists out, binary_local_operation_scalar2 pol functor junk x b = Ok out /\ raster_of a p out (fun c => h (f c) b).
Proof.
  intros Hc Hx. destruct (cellwise_ok (fun u => binary_cell_scalar2 pol functor u b) (fun u => h u b) junk Hc a p x f Hx) as [parts [E R]].
  unfold binary_local_operation_scalar2. unfold cellwise in E. rewrite E. cbn. eexists. split; [reflexivity|].
  destruct Hx as [_ [_ [-> [-> _]]]]. exact R.
Qed.

Lemma binary_scalar1_ok {I1 I2 O} (pol : binary_policies I1 I2 O) functor (junk : Z -> O) a p x f b h :
  (forall u old, binary_cell_scalar1 pol functor b u old = h b u) ->
  raster_of a p x f ->
  exists out, binary_local_operation_scalar1 pol functor junk b x = Ok out /\ raster_of a p out (fun c => h b (f c)).
Proof.
  intros Hc Hx. destruct (cellwise_ok (fun u => binary_cell_scalar1 pol functor b u) (fun u => h b u) junk Hc a p x f Hx) as [parts [E R]].
  unfold binary_local_operation_scalar1. unfold cellwise in E. rewrite E. cbn. eexists. split; [reflexivity|].
  destruct Hx as [_ [_ [-> [-> _]]]]. exact R.
Qed.

Lemma reclassify_ok {V} no_data (mark : V -> V) junk table a p x f h :
  (forall u old, reclassify_cell no_data mark table u old = h u) ->
  raster_of a p x f ->
  exists out, reclassify no_data mark junk table x = Ok out /\ raster_of a p out (fun c => h (f c)).
Proof.
  intros Hc Hx. destruct (cellwise_ok (reclassify_cell no_data mark table) h junk Hc a p x f Hx) as [parts [E R]].
  unfold reclassify. unfold cellwise in E. rewrite E. cbn. eexists. split; [reflexivity|].
  destruct Hx as [_ [_ [-> [-> _]]]]. exact R.
Qed.

(** where *)
Definition warg_holds {E} (a p : list Z) (x : where_arg E) (f : list Z -> E) : Prop :=
  match x with WArray x => raster_of a p x f | WScalar v => forall c, f c = v end.

Lemma warg_compatible {E} a p (c : parray Z) fc (x : where_arg E) f : raster_of a p c fc -> warg_holds a p x f ->
  where_arg_compatible c x = Ok tt.
Proof. destruct x; cbn; intros; [eapply verify_ok; eassumption|reflexivity]. Qed.

Lemma warg_part {E} a p (x : where_arg E) f c : warg_holds a p x f -> in_shape (parts_shape a p) c ->
  exists q, where_arg_part x (Z.to_nat (rowmaj (parts_shape a p) c)) = Ok q /\
    forall z, in_shape (part_extent a p c) z ->
      where_arg_at (nr_elements (part_extent a p c)) (rowmaj (part_extent a p c) z) q = Ok (f (vadd (part_offset p c) z)).
Proof.
  destruct x as [x|v]; cbn; intros Hx Hc.
  - destruct (raster_part a p x f c Hx Hc) as [q [E1 [Eo [Es B]]]]. rewrite E1. eexists. split; [reflexivity|].
    intros z Hz. cbn. rewrite Es, Z.eqb_refl. now rewrite (block_at _ _ _ _ B Hz).
  - eexists. split; [reflexivity|]. intros z Hz. cbn. now rewrite Hx.
Qed.

Lemma nth_error_seq n k : (k < n)%nat -> nth_error (seq 0 n) k = Some k.
Proof.
  intros H. rewrite nth_error_nth' with (d := 0%nat) by (rewrite seq_length; lia). now rewrite seq_nth by lia.
Qed.

Lemma where3_ok {E} (pol : where_policies E) junk a p (c : parray Z) t f fc ft ff h :
  (forall cv tv fv old, match t with WArray _ => where_cell pol | WScalar _ => where_cell_swapped pol end cv tv fv old = h cv tv fv) ->
  raster_of a p c fc -> warg_holds a p t ft -> warg_holds a p f ff ->
  exists out, where3 pol junk c t f = Ok out /\ raster_of a p out (fun x => h (fc x) (ft x) (ff x)).
Proof.
  intros Hcell Hc Ht Hf. unfold where3. rewrite (warg_compatible _ _ _ _ _ _ Hc Ht), (warg_compatible _ _ _ _ _ _ Hc Hf). cbn [obind].
  match goal with |- exists out, obind (sequence (map ?F _)) _ = _ /\ _ => set (G := F) end.
  destruct (assemble a p (map G (seq 0 (length (pa_parts c)))) (fun x => h (fc x) (ft x) (ff x))) as [parts [E1 R]].
  - apply Hc.
  - apply Hc.
  - rewrite map_length, seq_length. eapply raster_length; eassumption.
  - intros i Hi. destruct (raster_part a p c fc i Hc Hi) as [q [Eq [Eo [Es B]]]].
    exists (Placed (pl_locality q) (pl_offset q) (pl_shape q)
      (block_of (part_extent a p i) (fun z => h (fc (vadd (part_offset p i) z)) (ft (vadd (part_offset p i) z)) (ff (vadd (part_offset p i) z))))).
    cbn [pl_offset pl_shape pl_data].
    assert (Hpos : pos_shape (part_extent a p i)) by (apply part_extent_pos; [apply Hc|assumption]).
    split; [|split; [assumption|split; [assumption|apply block_of_holds; assumption]]].
    assert (Hlt : (Z.to_nat (rowmaj (parts_shape a p) i) < length (pa_parts c))%nat) by (apply nth_error_Some; congruence).
    rewrite nth_error_map, nth_error_seq by assumption. cbn [option_map]. do 2 f_equal.
    unfold G. rewrite Eq.
    destruct (warg_part a p t ft i Ht Hi) as [tq [Et Ht']]. destruct (warg_part a p f ff i Hf Hi) as [fq [Ef Hf']].
    rewrite Et, Ef. cbn [obind]. rewrite Es.
    destruct (for_block (part_extent a p i)
      (fun k old => obind (at_z (pl_data q) k) (fun cv =>
          obind (where_arg_at (nr_elements (part_extent a p i)) k tq) (fun tv =>
          obind (where_arg_at (nr_elements (part_extent a p i)) k fq) (fun fv =>
          Ok (match t with WArray _ => where_cell pol | WScalar _ => where_cell_swapped pol end cv tv fv old)))))
      (fun z => h (fc (vadd (part_offset p i) z)) (ft (vadd (part_offset p i) z)) (ff (vadd (part_offset p i) z))) junk)
      as [out [E2 B2]].
    + apply part_extent_ne; try assumption; apply Hc.
    + assumption.
    + intros z old Hz. rewrite (block_at _ _ _ _ B Hz). cbn [obind]. rewrite (Ht' z Hz). cbn [obind].
      rewrite (Hf' z Hz). cbn [obind]. now rewrite Hcell.
    + rewrite E2. cbn [obind]. do 2 f_equal. 
      destruct B2 as [L2 B2]. destruct (block_of_holds (part_extent a p i) (fun z => h (fc (vadd (part_offset p i) z)) (ft (vadd (part_offset p i) z)) (ff (vadd (part_offset p i) z))) Hpos) as [L3 B3].
      apply nth_error_ext. intros k. destruct (Z_lt_ge_dec (Z.of_nat k) (volume (part_extent a p i))) as [Hk|Hk].
      * destruct (rowmaj_surj (part_extent a p i) (Z.of_nat k) Hpos ltac:(lia)) as [z [Hz Ez]].
        specialize (B2 z Hz). specialize (B3 z Hz). rewrite Ez, Nat2Z.id in *. congruence.
      * rewrite !(proj2 (nth_error_None _ _)); [reflexivity| |]; lia.
  - rewrite E1. cbn. eexists. split; [reflexivity|]. destruct Hc as [_ [_ [-> [-> _]]]]. exact R.
Qed.
