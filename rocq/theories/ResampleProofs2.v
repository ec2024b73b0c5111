(** Proofs about downscaling: partitioned arrays. *)
From Verif Require Import Common CommonProofs CoreSpec DecompSpec ArraySpec Float64 IndexModel IndexProofs DecompModel DecompProofs DecompProofs2 DecompProofs4 ArrayModel ArrayRep
  ArrayProofs GridModel GridProofs GridRaster LocalProofs ResampleModel ResampleSpec ResampleProofs.

Lemma places_ok L a p : supported L a p -> partition_fits a p -> L <= nr_parts a p ->
  exists r, instantiate_individually L (fun _ _ _ => tt) a p = Ok r /\ Z.of_nat (length r) = nr_parts a p /\
    forall c, in_shape (parts_shape a p) c -> exists loc,
      nth_error r (Z.to_nat (rowmaj (parts_shape a p) c)) = Some (Placed loc (part_offset p c) (part_extent a p c) tt).
Proof.
  intros Hs Hf HL. pose proof (to_accepted L a p Hs Hf HL) as Hacc.
  destruct (instantiate_individually_ok L (fun _ _ _ => tt) a p Hacc) as [visits [r [Ev [Er [Hl Hh]]]]].
  destruct (accepted_visits L a p Hacc) as [v [Hv [Hfst [Hnd Hin]]]]. rewrite Ev in Hv. injection Hv as <-.
  exists r. split; [assumption|]. split; [rewrite nr_parts_prodZ; assumption|].
  intros c Hc. assert (Hc' := Hc). rewrite parts_shape_map2 in Hc'. apply Hin in Hc'. apply in_map_iff in Hc'.
  destruct Hc' as [[k c'] [E1 Hvv]]. cbn in E1. subst c'.
  specialize (Hh _ Hvv). cbn [snd expected] in Hh.
  rewrite rowmaj_linear', parts_shape_map2, Hh by assumption.
  rewrite part_extent_exts, part_offset_map2 by assumption. eexists. reflexivity.
Qed.

Lemma in_shape2 a b x : in_shape [a; b] x -> exists i j, x = [i; j] /\ 0 <= i < a /\ 0 <= j < b.
Proof. destruct x as [|i [|j [|? ?]]]; cbn [in_shape]; intros H; try tauto. exists i, j. tauto. Qed.

(** The extent of the first partition *)
Definition first_ext (a p : Z) : Z := if a <? 2 * p then a else p.

Lemma first_ext_ok a p : 0 < p <= a -> 0 < first_ext a p <= a /\ a / first_ext a p = a / p /\ ext1 a p 0 = first_ext a p /\
  (forall i, 0 <= i < a / p -> i * first_ext a p = i * p /\ ext1 a (first_ext a p) i = ext1 a p i).
Proof.
  intros Hp. unfold first_ext. destruct (Z.ltb_spec a (2 * p)) as [L|L].
  - assert (E : a / p = 1) by (symmetry; apply Z.div_unique with (a - p); lia).
    assert (E' : a / a = 1) by (apply Z.div_same; lia).
    rewrite E, E'. split; [lia|]. split; [reflexivity|]. unfold ext1. rewrite E, E'. split; [cbn; lia|].
    intros i Hi. replace i with 0 by lia. cbn. lia.
  - assert (2 <= a / p) by (apply Z.div_le_lower_bound; lia). split; [lia|]. split; [reflexivity|]. split; [|tauto].
    unfold ext1. destruct (Z.eqb_spec 0 (a / p - 1)); lia.
Qed.

Lemma raster_first {E} a0 a1 p0 p1 (arr : parray E) f : raster_of [a0; a1] [p0; p1] arr f ->
  raster_of [a0; a1] [first_ext a0 p0; first_ext a1 p1] arr f.
Proof.
  intros H. destruct H as [Hne [Hf [Hs [Hsip [Hl H]]]]]. apply fits2 in Hf. destruct Hf as [Hp0 Hp1].
  destruct (first_ext_ok a0 p0 Hp0) as [F0 [D0 [_ X0]]]. destruct (first_ext_ok a1 p1 Hp1) as [F1 [D1 [_ X1]]].
  assert (Ep : parts_shape [a0; a1] [first_ext a0 p0; first_ext a1 p1] = parts_shape [a0; a1] [p0; p1]) by (cbn [parts_shape]; now rewrite D0, D1).
  split; [assumption|]. split; [now apply fits2|]. split; [assumption|]. split; [now rewrite Ep|]. split.
  - unfold nr_parts in *. rewrite Ep. assumption.
  - intros c Hc. rewrite Ep in Hc |- *. destruct (H c Hc) as [d [E1 B]].
    destruct c as [|i [|j [|? ?]]]; try contradiction; cbn in Hc; try lia. destruct Hc as [Hi [Hj _]].
    destruct (X0 i Hi) as [A1 A2]. destruct (X1 j Hj) as [B1 B2]. exists d.
    cbn [part_offset part_extent] in *. fold (ext1 a0 p0 i) (ext1 a1 p1 j) in *. fold (ext1 a0 (first_ext a0 p0) i) (ext1 a1 (first_ext a1 p1) j).
    rewrite A1, A2, B1, B2. split; assumption.
Qed.

Lemma nth_error_combine {A B} (l : list A) (l' : list B) k x y : nth_error l k = Some x -> nth_error l' k = Some y -> nth_error (combine l l') k = Some (x, y).
Proof. revert l' k. induction l as [|a l IH]; intros [|b l'] [|k] H1 H2; cbn in *; try discriminate; [congruence|auto]. Qed.

Lemma idx_ok count N0 N1 T0 T1 j0 j1 : 0 < count <= 2 ^ 53 -> 0 < N0 -> 0 < N1 -> T0 < 2 ^ 53 -> T1 < 2 ^ 53 -> 0 <= j0 < T0 -> 0 <= j1 < T1 ->
  target_idx_to_source_idx [T0; T1] (rowmaj [T0; T1] [j0; j1]) [N0; N1] count =
  Ok (rowmaj [N0; N1] [Z.min (j0 / count) (N0 - 1); Z.min (j1 / count) (N1 - 1)]).
Proof.
  intros Hc HN0 HN1 HT0 HT1 Hj0 Hj1. unfold target_idx_to_source_idx.
  assert (Hin : in_shape [T0; T1] [j0; j1]) by (cbn; lia).
  pose proof (rowmaj_range _ _ Hin) as Hr. rewrite nr_elements_volume by discriminate.
  destruct (Z.ltb_spec (rowmaj [T0; T1] [j0; j1]) (volume [T0; T1])) as [_|]; [|lia]. cbn [negb].
  unfold linear_idx_to_idxs_checked. rewrite nr_elements_volume by discriminate.
  destruct (Z.ltb_spec 0 (volume [T0; T1])) as [_|]; [|lia]. destruct (Z.ltb_spec (rowmaj [T0; T1] [j0; j1]) (volume [T0; T1])) as [_|]; [|lia]. cbn [andb obind].
  rewrite rowmaj_linear' by assumption. rewrite idxs_roundtrip by assumption.
  cbn [map2]. rewrite !b64_floor_div by lia.
  assert (0 <= j0 / count) by (apply Z.div_pos; lia). assert (0 <= j1 / count) by (apply Z.div_pos; lia).
  assert (Hin' : in_shape [N0; N1] [Z.min (j0 / count) (N0 - 1); Z.min (j1 / count) (N1 - 1)]) by (cbn; lia).
  rewrite idxs_to_linear_idx_ok by (discriminate || assumption). now rewrite rowmaj_linear' by assumption.
Qed.

Lemma target_parts count a p : 1 <= count -> 0 < p <= a -> a / p <= count * a / p /\ count <= count * a / p.
Proof.
  intros Hc Hp. split.
  - apply Z.div_le_mono; [lia|]. clear - Hc Hp. nia.
  - apply Z.div_le_lower_bound; [lia|]. clear - Hc Hp. nia.
Qed.

Section Main.
Context {E : Type} (nd : E -> bool) (mark : E -> E) (marker : E) (junk : Z -> E) (Hmark : forall e, mark e = marker).

Lemma copy_ok a p (arr : parray E) f : raster_of a p arr f ->
  exists res, copy_array nd mark junk arr = Ok res /\ raster_of a p res (fun x => conv nd marker (f x)).
Proof.
  intros H. destruct (cellwise_ok (fun v old => if nd v then mark old else v) (conv nd marker) junk) with (a := a) (p := p) (arr := arr) (f := f) as [parts [E1 R]].
  - intros i old. unfold conv. now rewrite Hmark.
  - assumption.
  - unfold copy_array. change (copy_partition nd mark junk) with (cellwise (fun v old => if nd v then mark old else v) junk).
    rewrite E1. cbn [obind]. eexists. split; [reflexivity|]. eapply raster_out; eassumption.
Qed.

Lemma downscale_many L (arr : parray E) f count a0 a1 p0 p1 : raster_of [a0; a1] [p0; p1] arr f -> 2 <= count ->
  ext1 a0 p0 0 = p0 -> ext1 a1 p1 0 = p1 ->
  (count * (a0 mod p0) < p0 \/ p0 < count * (a0 mod p0) < 2 * p0) ->
  (count * (a1 mod p1) < p1 \/ p1 < count * (a1 mod p1) < 2 * p1) ->
  supported L [count * a0; count * a1] [p0; p1] -> L <= nr_parts [count * a0; count * a1] [p0; p1] ->
  exists res, downscale nd mark junk L arr count = Ok res /\ raster_of [count * a0; count * a1] [p0; p1] res (downscaled nd marker count f).
Proof.
  intros H Hc X0 X1 R0 R1 Hs HL. assert (Hf := proj1 (proj2 H)). apply fits2 in Hf. destruct Hf as [Hp0 Hp1].
  pose proof (nparts_pos _ _ Hp0) as N0. pose proof (nparts_pos _ _ Hp1) as N1.
  destruct (target_parts count a0 p0 ltac:(lia) Hp0) as [T0 C0]. destruct (target_parts count a1 p1 ltac:(lia) Hp1) as [T1 C1].
  assert (Hq0 : 0 < p0 <= count * a0) by (clear - Hp0 Hc; nia). assert (Hq1 : 0 < p1 <= count * a1) by (clear - Hp1 Hc; nia).
  assert (Hft : partition_fits [count * a0; count * a1] [p0; p1]) by now apply fits2.
  assert (Hbig : count * a0 / p0 < 2 ^ 53 /\ count * a1 / p1 < 2 ^ 53).
  { destruct Hs as [_ [_ [HLp Hb]]]. unfold nr_parts in Hb. cbn [parts_shape volume] in Hb.
    set (x := count * a0 / p0) in *. set (y := count * a1 / p1) in *. clearbody x y. clear - HLp Hb N0 N1 T0 T1.
    assert (HX : 1 <= x) by exact (Z.le_trans _ _ _ N0 T0). assert (HY : 1 <= y) by exact (Z.le_trans _ _ _ N1 T1). clear - HX HY HLp Hb.
    assert (x * (y * 1) <= 2 ^ 50) by nia. split; nia. }
  unfold downscale. destruct (Z.eqb_spec count 0) as [|_]; [lia|]. destruct (Z.eqb_spec count 1) as [|_]; [lia|].
  assert (Esip : pa_sip arr = parts_shape [a0; a1] [p0; p1]) by apply H. assert (Esh : pa_shape arr = [a0; a1]) by apply H. rewrite Esh.
  assert (Hd : exists rest, map pl_shape (pa_parts arr) = [p0; p1] :: rest).
  { destruct (raster_part _ _ arr f [0; 0] H) as [q [Eq [_ [Es _]]]]; [cbn [in_shape parts_shape]; lia|]. cbn [rowmaj parts_shape volume] in Eq.
    cbn [part_extent] in Es. fold (ext1 a0 p0 0) (ext1 a1 p1 0) in Es. rewrite X0, X1 in Es.
    destruct (pa_parts arr) as [|q' rest]; cbn in Eq; [discriminate|]. injection Eq as ->. exists (map pl_shape rest). cbn. now rewrite Es. }
  destruct Hd as [rest Hd]. rewrite Hd. clear rest Hd.
  rewrite partition_shapes_ok by (split; [discriminate|assumption]). cbn [obind].
  destruct (places_ok L _ _ Hs Hft HL) as [places [Ep [Hl Hpl]]]. rewrite Ep. cbn [obind]. rewrite <- parts_shape_map2.
  set (T := parts_shape [count * a0; count * a1] [p0; p1]) in *.
  destruct (assemble [count * a0; count * a1] [p0; p1]
    (map (fun '(k, q) => assign_instantiate nd mark junk arr p0 p1 count T k q) (combine (zseq 0 (Z.of_nat (length places))) places)) (downscaled nd marker count f)) as [parts [Es R]].
  - discriminate.
  - assumption.
  - rewrite map_length, combine_length, zseq_length. rewrite <- Hl. lia.
  - intros c Hcc. fold T in Hcc |- *. destruct (Hpl c Hcc) as [loc Eq].
    assert (Hr := rowmaj_range _ _ Hcc).
    assert (Eseq : nth_error (zseq 0 (Z.of_nat (length places))) (Z.to_nat (rowmaj T c)) = Some (rowmaj T c)).
    { rewrite nth_error_zseq; [f_equal|]; rewrite ?Z2Nat.id by lia; unfold nr_parts in Hl; fold T in Hl; lia. }
    rewrite nth_error_map, (nth_error_combine _ _ _ _ _ Eseq Eq). cbn [option_map].
    destruct (in_shape2 _ _ _ Hcc) as [j0 [j1 [-> [Hj0 Hj1]]]]. clear Hcc.
    unfold assign_instantiate. rewrite Esip. unfold T at 1. cbn [parts_shape].
    rewrite idx_ok by (try tauto; clear - Hbig C0 N0 N1 Hc; lia). cbn [obind].
    destruct (dim_ok count a0 p0 j0 Hc Hp0 R0 Hj0) as [I0 D0]. destruct (dim_ok count a1 p1 j1 Hc Hp1 R1 Hj1) as [I1 D1].
    set (i0 := Z.min (j0 / count) (a0 / p0 - 1)) in *. set (i1 := Z.min (j1 / count) (a1 / p1 - 1)) in *.
    destruct (raster_part _ _ arr f [i0; i1] H) as [q [Eqs [_ [Eqh B]]]]; [cbn [in_shape parts_shape]; tauto|].
    cbn [parts_shape] in Eqs.
    assert (Hr' : 0 <= rowmaj [a0 / p0; a1 / p1] [i0; i1] < volume [a0 / p0; a1 / p1]) by (apply rowmaj_range; cbn [in_shape]; tauto).
    unfold at_z. rewrite nth_z_nat by apply Hr'. rewrite Eqs. cbn [obind].
    cbn [pl_offset pl_shape part_offset part_extent]. fold (ext1 (count * a0) p0 j0) (ext1 (count * a1) p1 j1).
    cbn [part_extent part_offset] in B, Eqh. fold (ext1 a0 p0 i0) (ext1 a1 p1 i1) in B, Eqh.
    pose proof (ext1_pos a0 p0 i0 Hp0 I0) as P0. pose proof (ext1_pos a1 p1 i1 Hp1 I1) as P1.
    pose proof (ext1_pos _ p0 j0 Hq0 Hj0) as P2. pose proof (ext1_pos _ p1 j1 Hq1 Hj1) as P3.
    assert (Q0 : 0 < ext1 a0 p0 i0) by exact (Z.lt_le_trans _ _ _ (proj1 Hp0) P0). assert (Q1 : 0 < ext1 a1 p1 i1) by exact (Z.lt_le_trans _ _ _ (proj1 Hp1) P1).
    assert (Q2 : 0 < ext1 (count * a0) p0 j0) by exact (Z.lt_le_trans _ _ _ (proj1 Hp0) P2). assert (Q3 : 0 < ext1 (count * a1) p1 j1) by exact (Z.lt_le_trans _ _ _ (proj1 Hp1) P3).
    assert (Edata : pl_data (to_part2 q) = gmake (ext1 a0 p0 i0) (ext1 a1 p1 i1) (fun x y => f (vadd [i0 * p0; i1 * p1] [x; y]))).
    { unfold to_part2. rewrite Eqh. cbn [pl_data nth]. exact (block2 _ _ _ _ B (Z.lt_le_incl _ _ Q0) (Z.lt_le_incl _ _ Q1)). }
    rewrite Edata. rewrite (assign_cells_ok nd mark marker junk Hmark).
    + cbn [obind]. eexists. split; [reflexivity|]. cbn [pl_offset pl_shape pl_data].
      split; [reflexivity|]. split; [reflexivity|]. split.
      * rewrite make_length by (apply Z.lt_le_incl; assumption). cbn [volume]. rewrite Z.mul_1_r, Z2Nat.id; [reflexivity|]. apply Z.mul_nonneg_nonneg; apply Z.lt_le_incl; assumption.
      * intros z Hz. destruct (in_shape2 _ _ _ Hz) as [x [y [-> [Hx Hy]]]]. clear Hz.
        rewrite gl_make, nth_error_map. cbn [rowmaj volume]. rewrite !Z.mul_1_r, Z.add_0_r.
        rewrite nth_cells2 by assumption. cbn [option_map fst snd vadd]. f_equal. unfold downscaled, conv. cbn [map vadd]. rewrite !Z.add_0_l.
        rewrite (proj2 (D0 x Hx)), (proj2 (D1 y Hy)). reflexivity.
    + clear - Hc. lia.
    + clear - Hj0 Hp0. apply Z.mul_nonneg_nonneg; lia.
    + clear - Hj1 Hp1. apply Z.mul_nonneg_nonneg; lia.
    + assumption.
    + assumption.
    + intros r Hrr. apply D0; assumption.
    + intros r Hrr. apply D1; assumption.
  - rewrite Es. cbn [obind]. eexists. split; [reflexivity|]. exact R.
Qed.

Lemma downscale_ok L (arr : parray E) f count a0 a1 p0 p1 q0 q1 : raster_of [a0; a1] [p0; p1] arr f -> 1 <= count ->
  part_extent [a0; a1] [p0; p1] [0; 0] = [q0; q1] ->
  remainder_fits count a0 p0 -> remainder_fits count a1 p1 ->
  supported L [count * a0; count * a1] [q0; q1] -> L <= nr_parts [a0; a1] [p0; p1] ->
  exists res, downscale nd mark junk L arr count = Ok res /\ raster_of [count * a0; count * a1] [q0; q1] res (downscaled nd marker count f).
Proof.
  intros H Hc Eq R0 R1 Hs HL. assert (Hf := proj1 (proj2 H)). apply fits2 in Hf. destruct Hf as [Hp0 Hp1].
  cbn [part_extent] in Eq. fold (ext1 a0 p0 0) (ext1 a1 p1 0) in Eq. injection Eq as Eq0 Eq1.
  apply raster_first in H.
  destruct (first_ext_ok a0 p0 Hp0) as [F0 [D0 [G0 K0]]]. destruct (first_ext_ok a1 p1 Hp1) as [F1 [D1 [G1 K1]]].
  rewrite <- G0, <- G1, Eq0, Eq1 in *.
  pose proof (nparts_pos _ _ Hp0) as N0. pose proof (nparts_pos _ _ Hp1) as N1.
  destruct (Z.eq_dec count 1) as [->|Hne].
  - destruct (copy_ok _ _ arr f H) as [res [E1 R]]. exists res. unfold downscale. cbn [Z.eqb]. split; [exact E1|].
    replace (1 * a0) with a0 by lia. replace (1 * a1) with a1 by lia.
    destruct R as [A1 [A2 [A3 [A4 [A5 A6]]]]]. split; [assumption|]. split; [assumption|]. split; [assumption|]. split; [assumption|]. split; [assumption|].
    intros c Hcc. destruct (A6 c Hcc) as [d [B1 [B2 B3]]]. exists d. split; [assumption|]. split; [assumption|].
    intros x Hx. rewrite (B3 x Hx). f_equal. unfold downscaled, conv. rewrite (map_ext _ (fun i => i)) by (intros; apply Z.div_1_r). rewrite map_id. reflexivity.
  - assert (RF : forall a p q, 0 < p <= a -> ext1 a p 0 = q -> a / q = a / p -> remainder_fits count a p -> first_ext a p = q ->
       count * (a mod q) < q \/ q < count * (a mod q) < 2 * q).
    { clear. intros a p q Hp _ _ R. unfold first_ext. destruct (Z.ltb_spec a (2 * p)) as [L|L]; intros <-.
      - left. rewrite Z.mod_same by lia. lia.
      - destruct R as [R|R]; [lia|exact R]. }
    destruct (target_parts count a0 p0 ltac:(lia) Hp0) as [T0 C0]. destruct (target_parts count a1 p1 ltac:(lia) Hp1) as [T1 C1].
    apply downscale_many; try assumption.
    + lia.
    + destruct (K0 0 ltac:(lia)) as [_ ->]. assumption.
    + destruct (K1 0 ltac:(lia)) as [_ ->]. assumption.
    + apply (RF a0 p0 q0); try assumption. now rewrite <- G0.
    + apply (RF a1 p1 q1); try assumption. now rewrite <- G1.
    + destruct (target_parts count a0 q0 ltac:(lia) F0) as [T2 _]. destruct (target_parts count a1 q1 ltac:(lia) F1) as [T3 _].
      unfold nr_parts in *. cbn [parts_shape volume] in *. rewrite D0 in T2. rewrite D1 in T3.
      eapply Z.le_trans; [exact HL|]. rewrite !Z.mul_1_r. apply Z.mul_le_mono_nonneg; [|exact T2| |exact T3]; eapply Z.le_trans; try eassumption; lia.
Qed.
End Main.
