(** Proofs about the window operations of lue.pcraster *)
From Coq Require Import Reals Sorted Lia Lra.
From Flocq Require Import Core BinarySingleNaN.
From Verif Require Import Common CommonProofs CoreSpec DecompSpec ArraySpec LocalModel ArrayModel ArrayRep GridModel ZonalSpec FocalSpec FocalModel FocalRep FocalFunctorsModel FocalTheorems Float64 Float64Proofs
  PcrWindowModel PcrWindowSpec.
Open Scope Z_scope.

(** ** Window lengths *)

Lemma as_integer_spec x n : as_integer x = Some n <-> is_finite x = true /\ B2R x = IZR n.
Proof.
  destruct x as [s|s| |s m e B]; cbn [as_integer is_finite B2R].
  - split; [intros E; inversion E; split; reflexivity|]. intros [_ E]. apply eq_IZR in E. congruence.
  - split; [discriminate|intros [K _]; discriminate].
  - split; [discriminate|intros [K _]; discriminate].
  - set (z := if s then Zneg m else Zpos m). replace (F2R (Float radix2 (cond_Zopp s (Zpos m)) e)) with (IZR z * bpow radix2 e)%R by (destruct s; reflexivity).
    destruct (Z.leb_spec 0 e) as [P|P].
    + replace (IZR z * bpow radix2 e)%R with (IZR (z * 2 ^ e)) by (rewrite mult_IZR; f_equal; apply (IZR_Zpower radix2); exact P).
      split; [intros K; inversion K; split; reflexivity|]. intros [_ K]. apply eq_IZR in K. congruence.
    + assert (V : (IZR z * bpow radix2 e * IZR (2 ^ (- e)) = IZR z)%R).
      { rewrite (IZR_Zpower radix2) by lia. rewrite Rmult_assoc, <- bpow_plus. replace (e + - e) with 0 by lia. cbn. ring. }
      assert (W : (0 < IZR (2 ^ (- e)))%R) by (apply IZR_lt; apply Z.pow_pos_nonneg; lia).
      assert (Z0 : 0 < 2 ^ (- e)) by (apply Z.pow_pos_nonneg; lia).
      destruct (Z.eqb_spec (z mod 2 ^ (- e)) 0) as [D|D].
      * assert (Q : (IZR z * bpow radix2 e = IZR (z / 2 ^ (- e)))%R).
        { apply Rmult_eq_reg_r with (IZR (2 ^ (- e))); [|lra]. rewrite V, <- mult_IZR. f_equal. pose proof (Z.div_mod z (2 ^ (- e)) ltac:(lia)). lia. }
        rewrite Q. split; [intros K; inversion K; split; reflexivity|]. intros [_ K]. apply eq_IZR in K. congruence.
      * split; [discriminate|]. intros [_ K]. rewrite K, <- mult_IZR in V. apply eq_IZR in V. destruct D. rewrite <- V. apply Z.mod_mul. lia.
Qed.

(** The length is an odd multiple of the cell size *)
Lemma translate_multiple cs w k : (0 < B2R cs)%R -> is_finite w = true -> B2R w = (IZR k * B2R cs)%R -> 0 < k <= 2 ^ 53 -> k mod 2 = 1 ->
  translate_window_length cs w = Ok k.
Proof.
  intros P F M K O. unfold translate_window_length, py_divide. assert (Q : (B2R w / B2R cs = IZR k)%R) by (rewrite M; field; lra).
  destruct (b64_div_correct w cs k) as [D1 D2]; [lra|lia|rewrite Q; rewrite Rabs_pos_eq by (apply IZR_le; lia); lra|].
  rewrite Q, rd_Z in D1 by lia. rewrite F in D2.
  replace (match cs with B754_zero _ => Throw | _ => Ok (b64_div w cs) end) with (Ok (b64_div w cs)) by (destruct cs; [cbn in P; lra|reflexivity|reflexivity|reflexivity]).
  cbn [obind]. replace (as_integer (b64_div w cs)) with (Some k) by (symmetry; apply as_integer_spec; split; assumption).
  rewrite O, Z.eqb_refl. cbn [negb]. destruct (Z.ltb_spec 0 k); [reflexivity|lia].
Qed.

(** What is accepted *)
Lemma translate_ok cs w k : translate_window_length cs w = Ok k <-> (forall s, cs <> B754_zero s) /\ is_finite (b64_div w cs) = true /\ B2R (b64_div w cs) = IZR k /\ k mod 2 = 1 /\ 0 < k.
Proof.
  unfold translate_window_length, py_divide. destruct (Bool.bool_dec (match cs with B754_zero _ => true | _ => false end) true) as [Z|Z].
  - destruct cs as [s| | |]; try discriminate. split; [discriminate|]. intros [K _]. destruct (K s eq_refl).
  - replace (match cs with B754_zero _ => Throw | _ => Ok (b64_div w cs) end) with (Ok (b64_div w cs)) by (destruct cs; [destruct (Z eq_refl)|reflexivity|reflexivity|reflexivity]).
    cbn [obind]. assert (N : forall s, cs <> B754_zero s) by (intros s E; subst cs; apply Z; reflexivity). split.
    + destruct (as_integer (b64_div w cs)) as [n|] eqn:A; [|discriminate]. apply as_integer_spec in A. destruct (Z.eqb_spec (n mod 2) 1) as [O|O]; [|discriminate]. cbn [negb].
      destruct (Z.ltb_spec 0 n) as [L|L]; [|discriminate]. intros E. inversion E; subst. split; [exact N|]. split; [apply A|]. split; [apply A|]. split; assumption.
    + intros (_ & F & V & O & L). replace (as_integer (b64_div w cs)) with (Some k) by (symmetry; apply as_integer_spec; split; assumption).
      rewrite O, Z.eqb_refl. cbn [negb]. destruct (Z.ltb_spec 0 k); [reflexivity|lia].
Qed.
Lemma translate_total cs w : translate_window_length cs w <> UB.
Proof.
  unfold translate_window_length, py_divide. destruct cs; cbn [obind]; try discriminate; (destruct (as_integer _) as [n|]; [destruct (negb (n mod 2 =? 1)); [discriminate|destruct (0 <? n); discriminate]|discriminate]).
Qed.

(** ** Cells in windows *)

Lemma filter_sorted {A} (R : A -> A -> Prop) p l : StronglySorted R l -> StronglySorted R (filter p l).
Proof.
  induction 1 as [|x l S IH F]; [constructor|]. cbn. destruct (p x); [|exact IH]. constructor; [exact IH|].
  rewrite Forall_forall in *. intros y Y. apply filter_In in Y. apply F. apply Y.
Qed.
Lemma zseq_sorted n : forall s, StronglySorted Z.lt (zseq s n).
Proof.
  intros s. unfold zseq. generalize (Z.to_nat n). intros k. generalize 0%nat. induction k as [|k IH]; intros j; [constructor|]. cbn [seq map]. constructor; [apply IH|].
  rewrite Forall_forall. intros y Y. apply in_map_iff in Y. destruct Y as (i & <- & I). apply in_seq in I. lia.
Qed.
Lemma in_offsets R d : In d (offsets R) <-> - R <= fst d <= R /\ - R <= snd d <= R.
Proof.
  unfold offsets. rewrite in_flat_map. destruct d as [x y]. cbn [fst snd]. split.
  - intros (dr & I & J). apply in_map_iff in J. destruct J as (dc & E & J). inversion E; subst. apply in_zseq in I, J. lia.
  - intros H. exists x. split; [apply in_zseq; lia|]. apply in_map_iff. exists y. split; [reflexivity|apply in_zseq; lia].
Qed.
Lemma offsets_sorted R : StronglySorted row_major (offsets R).
Proof.
  unfold offsets. generalize (zseq_sorted (2 * R + 1) (- R)). set (cols := zseq (- R) (2 * R + 1)) at 2. assert (C : StronglySorted Z.lt cols) by apply zseq_sorted. clearbody cols.
  generalize (zseq (- R) (2 * R + 1)). intros rows. induction 1 as [|x rows S IH F]; [constructor|]. cbn [flat_map].
  assert (G : forall l, StronglySorted Z.lt l -> StronglySorted row_major (map (fun dc => (x, dc)) l ++ flat_map (fun dr => map (fun dc => (dr, dc)) cols) rows)).
  { induction 1 as [|y l T IHl G]; [exact IH|]. cbn [map List.app]. constructor; [exact IHl|]. rewrite Forall_forall in *. intros [u v] I. apply in_app_or in I. destruct I as [I|I].
    - apply in_map_iff in I. destruct I as (v' & E & I). inversion E; subst. right. split; [reflexivity|]. exact (G _ I).
    - apply in_flat_map in I. destruct I as (u' & I & J). apply in_map_iff in J. destruct J as (v' & E & J). inversion E; subst. left. exact (F _ I). }
  apply G. exact C.
Qed.

Section Cells.
Context {E : Type} (a0 a1 : Z) (no_data : E -> bool) (nd : E) (f : list Z -> E) (Hnd : no_data nd = true).
Let raster := padded a0 a1 (border_of (constant_halo nd)) (fun r c => f [r; c]).
Definition in_raster (x : Z * Z) : bool := (0 <=? fst x) && (fst x <? a0) && (0 <=? snd x) && (snd x <? a1).
Lemma raster_value r c : raster r c = if in_raster (r, c) then f [r; c] else nd.
Proof.
  unfold raster, padded, in_raster. cbn [fst snd border_of constant_halo b_north_west b_north b_north_east b_west b_east b_south_west b_south b_south_east].
  destruct (Z.ltb_spec r 0); destruct (Z.leb_spec 0 r); try lia; destruct (Z.ltb_spec c 0); destruct (Z.leb_spec 0 c); try lia;
    destruct (Z.ltb_spec r a0); destruct (Z.ltb_spec c a1); cbn [andb]; reflexivity.
Qed.
Definition cells_of (R : Z) (selected : Z -> Z -> bool) (r c : Z) : list (Z * Z) :=
  filter (fun x => in_raster x && negb (no_data (f [fst x; snd x]))) (map (fun d => (r + fst d, c + snd d)) (filter (fun d => selected (fst d) (snd d)) (offsets R))).
Lemma focal_values_cells R selected r c : focal_values R selected (fun v => negb (no_data v)) raster r c = values_of f (cells_of R selected r c).
Proof.
  unfold focal_values, cells_of, values_of. induction (filter _ (offsets R)) as [|d l IH]; [reflexivity|]. cbn [map filter].
  rewrite raster_value. cbn [fst snd]. destruct (in_raster (r + fst d, c + snd d)) eqn:I; cbn [andb].
  - destruct (no_data (f [r + fst d; c + snd d])); cbn [negb]; [exact IH|]. cbn [map fst snd]. f_equal. exact IH.
  - rewrite Hnd. cbn [negb]. exact IH.
Qed.
Lemma cells_sorted R selected r c : StronglySorted row_major (cells_of R selected r c).
Proof.
  apply filter_sorted. assert (S : StronglySorted row_major (filter (fun d => selected (fst d) (snd d)) (offsets R))) by (apply filter_sorted, offsets_sorted).
  induction S as [|d l S IH F]; [constructor|]. cbn [map]. constructor; [exact IH|]. rewrite Forall_forall in *. intros y Y. apply in_map_iff in Y. destruct Y as (e & <- & I).
  specialize (F e I). unfold row_major in *. cbn [fst snd]. lia.
Qed.
Lemma in_cells R selected r c x y : In (x, y) (cells_of R selected r c) <->
  0 <= x < a0 /\ 0 <= y < a1 /\ negb (no_data (f [x; y])) = true /\ - R <= x - r <= R /\ - R <= y - c <= R /\ selected (x - r) (y - c) = true.
Proof.
  unfold cells_of. rewrite filter_In, in_map_iff. cbn [fst snd]. unfold in_raster. cbn [fst snd]. rewrite !Bool.andb_true_iff, !Z.leb_le, !Z.ltb_lt. split.
  - intros [(d & Ed & I) H]. inversion Ed; subst. apply filter_In in I. destruct I as [I S]. apply in_offsets in I.
    replace (r + fst d - r) with (fst d) by lia. replace (c + snd d - c) with (snd d) by lia. intuition lia.
  - intros H. split; [|intuition lia]. exists (x - r, y - c). cbn [fst snd]. split; [f_equal; lia|]. apply filter_In. cbn [fst snd]. split; [apply in_offsets; cbn [fst snd]; lia|apply H].
Qed.

Lemma within_iff (cs w : R) R d : (0 < cs)%R -> w = (IZR (2 * R + 1) * cs)%R -> within cs w d <-> - R <= d <= R.
Proof.
  intros P ->. unfold within. rewrite <- abs_IZR. replace (IZR (2 * R + 1) * cs / 2)%R with (IZR (2 * R + 1) / 2 * cs)%R by field. split.
  - intros H. apply Rmult_le_reg_r in H; [|exact P]. assert (K : (IZR (2 * Z.abs d) <= IZR (2 * R + 1))%R) by (rewrite mult_IZR; lra). apply le_IZR in K. lia.
  - intros H. apply Rmult_le_compat_r; [lra|]. assert (K : (IZR (2 * Z.abs d) <= IZR (2 * R + 1))%R) by (apply IZR_le; lia). rewrite mult_IZR in K. lra.
Qed.
Lemma all_cells (cs w : R) R r c : (0 < cs)%R -> w = (IZR (2 * R + 1) * cs)%R ->
  window_cells a0 a1 (fun v => negb (no_data v)) f cs w r c (cells_of R (fun dr dc => negb (1 =? 0)) r c).
Proof.
  intros P W. split; [apply cells_sorted|]. intros x y. rewrite in_cells, !(within_iff cs w R _ P W). cbn. intuition lia.
Qed.
Lemma other_cells (cs w : R) R r c : (0 < cs)%R -> w = (IZR (2 * R + 1) * cs)%R ->
  other_window_cells a0 a1 (fun v => negb (no_data v)) f cs w r c (cells_of R (fun dr dc => negb ((dr =? 0) && (dc =? 0)) && negb (1 =? 0)) r c).
Proof.
  intros P W. split; [apply cells_sorted|]. intros x y. rewrite in_cells, !(within_iff cs w R _ P W). 
  assert (S : negb ((x - r =? 0) && (y - c =? 0)) && negb (1 =? 0) = true <-> x - r <> 0 \/ y - c <> 0).
  { destruct (Z.eqb_spec (x - r) 0); destruct (Z.eqb_spec (y - c) 0); cbn; intuition (try lia; try discriminate). }
  rewrite S. split.
  - intros H. split; [intros K; inversion K; lia|]. intuition lia.
  - intros [N H]. assert (K : x - r <> 0 \/ y - c <> 0). { destruct (Z.eq_dec x r) as [->|]; [|left; lia]. right. intros K. apply N. f_equal. lia. } intuition lia.
Qed.
Lemma plus_cells r c : cross_cells a0 a1 (fun v => negb (no_data v)) f r c (cells_of 1 (fun dr dc => negb ((if (1 + dr =? 1) || (1 + dc =? 1) then 1 else 0) =? 0)) r c).
Proof.
  split; [apply cells_sorted|]. intros x y. rewrite in_cells.
  destruct (Z.eqb_spec (1 + (x - r)) 1); destruct (Z.eqb_spec (1 + (y - c)) 1); cbn [orb Z.eqb negb]; intuition lia.
Qed.
End Cells.

Lemma odd_radius k : k mod 2 = 1 -> 0 < k -> exists R, 0 <= R /\ k = 2 * R + 1.
Proof. intros O P. exists (k / 2). pose proof (Z.div_mod k 2 ltac:(lia)). lia. Qed.

(** ** Rounding of quotients *)
Lemma quotient_finite (x y : b64) : B2R y <> 0%R -> is_finite (b64_div x y) = true -> B2R (b64_div x y) = rd (B2R x / B2R y).
Proof.
  intros Hy F. unfold b64_div in *. pose proof (@Bdiv_correct 53 1024 b64_prec_gt_0 b64_prec_lt_emax mode_NE x y Hy) as C.
  destruct (Rlt_bool _ _) in C; [apply C|]. exfalso. destruct (Bdiv _ x y); try discriminate; cbn in C; discriminate.
Qed.
Lemma rd_one q k : 0 < k -> rd q = IZR k -> (Rabs (q - IZR k) <= bpow radix2 (-53) * q)%R.
Proof.
  intros K E. assert (L : (1 <= IZR k)%R) by (apply IZR_le; lia).
  assert (B : (bpow radix2 (-1000) <= q)%R).
  { destruct (Rle_lt_dec (bpow radix2 (-1000)) q) as [H|H]; [exact H|]. exfalso. assert (M : (rd q <= rd (bpow radix2 (-1000)))%R) by (apply rd_le; lra).
    replace (rd (bpow radix2 (-1000))) with (bpow radix2 (-1000)) in M.
    - assert (X : (bpow radix2 (-1000) < bpow radix2 0)%R) by (apply bpow_lt; lia). change (bpow radix2 0) with 1%R in X. lra.
    - symmetry. apply round_generic; [typeclasses eauto|]. apply generic_format_bpow. cbn. lia. }
  pose proof (rd_error q B) as R. rewrite E in R. apply Rabs_le. lra.
Qed.
Lemma translate_error cs w k : (0 < B2R cs)%R -> translate_window_length cs w = Ok k -> (Rabs (B2R w - IZR k * B2R cs) <= bpow radix2 (-53) * B2R w)%R.
Proof.
  intros P H. apply translate_ok in H. destruct H as (_ & F & V & _ & K). rewrite quotient_finite in V by (try exact F; lra). apply rd_one in V; [|exact K].
  replace (B2R w - IZR k * B2R cs)%R with ((B2R w / B2R cs - IZR k) * B2R cs)%R by (field; lra). rewrite Rabs_mult, (Rabs_pos_eq (B2R cs)) by lra.
  replace (bpow radix2 (-53) * B2R w)%R with (bpow radix2 (-53) * (B2R w / B2R cs) * B2R cs)%R by (field; lra). apply Rmult_le_compat_r; [lra|exact V].
Qed.

(** ** Operations *)
Section Operation.
Context {E O : Type} (junk : Z -> E) (ojunk : Z -> O) (functor : kernel Z -> grid E -> outcome O) (nd : E).
Lemma window_of cs w k arr : odd_multiple cs w k -> exists R, 0 <= R /\ k = 2 * R + 1 /\ B2R w = (IZR (2 * R + 1) * B2R cs)%R /\
  window_operation junk ojunk functor nd cs arr w = focal functor (gmake (2 * R + 1) (2 * R + 1) (fun _ _ => 1)) junk ojunk (constant_halo nd) arr.
Proof.
  intros (P & F & W & O' & K). destruct (odd_radius k O' ltac:(lia)) as (R & HR & ->). exists R. split; [exact HR|]. split; [reflexivity|]. split; [exact W|].
  unfold window_operation. rewrite (translate_multiple cs w (2 * R + 1)) by assumption. reflexivity.
Qed.
End Operation.

Lemma majority_in l r : smallest_majority_of l r -> In r l.
Proof. intros [H _]. exact H. Qed.
