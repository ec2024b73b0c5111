(** Two-dimensional partitioned arrays as grids of partitions. *)
From Verif Require Import Common CommonProofs CoreSpec DecompSpec ArraySpec IndexModel DecompModel ArrayModel ArrayRep
  ArrayProofs GridModel GridProofs.

Definition ext1 (a p r : Z) : Z := if r =? a / p - 1 then a - r * p else p.

Lemma ext1_pos a p r : 0 < p <= a -> 0 <= r < a / p -> p <= ext1 a p r.
Proof.
  intros Hp Hr. unfold ext1. destruct (Z.eqb_spec r (a / p - 1)); [|lia].
  pose proof (Z.mul_div_le a p). nia.
Qed.
Lemma ext1_in a p r x : 0 < p <= a -> 0 <= r < a / p -> 0 <= x < ext1 a p r -> 0 <= r * p + x < a.
Proof.
  intros Hp Hr. unfold ext1. pose proof (Z.mul_div_le a p). destruct (Z.eqb_spec r (a / p - 1)); intros; nia.
Qed.

Section Raster2.
Context {E : Type} (a0 a1 p0 p1 : Z).

Definition rpart (loc : Z -> Z -> Z) (f : list Z -> E) (r c : Z) : part2 E :=
  Placed (loc r c) [r * p0; c * p1] [ext1 a0 p0 r; ext1 a1 p1 c]
    (gmake (ext1 a0 p0 r) (ext1 a1 p1 c) (fun x y => f [r * p0 + x; c * p1 + y])).

Lemma fits2 : partition_fits [a0; a1] [p0; p1] <-> 0 < p0 <= a0 /\ 0 < p1 <= a1.
Proof.
  unfold partition_fits. split.
  - intros H. inversion H as [|? ? ? ? H1 H2]; subst. inversion H2; subst. auto.
  - intros [H1 H2]. repeat constructor; tauto.
Qed.

Lemma nparts_pos a p : 0 < p <= a -> 1 <= a / p.
Proof. intros H. apply Z.div_le_lower_bound; lia. Qed.

Lemma block2 n0 n1 (data : list E) h : block_holds [n0; n1] data h -> 0 <= n0 -> 0 <= n1 ->
  Grid n0 n1 data = gmake n0 n1 (fun x y => h [x; y]).
Proof.
  intros [Hl H] H0 H1. apply grid_eq_make; cbn [g0 g1]; [assumption|assumption| |].
  - cbn in Hl |- *. nia.
  - intros r c Hr Hc. unfold gget, in_grid. cbn [g0 g1 gl].
    replace ((0 <=? r) && (r <? n0) && (0 <=? c) && (c <? n1)) with true by lia.
    unfold at_z. rewrite nth_z_nat by nia. specialize (H [r; c]). cbn [in_shape rowmaj volume] in H.
    replace (r * n1 + c) with (r * (n1 * 1) + (c * 1 + 0)) by lia. rewrite H by lia. reflexivity.
Qed.

Lemma raster_grid arr f : raster_of [a0; a1] [p0; p1] arr f ->
  exists loc, Grid (a0 / p0) (a1 / p1) (map to_part2 (pa_parts arr)) = gmake (a0 / p0) (a1 / p1) (rpart loc f).
Proof.
  intros H. assert (H' := H). destruct H' as [_ [Hf _]]. apply fits2 in Hf. destruct Hf as [Hp0 Hp1].
  pose proof (nparts_pos _ _ Hp0). pose proof (nparts_pos _ _ Hp1).
  exists (fun r c => match nth_error (pa_parts arr) (Z.to_nat (r * (a1 / p1) + c)) with Some q => pl_locality q | None => 0 end).
  apply grid_eq_make; cbn [g0 g1]; [lia|lia| |].
  - cbn [gl]. rewrite map_length. apply raster_length in H. unfold nr_parts in H. cbn in H. nia.
  - intros r c Hr Hc. unfold gget, in_grid. cbn [g0 g1 gl].
    replace ((0 <=? r) && (r <? a0 / p0) && (0 <=? c) && (c <? a1 / p1)) with true by lia.
    unfold at_z. rewrite nth_z_nat by nia. rewrite nth_error_map.
    destruct (raster_part [a0; a1] [p0; p1] arr f [r; c] H) as [q [Eq [Eo [Es B]]]]; [cbn; lia|].
    cbn [rowmaj volume parts_shape] in Eq. replace (r * (a1 / p1 * 1) + (c * 1 + 0)) with (r * (a1 / p1) + c) in Eq by lia.
    unfold rpart. rewrite Eq. cbn [option_map]. unfold to_part2. rewrite Eo, Es. cbn [part_offset part_extent nth].
    do 2 f_equal. cbn [part_extent] in B.
    pose proof (ext1_pos a0 p0 r Hp0 Hr). pose proof (ext1_pos a1 p1 c Hp1 Hc). unfold ext1 in *.
    rewrite (block2 _ _ _ _ B) by lia. apply gmake_ext. intros. reflexivity.
Qed.

Lemma grid_raster (g : list Z -> E) (Q : Z -> Z -> part2 E) :
  0 < p0 <= a0 -> 0 < p1 <= a1 ->
  (forall r c, 0 <= r < a0 / p0 -> 0 <= c < a1 / p1 ->
     pl_offset (Q r c) = [r * p0; c * p1] /\ pl_shape (Q r c) = [ext1 a0 p0 r; ext1 a1 p1 c] /\
     pl_data (Q r c) = gmake (ext1 a0 p0 r) (ext1 a1 p1 c) (fun x y => g [r * p0 + x; c * p1 + y])) ->
  raster_of [a0; a1] [p0; p1]
    (PArray [a0; a1] (parts_shape [a0; a1] [p0; p1]) (map of_part2 (gl (gmake (a0 / p0) (a1 / p1) Q)))) g.
Proof.
  intros Hp0 Hp1 H. pose proof (nparts_pos _ _ Hp0). pose proof (nparts_pos _ _ Hp1).
  split; [discriminate|]. split; [now apply fits2|]. split; [reflexivity|]. split; [reflexivity|]. split.
  - cbn [pa_parts]. rewrite !map_length, make_length by lia. unfold nr_parts. cbn. nia.
  - intros c Hc. destruct c as [|r [|c [|? ?]]]; try contradiction; cbn in Hc; try lia. destruct Hc as [Hr [Hc _]].
    destruct (H r c Hr Hc) as [Eo [Es Ed]].
    exists (gl (gmake (ext1 a0 p0 r) (ext1 a1 p1 c) (fun x y => g [r * p0 + x; c * p1 + y]))). cbn [pa_parts].
    rewrite !nth_error_map, gl_make, nth_error_map. cbn [rowmaj volume parts_shape].
    replace (r * (a1 / p1 * 1) + (c * 1 + 0)) with (r * (a1 / p1) + c) by lia.
    rewrite nth_cells2 by lia. cbn [option_map fst snd]. rewrite !Z.add_0_l. unfold of_part2. cbn [pl_offset pl_shape pl_data].
    rewrite Eo, Es, Ed. split; [reflexivity|].
    cbn [part_extent]. fold (ext1 a0 p0 r). fold (ext1 a1 p1 c).
    pose proof (ext1_pos a0 p0 r Hp0 Hr). pose proof (ext1_pos a1 p1 c Hp1 Hc). split.
    + rewrite make_length by lia. cbn. nia.
    + intros x Hx. destruct x as [|x [|y [|? ?]]]; try contradiction; cbn in Hx; try lia. destruct Hx as [Hx [Hy _]].
      rewrite gl_make, nth_error_map. cbn [rowmaj volume]. replace (x * (ext1 a1 p1 c * 1) + (y * 1 + 0)) with (x * ext1 a1 p1 c + y) by lia.
      rewrite nth_cells2 by lia. cbn [option_map fst snd part_offset vadd]. do 2 f_equal.
Qed.
End Raster2.
