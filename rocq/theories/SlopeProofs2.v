(** Slope at the border of the array. *)
From Coq Require Import Reals Psatz.
From Verif Require Import Common CoreSpec DecompSpec ArraySpec DecompModel ArrayModel ArrayRep FlowSpec FocalSpec TerrainSpec SlopeSpec SlopeModel SlopeProofs.
Open Scope R_scope.

Lemma surrounded_in {E} a0 a1 (plain : E) f r c : (0 <= r < a0)%Z -> (0 <= c < a1)%Z -> surrounded a0 a1 plain f r c = f [r; c].
Proof. intros Hr Hc. unfold surrounded, insideb. cbn [fst snd]. replace (_ && _)%bool with true by lia. reflexivity. Qed.
Lemma surrounded_out {E} a0 a1 (plain : E) f r c : ~ ((0 <= r < a0)%Z /\ (0 <= c < a1)%Z) -> surrounded a0 a1 plain f r c = plain.
Proof. intros H. unfold surrounded, insideb. cbn [fst snd]. replace (_ && _)%bool with false by lia. reflexivity. Qed.

Lemma slope_border junk a0 a1 p0 p1 arr level south east h c : raster_of [a0; a1] [p0; p1] arr (plane level south east) ->
  (3 <= smallest_block a0 p0)%Z -> (3 <= smallest_block a1 p1)%Z -> (2 <= a0)%Z -> 0 < h -> (1 <= c < a1 - 1)%Z ->
  exists out g, slope junk arr h = Ok out /\ raster_of [a0; a1] [p0; p1] out g /\
    g [0%Z; c] = Some (sqrt ((3 * east / 4 / h) * (3 * east / 4 / h) + ((level + south + east * IZR c) / 2 / h) * ((level + south + east * IZR c) / 2 / h))).
Proof.
  intros H H0 H1 Ha Hh Hc. destruct (slope_ok junk a0 a1 p0 p1 arr _ h H H0 H1 ltac:(lra)) as [out [g [Eo [Hg V]]]].
  exists out, g. split; [exact Eo|]. split; [exact Hg|].
  destruct (V 0%Z c ltac:(lia) ltac:(lia)) as [_ V2]. cbv zeta in V2. rewrite V2; clear V2 V.
  - assert (C1 : IZR (c + 1) = IZR c + 1) by (rewrite plus_IZR; reflexivity).
    assert (C2 : IZR (c - 1) = IZR c - 1) by (rewrite minus_IZR; reflexivity).
    unfold horn_east, horn_south. change (0 - 1)%Z with (-1)%Z. change (0 + 1)%Z with 1%Z.
    rewrite !(surrounded_out a0 a1 None _ (-1)) by lia. rewrite !(surrounded_in a0 a1) by lia.
    cbn [value_or_zero plane nth]. rewrite C1, C2.
    f_equal. f_equal. f_equal; [|]; (f_equal; field; lra).
  - intros N. specialize (N 0%Z 0%Z ltac:(lia) ltac:(lia)). rewrite !Z.add_0_r, surrounded_in in N by lia. discriminate.
Qed.
Lemma slope_flat_border junk a0 a1 p0 p1 arr level h c : raster_of [a0; a1] [p0; p1] arr (plane level 0 0) ->
  (3 <= smallest_block a0 p0)%Z -> (3 <= smallest_block a1 p1)%Z -> (2 <= a0)%Z -> 0 < h -> (1 <= c < a1 - 1)%Z ->
  exists out g, slope junk arr h = Ok out /\ raster_of [a0; a1] [p0; p1] out g /\ g [0%Z; c] = Some (Rabs level / 2 / h).
Proof.
  intros H H0 H1 Ha Hh Hc. destruct (slope_border junk a0 a1 p0 p1 arr level 0 0 h c H H0 H1 Ha Hh Hc) as [out [g [E [Hg V]]]].
  exists out, g. split; [exact E|]. split; [exact Hg|]. rewrite V. f_equal.
  replace (3 * 0 / 4 / h * (3 * 0 / 4 / h) + (level + 0 + 0 * IZR c) / 2 / h * ((level + 0 + 0 * IZR c) / 2 / h)) with (Rsqr (level / 2 / h)) by (unfold Rsqr; field; lra).
  rewrite sqrt_Rsqr_abs. unfold Rdiv. rewrite !Rabs_mult, (Rabs_pos_eq (/ 2)), (Rabs_pos_eq (/ h)); [reflexivity| |lra]. apply Rlt_le, Rinv_0_lt_compat, Hh.
Qed.
