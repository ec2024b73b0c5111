(** Property theorems about slope and aspect (C49, C50).  Arithmetic is exact; [None] is no-data. *)
From Coq Require Import Reals Psatz.
From Verif Require Import Common CoreSpec DecompSpec ArraySpec DecompModel ArrayModel ArrayRep RasterCheck FlowSpec FocalSpec TerrainSpec SlopeSpec SlopeModel SlopeProofs SlopeProofs2.
Open Scope R_scope.

(** C49, in exact arithmetic: Horn's slope.  Cells outside of the array and cells without a value count as elevation 0, so at the
    border and near no-data the result is not the slope of the terrain.  [junk] is the content of freshly allocated buffers. *)
Theorem C49_slope_partial :
  forall junk a0 a1 p0 p1 elevation f cell_size,
  raster_of [a0; a1] [p0; p1] elevation f -> (3 <= smallest_block a0 p0)%Z -> (3 <= smallest_block a1 p1)%Z -> cell_size <> 0 ->
  exists out g, slope junk elevation cell_size = Ok out /\ raster_of [a0; a1] [p0; p1] out g /\
    forall r c, (0 <= r < a0)%Z -> (0 <= c < a1)%Z ->
      let z := surrounded a0 a1 None f in
      ((forall dr dc, (-1 <= dr <= 1)%Z -> (-1 <= dc <= 1)%Z -> z (r + dr)%Z (c + dc)%Z = None) -> g [r; c] = None) /\
      (~ (forall dr dc, (-1 <= dr <= 1)%Z -> (-1 <= dc <= 1)%Z -> z (r + dr)%Z (c + dc)%Z = None) ->
         let e := horn_east (fun r c => value_or_zero (z r c)) cell_size r c in
         let s := horn_south (fun r c => value_or_zero (z r c)) cell_size r c in
         g [r; c] = Some (sqrt (e * e + s * s))).
Proof. exact slope_ok. Qed.
Print Assumptions C49_slope_partial.
(** C49: the slope of an inclined plane *)
Theorem C49_inclined_plane_partial :
  forall junk a0 a1 p0 p1 elevation level south east cell_size,
  raster_of [a0; a1] [p0; p1] elevation (plane level south east) -> (3 <= smallest_block a0 p0)%Z -> (3 <= smallest_block a1 p1)%Z -> 0 < cell_size ->
  exists out g, slope junk elevation cell_size = Ok out /\ raster_of [a0; a1] [p0; p1] out g /\
    forall r c, interior a0 a1 r c -> g [r; c] = Some (sqrt (east * east + south * south) / cell_size).
Proof. exact slope_plane. Qed.
Print Assumptions C49_inclined_plane_partial.
Example C49_ex_hypotheses : raster_of [7; 3]%Z [3; 3]%Z (raster_array [7; 3]%Z [3; 3]%Z (plane 5 3 4)) (plane 5 3 4) /\
  (3 <= smallest_block 7 3)%Z /\ (3 <= smallest_block 3 3)%Z /\ interior 7 3 3 1 /\ sqrt (4 * 4 + 3 * 3) / 10 = 1 / 2.
Proof.
  split; [apply raster_array_ok; [discriminate|]; repeat constructor; vm_compute; congruence|]. split; [vm_compute; congruence|]. split; [vm_compute; congruence|].
  split; [vm_compute; intuition congruence|]. replace (4 * 4 + 3 * 3) with (5 * 5) by ring. rewrite sqrt_square by lra. lra.
Qed.

(** C49, false at the border: the slope of flat terrain is not 0 there, unless its elevation is 0. *)
Theorem C49_border_refuted :
  forall junk a0 a1 p0 p1 elevation level cell_size c,
  raster_of [a0; a1] [p0; p1] elevation (plane level 0 0) -> (3 <= smallest_block a0 p0)%Z -> (3 <= smallest_block a1 p1)%Z -> (2 <= a0)%Z -> 0 < cell_size ->
  (1 <= c < a1 - 1)%Z ->
  exists out g, slope junk elevation cell_size = Ok out /\ raster_of [a0; a1] [p0; p1] out g /\ g [0%Z; c] = Some (Rabs level / 2 / cell_size).
Proof. exact slope_flat_border. Qed.
Print Assumptions C49_border_refuted.
Example C49_border_ex : raster_of [7; 3]%Z [3; 3]%Z (raster_array [7; 3]%Z [3; 3]%Z (plane 1000 0 0)) (plane 1000 0 0) /\
  (3 <= smallest_block 7 3)%Z /\ (3 <= smallest_block 3 3)%Z /\ (1 <= 1 < 3 - 1)%Z /\ Rabs 1000 / 2 / 10 = 50.
Proof.
  split; [apply raster_array_ok; [discriminate|]; repeat constructor; vm_compute; congruence|]. split; [vm_compute; congruence|]. split; [vm_compute; congruence|].
  split; [lia|]. rewrite Rabs_pos_eq by lra. lra.
Qed.

(** C50, false: of no inclined plane is the result the direction in which it dips.  It is the opposite direction if the plane rises along a
    row, column or diagonal, and another angle in all other cases. *)
Theorem C50_aspect_refuted :
  forall junk a0 a1 p0 p1 elevation level south east,
  raster_of [a0; a1] [p0; p1] elevation (plane level south east) -> (3 <= smallest_block a0 p0)%Z -> (3 <= smallest_block a1 p1)%Z ->
  south <> 0 \/ east <> 0 ->
  exists out g theta, aspect junk elevation = Ok out /\ raster_of [a0; a1] [p0; p1] out g /\ 0 <= theta <= 2 * PI /\
    (forall r c, interior a0 a1 r c -> g [r; c] = Some theta) /\
    ~ has_azimuth (- east) south theta /\
    (has_azimuth east (- south) theta <-> east = 0 \/ south = 0 \/ east = south \/ east = - south).
Proof. exact aspect_plane. Qed.
Print Assumptions C50_aspect_refuted.
Example C50_ex_hypotheses : raster_of [7; 3]%Z [3; 3]%Z (raster_array [7; 3]%Z [3; 3]%Z (plane 5 3 4)) (plane 5 3 4) /\ has_azimuth (- 4) 0 (PI + PI / 2).
Proof.
  split; [apply raster_array_ok; [discriminate|]; repeat constructor; vm_compute; congruence|].
  exists 4. rewrite sin_plus, cos_plus, cos_PI2, sin_PI2, cos_PI, sin_PI. repeat split; lra.
Qed.
Close Scope R_scope.
