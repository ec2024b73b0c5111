(** Property theorems about flow directions from elevations and downstream distances (C47, C48). *)
From Coq Require Import QArith Qcanon.
From Flocq Require Import Core BinarySingleNaN.
From Verif Require Import Common CoreSpec DecompSpec ArraySpec Float64 DecompModel ArrayModel ArrayRep RasterCheck FlowSpec AccuSpec
  FocalSpec RouterModel RouterSpec AccuModel AccuCheck TerrainSpec TerrainModel FloatOrder TerrainProofs2.
Local Open Scope Z_scope.

(** Elevations are floating point numbers with a precision of [prec] bits, NaN is no-data.  [marker] is the no-data value of
    flow directions, [plain] the value used outside of the array (std::numeric_limits<..>::min() by default), [junk] and
    [ojunk] the content of freshly allocated buffers. *)

(** C47: the direction of the largest drop *)
Theorem C47_d8_flow_direction :
  forall prec emax (Hprec : Prec_gt_0 prec) (Hmax : Prec_lt_emax prec emax) marker junk ojunk plain a0 a1 p0 p1 elevation f,
  let minus := @Bminus prec emax Hprec Hmax mode_NE in
  let gtb := fun x y : binary_float prec emax => Bltb y x in
  let zero := B754_zero false : binary_float prec emax in
  raster_of [a0; a1] [p0; p1] elevation f -> 3 <= smallest_block a0 p0 -> 3 <= smallest_block a1 p1 ->
  exists out g, d8_flow_direction (@is_nan prec emax) minus gtb zero marker junk ojunk plain elevation = Ok out /\
    raster_of [a0; a1] [p0; p1] out g /\
    forall r c, 0 <= r < a0 -> 0 <= c < a1 ->
      (is_nan (f [r; c]) = true -> g [r; c] = marker) /\
      (is_nan (f [r; c]) = false -> largest_drop (@is_nan prec emax) (@is_nan prec emax) minus gtb zero (surrounded a0 a1 plain f) r c (g [r; c])).
Proof. exact d8_floats. Qed.
Print Assumptions C47_d8_flow_direction.

(** C47: the flow directions are a network in which water never returns, whatever the elevations (pits, flat areas, infinities and
    rounding of differences included); hence flow accumulation finishes. *)
Theorem C47_flow_directions_are_a_network :
  forall prec emax (Hprec : Prec_gt_0 prec) (Hmax : Prec_lt_emax prec emax) marker junk ojunk plain a0 a1 p0 p1 elevation f no_data,
  let minus := @Bminus prec emax Hprec Hmax mode_NE in
  let gtb := fun x y : binary_float prec emax => Bltb y x in
  let zero := B754_zero false : binary_float prec emax in
  raster_of [a0; a1] [p0; p1] elevation f -> 3 <= smallest_block a0 p0 -> 3 <= smallest_block a1 p1 -> 2 <= p0 -> 2 <= p1 ->
  no_data marker = true -> (forall k, 1 <= k <= 9 -> no_data k = false) ->
  exists out g, d8_flow_direction (@is_nan prec emax) minus gtb zero marker junk ojunk plain elevation = Ok out /\
    raster_of [a0; a1] [p0; p1] out g /\
    valid_network a0 a1 no_data (by_cell g) /\ acyclic a0 a1 no_data (by_cell g) /\
    forall material m, raster_of [a0; a1] [p0; p1] material m ->
    exists flux, accu_spec a0 a1 no_data (by_cell g) (by_cell m) (by_cell flux) /\ routes_to accu no_data a0 a1 p0 p1 out material flux.
Proof. exact d8_floats_accu. Qed.
Print Assumptions C47_flow_directions_are_a_network.

(** A raster of 6 rows and 4 columns; the first cell is NaN, the fourth row is flat, there is a pit in the third column. *)
Definition ex_elevation (x : list Z) : b64 :=
  match nth (Z.to_nat (nth 0 x 0 * 4 + nth 1 x 0))
    [-1; 9; 8; 7; 9; 7; 6; 7; 8; 6; 1; 5; 6; 6; 6; 6; 7; 5; 5; 7; 9; 9; 8; 9] 0 with
  | Zneg _ => B754_nan
  | n => b64_of_Z n
  end.
Definition ex_terrain : parray b64 := raster_array [6; 4] [3; 4] ex_elevation.
Example ex_terrain_holds : raster_of [6; 4] [3; 4] ex_terrain ex_elevation /\ 3 <= smallest_block 6 3 /\ 3 <= smallest_block 4 4.
Proof.
  split; [|split; vm_compute; congruence]. apply raster_array_ok; [discriminate|]. repeat constructor; vm_compute; congruence.
Qed.
(** In a plain that is higher than the terrain, and in one that is lower *)
Definition ex_d8 (plain : Z) : outcome (list (list Z)) :=
  obind (d8_flow_direction (@is_nan 53 1024) (@Bminus 53 1024 b64_prec_gt_0 b64_prec_lt_emax mode_NE) (fun x y => Bltb y x) (B754_zero false) 255
    (fun _ => B754_nan) (fun _ => 77) (b64_of_Z plain) ex_terrain) (fun out => Ok (map pl_data (pa_parts out))).
Example C47_ex : ex_d8 100 = Ok [[255; 3; 2; 1; 3; 3; 2; 1; 6; 6; 5; 4]; [3; 9; 8; 7; 6; 5; 5; 4; 9; 8; 8; 7]].
Proof. vm_compute. reflexivity. Qed.
Example C47_ex_low_plain : ex_d8 (-100) = Ok [[255; 8; 8; 8; 4; 3; 2; 6; 4; 6; 5; 6]; [4; 9; 8; 6; 4; 5; 5; 6; 4; 2; 2; 6]].
Proof. vm_compute. reflexivity. Qed.

(** C48: the distance to the next cell downstream.  [times] is the multiplication of the element type, [root2] the value of
    std::sqrt(2), [marker] the no-data value. *)
Theorem C48_downstream_distance :
  forall (D : Type) nd (mark : D -> D) marker zero times root2 junk a0 a1 p0 p1 flow_direction f cell_size,
  (forall v, mark v = marker) -> raster_of [a0; a1] [p0; p1] flow_direction f ->
  exists out g, downstream_distance nd mark zero times root2 junk flow_direction cell_size = Ok out /\ raster_of [a0; a1] [p0; p1] out g /\
    forall r c, 0 <= r < a0 -> 0 <= c < a1 ->
      (nd (f [r; c]) = true -> g [r; c] = marker) /\
      (nd (f [r; c]) = false ->
        let (south, east) := keypad (f [r; c]) in
        (south = 0 -> east = 0 -> g [r; c] = zero) /\
        (south <> 0 -> east <> 0 -> g [r; c] = times root2 cell_size) /\
        (south = 0 /\ east <> 0 \/ south <> 0 /\ east = 0 -> g [r; c] = cell_size)).
Proof. exact @downstream_distance_ok. Qed.
Print Assumptions C48_downstream_distance.
Definition ex_directions (x : list Z) : Z := nth (Z.to_nat (nth 0 x 0 * 4 + nth 1 x 0)) [1; 2; 3; 4; 5; 6; 7; 8; 9; 255; 0; 5] 0.
Example C48_ex : obind (downstream_distance (fun v => v =? 255) (fun _ => -1) 0 Z.mul 14 (fun _ => 77) (raster_array [3; 4] [1; 4] ex_directions) 10) (fun out =>
    Ok (map pl_data (pa_parts out))) = Ok [[140; 10; 140; 10]; [0; 10; 140; 10]; [140; -1; 0; 0]].
Proof. vm_compute. reflexivity. Qed.
Example C48_ex_hypotheses : raster_of [3; 4] [1; 4] (raster_array [3; 4] [1; 4] ex_directions) ex_directions.
Proof. apply raster_array_ok; [discriminate|]; repeat constructor; vm_compute; congruence. Qed.
