(** Flow directions from floating point elevations; downstream distances. *)
From Coq Require Import QArith Qcanon.
From Flocq Require Import Core BinarySingleNaN.
From Verif Require Import Common CommonProofs CoreSpec DecompSpec ArraySpec IndexModel DecompModel ArrayModel ArrayRep
  GridModel GridProofs LocalModel LocalSpec LocalProofs LocalProofs2 FlowModel FlowSpec AccuSpec RouterModel RouterSpec AccuModel AccuProofs3 AccuProofs4 FocalModel FocalSpec FocalRep FocalProofs3 FocalFunctorsModel
  ResampleProofs2 FloatOrder TerrainSpec TerrainModel TerrainProofs.
Local Open Scope Z_scope.

Section Floats.
Context (prec emax : Z) (Hprec : Prec_gt_0 prec) (Hmax : Prec_lt_emax prec emax).
Notation float := (binary_float prec emax).
Notation minus := (@Bminus prec emax Hprec Hmax mode_NE).
Definition fgtb (x y : float) : bool := Bltb y x.

Lemma d8_floats marker junk ojunk halo a0 a1 p0 p1 arr f :
  raster_of [a0; a1] [p0; p1] arr f -> 3 <= smallest_block a0 p0 -> 3 <= smallest_block a1 p1 ->
  exists out g, d8_flow_direction (@is_nan prec emax) minus fgtb (fzero prec emax) marker junk ojunk halo arr = Ok out /\ raster_of [a0; a1] [p0; p1] out g /\
    forall r c, 0 <= r < a0 -> 0 <= c < a1 ->
      (is_nan (f [r; c]) = true -> g [r; c] = marker) /\
      (is_nan (f [r; c]) = false -> largest_drop (@is_nan prec emax) (@is_nan prec emax) minus fgtb (fzero prec emax) (surrounded a0 a1 halo f) r c (g [r; c])).
Proof.
  apply d8_flow_direction_ok; unfold fgtb.
  - intros x y z A B. exact (Bltb_trans _ _ _ _ _ B A).
  - intros x Q. rewrite Bltb_irrefl in Q. discriminate.
  - intros x y z N A. destruct (Bltb_cotrans _ _ _ y _ N A) as [Q|Q]; [right|left]; exact Q.
Qed.

Lemma d8_floats_network marker halo a0 a1 f (g : list Z -> Z) no_data :
  (forall r c, 0 <= r < a0 -> 0 <= c < a1 ->
      (is_nan (f [r; c]) = true -> g [r; c] = marker) /\
      (is_nan (f [r; c]) = false -> largest_drop (@is_nan prec emax) (@is_nan prec emax) minus fgtb (fzero prec emax) (surrounded a0 a1 halo f) r c (g [r; c]))) ->
  no_data marker = true -> (forall k, 1 <= k <= 9 -> no_data k = false) ->
  valid_network a0 a1 no_data (by_cell g) /\ acyclic a0 a1 no_data (by_cell g).
Proof.
  apply (d8_network (@is_nan prec emax) (@is_nan prec emax) minus fgtb (fzero prec emax) marker) with (lower := @Bltb prec emax).
  - intros x y z A B. exact (Bltb_trans _ _ _ _ _ B A).
  - intros x Q. unfold fgtb in Q. rewrite Bltb_irrefl in Q. discriminate.
  - intros x y z N A. destruct (Bltb_cotrans _ _ _ y _ N A) as [Q|Q]; [right|left]; exact Q.
  - intros x y Q. apply (minus_pos prec emax Hprec Hmax). exact Q.
  - apply Bltb_trans.
  - intros x Q. rewrite Bltb_irrefl in Q. discriminate.
Qed.

Lemma d8_floats_accu marker junk ojunk halo a0 a1 p0 p1 arr f no_data :
  raster_of [a0; a1] [p0; p1] arr f -> 3 <= smallest_block a0 p0 -> 3 <= smallest_block a1 p1 -> 2 <= p0 -> 2 <= p1 ->
  no_data marker = true -> (forall k, 1 <= k <= 9 -> no_data k = false) ->
  exists out g, d8_flow_direction (@is_nan prec emax) minus fgtb (fzero prec emax) marker junk ojunk halo arr = Ok out /\ raster_of [a0; a1] [p0; p1] out g /\
    valid_network a0 a1 no_data (by_cell g) /\ acyclic a0 a1 no_data (by_cell g) /\
    forall material m, raster_of [a0; a1] [p0; p1] material m ->
    exists flux, accu_spec a0 a1 no_data (by_cell g) (by_cell m) (by_cell flux) /\ routes_to accu no_data a0 a1 p0 p1 out material flux.
Proof.
  intros H H0 H1 P0 P1 M K. destruct (d8_floats marker junk ojunk halo a0 a1 p0 p1 arr f H H0 H1) as [out [g [Eo [Hg V]]]].
  exists out, g. split; [exact Eo|]. split; [exact Hg|]. destruct (d8_floats_network marker halo a0 a1 f g no_data V M K) as [A B].
  split; [exact A|]. split; [exact B|]. intros material m Hm. destruct (accu_ok a0 a1 no_data g m A B) as [flux [F1 F2]].
  exists flux. split; [exact F1|]. exact (F2 p0 p1 out material P0 P1 Hg Hm).
Qed.
End Floats.

Lemma downstream_distance_ok {D} nd (mark : D -> D) marker zero times root2 junk a0 a1 p0 p1 arr f cell_size :
  (forall v, mark v = marker) -> raster_of [a0; a1] [p0; p1] arr f ->
  exists out g, downstream_distance nd mark zero times root2 junk arr cell_size = Ok out /\ raster_of [a0; a1] [p0; p1] out g /\
    forall r c, 0 <= r < a0 -> 0 <= c < a1 ->
      (nd (f [r; c]) = true -> g [r; c] = marker) /\
      (nd (f [r; c]) = false ->
        let (south, east) := keypad (f [r; c]) in
        (south = 0 -> east = 0 -> g [r; c] = zero) /\
        (south <> 0 -> east <> 0 -> g [r; c] = times root2 cell_size) /\
        (south = 0 /\ east <> 0 \/ south <> 0 /\ east = 0 -> g [r; c] = cell_size)).
Proof.
  intros Hm H. destruct (c13_unary _ _ (UnaryPolicies nd (fun _ => true) mark (fun _ _ => true))
    (downstream_distance_functor zero cell_size (times root2 cell_size)) marker junk [a0; a1] [p0; p1] arr f Hm H) as [out [g [Eo [Hg V]]]].
  exists out, g. split; [exact Eo|]. split; [exact Hg|]. intros r c Hr Hc. destruct (V [r; c] ltac:(repeat split; lia)) as [V1 V2]. cbn [u_no_data u_domain u_range] in V1, V2.
  split; intros N; [apply V2; left; exact N|]. rewrite (V1 N eq_refl eq_refl). clear. generalize (f [r; c]). clear. intros k.
  destruct (Z_le_dec 1 k) as [L1|L1]; [destruct (Z_le_dec k 9) as [L2|L2]|].
  - assert (k = 1 \/ k = 2 \/ k = 3 \/ k = 4 \/ k = 5 \/ k = 6 \/ k = 7 \/ k = 8 \/ k = 9) as Q by lia.
    repeat (destruct Q as [->|Q]; [cbv [keypad downstream_distance_functor north_west north_east south_west south_east north west east south] in *; vm_compute; repeat split; intros; try reflexivity; try congruence; intuition congruence|]).
    subst k. vm_compute. repeat split; intros; try reflexivity; try congruence; intuition congruence.
  - assert (K : keypad k = (0, 0)) by (unfold keypad; replace ((1 <=? k) && (k <=? 9)) with false by lia; reflexivity). rewrite K.
    unfold downstream_distance_functor, north_west, north_east, south_west, south_east, north, west, east, south.
    replace (k =? 1) with false by lia. replace (k =? 2) with false by lia. replace (k =? 3) with false by lia. replace (k =? 4) with false by lia.
    replace (k =? 6) with false by lia. replace (k =? 7) with false by lia. replace (k =? 8) with false by lia. replace (k =? 9) with false by lia.
    cbn [orb]. repeat split; intros; try reflexivity; try congruence; intuition congruence.
  - assert (K : keypad k = (0, 0)) by (unfold keypad; replace ((1 <=? k) && (k <=? 9)) with false by lia; reflexivity). rewrite K.
    unfold downstream_distance_functor, north_west, north_east, south_west, south_east, north, west, east, south.
    replace (k =? 1) with false by lia. replace (k =? 2) with false by lia. replace (k =? 3) with false by lia. replace (k =? 4) with false by lia.
    replace (k =? 6) with false by lia. replace (k =? 7) with false by lia. replace (k =? 8) with false by lia. replace (k =? 9) with false by lia.
    cbn [orb]. repeat split; intros; try reflexivity; try congruence; intuition congruence.
Qed.
