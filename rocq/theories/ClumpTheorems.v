(** C28: clump. *)
From Verif Require Import Common CommonProofs CoreSpec DecompSpec ArraySpec IndexModel DecompModel ArrayModel ArrayProofs ArrayRep RasterCheck GridModel GridProofs GridRaster ClumpSpec ClumpModel ClumpProofs2 ClumpProofs8 ClumpProofs9.

(** Cells [x] and [y] of an array of shape [a0], [a1] are connected *)
Local Notation connected how a0 a1 nd f := (joined how (rectangle 0 a0 0 a1) nd (fun x => f [fst x; snd x])).
Local Notation value h x := (h [fst x; snd x]).

(** The policies and the type of the IDs suit the array: the mark is no-data and the numbers of the cells are valid, also according to the policy of the zones,
    which the code applies to IDs as well. *)
Definition ids_suit (zone_nd clump_nd : Z -> bool) (mark nr_cells : Z) : Prop :=
  clump_nd mark = true /\ zone_nd mark = true /\ forall id, 0 <= id < nr_cells -> clump_nd id = false /\ zone_nd id = false.

(** C28 in full: valid cells have the same ID if and only if they are connected. *)
Definition clump_always : Prop :=
  forall zone_nd clump_nd mark how a0 a1 p0 p1 arr f, raster_of [a0; a1] [p0; p1] arr f -> ids_suit zone_nd clump_nd mark (a0 * a1) ->
  exists res h, clump zone_nd clump_nd mark how arr = Ok res /\ raster_of [a0; a1] [p0; p1] res h /\
    (forall x, rectangle 0 a0 0 a1 x -> zone_nd (value f x) = true -> value h x = mark) /\
    (forall x y, rectangle 0 a0 0 a1 x -> rectangle 0 a0 0 a1 y -> zone_nd (value f x) = false -> zone_nd (value f y) = false ->
       (value h x = value h y <-> connected how a0 a1 zone_nd f x y)).

(** C28.  Missing: connected cells get the same ID if their clump consists of more than three pieces (parts of the clump that are connected within their partition);
    that is false, see [C28_clump_refuted].  All else is here: the operation ends without failing an assertion, no-data cells get the mark, IDs are in range, cells
    with the same ID are connected, connected cells in the same piece, or in a clump of at most three pieces, have the same ID. *)
Theorem C28_clump_partial :
  forall zone_nd clump_nd mark how a0 a1 p0 p1 arr f, raster_of [a0; a1] [p0; p1] arr f -> ids_suit zone_nd clump_nd mark (a0 * a1) ->
  exists res h, clump zone_nd clump_nd mark how arr = Ok res /\ raster_of [a0; a1] [p0; p1] res h /\
    (forall x, rectangle 0 a0 0 a1 x -> zone_nd (value f x) = true -> value h x = mark) /\
    (forall x, rectangle 0 a0 0 a1 x -> zone_nd (value f x) = false -> 0 <= value h x < a0 * a1) /\
    (forall x y, rectangle 0 a0 0 a1 x -> rectangle 0 a0 0 a1 y -> zone_nd (value f x) = false -> zone_nd (value f y) = false ->
       value h x = value h y -> connected how a0 a1 zone_nd f x y) /\
    (forall x y, same_piece how [a0; a1] [p0; p1] zone_nd f x y -> value h x = value h y) /\
    (forall x y piece1 piece2 piece3,
       (forall w, connected how a0 a1 zone_nd f x w ->
          same_piece how [a0; a1] [p0; p1] zone_nd f w piece1 \/ same_piece how [a0; a1] [p0; p1] zone_nd f w piece2 \/ same_piece how [a0; a1] [p0; p1] zone_nd f w piece3) ->
       connected how a0 a1 zone_nd f x y -> value h x = value h y).
Proof.
  intros zone_nd clump_nd mark how a0 a1 p0 p1 arr f Hr (H1 & H2 & H3). pose proof Hr as (_ & Hf & _). apply fits2 in Hf. destruct Hf as [Hp0 Hp1].
  destruct (clump_ok zone_nd clump_nd mark how a0 a1 p0 p1 f Hp0 Hp1 H1 H2 (fun id Hi => proj1 (H3 id Hi)) (fun id Hi => proj2 (H3 id Hi)) arr Hr) as (res & h & E & R & A & B & C & D & F).
  exists res, h. split; [exact E|]. split; [exact R|]. split; [intros [r c]; apply A|]. split; [intros [r c]; apply B|]. split; [exact C|]. split; [exact D|].
  intros x y c1 c2 c3 Hc. apply F. exists c1, c2, c3. exact Hc.
Qed.
Print Assumptions C28_clump_partial.

(** An array in one partition: valid cells have the same ID if and only if they are connected. *)
Theorem C28_one_partition :
  forall zone_nd clump_nd mark how a0 a1 p0 p1 arr f, raster_of [a0; a1] [p0; p1] arr f -> parts_shape [a0; a1] [p0; p1] = [1; 1] -> ids_suit zone_nd clump_nd mark (a0 * a1) ->
  exists res h, clump zone_nd clump_nd mark how arr = Ok res /\ raster_of [a0; a1] [p0; p1] res h /\
    (forall x, rectangle 0 a0 0 a1 x -> zone_nd (value f x) = true -> value h x = mark) /\
    (forall x y, rectangle 0 a0 0 a1 x -> rectangle 0 a0 0 a1 y -> zone_nd (value f x) = false -> zone_nd (value f y) = false ->
       (value h x = value h y <-> connected how a0 a1 zone_nd f x y)).
Proof.
  intros zone_nd clump_nd mark how a0 a1 p0 p1 arr f Hr Hone Hs. injection Hone as H0 H1. destruct (C28_clump_partial zone_nd clump_nd mark how a0 a1 p0 p1 arr f Hr Hs) as (res & h & E & R & A & _ & C & D & _).
  exists res, h. split; [exact E|]. split; [exact R|]. split; [exact A|]. intros x y Hx Hy Vx Vy. split; [now apply C|]. intros HJ. apply D. exists [0; 0]. split; [cbn [parts_shape in_shape]; rewrite H0, H1; lia|].
  cbn [part_offset part_extent]. rewrite H0, H1. change (0 =? 1 - 1) with true. cbv iota. eapply joined_inside; [|exact HJ]. intros [r c] [Hr' Hc']. cbn [in_box fst snd] in *. lia.
Qed.
Print Assumptions C28_one_partition.

(** Rows of values; -1 is no-data *)
Definition cl_f (rows : list (list Z)) (x : list Z) : Z := nth (Z.to_nat (nth 1 x 0)) (nth (Z.to_nat (nth 0 x 0)) rows []) 0.
Definition cl_nd (v : Z) : bool := v =? -1.
Definition cl_datas (o : outcome (parray Z)) : list (list Z) := match o with Ok a => map pl_data (pa_parts a) | _ => [] end.
Definition cl_zones := [[1; 0; 1; 0]; [0; 1; 0; 0]; [0; 0; 0; 1]].
Lemma cl_suit : forall n, ids_suit cl_nd cl_nd (-1) n.
Proof. intros n. split; [reflexivity|]. split; [reflexivity|]. intros id H. unfold cl_nd. lia. Qed.

(** Partitions of one cell: the zeros are connected, but get IDs 1, 3 and 4 (the first is not connected to the others). *)
Example cl_split : cl_datas (clump cl_nd cl_nd (-1) Nondiagonal (raster_array [3; 4] [1; 1] (cl_f cl_zones))) =
  [[0]; [1]; [2]; [3]; [4]; [5]; [3]; [3]; [4]; [4]; [3]; [11]].
Proof. vm_compute. reflexivity. Qed.

Theorem C28_clump_refuted : ~ clump_always.
Proof.
  intros W. set (f := cl_f cl_zones).
  assert (Hr : raster_of [3; 4] [1; 1] (raster_array [3; 4] [1; 1] f) f) by (apply raster_array_ok; [discriminate|repeat constructor; cbn; lia]).
  destruct (W cl_nd cl_nd (-1) Nondiagonal 3 4 1 1 _ f Hr (cl_suit _)) as (res & h & E & R & _ & Hh).
  assert (HJ : connected Nondiagonal 3 4 cl_nd f (2, 1) (2, 2)).
  { apply joined_one; try reflexivity; unfold rectangle, neighbours; cbn [fst snd]; lia. }
  apply (Hh (2, 1) (2, 2)) in HJ; try reflexivity; try (unfold rectangle; cbn [fst snd]; lia). cbn [fst snd] in HJ.
  destruct R as [_ [_ [_ [_ [_ R]]]]].
  assert (Hv : forall c v, 0 <= c < 4 -> nth_error (cl_datas (Ok res)) (Z.to_nat (8 + c)) = Some [v] -> h [2; c] = v).
  { intros c v Hc Hn. destruct (R [2; c]) as [d [E2 B]]; [cbn [parts_shape in_shape]; change (3 / 1) with 3; change (4 / 1) with 4; lia|].
    rewrite nth_error_map in E2. cbn [cl_datas] in Hn. rewrite nth_error_map in Hn. replace (rowmaj (parts_shape [3; 4] [1; 1]) [2; c]) with (8 + c) in E2 by (cbn [parts_shape rowmaj volume]; change (4 / 1) with 4; lia).
    destruct (nth_error (pa_parts res) (Z.to_nat (8 + c))) as [q|]; cbn [option_map] in *; [|discriminate]. injection E2 as _ _ E2. injection Hn as Hn. rewrite E2 in Hn. subst d.
    destruct B as [_ B]. specialize (B [0; 0]). cbn [part_extent part_offset in_shape rowmaj vadd volume nth_error Z.to_nat] in B. replace (2 * 1 + 0) with 2 in B by lia. replace (c * 1 + 0) with c in B by lia.
    assert (Some v = Some (h [2; c])) as X; [|congruence]. apply B. change (3 / 1) with 3. change (4 / 1) with 4. change (2 =? 3 - 1) with true. cbv iota. destruct (Z.eqb_spec c (4 - 1)); lia. }
  pose proof cl_split as X. fold f in X. rewrite E in X.
  rewrite (Hv 1 4), (Hv 2 3) in HJ; [discriminate|lia|rewrite X; reflexivity|lia|rewrite X; reflexivity].
Qed.
Print Assumptions C28_clump_refuted.

(** If the policy of the zones marks a possible ID as no-data, clumps across borders are lost: here zone 0 is no-data, and ID 0 of the border is taken for no-data. *)
Theorem C28_policies_refuted :
  ~ (forall zone_nd clump_nd mark how a0 a1 p0 p1 arr f, raster_of [a0; a1] [p0; p1] arr f -> clump_nd mark = true -> (forall id, 0 <= id < a0 * a1 -> clump_nd id = false) ->
     exists res h, clump zone_nd clump_nd mark how arr = Ok res /\ raster_of [a0; a1] [p0; p1] res h /\
       forall x y, connected how a0 a1 zone_nd f x y -> (forall w, connected how a0 a1 zone_nd f x w -> w = x \/ w = y) -> value h x = value h y).
Proof.
  intros W. set (f := fun _ : list Z => 5).
  assert (Hr : raster_of [1; 2] [1; 1] (raster_array [1; 2] [1; 1] f) f) by (apply raster_array_ok; [discriminate|repeat constructor; cbn; lia]).
  destruct (W (fun v => v =? 0) cl_nd (-1) Nondiagonal 1 2 1 1 _ f Hr) as (res & h & E & R & Hh); [reflexivity|intros id Hi; unfold cl_nd; lia|].
  assert (HJ : connected Nondiagonal 1 2 (fun v => v =? 0) f (0, 0) (0, 1)) by (apply joined_one; try reflexivity; unfold rectangle, neighbours; cbn [fst snd]; lia).
  apply Hh in HJ.
  2:{ intros [r c] Hw. pose proof (joined_right _ _ _ _ _ _ Hw) as [H1 H2]. cbn [fst snd] in *. assert (r = 0) by lia. assert (c = 0 \/ c = 1) as [-> | ->] by lia; subst; auto. }
  cbn [fst snd] in HJ.
  assert (X : cl_datas (clump (fun v => v =? 0) cl_nd (-1) Nondiagonal (raster_array [1; 2] [1; 1] f)) = [[0]; [1]]) by (vm_compute; reflexivity). rewrite E in X. cbn [cl_datas] in X.
  destruct R as [_ [_ [_ [_ [_ R]]]]]. destruct (R [0; 0]) as [d [E2 B]]; [cbn; lia|]. destruct (R [0; 1]) as [d' [E2' B']]; [cbn; lia|].
  rewrite nth_error_map in E2, E2'. destruct (pa_parts res) as [|q0 [|q1 [|? ?]]]; try discriminate. cbn in E2, E2', X. injection E2 as _ _ <-. injection E2' as _ _ <-. injection X as X1 X2. rewrite X1 in B. rewrite X2 in B'.
  destruct B as [_ B], B' as [_ B']. specialize (B [0; 0] ltac:(cbn; lia)). specialize (B' [0; 0] ltac:(cbn; lia)). cbn in B, B'. congruence.
Qed.
Print Assumptions C28_policies_refuted.


(** With diagonal connectivity the IDs of a connected clump can differ too: the ones get IDs 0 and 3. *)
Definition cl_zones_d := [[1; 1; -1; -1; 0; 1; 0]; [1; -1; -1; 1; -1; 1; -1]; [1; 0; 1; 0; 1; 1; 1]; [1; 1; -1; 1; -1; 1; 1]].
Example cl_split_diagonal : concat (cl_datas (clump cl_nd cl_nd (-1) Diagonal (raster_array [4; 7] [1; 1] (cl_f cl_zones_d)))) =
  [0; 0; -1; -1; 2; 3; 4;  0; -1; -1; 0; -1; 3; -1;  0; 9; 0; 11; 0; 3; 3;  0; 0; -1; 0; -1; 0; 3].
Proof. vm_compute. reflexivity. Qed.

(** Cases that meet the hypotheses.  Four partitions, two clumps with several pieces, two others, and no-data: *)
Definition cl_ok := [[7; 7; 2; 2]; [7; -1; 8; 2]; [7; 7; 7; 2]; [3; 3; 2; 2]].
Example C28_ex : raster_of [4; 4] [2; 2] (raster_array [4; 4] [2; 2] (cl_f cl_ok)) (cl_f cl_ok) /\ ids_suit cl_nd cl_nd (-1) (4 * 4) /\
  cl_datas (clump cl_nd cl_nd (-1) Nondiagonal (raster_array [4; 4] [2; 2] (cl_f cl_ok))) = [[0; 0; 0; -1]; [1; 1; 2; 1]; [0; 0; 4; 4]; [0; 1; 1; 1]].
Proof. split; [apply raster_array_ok; [discriminate|repeat constructor; cbn; lia]|]. split; [apply cl_suit|]. vm_compute. reflexivity. Qed.
(** A clump of three pieces: *)
Example C28_ex_pieces : let f := cl_f [[5; 5; 5]] in raster_of [1; 3] [1; 1] (raster_array [1; 3] [1; 1] f) f /\
  (forall w, connected Nondiagonal 1 3 cl_nd f (0, 0) w ->
     same_piece Nondiagonal [1; 3] [1; 1] cl_nd f w (0, 0) \/ same_piece Nondiagonal [1; 3] [1; 1] cl_nd f w (0, 1) \/ same_piece Nondiagonal [1; 3] [1; 1] cl_nd f w (0, 2)) /\
  connected Nondiagonal 1 3 cl_nd f (0, 0) (0, 2) /\ cl_datas (clump cl_nd cl_nd (-1) Nondiagonal (raster_array [1; 3] [1; 1] f)) = [[0]; [0]; [0]].
Proof.
  intros f. split; [apply raster_array_ok; [discriminate|repeat constructor; cbn; lia]|]. split; [|split; [|vm_compute; reflexivity]].
  - intros [r c] Hw. pose proof (joined_right _ _ _ _ _ _ Hw) as [H1 H2]. cbn [fst snd] in *. assert (r = 0) by lia. subst r.
    assert (Hs : forall c, 0 <= c < 3 -> same_piece Nondiagonal [1; 3] [1; 1] cl_nd f (0, c) (0, c)).
    { clear. intros c Hc. exists [0; c]. split; [cbn [parts_shape in_shape]; change (1 / 1) with 1; change (3 / 1) with 3; lia|]. apply joined_refl; cbn [fst snd part_offset part_extent in_box].
      - change (1 / 1) with 1. change (3 / 1) with 3. change (0 =? 1 - 1) with true. cbv iota. destruct (Z.eqb_spec c (3 - 1)); lia.
      - assert (c = 0 \/ c = 1 \/ c = 2) as [->|[->| ->]] by lia; reflexivity. }
    assert (c = 0 \/ c = 1 \/ c = 2) as [->|[->| ->]] by lia; auto using (Hs 0), (Hs 1), (Hs 2) with zarith.
  - eapply joined_step; [apply (joined_one _ _ _ _ (0, 0) (0, 1))| | |]; try reflexivity; unfold rectangle, neighbours; cbn [fst snd]; lia.
Qed.
(** One partition: *)
Example C28_ex_one : raster_of [4; 4] [3; 4] (raster_array [4; 4] [3; 4] (cl_f cl_ok)) (cl_f cl_ok) /\ parts_shape [4; 4] [3; 4] = [1; 1] /\
  cl_datas (clump cl_nd cl_nd (-1) Diagonal (raster_array [4; 4] [3; 4] (cl_f cl_ok))) = [[0; 0; 1; 1;  0; -1; 2; 1;  0; 0; 0; 1;  3; 3; 1; 1]].
Proof. split; [apply raster_array_ok; [discriminate|repeat constructor; cbn; lia]|]. split; [reflexivity|]. vm_compute. reflexivity. Qed.
