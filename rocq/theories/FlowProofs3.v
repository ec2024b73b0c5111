(** Partitions of a flow direction network, and inflow_count. *)
From Verif Require Import Common CommonProofs CoreSpec DecompSpec ArraySpec IndexModel DecompModel ArrayModel ArrayRep ArrayProofs
  GridModel GridProofs GridRaster FlowSpec FlowModel RouterModel FlowProofs FlowProofs2.

Definition part1 (a p i : Z) : Z := Z.min (i / p) (a / p - 1).

Lemma part1_spec a p i : 0 < p <= a -> 0 <= i < a ->
  0 <= part1 a p i < a / p /\ 0 <= i - part1 a p i * p < ext1 a p (part1 a p i).
Proof.
  intros Hp Hi. pose proof (nparts_pos a p Hp) as N. pose proof (Z.div_pos i p ltac:(lia) ltac:(lia)).
  pose proof (Z.mul_div_le a p ltac:(lia)). pose proof (Z.mul_succ_div_gt a p ltac:(lia)).
  pose proof (Z.mul_div_le i p ltac:(lia)). pose proof (Z.mul_succ_div_gt i p ltac:(lia)).
  unfold part1, ext1. set (m := Z.min (i / p) (a / p - 1)). assert (Hm : (m = i / p /\ i / p <= a / p - 1) \/ (m = a / p - 1 /\ a / p - 1 <= i / p)) by lia. clearbody m.
  destruct (Z.eqb_spec m (a / p - 1)) as [E|E].
  - split; [lia|]. assert (m <= i / p) by lia. nia.
  - assert (m = i / p) by lia. subst m. nia.
Qed.
Lemma part1_unique a p r x : 0 < p <= a -> 0 <= r < a / p -> 0 <= x < ext1 a p r -> part1 a p (r * p + x) = r.
Proof.
  intros Hp Hr Hx. unfold part1, ext1 in *. pose proof (Z.mul_div_le a p ltac:(lia)).
  destruct (Z.eqb_spec r (a / p - 1)) as [E|E].
  - rewrite Z.min_r; [lia|]. rewrite <- E. rewrite Z.div_add_l by lia. pose proof (Z.div_pos x p). lia.
  - rewrite Z.div_add_l by lia. rewrite (Z.div_small x p) by lia. lia.
Qed.

Lemma ext1_cases a p r : (r = a / p - 1 /\ ext1 a p r = a - r * p) \/ (r <> a / p - 1 /\ ext1 a p r = p).
Proof. unfold ext1. destruct (Z.eqb_spec r (a / p - 1)); auto. Qed.

(** Position in a neighbouring partition *)
Lemma side_inside a p r x : 0 < p <= a -> 0 <= r < a / p -> -1 <= x <= ext1 a p r -> 0 <= r * p + x < a ->
  0 <= r + side (ext1 a p r) x < a / p /\ part1 a p (r * p + x) = r + side (ext1 a p r) x.
Proof.
  intros Hp Hr Hx Hi. pose proof (ext1_pos a p r Hp Hr) as X. unfold side.
  destruct (Z.ltb_spec x 0) as [H|H]; [|destruct (Z.leb_spec (ext1 a p r) x) as [H'|H']].
  - assert (x = -1) by lia. subst x. assert (1 <= r) by nia.
    assert (r - 1 <> a / p - 1) by lia. split; [lia|].
    replace (r * p + -1) with ((r - 1) * p + (p - 1)) by ring. rewrite part1_unique; [lia|lia|lia|].
    unfold ext1. destruct (Z.eqb_spec (r - 1) (a / p - 1)); lia.
  - assert (x = ext1 a p r) by lia. subst x. unfold ext1 in Hi, X |- *. destruct (Z.eqb_spec r (a / p - 1)) as [E|E]; [lia|].
    split; [lia|]. replace (r * p + p) with ((r + 1) * p + 0) by ring. rewrite part1_unique; [lia|lia|lia|].
    pose proof (ext1_pos a p (r + 1) Hp ltac:(lia)). lia.
  - rewrite part1_unique by lia. lia.
Qed.
Lemma side_outside a p r x : 0 < p <= a -> 0 <= r < a / p -> -1 <= x <= ext1 a p r -> ~ 0 <= r * p + x < a ->
  ~ 0 <= r + side (ext1 a p r) x < a / p.
Proof.
  intros Hp Hr Hx Hi. pose proof (ext1_pos a p r Hp Hr) as X. unfold side.
  destruct (Z.ltb_spec x 0) as [H|H]; [|destruct (Z.leb_spec (ext1 a p r) x) as [H'|H']].
  - assert (x = -1) by lia. subst x. pose proof (ext1_in a p r 0 Hp Hr ltac:(lia)). assert (r = 0) by nia. lia.
  - assert (x = ext1 a p r) by lia. subst x. unfold ext1 in Hi, X |- *. destruct (Z.eqb_spec r (a / p - 1)) as [E|E]; [lia|].
    exfalso. apply Hi. pose proof (ext1_in a p (r + 1) 0 Hp ltac:(lia)) as Y. pose proof (ext1_pos a p (r + 1) Hp ltac:(lia)). lia.
  - pose proof (ext1_in a p r x Hp Hr ltac:(lia)). lia.
Qed.
Lemma side_range n x : side n x = -1 \/ side n x = 0 \/ side n x = 1.
Proof. unfold side. destruct (x <? 0), (n <=? x); auto. Qed.
(** the local index in the partition that is entered *)
Lemma side_local a p r x : 0 < p <= a -> 0 <= r < a / p -> -1 <= x <= ext1 a p r -> 0 <= r * p + x < a ->
  r * p + x - (r + side (ext1 a p r) x) * p =
    if side (ext1 a p r) x =? -1 then ext1 a p (r + side (ext1 a p r) x) - 1 else if side (ext1 a p r) x =? 0 then x else 0.
Proof.
  intros Hp Hr Hx Hi. pose proof (side_inside a p r x Hp Hr Hx Hi) as [S _]. pose proof (ext1_pos a p r Hp Hr) as X.
  unfold side in S |- *. destruct (Z.ltb_spec x 0) as [H|H]; [|destruct (Z.leb_spec (ext1 a p r) x) as [H'|H']]; cbn [Z.eqb Pos.eqb].
  - assert (x = -1) by lia. subst x. destruct (ext1_cases a p (r + -1)) as [[E ->]|[E ->]]; lia.
  - assert (x = ext1 a p r) by lia. subst x. destruct (ext1_cases a p r) as [[E E']|[E E']]; rewrite E' in *; lia.
  - lia.
Qed.

(** Directions *)
Definition dir_ok (a b : Z) : Prop := (a = -1 \/ a = 0 \/ a = 1) /\ (b = -1 \/ b = 0 \/ b = 1) /\ ~ (a = 0 /\ b = 0).
Definition off0 (d : Z) : Z := fst (neighbour_idxs d 0 0).
Definition off1 (d : Z) : Z := snd (neighbour_idxs d 0 0).

Lemma dir_range a b : dir_ok a b -> 0 <= direction_of a b < 8.
Proof. intros [[-> |[-> | ->]] [[-> |[-> | ->]] H]]; (exfalso; lia) || (split; [discriminate|reflexivity]). Qed.
Lemma dir_off a b : dir_ok a b -> off0 (direction_of a b) = a /\ off1 (direction_of a b) = b.
Proof. intros [[-> |[-> | ->]] [[-> |[-> | ->]] H]]; try (exfalso; lia); split; reflexivity. Qed.
Lemma neighbour_off d r c : neighbour_idxs d r c = (r + off0 d, c + off1 d).
Proof. unfold neighbour_idxs, off0, off1, neighbour_idxs. cbn [fst snd]. f_equal; lia. Qed.
Lemma dir_cases8 d : 0 <= d < 8 -> d = 0 \/ d = 1 \/ d = 2 \/ d = 3 \/ d = 4 \/ d = 5 \/ d = 6 \/ d = 7.
Proof. lia. Qed.
Lemma off_ok d : 0 <= d < 8 -> dir_ok (off0 d) (off1 d) /\ direction_of (off0 d) (off1 d) = d.
Proof.
  intros H. apply dir_cases8 in H. unfold dir_ok. repeat destruct H as [->|H]; try (subst d);
  match goal with |- context [off0 ?d] => let x := eval compute in (off0 d) in let y := eval compute in (off1 d) in change (off0 d) with x; change (off1 d) with y end;
  (split; [lia|reflexivity]).
Qed.
Lemma sender_off d : 0 <= d < 8 -> sender_direction d = direction_of (- off0 d) (- off1 d) /\ 0 <= sender_direction d < 8 /\
  off0 (sender_direction d) = - off0 d /\ off1 (sender_direction d) = - off1 d /\ sender_direction (sender_direction d) = d.
Proof. intros H. apply dir_cases8 in H. repeat destruct H as [->|H]; try (subst d); repeat split; (reflexivity || discriminate). Qed.
Lemma dir_inj a b a' b' : dir_ok a b -> dir_ok a' b' -> direction_of a b = direction_of a' b' -> a = a' /\ b = b'.
Proof. intros H H' E. destruct (dir_off a b H), (dir_off a' b' H'). rewrite E in *. lia. Qed.

Lemma has_neighbour_ok n0 n1 r c d : 0 <= d < 8 -> 0 <= r < n0 -> 0 <= c < n1 ->
  has_neighbour n0 n1 r c d = in_parts n0 n1 (r + off0 d) (c + off1 d).
Proof.
  intros H Hr Hc. apply dir_cases8 in H. unfold has_neighbour, in_parts.
  repeat destruct H as [->|H]; try (subst d);
  unfold to_north, to_north_west, to_north_east, to_south, to_south_west, to_south_east, to_west, to_east; cbn [Z.eqb Pos.eqb];
  match goal with |- context [off0 ?d] => let x := eval compute in (off0 d) in let y := eval compute in (off1 d) in change (off0 d) with x; change (off1 d) with y end;
  destruct (Z.ltb_spec 1 n0), (Z.ltb_spec 1 n1); cbn [orb]; lia.
Qed.

Section Net.
Context (a0 a1 p0 p1 : Z) (nd : Z -> bool) (f : cell -> Z).
Context (P0 : 2 <= p0 <= a0) (P1 : 2 <= p1 <= a1).
Context (V : valid_network a0 a1 nd f).

Definition e0 (r : Z) : Z := ext1 a0 p0 r.
Definition e1 (c : Z) : Z := ext1 a1 p1 c.
Definition M0 : Z := a0 / p0.
Definition M1 : Z := a1 / p1.
(** A cell of partition (r, c) *)
Definition glob (r c : Z) (s : cell) : cell := (r * p0 + fst s, c * p1 + snd s).
Definition prow (x : cell) : Z := part1 a0 p0 (fst x).
Definition pcol (x : cell) : Z := part1 a1 p1 (snd x).
Definition local (r c : Z) (x : cell) : cell := (fst x - r * p0, snd x - c * p1).
Definition loc (x : cell) : cell := local (prow x) (pcol x) x.
Definition lf (r c : Z) : Z -> Z -> Z := fun i j => f (r * p0 + i, c * p1 + j).

Definition part_ok (r c : Z) : Prop := 0 <= r < M0 /\ 0 <= c < M1.

Lemma glob_local r c x : glob r c (local r c x) = x.
Proof. destruct x. unfold glob, local. cbn. f_equal; lia. Qed.
Lemma local_glob r c s : local r c (glob r c s) = s.
Proof. destruct s. unfold glob, local. cbn. f_equal; lia. Qed.
Lemma glob_inj r c s t : glob r c s = glob r c t -> s = t.
Proof. intros E. rewrite <- (local_glob r c s), E. apply local_glob. Qed.

Lemma glob_inside r c s : part_ok r c -> inside (e0 r) (e1 c) s ->
  inside a0 a1 (glob r c s) /\ prow (glob r c s) = r /\ pcol (glob r c s) = c.
Proof.
  intros [Hr Hc] [H0 H1]. unfold inside, prow, pcol, glob. cbn [fst snd].
  rewrite !part1_unique by (try exact Hr; try exact Hc; try exact H0; try exact H1; lia).
  pose proof (ext1_in a0 p0 r (fst s) ltac:(lia) Hr H0). pose proof (ext1_in a1 p1 c (snd s) ltac:(lia) Hc H1). auto.
Qed.
Lemma loc_inside x : inside a0 a1 x ->
  part_ok (prow x) (pcol x) /\ inside (e0 (prow x)) (e1 (pcol x)) (loc x) /\ glob (prow x) (pcol x) (loc x) = x.
Proof.
  intros [H0 H1]. unfold part_ok, inside, loc. rewrite glob_local. unfold local. cbn [fst snd].
  pose proof (part1_spec a0 p0 (fst x) ltac:(lia) H0). pose proof (part1_spec a1 p1 (snd x) ltac:(lia) H1).
  unfold M0, M1, e0, e1, prow, pcol in *. intuition lia.
Qed.
Lemma ext_big r c : part_ok r c -> 2 <= e0 r /\ 2 <= e1 c.
Proof.
  intros [Hr Hc]. pose proof (ext1_pos a0 p0 r ltac:(lia) Hr). pose proof (ext1_pos a1 p1 c ltac:(lia) Hc). unfold e0, e1. lia.
Qed.

Lemma glob_dest r c s : glob r c (dest (lf r c) s) = towards f (glob r c s).
Proof. unfold glob, dest, towards, lf. cbn [fst snd]. f_equal; lia. Qed.
Lemma dest_near r c s : inside (e0 r) (e1 c) s -> -1 <= fst (dest (lf r c) s) <= e0 r /\ -1 <= snd (dest (lf r c) s) <= e1 c.
Proof.
  intros [H0 H1]. pose proof (keypad_range (lf r c (fst s) (snd s))). unfold dest. cbn [fst snd]. lia.
Qed.
Lemma inside_glob r c s : part_ok r c -> 
  inside (e0 r) (e1 c) s <-> (inside a0 a1 (glob r c s) /\ prow (glob r c s) = r /\ pcol (glob r c s) = c).
Proof.
  intros HP. split; [now apply glob_inside|]. intros [H [E0 E1]]. destruct (loc_inside _ H) as [_ [I _]].
  unfold loc in I. rewrite E0, E1, local_glob in I. exact I.
Qed.

(** Position of the destination of a cell of partition (r, c) *)
Definition s0 (r c : Z) (s : cell) : Z := side (e0 r) (fst (dest (lf r c) s)).
Definition s1 (r c : Z) (s : cell) : Z := side (e1 c) (snd (dest (lf r c) s)).

Lemma dest_part r c s : part_ok r c -> inside (e0 r) (e1 c) s -> inside a0 a1 (towards f (glob r c s)) ->
  part_ok (r + s0 r c s) (c + s1 r c s) /\
  prow (towards f (glob r c s)) = r + s0 r c s /\ pcol (towards f (glob r c s)) = c + s1 r c s.
Proof.
  intros [Hr Hc] Hs. rewrite <- glob_dest. intros [H0 H1]. unfold glob in *. cbn [fst snd] in *.
  pose proof (dest_near r c s Hs) as [D0 D1].
  pose proof (side_inside a0 p0 r (fst (dest (lf r c) s)) ltac:(lia) Hr D0 H0).
  pose proof (side_inside a1 p1 c (snd (dest (lf r c) s)) ltac:(lia) Hc D1 H1).
  unfold part_ok, s0, s1, e0, e1, M0, M1, prow, pcol in *. cbn [fst snd]. intuition.
Qed.
Lemma dest_outside r c s : part_ok r c -> inside (e0 r) (e1 c) s -> ~ inside a0 a1 (towards f (glob r c s)) ->
  ~ part_ok (r + s0 r c s) (c + s1 r c s).
Proof.
  intros [Hr Hc] Hs. rewrite <- glob_dest. unfold inside, glob. cbn [fst snd]. intros H [Q0 Q1].
  pose proof (dest_near r c s Hs) as [D0 D1].
  pose proof (side_outside a0 p0 r (fst (dest (lf r c) s)) ltac:(lia) Hr D0).
  pose proof (side_outside a1 p1 c (snd (dest (lf r c) s)) ltac:(lia) Hc D1).
  unfold s0, s1, e0, e1, M0, M1 in *. 
  destruct (Z_le_dec 0 (r * p0 + fst (dest (lf r c) s))), (Z_lt_dec (r * p0 + fst (dest (lf r c) s)) a0),
    (Z_le_dec 0 (c * p1 + snd (dest (lf r c) s))), (Z_lt_dec (c * p1 + snd (dest (lf r c) s)) a1); tauto.
Qed.
Lemma output_dir r c s : part_ok r c -> inside (e0 r) (e1 c) s -> ~ inside (e0 r) (e1 c) (dest (lf r c) s) -> dir_ok (s0 r c s) (s1 r c s).
Proof.
  intros HP Hs H. unfold dir_ok. split; [apply side_range|]. split; [apply side_range|]. unfold s0, s1, side. intros [E0 E1]. apply H.
  unfold inside. destruct (Z.ltb_spec (fst (dest (lf r c) s)) 0), (Z.leb_spec (e0 r) (fst (dest (lf r c) s))),
    (Z.ltb_spec (snd (dest (lf r c) s)) 0), (Z.leb_spec (e1 c) (snd (dest (lf r c) s))); lia.
Qed.

(** The index that is sent leads the receiver to the destination. *)
Lemma convert_ok r c s idx : part_ok r c -> inside (e0 r) (e1 c) s -> ~ inside (e0 r) (e1 c) (dest (lf r c) s) ->
  inside a0 a1 (towards f (glob r c s)) ->
  (s0 r c s = 0 \/ s1 r c s = 0 -> idx = out_idx (e0 r) (e1 c) (dest (lf r c) s)) ->
  idx_to_idxs (sender_direction (out_direction (e0 r) (e1 c) (dest (lf r c) s))) (e0 (r + s0 r c s)) (e1 (c + s1 r c s)) idx
    = loc (towards f (glob r c s)).
Proof.
  intros HP Hs Ho Hi Hidx. pose proof (output_dir r c s HP Hs Ho) as HD.
  destruct (dest_part r c s HP Hs Hi) as [_ [Q0 Q1]]. unfold loc, local. rewrite Q0, Q1.
  destruct HP as [Hr Hc]. pose proof (dest_near r c s Hs) as [D0 D1]. rewrite <- glob_dest in *. unfold glob, inside in *. cbn [fst snd] in *.
  pose proof (side_local a0 p0 r _ ltac:(lia) Hr D0 (proj1 Hi)) as L0. pose proof (side_local a1 p1 c _ ltac:(lia) Hc D1 (proj2 Hi)) as L1.
  fold (e0 r) in L0. fold (e1 c) in L1. unfold out_direction, out_idx in *.
  fold (s0 r c s) in *. fold (s1 r c s) in *. fold (e0 (r + s0 r c s)) in L0. fold (e1 (c + s1 r c s)) in L1.
  rewrite L0, L1. clear L0 L1. destruct HD as [[C0|[C0|C0]] [[C1|[C1|C1]] C]]; try (exfalso; lia);
  rewrite C0, C1 in *; cbn [Z.eqb Pos.eqb] in *; try (rewrite Hidx by auto); reflexivity.
Qed.

(** Output cells of a partition (local) *)
Definition outs (r c : Z) : list cell := filter (is_output nd (e0 r) (e1 c) (lf r c)) (connect_order (e0 r) (e1 c)).
Definition outc (r c : Z) : cell -> output_cell := outcell (e0 r) (e1 c) (lf r c).
Definition odir (r c : Z) (s : cell) : Z := out_direction (e0 r) (e1 c) (dest (lf r c) s).

Lemma outs_spec r c : part_ok r c -> NoDup (outs r c) /\
  forall s, In s (outs r c) <-> inside (e0 r) (e1 c) s /\ nd (f (glob r c s)) = false /\ ~ inside (e0 r) (e1 c) (dest (lf r c) s).
Proof.
  intros HP. destruct (ext_big r c HP) as [B0 B1]. destruct (connect_order_spec (e0 r) (e1 c) B0 B1) as [N I].
  split; [now apply NoDup_filter|]. intros s. unfold outs. rewrite filter_In, I. unfold is_output, ndc. rewrite andb_true_iff, !negb_true_iff, insideb_false.
  change (lf r c (fst s) (snd s)) with (f (glob r c s)). split; [tauto|]. intros [Hs [Hn Hd]]. repeat split; try tauto; try apply Hs.
  unfold inside in Hs. pose proof (keypad_range (lf r c (fst s) (snd s))) as K. unfold inside, dest in Hd. cbn [fst snd] in Hd.
  destruct (Z.eq_dec (fst s) 0); [tauto|]. destruct (Z.eq_dec (fst s) (e0 r - 1)); [tauto|].
  destruct (Z.eq_dec (snd s) 0); [tauto|]. destruct (Z.eq_dec (snd s) (e1 c - 1)); [tauto|]. exfalso. apply Hd. lia.
Qed.

(** Cells of other partitions that drain into partition (r, c), from direction d *)
Definition srcs (r c d : Z) : list cell :=
  if has_neighbour M0 M1 r c d then
    map (glob (r + off0 d) (c + off1 d)) (filter (fun s => odir (r + off0 d) (c + off1 d) s =? sender_direction d) (outs (r + off0 d) (c + off1 d)))
  else [].

Lemma in_parts_ok r c : in_parts M0 M1 r c = true <-> part_ok r c.
Proof. unfold in_parts, part_ok. lia. Qed.

Lemma srcs_spec r c d : part_ok r c -> 0 <= d < 8 -> NoDup (srcs r c d) /\
  forall y, In y (srcs r c d) <-> inside a0 a1 y /\ nd (f y) = false /\ prow y = r + off0 d /\ pcol y = c + off1 d /\
     inside a0 a1 (towards f y) /\ prow (towards f y) = r /\ pcol (towards f y) = c.
Proof.
  intros HP Hd. unfold srcs. rewrite has_neighbour_ok by (exact Hd || apply HP).
  destruct (in_parts M0 M1 (r + off0 d) (c + off1 d)) eqn:EN.
  - apply in_parts_ok in EN. destruct (outs_spec _ _ EN) as [N I]. split.
    + apply FinFun.Injective_map_NoDup; [intros s t; apply glob_inj|now apply NoDup_filter].
    + intros y. rewrite in_map_iff. setoid_rewrite filter_In. setoid_rewrite I. split.
      * intros [s [<- [[Hs [Hn Ho]] E]]]. apply Z.eqb_eq in E. destruct (glob_inside _ _ s EN Hs) as [G [G0 G1]].
        pose proof (output_dir _ _ s EN Hs Ho) as D. destruct (sender_off d Hd) as [Es [Rs [O0 [O1 _]]]].
        change (odir (r + off0 d) (c + off1 d) s) with (direction_of (s0 (r + off0 d) (c + off1 d) s) (s1 (r + off0 d) (c + off1 d) s)) in E.
        destruct (dir_off _ _ D) as [X0 X1]. rewrite E in X0, X1. 
        assert (T : inside a0 a1 (towards f (glob (r + off0 d) (c + off1 d) s))).
        { destruct (insideb a0 a1 (towards f (glob (r + off0 d) (c + off1 d) s))) eqn:Ei; [now apply insideb_spec|].
          exfalso. apply insideb_false in Ei. apply (dest_outside _ _ s EN Hs Ei). rewrite <- X0, <- X1, O0, O1.
          replace (r + off0 d + - off0 d) with r by lia. replace (c + off1 d + - off1 d) with c by lia. exact HP. }
        destruct (dest_part _ _ s EN Hs T) as [_ [T0 T1]]. repeat split; try tauto; try apply G; try apply T; lia.
      * intros [Hy [Hn [Y0 [Y1 [T [T0 T1]]]]]]. destruct (loc_inside y Hy) as [_ [L G]]. rewrite Y0, Y1 in *.
        exists (loc y). split; [exact G|]. assert (Ho : ~ inside (e0 (r + off0 d)) (e1 (c + off1 d)) (dest (lf (r + off0 d) (c + off1 d)) (loc y))).
        { rewrite (inside_glob _ _ _ EN), glob_dest, G. intros [_ [X0 X1]]. destruct (off_ok d Hd) as [[_ [_ X]] _]. apply X. lia. }
        rewrite G. split; [tauto|]. apply Z.eqb_eq. pose proof (output_dir _ _ (loc y) EN L Ho) as D.
        destruct (dest_part _ _ (loc y) EN L) as [_ [X0 X1]]; [now rewrite G|]. rewrite G in X0, X1.
        change (odir (r + off0 d) (c + off1 d) (loc y)) with (direction_of (s0 (r + off0 d) (c + off1 d) (loc y)) (s1 (r + off0 d) (c + off1 d) (loc y))).
        destruct (sender_off d Hd) as [Es _]. rewrite Es. f_equal; lia.
  - split; [constructor|]. intros y. split; [intros []|]. intros [Hy [_ [Y0 [Y1 _]]]]. exfalso.
    destruct (loc_inside y Hy) as [L _]. rewrite Y0, Y1 in L. apply in_parts_ok in L. congruence.
Qed.

(** The models of connectivity and of the exchange of indices *)
Lemma connectivity_ok r c : part_ok r c -> connectivity_ready nd (gmake (e0 r) (e1 c) (lf r c)) = Ok (map (outc r c) (outs r c)).
Proof. intros HP. destruct (ext_big r c HP). now apply local_connect. Qed.

Lemma received_sent d n0 n1 l d' : received d n0 n1 (sent l d') = map (idx_to_idxs d n0 n1) (map oc_idx (filter (fun o => oc_direction o =? d') l)).
Proof.
  unfold sent. destruct (map oc_idx _) as [|i t]; [reflexivity|]. cbn [app received]. now rewrite app_nil_r.
Qed.

Definition input_of (y : cell) : cell := loc (towards f y).
Lemma filter_map {A B} (h : A -> B) p l : filter p (map h l) = map h (filter (fun x => p (h x)) l).
Proof. induction l as [|x l IH]; [reflexivity|]. cbn. destruct (p (h x)); cbn; now rewrite IH. Qed.

Lemma inputs_ok r c d conns : part_ok r c -> 0 <= d < 8 -> conns = gmake M0 M1 (fun r c => map (outc r c) (outs r c)) ->
  input_cells conns (e0 r) (e1 c) r c d = Ok (map input_of (srcs r c d)).
Proof.
  intros HP Hd ->. unfold input_cells. cbn [g0 g1 gmake]. change (Grid M0 M1 _) with (gmake M0 M1 (fun r c => map (outc r c) (outs r c))).
  destruct (srcs_spec r c d HP Hd) as [_ SI]. revert SI. unfold srcs. destruct (has_neighbour M0 M1 r c d) eqn:EN; [|reflexivity].
  intros SI. rewrite neighbour_off. rewrite has_neighbour_ok in EN by (exact Hd || apply HP). apply in_parts_ok in EN.
  rewrite gget_make by apply EN. rewrite obind_Ok, received_sent, filter_map, map_map, !map_map.
  assert (EQ : map (fun x => idx_to_idxs d (e0 r) (e1 c) (oc_idx (outc (r + off0 d) (c + off1 d) x)))
      (filter (fun x => oc_direction (outc (r + off0 d) (c + off1 d) x) =? sender_direction d) (outs (r + off0 d) (c + off1 d))) =
    map (fun x => input_of (glob (r + off0 d) (c + off1 d) x))
      (filter (fun s => odir (r + off0 d) (c + off1 d) s =? sender_direction d) (outs (r + off0 d) (c + off1 d)))).
  { apply map_ext_in. intros s Hs. apply filter_In in Hs. destruct Hs as [Hs E]. apply Z.eqb_eq in E.
    destruct (outs_spec _ _ EN) as [_ I]. apply I in Hs. destruct Hs as [Hs [Hn Ho]].
    assert (S : In (glob (r + off0 d) (c + off1 d) s) (map (glob (r + off0 d) (c + off1 d))
       (filter (fun s => odir (r + off0 d) (c + off1 d) s =? sender_direction d) (outs (r + off0 d) (c + off1 d))))).
    { apply in_map, filter_In. split; [now apply I|now apply Z.eqb_eq]. }
    apply SI in S. destruct S as [_ [_ [_ [_ [T [T0 T1]]]]]].
    destruct (dest_part _ _ s EN Hs T) as [_ [X0 X1]]. unfold input_of.
    rewrite <- (convert_ok _ _ s (out_idx (e0 (r + off0 d)) (e1 (c + off1 d)) (dest (lf (r + off0 d) (c + off1 d)) s)) EN Hs Ho T (fun _ => eq_refl)).
    rewrite <- X0, <- X1, T0, T1. fold (odir (r + off0 d) (c + off1 d) s). rewrite E.
    destruct (sender_off d Hd) as [_ [_ [_ [_ ->]]]]. reflexivity. }
  change (fun o => oc_direction (outc (r + off0 d) (c + off1 d) o) =? sender_direction d)
    with (fun x => oc_direction (outc (r + off0 d) (c + off1 d) x) =? sender_direction d).
  rewrite EQ. replace (border_cells _ _ _) with true; [reflexivity|]. symmetry. unfold border_cells. apply forallb_forall.
  rewrite <- map_map. intros x Hx. apply in_map_iff in Hx. destruct Hx as [y [<- Hy]]. apply SI in Hy.
  destruct Hy as [Hy [Hn [Y0 [Y1 [T [T0 T1]]]]]]. destruct (loc_inside _ T) as [_ [[L0 L1] _]].
  unfold input_of. unfold loc in L0, L1 |- *. rewrite T0 in L0. rewrite T1 in L1. rewrite T0, T1 in *. unfold local in *. cbn [fst snd] in *.
  destruct (off_ok d Hd) as [[C0 [C1 C]] _].
  destruct (loc_inside _ Hy) as [_ [[K0 K1] _]]. unfold loc, local in K0, K1. rewrite Y0, Y1 in *. cbn [fst snd] in K0, K1.
  unfold towards in *. cbn [fst snd] in *. pose proof (keypad_range (f y)) as [R0 R1].
  set (dr := fst (keypad (f y))) in *. set (dc := snd (keypad (f y))) in *. clearbody dr dc.
  destruct EN as [EN0 EN1]. destruct HP as [HP0 HP1].
  assert (Z0 : off0 d = 1 -> e0 r = p0) by (intros; unfold e0, ext1; destruct (Z.eqb_spec r (a0 / p0 - 1)); [unfold M0 in *; lia|reflexivity]).
  assert (Z1 : off1 d = 1 -> e1 c = p1) by (intros; unfold e1, ext1; destruct (Z.eqb_spec c (a1 / p1 - 1)); [unfold M1 in *; lia|reflexivity]).
  assert (Z2 : off0 d = -1 -> e0 (r + off0 d) = p0) by (intros; unfold e0, ext1; destruct (Z.eqb_spec (r + off0 d) (a0 / p0 - 1)); [unfold M0 in *; lia|reflexivity]).
  assert (Z3 : off1 d = -1 -> e1 (c + off1 d) = p1) by (intros; unfold e1, ext1; destruct (Z.eqb_spec (c + off1 d) (a1 / p1 - 1)); [unfold M1 in *; lia|reflexivity]).
  destruct C0 as [C0|[C0|C0]]; [rewrite (Z2 C0) in *|clear Z2|rewrite (Z0 C0) in *]; rewrite ?C0 in *;
  (destruct C1 as [C1|[C1|C1]]; [rewrite (Z3 C1) in *|clear Z3|rewrite (Z1 C1) in *]); rewrite ?C1 in *; lia.
Qed.
End Net.
