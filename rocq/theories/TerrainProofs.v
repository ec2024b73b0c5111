(** Lemmas about flow directions from elevations and downstream distances. *)
From Verif Require Import Common CommonProofs CoreSpec DecompSpec ArraySpec IndexModel DecompModel ArrayModel ArrayRep
  GridModel GridProofs LocalModel FlowModel FlowSpec AccuSpec FocalModel FocalSpec FocalRep FocalProofs3 FocalFunctorsModel TerrainSpec TerrainModel.

Lemma padded_constant {E} a0 a1 (h : E) f r c : padded a0 a1 (border_of (constant_halo h)) (fun r c => f [r; c]) r c = surrounded a0 a1 h f r c.
Proof.
  unfold padded, surrounded, insideb, border_of, constant_halo. cbn [b_north_west b_north b_north_east b_west b_east b_south_west b_south b_south_east fst snd
    h_north_west h_north h_north_east h_west h_east h_south_west h_south h_south_east].
  destruct (Z.ltb_spec r 0), (Z.leb_spec 0 r), (Z.ltb_spec r a0), (Z.ltb_spec c 0), (Z.leb_spec 0 c), (Z.ltb_spec c a1); cbn [andb]; try reflexivity; lia.
Qed.

Section D8.
Context {E : Type} (nd nan : E -> bool) (minus : E -> E -> E) (gtb : E -> E -> bool) (zero : E) (marker : Z).
Context (trans : forall x y z, gtb x y = true -> gtb y z = true -> gtb x z = true).
Context (irrefl : forall x, gtb x x <> true).
Context (cotrans : forall x y z, nan y = false -> gtb x z = true -> gtb x y = true \/ gtb y z = true).

Definition d8_step (window : Z -> Z -> E) (s : E * Z) (n : Z * Z * Z) : E * Z :=
  let '(i, j, code) := n in
  if negb (nd (window i j)) then
    if gtb (minus (window 1 1) (window i j)) (fst s) then (minus (window 1 1) (window i j), code) else s
  else s.
Definition F_d8 (window : Z -> Z -> E) : Z :=
  if nd (window 1 1) then marker else snd (fold_left (d8_step window) d8_neighbours (zero, sink)).

Lemma for_each_pure {X S} (l : list X) (f : X -> S -> outcome S) (g : S -> X -> S) s :
  (forall x s, In x l -> f x s = Ok (g s x)) -> for_each l f s = Ok (fold_left g l s).
Proof.
  revert s. induction l as [|x l IH]; intros s H; [reflexivity|]. cbn. rewrite (H x s (or_introl eq_refl)). cbn. apply IH. intros y s' Hy. apply H. right. exact Hy.
Qed.

Lemma d8_ok window : d8_functor nd minus gtb zero marker (gmake 3 3 window) = Ok (F_d8 window).
Proof.
  unfold d8_functor, F_d8. rewrite gget_make by lia. cbn [obind]. destruct (nd (window 1 1)); [reflexivity|].
  rewrite (for_each_pure _ _ (d8_step window)); [reflexivity|]. intros [[i j] code] s Hn. unfold d8_try, d8_step.
  rewrite gget_make by (cbn in Hn; repeat (destruct Hn as [Hn|Hn]; [injection Hn as <- <- _; lia|]); destruct Hn). cbn [obind].
  destruct (negb _); [|reflexivity]. destruct (gtb _ _); reflexivity.
Qed.

(** The directions that have been tried so far *)
Section Cell.
Context (elevation : Z -> Z -> E) (r c : Z).
Notation open := (open_direction nd elevation r c).
Notation drp := (drop minus elevation r c).
Definition tried (P : Z -> Prop) (s : E * Z) : Prop :=
  (s = (zero, 5) /\ forall k, P k -> open k -> gtb (drp k) zero = false) \/
  (P (snd s) /\ open (snd s) /\ fst s = drp (snd s) /\ gtb (fst s) zero = true /\
   (forall k, P k -> open k -> gtb (drp k) (fst s) = false) /\
   (forall k, P k -> open k -> nan (drp k) = false -> diagonal (snd s) -> ~ diagonal k -> gtb (fst s) (drp k) = true)).

Lemma d8_step_ok P s i j k : tried P s -> 1 <= k <= 9 -> k <> 5 -> keypad k = (i - 1, j - 1) ->
  diagonal k \/ (forall k', P k' -> ~ diagonal k') ->
  tried (fun k' => P k' \/ k' = k) (d8_step (fun i j => elevation (r - 1 + i) (c - 1 + j)) s (i, j, k)).
Proof.
  intros T K1 K5 Ek Hd. unfold d8_step. replace (r - 1 + 1) with r by lia. replace (c - 1 + 1) with c by lia.
  assert (EN : elevation (r - 1 + i) (c - 1 + j) = neighbour_value elevation r c k) by (unfold neighbour_value; rewrite Ek; cbn [fst snd]; f_equal; lia).
  rewrite EN. change (minus (elevation r c) (neighbour_value elevation r c k)) with (drp k).
  destruct (nd (neighbour_value elevation r c k)) eqn:N; cbn [negb].
  { (* closed *) assert (NO : ~ open k) by (intros [_ [_ Q]]; congruence).
    destruct T as [[Es T]|[T1 [T2 [T3 [T4 [T5 T6]]]]]]; [left|right].
    - split; [exact Es|]. intros k' [H| ->] O; [exact (T k' H O)|contradiction].
    - split; [left; exact T1|]. split; [exact T2|]. split; [exact T3|]. split; [exact T4|]. split.
      + intros k' [H| ->] O; [exact (T5 k' H O)|contradiction].
      + intros k' [H| ->] O; [exact (T6 k' H O)|contradiction]. }
  assert (OK : open k) by (split; [exact K1|split; [exact K5|exact N]]).
  destruct (gtb (drp k) (fst s)) eqn:G.
  - right. cbn [fst snd]. split; [right; reflexivity|]. split; [exact OK|]. split; [reflexivity|].
    destruct T as [[Es T]|[T1 [T2 [T3 [T4 [T5 T6]]]]]].
    + subst s. cbn [fst] in G. split; [exact G|]. split.
      * intros k' [H| ->] O.
        -- destruct (gtb (drp k') (drp k)) eqn:Q; [|reflexivity]. rewrite <- (T k' H O). symmetry. exact (trans _ _ _ Q G).
        -- destruct (gtb (drp k) (drp k)) eqn:Q; [|reflexivity]. destruct (irrefl _ Q).
      * intros k' [H| ->] O Nn D ND; [|contradiction]. destruct (cotrans _ _ _ Nn G) as [Q|Q]; [exact Q|]. rewrite (T k' H O) in Q. discriminate.
    + split; [exact (trans _ _ _ G T4)|]. split.
      * intros k' [H| ->] O.
        -- destruct (gtb (drp k') (drp k)) eqn:Q; [|reflexivity]. rewrite <- (T5 k' H O). symmetry. exact (trans _ _ _ Q G).
        -- destruct (gtb (drp k) (drp k)) eqn:Q; [|reflexivity]. destruct (irrefl _ Q).
      * intros k' [H| ->] O Nn D ND; [|contradiction]. destruct (cotrans _ _ _ Nn G) as [Q|Q]; [exact Q|]. rewrite (T5 k' H O) in Q. discriminate.
  - destruct T as [[Es T]|[T1 [T2 [T3 [T4 [T5 T6]]]]]]; [left|right].
    + split; [exact Es|]. subst s. intros k' [H| ->] O; [exact (T k' H O)|exact G].
    + split; [left; exact T1|]. split; [exact T2|]. split; [exact T3|]. split; [exact T4|]. split.
      * intros k' [H| ->] O; [exact (T5 k' H O)|exact G].
      * intros k' [H| ->] O Nn D ND; [exact (T6 k' H O Nn D ND)|]. destruct Hd as [Hd|Hd]; [contradiction|]. exfalso. exact (Hd _ T1 D).
Qed.

Lemma tried_ext (P Q : Z -> Prop) s : (forall k, P k <-> Q k) -> tried P s -> tried Q s.
Proof.
  intros H [[Es T]|[T1 [T2 [T3 [T4 [T5 T6]]]]]]; [left|right].
  - split; [exact Es|]. intros k Hk. apply T, H, Hk.
  - split; [apply H, T1|]. repeat (split; [assumption|]). split; [intros k Hk; apply T5, H, Hk|intros k Hk; apply T6, H, Hk].
Qed.

Lemma d8_all : tried (fun k => 1 <= k <= 9 /\ k <> 5)
  (fold_left (d8_step (fun i j => elevation (r - 1 + i) (c - 1 + j))) d8_neighbours (zero, sink)).
Proof.
  assert (T : tried (fun _ => False) (zero, sink)) by (left; split; [reflexivity|intros k []]).
  assert (D : forall k, k = 8 \/ k = 4 \/ k = 6 \/ k = 2 -> ~ diagonal k).
  { intros k Hk [A B]. destruct Hk as [->|[->|[->| ->]]]; cbv in A, B; congruence. }
  assert (D' : forall k, k = 7 \/ k = 9 \/ k = 1 \/ k = 3 -> diagonal k).
  { intros k [->|[->|[->| ->]]]; split; cbv; congruence. }
  unfold d8_neighbours. cbn [fold_left].
  apply d8_step_ok with (i := 0) (j := 1) (k := north) in T; [|unfold north; lia|unfold north; lia|reflexivity|right; intros k' Hk; apply D; unfold north, west, east, south in *; tauto].
  apply d8_step_ok with (i := 1) (j := 0) (k := west) in T; [|unfold west; lia|unfold west; lia|reflexivity|right; intros k' Hk; apply D; unfold north, west, east, south in *; tauto].
  apply d8_step_ok with (i := 1) (j := 2) (k := east) in T; [|unfold east; lia|unfold east; lia|reflexivity|right; intros k' Hk; apply D; unfold north, west, east, south in *; tauto].
  apply d8_step_ok with (i := 2) (j := 1) (k := south) in T; [|unfold south; lia|unfold south; lia|reflexivity|right; intros k' Hk; apply D; unfold north, west, east, south in *; tauto].
  apply d8_step_ok with (i := 0) (j := 0) (k := north_west) in T; [|unfold north_west; lia|unfold north_west; lia|reflexivity|left; apply D'; unfold north_west; lia].
  apply d8_step_ok with (i := 0) (j := 2) (k := north_east) in T; [|unfold north_east; lia|unfold north_east; lia|reflexivity|left; apply D'; unfold north_east; lia].
  apply d8_step_ok with (i := 2) (j := 0) (k := south_west) in T; [|unfold south_west; lia|unfold south_west; lia|reflexivity|left; apply D'; unfold south_west; lia].
  apply d8_step_ok with (i := 2) (j := 2) (k := south_east) in T; [|unfold south_east; lia|unfold south_east; lia|reflexivity|left; apply D'; unfold south_east; lia].
  revert T. apply tried_ext. intros k. unfold north, west, east, south, north_west, north_east, south_west, south_east. clear. lia.
Qed.

Lemma d8_cell : nd (elevation r c) = false ->
  largest_drop nd nan minus gtb zero elevation r c (F_d8 (fun i j => elevation (r - 1 + i) (c - 1 + j))).
Proof.
  intros N. unfold F_d8. cbv beta. replace (r - 1 + 1) with r by lia. replace (c - 1 + 1) with c by lia. rewrite N.
  destruct d8_all as [[Es T]|[T1 [T2 [T3 [T4 [T5 T6]]]]]]; [left|right].
  - rewrite Es. split; [reflexivity|]. intros k O. apply T; [|exact O]. destruct O as [A [B _]]. split; assumption.
  - set (s := fold_left _ _ _) in *. split; [exact T2|]. rewrite <- T3. split; [exact T4|]. split.
    + intros k O. apply T5; [|exact O]. destruct O as [A [B _]]. split; assumption.
    + intros k O. apply T6; [|exact O]. destruct O as [A [B _]]. split; assumption.
Qed.
End Cell.

Lemma F_d8_ext w w' : (forall i j, w i j = w' i j) -> F_d8 w = F_d8 w'.
Proof.
  intros H. unfold F_d8. rewrite !H. destruct (nd (w' 1 1)); [reflexivity|]. f_equal.
  generalize (zero, sink). induction d8_neighbours as [|[[i j] k] l IH]; intros s; [reflexivity|]. cbn [fold_left]. rewrite IH. f_equal. unfold d8_step. rewrite !H. reflexivity.
Qed.

Lemma d8_flow_direction_ok junk ojunk halo a0 a1 p0 p1 arr f :
  raster_of [a0; a1] [p0; p1] arr f -> 3 <= smallest_block a0 p0 -> 3 <= smallest_block a1 p1 ->
  exists out g, d8_flow_direction nd minus gtb zero marker junk ojunk halo arr = Ok out /\ raster_of [a0; a1] [p0; p1] out g /\
    forall r c, 0 <= r < a0 -> 0 <= c < a1 ->
      (nd (f [r; c]) = true -> g [r; c] = marker) /\
      (nd (f [r; c]) = false -> largest_drop nd nan minus gtb zero (surrounded a0 a1 halo f) r c (g [r; c])).
Proof.
  intros H H0 H1. destruct (focal_op_ok 1 (d8_functor nd minus gtb zero marker) F_d8 junk ojunk (constant_halo halo) d8_ok a0 a1 p0 p1 arr f ltac:(lia) H H0 H1)
    as [out [g [Eo [Hg V]]]].
  exists out, g. split; [exact Eo|]. split; [exact Hg|]. intros r c Hr Hc. rewrite V.
  rewrite (F_d8_ext _ (fun i j => surrounded a0 a1 halo f (r - 1 + i) (c - 1 + j))) by (intros i j; apply padded_constant).
  assert (EC : surrounded a0 a1 halo f r c = f [r; c]).
  { unfold surrounded, insideb. cbn [fst snd]. replace ((0 <=? r) && (r <? a0) && (0 <=? c) && (c <? a1)) with true by lia. reflexivity. }
  split; intros N.
  - unfold F_d8. cbv beta. replace (r - 1 + 1) with r by lia. replace (c - 1 + 1) with c by lia. rewrite EC, N. reflexivity.
  - apply (d8_cell (surrounded a0 a1 halo f) r c). rewrite EC. exact N.
Qed.

(** Water flows to lower cells only. *)
Context (lower : E -> E -> bool).
Context (minus_pos : forall x y, gtb (minus x y) zero = true -> lower y x = true).
Context (lower_trans : forall x y z, lower x y = true -> lower y z = true -> lower x z = true).
Context (lower_irrefl : forall x, lower x x <> true).

Lemma d8_network a0 a1 halo f (g : list Z -> Z) no_data :
  (forall r c, 0 <= r < a0 -> 0 <= c < a1 ->
      (nd (f [r; c]) = true -> g [r; c] = marker) /\
      (nd (f [r; c]) = false -> largest_drop nd nan minus gtb zero (surrounded a0 a1 halo f) r c (g [r; c]))) ->
  no_data marker = true -> (forall k, 1 <= k <= 9 -> no_data k = false) ->
  valid_network a0 a1 no_data (by_cell g) /\ acyclic a0 a1 no_data (by_cell g).
Proof.
  intros H M K.
  assert (S : forall r c, inside a0 a1 (r, c) -> surrounded a0 a1 halo f r c = f [r; c]).
  { intros r c [A B]. cbn in A, B. unfold surrounded, insideb. cbn [fst snd]. replace ((0 <=? r) && (r <? a0) && (0 <=? c) && (c <? a1)) with true by lia. reflexivity. }
  assert (D : forall x y, drains a0 a1 no_data (by_cell g) x y -> inside a0 a1 y ->
            nd (by_cell f y) = false /\ lower (by_cell f y) (by_cell f x) = true).
  { intros [r c] y [Hx [Hn [Ey Ny]]] Hy. change (by_cell g (r, c)) with (g [r; c]) in Hn. destruct Hx as [Hr Hc]. cbn [fst snd] in Hr, Hc.
    destruct (H r c Hr Hc) as [H1 H2]. destruct (nd (f [r; c])) eqn:N; [rewrite (H1 eq_refl) in Hn; congruence|].
    specialize (H2 eq_refl). unfold towards in Ey. cbn [fst snd] in Ey. change (by_cell g (r, c)) with (g [r; c]) in Ey.
    destruct H2 as [[E5 _]|[O [G _]]].
    - exfalso. apply Ny. rewrite Ey, E5. change (keypad 5) with (0, 0). cbn [fst snd]. f_equal; lia.
    - assert (EV : neighbour_value (surrounded a0 a1 halo f) r c (g [r; c]) = by_cell f y).
      { rewrite Ey in Hy |- *. unfold neighbour_value. rewrite S by exact Hy. reflexivity. }
      destruct O as [_ [_ O]]. rewrite EV in O. split; [exact O|]. unfold drop in G. rewrite EV, S in G by (split; assumption). exact (minus_pos _ _ G). }
  split.
  - intros x y Hxy Hy. destruct (D x y Hxy Hy) as [N _]. destruct y as [r c]. destruct Hy as [Hr Hc]. cbn [fst snd] in Hr, Hc. destruct (H r c Hr Hc) as [_ H2].
    change (by_cell g (r, c)) with (g [r; c]). destruct (H2 N) as [[E5 _]|[[A _] _]]; apply K; lia.
  - intros x y Hxy P.
    assert (L : forall u v, path a0 a1 no_data (by_cell g) u v -> inside a0 a1 u /\ inside a0 a1 v /\ (u = v \/ lower (by_cell f v) (by_cell f u) = true)).
    { intros u v Q. induction Q as [u A B|u w v A Q [IH1 [IH2 IH3]]]; [auto|]. split; [exact (proj1 A)|]. split; [exact IH2|]. right.
      destruct (D u w A IH1) as [_ L]. destruct IH3 as [->|IH3]; [exact L|]. exact (lower_trans _ _ _ IH3 L). }
    destruct (L y x P) as [Hy [Hx Q]]. destruct (D x y Hxy Hy) as [_ L']. destruct Q as [->|Q]; [exact (lower_irrefl _ L')|]. exact (lower_irrefl _ (lower_trans _ _ _ Q L')).
Qed.
End D8.
