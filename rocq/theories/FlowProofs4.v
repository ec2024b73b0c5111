(** inflow_count counts the cells that drain into a cell. *)
From Verif Require Import Common CommonProofs CoreSpec DecompSpec ArraySpec IndexModel DecompModel ArrayModel ArrayRep ArrayProofs
  GridModel GridProofs GridRaster FlowSpec FlowModel RouterModel FlowProofs FlowProofs2 FlowProofs3.

Lemma neighbours_NoDup x : NoDup (neighbours x).
Proof.
  destruct x as [r c]. unfold neighbours.
  repeat (constructor; [intros H; repeat (destruct H as [H|H]; [injection H; lia|]); exact H|]). constructor.
Qed.
Lemma in_neighbours x y : In y (neighbours x) <-> y <> x /\ -1 <= fst y - fst x <= 1 /\ -1 <= snd y - snd x <= 1.
Proof.
  destruct x as [r c], y as [r' c']. unfold neighbours. cbn [fst snd]. split.
  - intros H. repeat (destruct H as [H|H]; [injection H; intros; subst; split; [intros E; injection E; lia|lia]|]). destruct H.
  - intros [H [H0 H1]]. assert (C0 : r' = r - 1 \/ r' = r \/ r' = r + 1) by lia. assert (C1 : c' = c - 1 \/ c' = c \/ c' = c + 1) by lia.
    cbn. destruct C0 as [-> |[-> | ->]], C1 as [-> |[-> | ->]]; try tauto. 
Qed.
Lemma upstream_NoDup a0 a1 nd f x : NoDup (upstream a0 a1 nd f x).
Proof. apply NoDup_filter, neighbours_NoDup. Qed.
Lemma in_upstream a0 a1 nd f x y : In y (upstream a0 a1 nd f x) <-> drains a0 a1 nd f y x.
Proof.
  unfold upstream, drains. rewrite filter_In, in_neighbours, !andb_true_iff, negb_true_iff, insideb_spec, cell_eqb_spec. split.
  - intros [[Hn _] [[Hi Hd] E]]. repeat split; try tauto; try apply Hi; [now symmetry|congruence].
  - intros [Hi [Hd [E Hn]]]. repeat split; try tauto; try apply Hi; try congruence;
    pose proof (keypad_range (f y)) as [K0 K1]; rewrite E; unfold towards; cbn [fst snd]; lia.
Qed.
Lemma upstream_le a0 a1 nd f x : (length (upstream a0 a1 nd f x) <= 8)%nat.
Proof.
  assert (FL : forall (h : cell -> bool) l, (length (filter h l) <= length l)%nat).
  { intros h l. induction l as [|y l IH]; [reflexivity|]. cbn. destruct (h y); cbn; lia. }
  unfold upstream. etransitivity; [apply FL|]. destruct x. cbn. lia.
Qed.

Definition occ (L : list cell) (x : cell) : Z := Z.of_nat (length (filter (cell_eqb x) L)).

Lemma count_inputs_ok nd cnd n0 n1 g L : (forall k, 0 <= k < 8 -> cnd k = false) ->
  (forall s, In s L -> inside n0 n1 s /\ border_cells n0 n1 [s] = true /\ nd (g (fst s) (snd s)) = false) ->
  forall K, (forall s, In s L -> 0 <= K (fst s) (snd s) /\ K (fst s) (snd s) + occ L s <= 8) ->
  for_each L (count_input nd cnd (gmake n0 n1 g)) (gmake n0 n1 K) = Ok (gmake n0 n1 (fun r c => K r c + occ L (r, c))).
Proof.
  intros HC. induction L as [|s L IH]; intros HS K HK.
  - cbn. f_equal. apply gmake_ext. intros. unfold occ. cbn. lia.
  - destruct (HS s (or_introl eq_refl)) as [[H0 H1] [HB HN]]. destruct (HK s (or_introl eq_refl)) as [K0 K8].
    assert (OS : occ (s :: L) s = occ L s + 1) by (unfold occ; cbn [filter]; rewrite cell_eqb_refl; cbn [length]; lia).
    assert (P : 0 <= occ L s) by (unfold occ; lia).
    assert (E : count_input nd cnd (gmake n0 n1 g) s (gmake n0 n1 K) =
       Ok (gmake n0 n1 (fun r c => if cell_eqb (r, c) s then K r c + 1 else K r c))).
    { unfold count_input. destruct s as [r c]. cbn [fst snd] in *. change (g0 (gmake n0 n1 g)) with n0. change (g1 (gmake n0 n1 g)) with n1.
      assert (HB' : border_cells n0 n1 (@cons (Z * Z) (r, c) nil) = true) by exact HB. rewrite HB', !gget_make by assumption.
      rewrite !obind_Ok, HN, HC by lia. rewrite gset_make by assumption. rewrite obind_Ok.
      replace (K r c + 1 <=? 8) with true by lia. f_equal. apply gmake_ext. intros r' c' _ _. unfold cell_eqb. cbn [fst snd].
      destruct ((r' =? r) && (c' =? c)) eqn:E; [|reflexivity]. f_equal. f_equal; lia. }
    cbn [for_each]. rewrite E, obind_Ok. rewrite IH.
    + f_equal. apply gmake_ext. intros r c _ _. unfold occ. cbn [filter]. destruct (cell_eqb (r, c) s); cbn [length]; lia.
    + intros. apply HS. now right.
    + intros t Ht. destruct (HK t (or_intror Ht)) as [T0 T8]. rewrite <- surjective_pairing. revert T8. unfold occ. cbn [filter].
      destruct (cell_eqb t s); cbn [length]; lia.
Qed.

Lemma for_each_concat {B S} (ls : list (list B)) (body : B -> S -> outcome S) s :
  for_each ls (fun l s => for_each l body s) s = for_each (concat ls) body s.
Proof.
  revert s. induction ls as [|l ls IH]; intros s; [reflexivity|]. cbn [for_each concat]. rewrite for_each_app.
  destruct (for_each l body s); cbn [obind]; auto.
Qed.

Lemma input_cells_border conns n0 n1 r c d l : input_cells conns n0 n1 r c d = Ok l -> border_cells n0 n1 l = true.
Proof.
  unfold input_cells. destruct (has_neighbour _ _ _ _ _); [|intros E; injection E; intros <-; reflexivity].
  destruct (neighbour_idxs d r c). destruct (gget conns _ _); cbn [obind]; try discriminate.
  destruct (border_cells n0 n1 _) eqn:E; [|discriminate]. intros E'. injection E'. intros <-. exact E.
Qed.

Lemma flat_map_NoDup {A B} (h : A -> list B) l : NoDup l -> (forall x, In x l -> NoDup (h x)) ->
  (forall x y z, In x l -> In y l -> In z (h x) -> In z (h y) -> x = y) -> NoDup (flat_map h l).
Proof.
  induction l as [|a l IH]; intros HN H D; [constructor|]. inversion HN; subst. cbn [flat_map]. apply NoDup_app.
  - apply H. now left.
  - apply IH; [assumption|intros; apply H; now right|]. intros x y z Hx Hy. apply D; now right.
  - intros z Hz Hz'. apply in_flat_map in Hz'. destruct Hz' as [y [Hy Hz']].
    assert (a = y) by (apply (D a y z); [now left|now right|assumption|assumption]). congruence.
Qed.

Section Net4.
Context (a0 a1 p0 p1 : Z) (nd : Z -> bool) (f : cell -> Z).
Context (P0 : 2 <= p0 <= a0) (P1 : 2 <= p1 <= a1).
Context (V : valid_network a0 a1 nd f).

Notation glob := (glob p0 p1). Notation e0 := (e0 a0 p0). Notation e1 := (e1 a1 p1).
Notation M0 := (M0 a0 p0). Notation M1 := (M1 a1 p1). Notation part_ok := (part_ok a0 a1 p0 p1).
Notation lf := (lf p0 p1 f). Notation srcs := (srcs a0 a1 p0 p1 nd f). Notation input_of := (input_of a0 a1 p0 p1 f).
Notation prow := (prow a0 p0). Notation pcol := (pcol a1 p1). Notation loc := (loc a0 a1 p0 p1).
Notation outs := (outs a0 a1 p0 p1 nd f). Notation outc := (outc a0 a1 p0 p1 f).

(** The cells that drain into cell [s] of partition (r, c), from within it and from elsewhere. *)
Definition feeding_in (r c : Z) (s : cell) : list cell :=
  map (glob r c) (filter (fun t => feeds nd (lf r c) t s) (cells2 0 (e0 r) 0 (e1 c))).
Definition feeding_from (r c : Z) (s : cell) (d : Z) : list cell :=
  filter (fun y => cell_eqb s (input_of y)) (srcs r c d).
Definition feeding_out (r c : Z) (s : cell) : list cell := flat_map (feeding_from r c s) all_directions.

Lemma in_directions d : In d all_directions <-> 0 <= d < 8.
Proof. unfold all_directions. rewrite in_zseq. lia. Qed.
Lemma directions_NoDup : NoDup all_directions.
Proof. apply zseq_NoDup. Qed.

Lemma in_feeding_in r c s y : part_ok r c -> inside (e0 r) (e1 c) s ->
  In y (feeding_in r c s) <-> drains a0 a1 nd f y (glob r c s) /\ prow y = r /\ pcol y = c.
Proof.
  intros HP Hs. unfold feeding_in. rewrite in_map_iff. setoid_rewrite filter_In. unfold drains. split.
  - intros [t [<- [Ht F]]]. apply in_cells2' in Ht. destruct (glob_inside a0 a1 p0 p1 P0 P1 r c t HP) as [G [G0 G1]]; [unfold inside; lia|].
    unfold feeds in F. rewrite !andb_true_iff, !negb_true_iff in F. destruct F as [[F1 F2] F3]. apply cell_eqb_spec in F3.
    rewrite <- F3, glob_dest. repeat split; try tauto; try apply G.
    rewrite <- glob_dest. intros E. apply glob_inj in E. rewrite E, cell_eqb_refl in F2. discriminate.
  - intros [[Hi [Hn [E Hne]]] [Y0 Y1]]. destruct (loc_inside a0 a1 p0 p1 P0 P1 y Hi) as [_ [L G]]. rewrite Y0, Y1 in L, G.
    exists (loc y). split; [exact G|]. split; [apply in_cells2'; unfold inside in L; lia|].
    rewrite <- G, <- glob_dest in E. apply glob_inj in E. unfold feeds. rewrite !andb_true_iff, !negb_true_iff. repeat split.
    + unfold ndc. rewrite <- G in Hn. exact Hn.
    + apply cell_eqb_neq. rewrite <- E. intros E'. apply Hne. rewrite <- G. now f_equal.
    + apply cell_eqb_spec. now symmetry.
Qed.
Lemma in_feeding_from r c s d y : part_ok r c -> 0 <= d < 8 -> inside (e0 r) (e1 c) s ->
  In y (feeding_from r c s d) <-> drains a0 a1 nd f y (glob r c s) /\ prow y = r + off0 d /\ pcol y = c + off1 d.
Proof.
  intros HP Hd Hs. unfold feeding_from. rewrite filter_In.
  destruct (srcs_spec a0 a1 p0 p1 nd f P0 P1 r c d HP Hd) as [_ I]. rewrite I, cell_eqb_spec. unfold drains. unfold FlowProofs3.input_of.
  destruct (glob_inside a0 a1 p0 p1 P0 P1 r c s HP Hs) as [G [G0 G1]]. split.
  - intros [[Hi [Hn [Y0 [Y1 [T [T0 T1]]]]]] E]. destruct (loc_inside a0 a1 p0 p1 P0 P1 _ T) as [_ [_ X]]. rewrite T0, T1, <- E in X.
    repeat split; try tauto; try apply Hi. intros E'. destruct (off_ok d Hd) as [[_ [_ Z]] _]. apply Z. rewrite E' in G0, G1. lia.
  - intros [[Hi [Hn [E Hne]]] [Y0 Y1]]. rewrite <- E. repeat split; try tauto; try apply Hi; try apply G.
    unfold FlowProofs3.loc. now rewrite G0, G1, local_glob.
Qed.

Lemma feeding_ok r c s : part_ok r c -> inside (e0 r) (e1 c) s ->
  Permutation (feeding_in r c s ++ feeding_out r c s) (upstream a0 a1 nd f (glob r c s)).
Proof.
  intros HP Hs. apply NoDup_Permutation.
  - apply NoDup_app.
    + apply FinFun.Injective_map_NoDup; [intros x y; apply glob_inj|]. apply NoDup_filter, cells2_NoDup.
    + apply flat_map_NoDup; [apply directions_NoDup| |].
      * intros d Hd. apply in_directions in Hd. apply NoDup_filter. now apply (srcs_spec a0 a1 p0 p1 nd f P0 P1 r c d HP Hd).
      * intros d d' y Hd Hd' H H'. apply in_directions in Hd, Hd'. apply in_feeding_from in H, H'; try assumption.
        destruct (off_ok d Hd) as [_ <-], (off_ok d' Hd') as [_ <-]. f_equal; lia.
    + intros y Hy H. apply in_feeding_in in Hy; try assumption. apply in_flat_map in H. destruct H as [d [Hd H]].
      apply in_directions in Hd. apply in_feeding_from in H; try assumption. destruct (off_ok d Hd) as [[_ [_ Z]] _]. apply Z. lia.
  - apply upstream_NoDup.
  - intros y. rewrite in_app_iff, in_upstream, (in_feeding_in r c s y HP Hs). unfold feeding_out. rewrite in_flat_map.
    destruct (glob_inside a0 a1 p0 p1 P0 P1 r c s HP Hs) as [G [G0 G1]]. split.
    + intros [H|[d [Hd H]]]; [tauto|]. apply in_directions in Hd. apply in_feeding_from in H; tauto.
    + intros D. pose proof D as [Hi [Hn [E Hne]]].
      destruct (loc_inside a0 a1 p0 p1 P0 P1 y Hi) as [HY [L Gy]].
      destruct (dest_part a0 a1 p0 p1 f P0 P1 _ _ (loc y) HY L) as [_ [T0 T1]]; [rewrite Gy, <- E; exact G|].
      rewrite Gy, <- E, G0 in T0. rewrite Gy, <- E, G1 in T1.
      assert (B0 : s0 a0 p0 p1 f (prow y) (pcol y) (loc y) = -1 \/ s0 a0 p0 p1 f (prow y) (pcol y) (loc y) = 0 \/ s0 a0 p0 p1 f (prow y) (pcol y) (loc y) = 1) by apply side_range.
      assert (B1 : s1 a1 p0 p1 f (prow y) (pcol y) (loc y) = -1 \/ s1 a1 p0 p1 f (prow y) (pcol y) (loc y) = 0 \/ s1 a1 p0 p1 f (prow y) (pcol y) (loc y) = 1) by apply side_range.
      set (u := s0 a0 p0 p1 f (prow y) (pcol y) (loc y)) in *. set (v := s1 a1 p0 p1 f (prow y) (pcol y) (loc y)) in *. clearbody u v.
      destruct (Z.eq_dec u 0) as [U|U], (Z.eq_dec v 0) as [W|W]; [left; split; [exact D|lia]| | |]; right;
      (assert (DO : dir_ok (- u) (- v)) by (unfold dir_ok; lia); exists (direction_of (- u) (- v));
       pose proof (dir_range _ _ DO) as R; split; [now apply in_directions|];
       destruct (dir_off _ _ DO) as [X0 X1]; apply in_feeding_from; try assumption; rewrite X0, X1; (split; [exact D|lia])).
Qed.

Lemma occ_feeding r c s : occ (concat (map (fun d => map input_of (srcs r c d)) all_directions)) s = Z.of_nat (length (feeding_out r c s)).
Proof.
  unfold occ, feeding_out. f_equal. induction all_directions as [|d l IH]; [reflexivity|]. cbn [map concat flat_map].
  rewrite filter_app, !app_length, IH. f_equal. unfold feeding_from. rewrite filter_map. apply map_length.
Qed.

(** The number of cells that drain into a cell *)
Definition inflows (x : cell) : Z := Z.of_nat (length (upstream a0 a1 nd f x)).

Lemma inflows_split r c s : part_ok r c -> inside (e0 r) (e1 c) s ->
  nr_feeding nd (lf r c) (cells2 0 (e0 r) 0 (e1 c)) s + Z.of_nat (length (feeding_out r c s)) = inflows (glob r c s).
Proof.
  intros HP Hs. unfold inflows. rewrite <- (Permutation_length (feeding_ok r c s HP Hs)), app_length.
  unfold nr_feeding, feeding_in. rewrite map_length. lia.
Qed.

Lemma LV_ok r c : part_ok r c -> forall s, inside (e0 r) (e1 c) s -> ndc nd (lf r c) s = false -> dest (lf r c) s <> s ->
  inside (e0 r) (e1 c) (dest (lf r c) s) -> ndc nd (lf r c) (dest (lf r c) s) = false.
Proof.
  intros HP s Hs Hn Hne Hi. change (nd (f (glob r c (dest (lf r c) s))) = false).
  destruct (glob_inside a0 a1 p0 p1 P0 P1 r c s HP Hs) as [G _]. destruct (glob_inside a0 a1 p0 p1 P0 P1 r c _ HP Hi) as [G' _].
  apply (V (glob r c s) (glob r c (dest (lf r c) s))); [|exact G'].
  split; [exact G|]. split; [exact Hn|]. split; [apply glob_dest|]. intros E. now apply glob_inj in E.
Qed.

Context (mark : Z -> Z) (cnd : Z -> bool) (HC : forall k, 0 <= k < 8 -> cnd k = false).

Lemma ready_ok r c conns : part_ok r c -> conns = gmake M0 M1 (fun r c => map (outc r c) (outs r c)) ->
  inflow_count_ready nd mark cnd (gmake (e0 r) (e1 c) (lf r c)) (map (fun d => map input_of (srcs r c d)) all_directions) =
  Ok (gmake (e0 r) (e1 c) (fun i j => if nd (f (glob r c (i, j))) then mark 0 else inflows (glob r c (i, j)))).
Proof.
  intros HP HE. destruct (ext_big a0 a1 p0 p1 P0 P1 r c HP) as [B0 B1]. unfold inflow_count_ready.
  rewrite (local_count nd (e0 r) (e1 c) (lf r c) B0 B1 mark (LV_ok r c HP)), obind_Ok, for_each_concat.
  set (L := concat _).
  assert (HL : forall s, In s L -> inside (e0 r) (e1 c) s /\ border_cells (e0 r) (e1 c) [s] = true /\ nd (lf r c (fst s) (snd s)) = false).
  { intros s Hs. apply in_concat in Hs. destruct Hs as [l [Hl Hs]]. apply in_map_iff in Hl. destruct Hl as [d [<- Hd]].
    apply in_directions in Hd. pose proof (inputs_ok a0 a1 p0 p1 nd f P0 P1 r c d conns HP Hd HE) as EI.
    apply input_cells_border in EI. unfold border_cells in EI. rewrite forallb_forall in EI. specialize (EI s Hs).
    apply in_map_iff in Hs. destruct Hs as [y [Ey Hy]]. destruct (srcs_spec a0 a1 p0 p1 nd f P0 P1 r c d HP Hd) as [_ I]. apply I in Hy.
    destruct Hy as [Hy [Hn [Y0 [Y1 [T [T0 T1]]]]]]. destruct (loc_inside a0 a1 p0 p1 P0 P1 _ T) as [_ [X G]]. unfold FlowProofs3.input_of in Ey.
    rewrite T0, T1, Ey in *. split; [exact X|]. split; [cbn; rewrite EI; reflexivity|].
    change (nd (f (glob r c s)) = false). rewrite G. apply (V y (towards f y)); [|exact T]. repeat split; try apply Hy; try assumption.
    intros E. destruct (off_ok d Hd) as [[_ [_ Z]] _]. apply Z. rewrite E in T0, T1. lia. }
  assert (TOT : forall i j, inside (e0 r) (e1 c) (i, j) -> nd (lf r c i j) = false ->
     (if nd (lf r c i j) then mark 0 else nr_feeding nd (lf r c) (cells2 0 (e0 r) 0 (e1 c)) (i, j)) + occ L (i, j) = inflows (glob r c (i, j))).
  { intros i j Hij Hn. rewrite Hn. unfold L. rewrite occ_feeding. now apply inflows_split. }
  rewrite count_inputs_ok; [|exact HC|exact HL|].
  - f_equal. apply gmake_ext. intros i j Hi Hj. change (f (glob r c (i, j))) with (lf r c i j).
    destruct (nd (lf r c i j)) eqn:Hn; [|rewrite <- TOT; [now rewrite Hn|split; assumption|exact Hn]].
    unfold occ. replace (filter (cell_eqb (i, j)) L) with (@nil cell); [cbn; lia|]. symmetry.
    destruct (filter (cell_eqb (i, j)) L) as [|s t] eqn:EF; [reflexivity|]. exfalso.
    assert (Hs : In s (filter (cell_eqb (i, j)) L)) by (rewrite EF; now left). apply filter_In in Hs. destruct Hs as [Hs E].
    apply cell_eqb_spec in E. subst s. apply HL in Hs. cbn [fst snd] in Hs. destruct Hs as [_ [_ Hs]]. congruence.
  - intros s Hs. apply HL in Hs. destruct s as [i j]. cbn [fst snd] in *. destruct Hs as [Hs [_ Hn]].
    rewrite (TOT i j Hs Hn), Hn. unfold nr_feeding, inflows. pose proof (upstream_le a0 a1 nd f (glob r c (i, j))). lia.
Qed.

Context (parts : grid (part2 Z)) (locality : Z -> Z -> Z).
Context (EP : parts = gmake M0 M1 (rpart a0 a1 p0 p1 locality (fun x => f (nth 0 x 0, nth 1 x 0)))).

Lemma rpart_data r c : pl_data (rpart a0 a1 p0 p1 locality (fun x => f (nth 0 x 0, nth 1 x 0)) r c) = gmake (e0 r) (e1 c) (lf r c).
Proof. reflexivity. Qed.

Definition all_conns : grid (list output_cell) := gmake M0 M1 (fun r c => map (outc r c) (outs r c)).
Lemma connections_ok : connections nd parts = Ok all_conns.
Proof.
  subst parts. unfold connections. cbn [g0 g1 gmake]. change (Grid M0 M1 _) with (gmake M0 M1 (rpart a0 a1 p0 p1 locality (fun x => f (nth 0 x 0, nth 1 x 0)))).
  apply gbuild_ok. intros r c Hr Hc. rewrite gget_make by assumption. rewrite obind_Ok, rpart_data. apply connectivity_ok; try assumption. now split.
Qed.
Lemma action_ok r c : part_ok r c ->
  inflow_count_action nd mark cnd parts all_conns r c =
  Ok (gmake (e0 r) (e1 c) (fun i j => if nd (f (glob r c (i, j))) then mark 0 else inflows (glob r c (i, j))),
      map (fun d => map input_of (srcs r c d)) all_directions, map (outc r c) (outs r c)).
Proof.
  intros HP. unfold inflow_count_action. subst parts. rewrite gget_make by apply HP. rewrite obind_Ok, rpart_data. change (g0 (gmake (e0 r) (e1 c) (lf r c))) with (e0 r). change (g1 (gmake (e0 r) (e1 c) (lf r c))) with (e1 c).
  rewrite (sequence_map_ok _ (fun d => map input_of (srcs r c d))).
  2:{ intros d Hd. apply in_directions in Hd. apply inputs_ok; try assumption. reflexivity. }
  rewrite obind_Ok, (ready_ok r c all_conns HP eq_refl), obind_Ok. unfold all_conns. rewrite gget_make by apply HP. reflexivity.
Qed.
End Net4.

Lemma inflow_count_ok a0 a1 p0 p1 nd mark cnd arr f : 2 <= p0 -> 2 <= p1 -> raster_of [a0; a1] [p0; p1] arr f ->
  valid_network a0 a1 nd (fun x => f [fst x; snd x]) -> (forall k, 0 <= k < 8 -> cnd k = false) ->
  exists out, inflow_count nd mark cnd arr = Ok out /\
    raster_of [a0; a1] [p0; p1] out (fun x => if nd (f x) then mark 0 else
      inflows a0 a1 nd (fun x => f [fst x; snd x]) (nth 0 x 0, nth 1 x 0)).
Proof.
  intros H0 H1 H V HC. destruct (raster_grid a0 a1 p0 p1 arr f H) as [locality HG].
  assert (H' := H). destruct H' as [_ [Hf [Es [Ep _]]]]. apply fits2 in Hf. destruct Hf as [Hp0 Hp1].
  assert (P0 : 2 <= p0 <= a0) by lia. assert (P1 : 2 <= p1 <= a1) by lia.
  unfold inflow_count, flow_parts. rewrite Ep. cbn [parts_shape nth]. rewrite HG.
  set (fc := fun x : cell => f [fst x; snd x]) in *.
  change (rpart a0 a1 p0 p1 locality f) with (rpart a0 a1 p0 p1 locality (fun x => fc (nth 0 x 0, nth 1 x 0))).
  set (parts := gmake (a0 / p0) (a1 / p1) _).
  rewrite (connections_ok a0 a1 p0 p1 nd fc P0 P1 parts locality eq_refl), obind_Ok. change (g0 parts) with (a0 / p0). change (g1 parts) with (a1 / p1).
  set (Q := fun r c => Placed (locality r c) [r * p0; c * p1] [ext1 a0 p0 r; ext1 a1 p1 c]
       (gmake (ext1 a0 p0 r) (ext1 a1 p1 c) (fun i j => if nd (fc (glob p0 p1 r c (i, j))) then mark 0 else inflows a0 a1 nd fc (glob p0 p1 r c (i, j))))).
  rewrite (gbuild_ok _ _ _ Q).
  2:{ intros r c Hr Hc. unfold parts at 1. rewrite gget_make by assumption. rewrite obind_Ok.
      rewrite (action_ok a0 a1 p0 p1 nd fc P0 P1 V mark cnd HC parts locality eq_refl r c (conj Hr Hc)), obind_Ok. reflexivity. }
  rewrite obind_Ok. eexists. split; [reflexivity|]. rewrite Es. apply grid_raster; try lia. intros r c Hr Hc. split; [reflexivity|]. split; [reflexivity|].
  reflexivity.
Qed.
