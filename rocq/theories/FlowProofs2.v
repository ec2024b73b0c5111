(** Counting inflows and finding output cells in a single partition. *)
From Verif Require Import Common CommonProofs CoreSpec IndexModel DecompModel ArrayModel GridModel GridProofs FlowSpec FlowModel RouterModel FlowProofs.

Lemma for_each_grid {A B} n0 n1 (L : list B) (body : B -> grid A -> outcome (grid A)) (upd : B -> (Z -> Z -> A) -> Z -> Z -> A) :
  (forall s K, In s L -> body s (gmake n0 n1 K) = Ok (gmake n0 n1 (upd s K))) ->
  forall K, for_each L body (gmake n0 n1 K) = Ok (gmake n0 n1 (fold_left (fun K s => upd s K) L K)).
Proof.
  induction L as [|s L IH]; intros H K; [reflexivity|]. cbn [for_each fold_left]. rewrite H by now left. cbn [obind].
  apply IH. intros. apply H. now right.
Qed.

Section Local.
Context (nd : Z -> bool) (n0 n1 : Z) (g : Z -> Z -> Z).
Context (N0 : 2 <= n0) (N1 : 2 <= n1).

Definition ndc (s : cell) : bool := nd (g (fst s) (snd s)).
(** [s] drains into another cell, [x] *)
Definition feeds (s x : cell) : bool := negb (ndc s) && negb (cell_eqb (dest g s) s) && cell_eqb (dest g s) x.

Fixpoint lookup {B} (d : Z) (chain : list (Z * B)) : option B :=
  match chain with [] => None | (d', b) :: chain' => if d =? d' then Some b else lookup d chain' end.

Section CountLocal.
Context (mark : Z -> Z).
Context (LV : forall s, inside n0 n1 s -> ndc s = false -> dest g s <> s -> inside n0 n1 (dest g s) -> ndc (dest g s) = false).

Definition cupd (s : cell) (K : Z -> Z -> Z) : Z -> Z -> Z := fun r c =>
  if ndc s then if cell_eqb (r, c) s then mark (K r c) else K r c
  else if feeds s (r, c) then K r c + 1 else K r c.

Lemma count_into_ok r c K : 0 <= r < n0 -> 0 <= c < n1 -> nd (g r c) = false ->
  count_into nd (gmake n0 n1 g) r c (gmake n0 n1 K) = Ok (gmake n0 n1 (fun r' c' => if cell_eqb (r', c') (r, c) then K r c + 1 else K r' c')).
Proof.
  intros Hr Hc Hn. unfold count_into. rewrite !gget_make by assumption. cbn [obind]. rewrite Hn.
  cbn [obind]. rewrite gset_make by assumption. f_equal.
Qed.
Lemma mark_count_ok r c K : 0 <= r < n0 -> 0 <= c < n1 ->
  mark_count mark r c (gmake n0 n1 K) = Ok (gmake n0 n1 (fun r' c' => if cell_eqb (r', c') (r, c) then mark (K r' c') else K r' c')).
Proof.
  intros Hr Hc. unfold mark_count. rewrite gget_make by assumption. cbn [obind]. rewrite gset_make by assumption.
  f_equal. apply gmake_ext. intros r' c' _ _. unfold cell_eqb. cbn [fst snd].
  destruct ((r' =? r) && (c' =? c)) eqn:E; [|reflexivity]. now replace r' with r by lia; replace c' with c by lia.
Qed.

Lemma count_dest_ok s K : inside n0 n1 s -> ndc s = false -> dest g s <> s -> inside n0 n1 (dest g s) ->
  count_into nd (gmake n0 n1 g) (fst (dest g s)) (snd (dest g s)) (gmake n0 n1 K) = Ok (gmake n0 n1 (cupd s K)).
Proof.
  intros Hs Hn Hd Hi. rewrite count_into_ok; [|apply Hi|apply Hi|exact (LV s Hs Hn Hd Hi)].
  f_equal. apply gmake_ext. intros r c _ _. unfold cupd, feeds. rewrite Hn, (cell_eqb_neq _ _ Hd). cbn [negb andb].
  rewrite <- surjective_pairing, cell_eqb_sym. destruct (cell_eqb (dest g s) (r, c)) eqn:E; [|reflexivity].
  apply cell_eqb_spec in E. rewrite E. reflexivity.
Qed.
Lemma cupd_stays s K : ndc s = false -> (dest g s = s \/ ~ inside n0 n1 (dest g s)) ->
  gmake n0 n1 (cupd s K) = gmake n0 n1 K.
Proof.
  intros Hn H. apply gmake_ext. intros r c Hr Hc. unfold cupd, feeds. rewrite Hn.
  destruct (cell_eqb (dest g s) s) eqn:E; [reflexivity|]. cbn [negb andb].
  destruct (cell_eqb (dest g s) (r, c)) eqn:E'; [|reflexivity]. apply cell_eqb_spec in E'. destruct H as [H|H].
  - rewrite H, cell_eqb_refl in E. discriminate.
  - exfalso. apply H. rewrite E'. split; cbn; lia.
Qed.

Lemma count_inner_ok s K : inside (n0 - 1) (n1 - 1) s -> 1 <= fst s -> 1 <= snd s ->
  count_inner nd mark (gmake n0 n1 g) s (gmake n0 n1 K) = Ok (gmake n0 n1 (cupd s K)).
Proof.
  intros [H0 H1] H2 H3. destruct s as [r c]. cbn [fst snd] in *. unfold count_inner. rewrite gget_make by lia. rewrite obind_Ok.
  destruct (nd (g r c)) eqn:Hn.
  - rewrite mark_count_ok by lia. f_equal. apply gmake_ext. intros. unfold cupd, ndc. cbn [fst snd]. now rewrite Hn.
  - rewrite downstream_cell_ok by lia. rewrite obind_Ok.
    pose proof (keypad_range (g r c)) as [R0 R1].
    assert (Hi : inside n0 n1 (dest g (r, c))) by (unfold inside, dest; cbn [fst snd]; lia).
    assert (Hs : inside n0 n1 (r, c)) by (unfold inside; cbn [fst snd]; lia).
    destruct (cell_dec (dest g (r, c)) (r, c)) as [E|E].
    + rewrite E. rewrite !Z.eqb_refl. cbn [negb orb]. rewrite cupd_stays; [reflexivity|exact Hn|now left].
    + rewrite <- (count_dest_ok (r, c) K Hs Hn E Hi). destruct (dest g (r, c)) as [rd cd] eqn:Ed.
      replace (negb (rd =? r) || negb (cd =? c)) with true; [reflexivity|].
      destruct (Z.eqb_spec rd r), (Z.eqb_spec cd c); cbn; congruence.
Qed.

Lemma count_chain_lookup d r c chain cnt : count_chain nd (gmake n0 n1 g) d r c chain cnt =
  match lookup d chain with Some o => count_into nd (gmake n0 n1 g) (r + fst o) (c + snd o) cnt | None => Ok cnt end.
Proof.
  induction chain as [|[d' [dr dc]] chain IH]; [reflexivity|]. cbn [count_chain lookup]. destruct (d =? d'); [reflexivity|apply IH].
Qed.

Lemma count_border_ok chain s K : inside n0 n1 s ->
  lookup (g (fst s) (snd s)) chain =
    (if insideb n0 n1 (dest g s) && negb (cell_eqb (dest g s) s) then Some (keypad (g (fst s) (snd s))) else None) ->
  count_border nd mark (gmake n0 n1 g) chain s (gmake n0 n1 K) = Ok (gmake n0 n1 (cupd s K)).
Proof.
  intros Hs HL. assert (Hs' := Hs). destruct Hs' as [H0 H1]. destruct s as [r c]. cbn [fst snd] in *. unfold count_border. rewrite gget_make by assumption. rewrite obind_Ok.
  destruct (nd (g r c)) eqn:Hn.
  - rewrite mark_count_ok by assumption. f_equal. apply gmake_ext. intros. unfold cupd, ndc. cbn [fst snd]. now rewrite Hn.
  - rewrite count_chain_lookup, HL. destruct (insideb n0 n1 (dest g (r, c)) && negb (cell_eqb (dest g (r, c)) (r, c))) eqn:E.
    + apply andb_true_iff in E. destruct E as [Ei En]. apply insideb_spec in Ei. apply negb_true_iff in En.
      assert (Hd : dest g (r, c) <> (r, c)) by (intros X; rewrite X, cell_eqb_refl in En; discriminate).
      exact (count_dest_ok (r, c) K Hs Hn Hd Ei).
    + rewrite cupd_stays; [reflexivity|exact Hn|]. apply andb_false_iff in E. destruct E as [E|E].
      * right. now apply insideb_false.
      * left. apply negb_false_iff in E. now apply cell_eqb_spec.
Qed.

(** The chains of each corner and side *)
Ltac chain r c := cbn [fst snd]; unfold insideb, cell_eqb, dest; cbn [fst snd lookup];
  by_dir (g r c); match goal with K : keypad (g r c) = _ |- _ => rewrite K end; cbn [fst snd];
  match goal with |- _ = (if ?b then _ else _) => first [replace b with true by lia | replace b with false by lia] end; reflexivity.

Definition count_cell := cupd.

Lemma inflow_count_partition_data_ok :
  inflow_count_partition_data nd mark (gmake n0 n1 g) =
    Ok (gmake n0 n1 (fold_left (fun K s => cupd s K) (count_order n0 n1) (fun _ _ => 0))).
Proof.
  unfold inflow_count_partition_data. cbn [g0 g1 gmake].
  change (Grid n0 n1 (map (fun rc => g (fst rc) (snd rc)) (cells2 0 n0 0 n1))) with (gmake n0 n1 g).
  change (Grid n0 n1 (map (fun _ : Z * Z => 0) (cells2 0 n0 0 n1))) with (gmake n0 n1 (fun _ _ => 0)).
  unfold count_order, corners. rewrite !fold_left_app. cbn [fold_left].
  set (K0 := fun _ _ : Z => 0).
  rewrite (for_each_grid n0 n1 _ _ cupd).
  2:{ intros s K Hs. unfold cells_inner in Hs. apply in_cells2' in Hs. apply count_inner_ok; unfold inside; lia. }
  change (cells2 1 (n0 - 2) 1 (n1 - 2)) with (cells_inner n0 n1). rewrite obind_Ok.
  rewrite count_border_ok; [|unfold inside; cbn; lia|chain 0 0]. rewrite obind_Ok.
  rewrite count_border_ok; [|unfold inside; cbn; lia|chain 0 (n1 - 1)]. rewrite obind_Ok.
  rewrite count_border_ok; [|unfold inside; cbn; lia|chain (n0 - 1) 0]. rewrite obind_Ok.
  rewrite count_border_ok; [|unfold inside; cbn; lia|chain (n0 - 1) (n1 - 1)]. rewrite obind_Ok.
  set (K1 := cupd (n0 - 1, n1 - 1) _). clearbody K1.
  assert (EN : (if 2 <? n1 then
      obind (for_each (cells2 0 1 1 (n1 - 2))
               (count_border nd mark (gmake n0 n1 g) [(west, (0, -1)); (south_west, (1, -1)); (south, (1, 0)); (south_east, (1, 1)); (east, (0, 1))]) (gmake n0 n1 K1)) (fun cnt =>
      for_each (cells2 (n0 - 1) 1 1 (n1 - 2))
        (count_border nd mark (gmake n0 n1 g) [(west, (0, -1)); (north_west, (-1, -1)); (north, (-1, 0)); (north_east, (-1, 1)); (east, (0, 1))]) cnt)
    else Ok (gmake n0 n1 K1)) = Ok (gmake n0 n1 (fold_left (fun K s => cupd s K) (cells_south n0 n1) (fold_left (fun K s => cupd s K) (cells_north n1) K1)))).
  { destruct (Z.ltb_spec 2 n1).
    - rewrite (for_each_grid n0 n1 _ _ cupd).
      2:{ intros [r c] K Hs. apply in_cells2 in Hs. apply count_border_ok; [unfold inside; cbn; lia|]. chain r c. }
      rewrite obind_Ok. rewrite (for_each_grid n0 n1 _ _ cupd).
      2:{ intros [r c] K Hs. apply in_cells2 in Hs. apply count_border_ok; [unfold inside; cbn; lia|]. chain r c. }
      reflexivity.
    - unfold cells_south, cells_north, cells2. rewrite (zseq_nil 1 (n1 - 2)) by lia. cbn.
      replace (flat_map _ (zseq (n0 - 1) 1)) with (@nil (Z * Z)); [reflexivity|]. induction (zseq (n0 - 1) 1); [reflexivity|assumption]. }
  rewrite EN, obind_Ok. clear EN. set (K2 := fold_left _ (cells_south n0 n1) _).
  destruct (Z.ltb_spec 2 n0).
  - rewrite (for_each_grid n0 n1 _ _ cupd).
    2:{ intros [r c] K Hs. apply in_cells2 in Hs. apply count_border_ok; [unfold inside; cbn; lia|]. chain r c. }
    rewrite obind_Ok. rewrite (for_each_grid n0 n1 _ _ cupd).
    2:{ intros [r c] K Hs. apply in_cells2 in Hs. apply count_border_ok; [unfold inside; cbn; lia|]. chain r c. }
    reflexivity.
  - unfold cells_east, cells_west, cells2. rewrite (zseq_nil 1 (n0 - 2)) by lia. reflexivity.
Qed.

(** What the counting amounts to *)
Definition nr_feeding (L : list cell) (x : cell) : Z := Z.of_nat (length (filter (fun s => feeds s x) L)).

Lemma cfold_ok L : NoDup L -> (forall s, In s L -> inside n0 n1 s) ->
  forall K r c, inside n0 n1 (r, c) ->
  fold_left (fun K s => cupd s K) L K r c =
    if ndc (r, c) then if in_dec cell_dec (r, c) L then mark (K r c) else K r c else K r c + nr_feeding L (r, c).
Proof.
  induction L as [|s L IH]; intros HN HI K r c Hx.
  - cbn. unfold nr_feeding. cbn. destruct (ndc (r, c)); lia.
  - inversion HN as [|? ? Hs HN']; subst. cbn [fold_left]. rewrite IH; [|assumption|intros; apply HI; now right|exact Hx].
    assert (Hsi : inside n0 n1 s) by (apply HI; now left).
    destruct (ndc (r, c)) eqn:Hn.
    + assert (Hc : cupd s K r c = if cell_eqb (r, c) s then mark (K r c) else K r c).
      { unfold cupd. destruct (ndc s) eqn:Es; [reflexivity|]. 
        rewrite cell_eqb_neq by (intros E; rewrite E in Hn; congruence).
        destruct (feeds s (r, c)) eqn:Ef; [|reflexivity]. exfalso. unfold feeds in Ef. rewrite Es in Ef. cbn [negb andb] in Ef.
        apply andb_true_iff in Ef. destruct Ef as [E1 E2]. apply cell_eqb_spec in E2. apply negb_true_iff in E1.
        assert (ndc (dest g s) = false); [|rewrite E2 in *; congruence].
        apply LV; [exact Hsi|exact Es|intros E; rewrite E, cell_eqb_refl in E1; discriminate|rewrite E2; exact Hx]. }
      destruct (cell_dec (r, c) s) as [E|E].
      * destruct (in_dec cell_dec (r, c) L) as [I|I]; [exfalso; apply Hs; now rewrite <- E|].
        rewrite Hc, E, cell_eqb_refl. destruct (in_dec cell_dec s (s :: L)) as [?|N]; [reflexivity|exfalso; apply N; now left].
      * rewrite Hc, (cell_eqb_neq _ _ E). destruct (in_dec cell_dec (r, c) L) as [I|I], (in_dec cell_dec (r, c) (s :: L)) as [I'|I']; try reflexivity.
        -- exfalso. apply I'. now right.
        -- exfalso. destruct I' as [I'|I']; [congruence|contradiction].
    + unfold nr_feeding. cbn [filter]. unfold cupd. destruct (ndc s) eqn:Es.
      * rewrite cell_eqb_neq by (intros E; rewrite E in Hn; congruence). unfold feeds at 2. rewrite Es. reflexivity.
      * destruct (feeds s (r, c)); cbn [length]; lia.
Qed.

Lemma local_count : inflow_count_partition_data nd mark (gmake n0 n1 g) =
  Ok (gmake n0 n1 (fun r c => if nd (g r c) then mark 0 else nr_feeding (cells2 0 n0 0 n1) (r, c))).
Proof.
  rewrite inflow_count_partition_data_ok. f_equal. apply gmake_ext. intros r c Hr Hc.
  destruct (count_order_spec n0 n1 N0 N1) as [ND IN]. assert (Hx : inside n0 n1 (r, c)) by (split; cbn; lia).
  rewrite cfold_ok; [|exact ND|intros; now apply IN|exact Hx].
  change (ndc (r, c)) with (nd (g r c)). destruct (nd (g r c)).
  - destruct (in_dec cell_dec (r, c) (count_order n0 n1)) as [_|N]; [reflexivity|]. exfalso. apply N, IN, Hx.
  - unfold nr_feeding. f_equal. rewrite Z.add_0_l. f_equal. apply Permutation_length.
    assert (FP : forall (p : cell -> bool) l l', Permutation l l' -> Permutation (filter p l) (filter p l')).
    { intros p l l' P. induction P; cbn; [constructor|destruct (p x); [now constructor|assumption]|
        destruct (p x), (p y); try (apply perm_swap || apply Permutation_refl)|etransitivity; eassumption]. }
    apply FP. now apply count_order_perm.
Qed.
End CountLocal.

(** Output cells.  Direction in which [x] lies, seen from the partition *)
Definition side (n x : Z) : Z := if x <? 0 then -1 else if n <=? x then 1 else 0.
Definition direction_of (a b : Z) : Z :=
  if a =? -1 then if b =? -1 then to_north_west else if b =? 0 then to_north else to_north_east
  else if a =? 0 then if b =? -1 then to_west else to_east
  else if b =? -1 then to_south_west else if b =? 0 then to_south else to_south_east.
Definition out_direction (x : cell) : Z := direction_of (side n0 (fst x)) (side n1 (snd x)).
Definition out_idx (x : cell) : Z :=
  if side n0 (fst x) =? 0 then fst x else if side n1 (snd x) =? 0 then snd x else -1.
Definition is_output (s : cell) : bool := negb (ndc s) && negb (insideb n0 n1 (dest g s)).
Definition outcell (s : cell) : output_cell := OutputCell (out_direction (dest g s)) s (out_idx (dest g s)).

Lemma connect_chain_lookup d rc chain : connect_chain d rc chain =
  match lookup d chain with Some (dir, idx) => [OutputCell dir rc idx] | None => [] end.
Proof. induction chain as [|[d' [dir idx]] chain IH]; [reflexivity|]. cbn [connect_chain lookup]. now destruct (d =? d'). Qed.

Lemma connect_ok chain s l : inside n0 n1 s ->
  lookup (g (fst s) (snd s)) (chain (fst s) (snd s)) =
    (if insideb n0 n1 (dest g s) then None else Some (out_direction (dest g s), out_idx (dest g s))) ->
  connect nd (gmake n0 n1 g) chain s l = Ok (l ++ map outcell (filter is_output [s])).
Proof.
  intros [H0 H1] HL. unfold connect. rewrite gget_make by assumption. cbn [obind filter]. unfold is_output, ndc.
  destruct (nd (g (fst s) (snd s))); [cbn; now rewrite app_nil_r|]. rewrite connect_chain_lookup, HL. cbn [negb andb].
  destruct (insideb n0 n1 (dest g s)); reflexivity.
Qed.
Lemma for_each_connect chain L : (forall s, In s L -> inside n0 n1 s /\
  lookup (g (fst s) (snd s)) (chain (fst s) (snd s)) =
    (if insideb n0 n1 (dest g s) then None else Some (out_direction (dest g s), out_idx (dest g s)))) ->
  forall l, for_each L (connect nd (gmake n0 n1 g) chain) l = Ok (l ++ map outcell (filter is_output L)).
Proof.
  induction L as [|s L IH]; intros H l; [cbn; now rewrite app_nil_r|]. cbn [for_each].
  destruct (H s (or_introl eq_refl)) as [H1 H2]. rewrite (connect_ok chain s l H1 H2), obind_Ok.
  rewrite IH by (intros; apply H; now right). f_equal. rewrite <- app_assoc. f_equal. cbn [filter].
  destruct (is_output s); reflexivity.
Qed.

Ltac cchain r c := cbn [fst snd]; unfold insideb, out_direction, out_idx, dest; cbn [fst snd lookup];
  by_dir (g r c); match goal with K : keypad (g r c) = _ |- _ => rewrite K end; cbn [fst snd]; unfold side;
  repeat match goal with
  | |- context [?a <? ?b] => first [replace (a <? b) with true by lia | replace (a <? b) with false by lia]
  | |- context [?a <=? ?b] => first [replace (a <=? b) with true by lia | replace (a <=? b) with false by lia]
  end; cbv match; unfold direction_of;
  repeat match goal with
  | |- context [?a =? ?b] => first [replace (a =? b) with true by lia | replace (a =? b) with false by lia]
  end; cbn [andb]; try reflexivity; f_equal; f_equal; lia.

Lemma local_connect : connectivity_ready nd (gmake n0 n1 g) = Ok (map outcell (filter is_output (connect_order n0 n1))).
Proof.
  unfold connectivity_ready. cbn [g0 g1 gmake].
  change (Grid n0 n1 (map (fun rc => g (fst rc) (snd rc)) (cells2 0 n0 0 n1))) with (gmake n0 n1 g).
  unfold connect_order. rewrite !filter_app, !map_app.
  assert (EN : (if 2 <? n1 then
      obind (for_each (cells2 0 1 1 (n1 - 2))
               (connect nd (gmake n0 n1 g) (fun r c => [(north_west, (to_north, c - 1)); (north, (to_north, c)); (north_east, (to_north, c + 1))])) []) (fun l =>
      for_each (cells2 (n0 - 1) 1 1 (n1 - 2))
        (connect nd (gmake n0 n1 g) (fun r c => [(south_west, (to_south, c - 1)); (south, (to_south, c)); (south_east, (to_south, c + 1))])) l)
    else Ok []) = Ok (map outcell (filter is_output (cells_north n1)) ++ map outcell (filter is_output (cells_south n0 n1)))).
  { destruct (Z.ltb_spec 2 n1).
    - rewrite for_each_connect.
      2:{ intros [r c] Hs. apply in_cells2 in Hs. split; [unfold inside; cbn; lia|]. cchain r c. }
      rewrite obind_Ok. rewrite for_each_connect.
      2:{ intros [r c] Hs. apply in_cells2 in Hs. split; [unfold inside; cbn; lia|]. cchain r c. }
      reflexivity.
    - unfold cells_south, cells_north, cells2. rewrite (zseq_nil 1 (n1 - 2)) by lia. cbn.
      replace (flat_map _ (zseq (n0 - 1) 1)) with (@nil (Z * Z)); [reflexivity|]. induction (zseq (n0 - 1) 1); [reflexivity|assumption]. }
  rewrite EN, obind_Ok. clear EN. set (l1 := map outcell (filter is_output (cells_north n1)) ++ _).
  assert (EW : (if 2 <? n0 then
      obind (for_each (cells2 1 (n0 - 2) 0 1)
               (connect nd (gmake n0 n1 g) (fun r c => [(north_west, (to_west, r - 1)); (west, (to_west, r)); (south_west, (to_west, r + 1))])) l1) (fun l =>
      for_each (cells2 1 (n0 - 2) (n1 - 1) 1)
        (connect nd (gmake n0 n1 g) (fun r c => [(north_east, (to_east, r - 1)); (east, (to_east, r)); (south_east, (to_east, r + 1))])) l)
    else Ok l1) = Ok (l1 ++ map outcell (filter is_output (cells_west n0)) ++ map outcell (filter is_output (cells_east n0 n1)))).
  { destruct (Z.ltb_spec 2 n0).
    - rewrite for_each_connect.
      2:{ intros [r c] Hs. apply in_cells2 in Hs. split; [unfold inside; cbn; lia|]. cchain r c. }
      rewrite obind_Ok. rewrite for_each_connect.
      2:{ intros [r c] Hs. apply in_cells2 in Hs. split; [unfold inside; cbn; lia|]. cchain r c. }
      now rewrite app_assoc.
    - unfold cells_east, cells_west, cells2. rewrite (zseq_nil 1 (n0 - 2)) by lia. cbn. now rewrite app_nil_r. }
  rewrite EW, obind_Ok. clear EW. 
  rewrite connect_ok; [|unfold inside; cbn; lia|cchain 0 0]. rewrite obind_Ok.
  rewrite connect_ok; [|unfold inside; cbn; lia|cchain 0 (n1 - 1)]. rewrite obind_Ok.
  rewrite connect_ok; [|unfold inside; cbn; lia|cchain (n0 - 1) (n1 - 1)]. rewrite obind_Ok.
  rewrite connect_ok; [|unfold inside; cbn; lia|cchain (n0 - 1) 0].
  f_equal. unfold l1. rewrite <- !app_assoc. do 4 f_equal.
  rewrite <- !map_app, <- !filter_app. reflexivity.
Qed.

(** destination_cell finds the same direction and, unless the destination is a corner, the same index. *)
Lemma destination_cell_ok r c : inside n0 n1 (r, c) -> ~ inside n0 n1 (dest g (r, c)) ->
  exists idx, destination_cell n0 n1 r c (fst (keypad (g r c))) (snd (keypad (g r c))) = Ok (out_direction (dest g (r, c)), idx) /\
    (side n0 (fst (dest g (r, c))) = 0 \/ side n1 (snd (dest g (r, c))) = 0 -> idx = out_idx (dest g (r, c))).
Proof.
  intros [Hr Hc] Hd. cbn [fst snd] in *. unfold inside, out_direction, out_idx, dest in *. cbn [fst snd] in *.
  destruct (keypad (g r c)) as [dr dc] eqn:K. cbn [fst snd] in *.
  pose proof (keypad_range (g r c)) as [R0 R1]. rewrite K in R0, R1. cbn [fst snd] in R0, R1.
  set (i := if side n0 (r + dr) =? 0 then r + dr else if side n1 (c + dc) =? 0 then c + dc
            else if (r =? 0) && (c =? n1 - 1) then 0 else -1).
  exists i. assert (C0 : dr = -1 \/ dr = 0 \/ dr = 1) by lia. assert (C1 : dc = -1 \/ dc = 0 \/ dc = 1) by lia.
  unfold destination_cell.
  destruct (Z.eqb_spec r 0) as [E0|E0]; destruct (Z.eqb_spec c 0) as [E1|E1];
  destruct (Z.eqb_spec r (n0 - 1)) as [E2|E2]; destruct (Z.eqb_spec c (n1 - 1)) as [E3|E3]; try (exfalso; lia);
  destruct C0 as [ -> | [ -> | -> ]], C1 as [ -> | [ -> | -> ]]; cbn [negb orb andb Z.leb Z.eqb Z.compare Z.opp Pos.eqb Pos.compare Pos.compare_cont CompOpp]; try (exfalso; lia);
  unfold side in i |- *; unfold i;
  repeat match goal with
  | |- context [?a <? ?b] => first [replace (a <? b) with true by lia | replace (a <? b) with false by lia]
  | |- context [?a <=? ?b] => first [replace (a <=? b) with true by lia | replace (a <=? b) with false by lia]
  end; cbv match;
  repeat match goal with
  | |- context [?a =? ?b] => first [replace (a =? b) with true by lia | replace (a =? b) with false by lia]
  end; cbv match; cbn [andb]; (split; [reflexivity|]); intros X; first [reflexivity | exfalso; lia].
Qed.
End Local.
