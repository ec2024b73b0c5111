(** Proofs about clump (C28): the operation as a whole. *)
From Verif Require Import Common CommonProofs CoreSpec DecompSpec ArraySpec ArrayRep IndexModel DecompModel ArrayModel ArrayProofs GridModel GridProofs GridRaster ZonalProofs
  ClumpSpec ClumpModel ClumpProofs ClumpProofs2 ClumpProofs5 ClumpProofs3 ClumpProofs6 ClumpProofs7 ClumpProofs8.

Section Whole.
Context (znd cnd : Z -> bool) (mark : Z) (how : connectivity) (a0 a1 p0 p1 : Z) (f : list Z -> Z).
Hypothesis Hp0 : 0 < p0 <= a0.
Hypothesis Hp1 : 0 < p1 <= a1.
Local Notation P0 := (a0 / p0).
Local Notation P1 := (a1 / p1).
Local Notation e0 := (ext1 a0 p0).
Local Notation e1 := (ext1 a1 p1).
Local Notation V := (a0 * a1).
Local Notation F := (fun r c => f [r; c]).
Hypothesis Hmark : cnd mark = true.
Hypothesis Hzmark : znd mark = true.
Hypothesis Hids : forall id, 0 <= id < V -> cnd id = false.
Hypothesis Hzids : forall id, 0 <= id < V -> znd id = false.
Local Notation pok := (pok a0 a1 p0 p1).
Local Notation lz := (lz p0 p1 F).

Definition run (i j : Z) := fill_cells znd cnd mark how (gmake (e0 i) (e1 j) (lz i j)) (cells2 0 (e0 i) 0 (e1 j)).
Definition gL (i j u v : Z) : Z := match run i j with Ok (gr, _) => match gget gr u v with Ok w => w | _ => 0 end | _ => 0 end.
Definition nL (i j : Z) : Z := match run i j with Ok (_, n) => n | _ => 0 end.
Lemma ext_pos i j : pok i j -> 0 < e0 i <= a0 /\ 0 < e1 j <= a1.
Proof.
  intros [Hi Hj]. pose proof (ext1_pos a0 p0 i Hp0 Hi). pose proof (ext1_pos a1 p1 j Hp1 Hj). pose proof (ext1_in a0 p0 i (e0 i - 1) Hp0 Hi ltac:(lia)). pose proof (ext1_in a1 p1 j (e1 j - 1) Hp1 Hj ltac:(lia)). nia.
Qed.
Lemma run_ok i j : pok i j -> run i j = Ok (gmake (e0 i) (e1 j) (gL i j), nL i j) /\ labelled znd mark how (e0 i) (e1 j) (lz i j) (cells2 0 (e0 i) 0 (e1 j)) (gL i j) (nL i j).
Proof.
  intros Hp. destruct (ext_pos i j Hp) as [E0 E1]. destruct (fill_cells_ok znd cnd mark V how (e0 i) (e1 j) (lz i j)) with (m := e0 i) as [g [n [E L]]]; auto; try lia; try nia.
  assert (En : nL i j = n) by (unfold nL, run; rewrite E; reflexivity).
  assert (Eg : forall u v, 0 <= u < e0 i -> 0 <= v < e1 j -> gL i j u v = g u v) by (intros u v Hu Hv; unfold gL, run; rewrite E, gget_make by assumption; reflexivity).
  assert (Egm : gmake (e0 i) (e1 j) (gL i j) = gmake (e0 i) (e1 j) g) by (apply gmake_ext; exact Eg).
  split; [unfold run; rewrite E, En, Egm; reflexivity|]. rewrite En. destruct L as (L1 & L2 & L3 & L4).
  assert (Hseen : forall x, seen_joined znd how (e0 i) (e1 j) (lz i j) (cells2 0 (e0 i) 0 (e1 j)) x -> gL i j (fst x) (snd x) = g (fst x) (snd x)).
  { intros x [y [_ S]]. pose proof (joined_right _ _ _ _ _ _ S) as [Iu Iv]. apply Eg; lia. }
  split; [exact L1|]. split; [intros x Hx; rewrite Eg by (destruct Hx; lia); now apply L2|]. split; [intros x y Sx Sy; rewrite !Hseen by assumption; now apply L3|].
  intros id Hid. destruct (L4 id Hid) as [x [Sx Ex]]. exists x. split; [exact Sx|]. now rewrite Hseen.
Qed.

Definition res0 (i j : Z) : local_result := LocalResult (gmake (e0 i) (e1 j) (lz i j)) (gmake (e0 i) (e1 j) (gL i j)) (zseq 0 (nL i j)).
Definition l0 : list local_result := gl (gmake P0 P1 res0).
Definition baseL (i j : Z) : Z := lsum (firstn (Z.to_nat (i * P1 + j)) l0).
Lemma nparts : 1 <= P0 /\ 1 <= P1.
Proof. split; now apply nparts_pos. Qed.
Lemma nth_l0 i j : pok i j -> nth_error l0 (Z.to_nat (i * P1 + j)) = Some (res0 i j).
Proof. intros [Hi Hj]. unfold l0. rewrite gl_make, nth_error_map, nth_cells2 by assumption. reflexivity. Qed.
Lemma n_range i j : pok i j -> 0 <= nL i j <= e0 i * e1 j.
Proof.
  intros Hp. destruct (ext_pos i j Hp) as [E0 E1]. destruct (run_ok i j Hp) as [_ [L _]]. rewrite cells2_length in L by lia. rewrite Z2Nat.id in L by nia. exact L.
Qed.
Lemma lut_length i j : pok i j -> Z.of_nat (length (lr_lut (res0 i j))) = nL i j.
Proof. intros Hp. pose proof (n_range i j Hp). unfold res0. cbn [lr_lut]. rewrite zseq_length. lia. Qed.
Lemma lsum_l0 : lsum l0 <= V.
Proof.
  rewrite <- (zsum_extents a0 p0 Hp0), <- (zsum_extents a1 p1 Hp1), <- zsum_cells2. unfold l0. rewrite gl_make.
  assert (H : forall l, (forall x, In x l -> pok (fst x) (snd x)) -> lsum (map (fun rc => res0 (fst rc) (snd rc)) l) <= zsum (map (fun rc => e0 (fst rc) * e1 (snd rc)) l)).
  { induction l as [|x l IH]; intros Hl; cbn [map lsum zsum fold_right]; [lia|]. fold (lsum (map (fun rc => res0 (fst rc) (snd rc)) l)). fold (zsum (map (fun rc => e0 (fst rc) * e1 (snd rc)) l)).
    specialize (IH (fun y Hy => Hl y (or_intror Hy))). pose proof (Hl x (or_introl eq_refl)) as Hx. rewrite lut_length by exact Hx. pose proof (n_range _ _ Hx). lia. }
  apply H. intros [i j] Hx. apply in_cells2 in Hx. unfold pok. cbn [fst snd]. lia.
Qed.
Lemma base_range i j : pok i j -> 0 <= baseL i j /\ baseL i j + nL i j <= V.
Proof.
  intros Hp. unfold baseL. split; [apply lsum_nonneg|]. pose proof (lsum_firstn_S _ _ _ (nth_l0 i j Hp)) as E. rewrite lut_length in E by exact Hp. pose proof (lsum_firstn_le l0 (S (Z.to_nat (i * P1 + j)))). pose proof lsum_l0. lia.
Qed.
Lemma base_unique i j i' j' l l' : pok i j -> pok i' j' -> 0 <= l < nL i j -> 0 <= l' < nL i' j' -> baseL i j + l = baseL i' j' + l' -> i = i' /\ j = j' /\ l = l'.
Proof.
  intros Hp Hp' Hl Hl' E. destruct (lsum_unique l0 _ _ _ _ l l' (nth_l0 i j Hp) (nth_l0 i' j' Hp')) as [K El]; [rewrite lut_length by exact Hp; lia|rewrite lut_length by exact Hp'; lia|exact E|].
  destruct Hp as [Hi Hj], Hp' as [Hi' Hj']. assert (K' : i * P1 + j = i' * P1 + j') by nia. assert (i = i') by nia. subst i'. split; [reflexivity|]. split; [nia|exact El].
Qed.
Lemma numbered : number_clumps 0 l0 = gl (gmake P0 P1 (res a0 a1 p0 p1 F gL nL baseL)).
Proof.
  pose proof nparts as [N0 N1].
  assert (E : Grid P0 P1 (number_clumps 0 l0) = gmake P0 P1 (res a0 a1 p0 p1 F gL nL baseL)); [|exact (f_equal gl E)].
  apply (grid_eq_make {| g0 := P0; g1 := P1; gl := number_clumps 0 l0 |}); cbn [g0 g1 gl]; [lia|lia| |].
  - rewrite number_length. unfold l0. rewrite make_length by lia. nia.
  - intros i j Hi Hj. unfold gget. replace (in_grid {| g0 := P0; g1 := P1; gl := number_clumps 0 l0 |} i j) with true by (symmetry; apply in_grid_spec; cbn [g0 g1]; lia). cbn [g1 gl].
    unfold at_z. rewrite nth_z_nat by nia. rewrite (nth_number l0 0 _ _ (nth_l0 i j (conj Hi Hj))). rewrite Z.add_0_l. reflexivity.
Qed.

Lemma whole arr : raster_of [a0; a1] [p0; p1] arr f -> exists N out, clump znd cnd mark how arr = Ok out /\ raster_of [a0; a1] [p0; p1] out (fun x => match x with [r; c] => G cnd a0 a1 p0 p1 gL N (r, c) | _ => 0 end) /\
  (forall i j l, pok i j -> 0 <= l < nL i j -> R znd how a0 a1 p0 p1 F gL baseL (baseL i j + l) (N i j l)) /\
  (forall id0, small znd how a0 a1 p0 p1 F gL baseL id0 -> forall i j u v i' j' u' v', touching znd how a0 a1 p0 p1 F i j u v i' j' u' v' -> touches how i j i' j' ->
     R znd how a0 a1 p0 p1 F gL baseL (baseL i j + gL i j u v) id0 -> N i j (gL i j u v) = N i' j' (gL i' j' u' v')).
Proof.
  intros Hr. pose proof nparts as [N0 N1]. destruct (raster_grid a0 a1 p0 p1 arr f Hr) as [loc Eg]. pose proof Hr as (_ & _ & Hsh & Hsip & _).
  assert (Ep : map to_part2 (pa_parts arr) = map (fun rc => rpart a0 a1 p0 p1 loc f (fst rc) (snd rc)) (cells2 0 P0 0 P1)) by exact (f_equal gl Eg).
  destruct (luts_ok znd cnd mark how a0 a1 p0 p1 F Hp0 Hp1 Hmark Hzmark Hids Hzids gL nL baseL (fun i j Hp => proj2 (run_ok i j Hp)) base_unique) as [N (E & HR & HS)].
  exists N. unfold clump. rewrite Ep, map_map.
  rewrite (sequence_map_ok _ (fun rc => res0 (fst rc) (snd rc))).
  2:{ intros [i j] H. apply in_cells2 in H. assert (Hp : pok i j) by (unfold pok; lia). cbn [fst snd]. unfold clump_partition, rpart. cbn [pl_data]. change (g0 (gmake (e0 i) (e1 j) (fun x y => f [i * p0 + x; j * p1 + y]))) with (e0 i). change (g1 (gmake (e0 i) (e1 j) (fun x y => f [i * p0 + x; j * p1 + y]))) with (e1 j).
      pose proof (proj1 (run_ok i j Hp)) as Er. unfold run in Er. change (gmake (e0 i) (e1 j) (fun x y => f [i * p0 + x; j * p1 + y])) with (gmake (e0 i) (e1 j) (lz i j)). rewrite Er. reflexivity. }
  cbn [obind]. rewrite Hsip. cbn [parts_shape]. unfold determine_reclass_tables. cbn [fst snd]. change (map (fun rc => res0 (fst rc) (snd rc)) (cells2 0 P0 0 P1)) with l0. rewrite numbered.
  change (Grid P0 P1 (gl (gmake P0 P1 (res a0 a1 p0 p1 F gL nL baseL)))) with (gmake P0 P1 (res a0 a1 p0 p1 F gL nL baseL)).
  unfold new_ids in E. rewrite E. cbn [obind]. rewrite gl_make, map_map.
  rewrite (sequence_map_ok _ (fun rc => gmake (e0 (fst rc)) (e1 (snd rc)) (fun u v => newv cnd N (fst rc) (snd rc) (gL (fst rc) (snd rc) u v)))).
  2:{ intros [i j] H. apply in_cells2 in H. assert (Hp : pok i j) by (unfold pok; lia). cbn [fst snd]. unfold reclass_partition, resN. cbn [lr_clumps lr_lut]. change (g0 (gmake (e0 i) (e1 j) (gL i j))) with (e0 i). change (g1 (gmake (e0 i) (e1 j) (gL i j))) with (e1 j).
      apply for_all_cells. intros u v Hu Hv. unfold newv. destruct (cnd (gL i j u v)) eqn:Ec; cbn [negb]; [reflexivity|].
      destruct (run_ok i j Hp) as [_ (_ & L2 & _)]. destruct (L2 (u, v) ltac:(split; cbn [fst snd]; lia)) as [[X _]|[X _]]; cbn [fst snd] in X; [rewrite X in Ec; congruence|]. apply nth_z_at. now apply nth_z_map_zseq. }
  cbn [obind]. rewrite combine_map, map_map. rewrite Hsh. eexists. split; [reflexivity|]. split; [|split; [exact HR|exact HS]].
  set (Q := fun i j => Placed (loc i j) [i * p0; j * p1] [e0 i; e1 j] (gmake (e0 i) (e1 j) (fun u v => newv cnd N i j (gL i j u v)))).
  pose proof (grid_raster a0 a1 p0 p1 (fun x => match x with [r; c] => G cnd a0 a1 p0 p1 gL N (r, c) | _ => 0 end) Q Hp0 Hp1) as GR. rewrite gl_make, map_map in GR. apply GR.
  intros i j Hi Hj. unfold Q. cbn [pl_offset pl_shape pl_data]. split; [reflexivity|]. split; [reflexivity|]. apply gmake_ext. intros u v Hu Hv. unfold G, at_cell. cbn [fst snd]. rewrite !pidx_of by assumption. f_equal. f_equal; lia.
Qed.

Local Notation JG := (joined how (rectangle 0 a0 0 a1) znd (fun x => f [fst x; snd x])).
Local Notation vl x := (znd (f [fst x; snd x]) = false).
Lemma clump_ok arr : raster_of [a0; a1] [p0; p1] arr f -> exists out h, clump znd cnd mark how arr = Ok out /\ raster_of [a0; a1] [p0; p1] out h /\
  (forall r c, rectangle 0 a0 0 a1 (r, c) -> znd (f [r; c]) = true -> h [r; c] = mark) /\
  (forall r c, rectangle 0 a0 0 a1 (r, c) -> znd (f [r; c]) = false -> 0 <= h [r; c] < V) /\
  (forall x y, rectangle 0 a0 0 a1 x -> rectangle 0 a0 0 a1 y -> vl x -> vl y -> h [fst x; snd x] = h [fst y; snd y] -> JG x y) /\
  (forall x y, same_piece how [a0; a1] [p0; p1] znd f x y -> h [fst x; snd x] = h [fst y; snd y]) /\
  (forall x y, (exists c1 c2 c3, forall w, JG x w -> same_piece how [a0; a1] [p0; p1] znd f w c1 \/ same_piece how [a0; a1] [p0; p1] znd f w c2 \/ same_piece how [a0; a1] [p0; p1] znd f w c3) -> JG x y -> h [fst x; snd x] = h [fst y; snd y]).
Proof.
  intros Hr. destruct (whole arr Hr) as (N & out & E & Ro & HR & HS). eexists. eexists. split; [exact E|]. split; [exact Ro|].
  pose proof (fun i j Hp => proj2 (run_ok i j Hp)) as Hg. cbv beta zeta.
  split; [|split; [|split; [|split]]].
  - intros r c Hx Hz. exact (G_mark znd cnd mark how a0 a1 p0 p1 f Hp0 Hp1 Hmark Hzmark Hids Hzids gL nL baseL Hg base_unique base_range N HR HS (r, c) Hx Hz).
  - intros r c Hx Hz. exact (G_range znd cnd mark how a0 a1 p0 p1 f Hp0 Hp1 Hmark Hzmark Hids Hzids gL nL baseL Hg base_unique base_range N HR HS (r, c) Hx Hz).
  - intros [r c] [r' c'] Hx Hy Vx Vy Eh. exact (G_sound znd cnd mark how a0 a1 p0 p1 f Hp0 Hp1 Hmark Hzmark Hids Hzids gL nL baseL Hg base_unique base_range N HR HS (r, c) (r', c') Hx Vx Hy Vy Eh).
  - intros [r c] [r' c'] Hs. exact (proj2 (piece_same znd cnd mark how a0 a1 p0 p1 f Hp0 Hp1 Hmark Hzmark Hids Hzids gL nL baseL Hg base_unique base_range N HR HS (r, c) (r', c') Hs)).
  - intros [r c] [r' c'] H3 HJ. exact (G_complete znd cnd mark how a0 a1 p0 p1 f Hp0 Hp1 Hmark Hzmark Hids Hzids gL nL baseL Hg base_unique base_range N HR HS (r, c) (r', c') H3 HJ).
Qed.
End Whole.
