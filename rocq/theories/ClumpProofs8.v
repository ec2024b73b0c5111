(** Proofs about clump (C28): the IDs of the cells of the array. *)
From Verif Require Import Common CommonProofs CoreSpec DecompSpec ArraySpec ArrayRep IndexModel DecompModel ArrayModel ArrayProofs GridModel GridProofs GridRaster ZonalProofs
  ClumpSpec ClumpModel ClumpProofs ClumpProofs2 ClumpProofs6 ClumpProofs7.

(** The partition of a cell, in one dimension *)
Definition pidx (a p r : Z) : Z := Z.min (r / p) (a / p - 1).
Lemma pidx_of a p i u : 0 < p <= a -> 0 <= i < a / p -> 0 <= u < ext1 a p i -> pidx a p (i * p + u) = i.
Proof.
  intros Hp Hi. unfold ext1, pidx. assert (E : (i * p + u) / p = i + u / p) by (rewrite Z.add_comm, Z.div_add by lia; lia). rewrite E.
  destruct (Z.eqb_spec i (a / p - 1)); intros Hu.
  - pose proof (Z.div_pos u p ltac:(lia) ltac:(lia)). lia.
  - rewrite Z.div_small by lia. lia.
Qed.
Lemma pidx_in a p r : 0 < p <= a -> 0 <= r < a -> 0 <= pidx a p r < a / p /\ 0 <= r - pidx a p r * p < ext1 a p (pidx a p r).
Proof.
  intros Hp Hr. pose proof (nparts_pos a p Hp). pose proof (Z.div_pos r p ltac:(lia) ltac:(lia)). assert (H2 : 0 <= pidx a p r < a / p) by (unfold pidx; lia). split; [exact H2|].
  pose proof (Z.mul_div_le r p ltac:(lia)). pose proof (Z.mul_succ_div_gt r p ltac:(lia)). unfold ext1. unfold pidx in *. destruct (Z.eqb_spec (Z.min (r / p) (a / p - 1)) (a / p - 1)) as [E|E]; nia.
Qed.

Section Cells.
Context (znd cnd : Z -> bool) (mark : Z) (how : connectivity) (a0 a1 p0 p1 : Z) (f : list Z -> Z).
Hypothesis Hp0 : 0 < p0 <= a0.
Hypothesis Hp1 : 0 < p1 <= a1.
Local Notation P0 := (a0 / p0).
Local Notation P1 := (a1 / p1).
Local Notation e0 := (ext1 a0 p0).
Local Notation e1 := (ext1 a1 p1).
Local Notation V := (a0 * a1).
Local Notation F := (fun r c => f [r; c]).
Hypothesis Hmark : cnd mark = true.
Hypothesis Hzmark : znd mark = true.
Hypothesis Hids : forall id, 0 <= id < V -> cnd id = false.
Hypothesis Hzids : forall id, 0 <= id < V -> znd id = false.
Context (g : Z -> Z -> Z -> Z -> Z) (n base : Z -> Z -> Z).
Local Notation pok := (pok a0 a1 p0 p1).
Local Notation cok := (cok a0 a1 p0 p1).
Local Notation lz := (lz p0 p1 F).
Hypothesis Hg : forall i j, pok i j -> labelled znd mark how (e0 i) (e1 j) (lz i j) (cells2 0 (e0 i) 0 (e1 j)) (g i j) (n i j).
Hypothesis Hbase : forall i j i' j' l l', pok i j -> pok i' j' -> 0 <= l < n i j -> 0 <= l' < n i' j' -> base i j + l = base i' j' + l' -> i = i' /\ j = j' /\ l = l'.
Hypothesis Hrange : forall i j, pok i j -> 0 <= base i j /\ base i j + n i j <= V.
Local Notation R := (R znd how a0 a1 p0 p1 F g base).
Local Notation own := (own znd a0 a1 p0 p1 F g base).
Local Notation JG := (joined how (rectangle 0 a0 0 a1) znd (fun x => f [fst x; snd x])).
Context (N : Z -> Z -> Z -> Z).
Hypothesis HNR : forall i j l, pok i j -> 0 <= l < n i j -> R (base i j + l) (N i j l).
Hypothesis HNsmall : forall id0, small znd how a0 a1 p0 p1 F g base id0 -> forall i j u v i' j' u' v', touching znd how a0 a1 p0 p1 F i j u v i' j' u' v' -> touches how i j i' j' ->
   R (base i j + g i j u v) id0 -> N i j (g i j u v) = N i' j' (g i' j' u' v').

Definition at_cell {A} (h : Z -> Z -> Z -> Z -> A) (x : Z * Z) : A :=
  let i := pidx a0 p0 (fst x) in let j := pidx a1 p1 (snd x) in h i j (fst x - i * p0) (snd x - j * p1).
Lemma at_cell_of {A} (h : Z -> Z -> Z -> Z -> A) i j u v : cok i j u v -> at_cell h (gr p0 i u, gc p1 j v) = h i j u v.
Proof. intros ([Hi Hj] & Hu & Hv). unfold at_cell, gr, gc. cbn [fst snd]. rewrite !pidx_of by assumption. f_equal; lia. Qed.
Lemma cell_cok x : rectangle 0 a0 0 a1 x -> exists i j u v, cok i j u v /\ x = (gr p0 i u, gc p1 j v).
Proof.
  destruct x as [r c]. intros [Hr Hc]. cbn [fst snd] in *. destruct (pidx_in a0 p0 r Hp0 ltac:(lia)) as [H1 H2]. destruct (pidx_in a1 p1 c Hp1 ltac:(lia)) as [H3 H4].
  exists (pidx a0 p0 r), (pidx a1 p1 c), (r - pidx a0 p0 r * p0), (c - pidx a1 p1 c * p1). split; [split; [split; assumption|split; assumption]|]. unfold gr, gc. f_equal; lia.
Qed.
Definition idof (x : Z * Z) : Z := at_cell (fun i j u v => base i j + g i j u v) x.
Definition newv (i j v : Z) : Z := if cnd v then v else N i j v.
Definition G (x : Z * Z) : Z := at_cell (fun i j u v => newv i j (g i j u v)) x.
Local Notation vl x := (znd (f [fst x; snd x]) = false).

Lemma cokg i j u v : cok i j u v -> rectangle 0 a0 0 a1 (gr p0 i u, gc p1 j v).
Proof. intros ([Hi Hj] & Hu & Hv). pose proof (ext1_in a0 p0 i u Hp0 Hi Hu). pose proof (ext1_in a1 p1 j v Hp1 Hj Hv). unfold rectangle, gr, gc. cbn [fst snd]. lia. Qed.
Lemma own_of x : rectangle 0 a0 0 a1 x -> vl x -> own (idof x) x.
Proof.
  intros Hx Hz. destruct (cell_cok x Hx) as (i & j & u & v & C & ->). unfold idof. rewrite at_cell_of by exact C. exists i, j, u, v. auto.
Qed.
Lemma own_idof id x : own id x -> id = idof x.
Proof. intros (i & j & u & v & C & -> & _ & ->). unfold idof. now rewrite at_cell_of by exact C. Qed.
Lemma own_in id x : own id x -> rectangle 0 a0 0 a1 x /\ vl x.
Proof. intros (i & j & u & v & C & -> & Hz & _). split; [|exact Hz]. apply cokg; exact C. Qed.
Lemma own_range id x : own id x -> 0 <= id < V.
Proof.
  intros (i & j & u & v & C & -> & Hz & ->). pose proof (local_id znd cnd mark how a0 a1 p0 p1 F Hmark Hzmark Hids Hzids g n base Hg Hbase i j u v C Hz). destruct (Hrange i j (proj1 C)). lia.
Qed.

Lemma G_mark x : rectangle 0 a0 0 a1 x -> znd (f [fst x; snd x]) = true -> G x = mark.
Proof.
  intros Hx Hz. destruct (cell_cok x Hx) as (i & j & u & v & C & ->). unfold G. rewrite at_cell_of by exact C.
  rewrite (local_mark znd cnd mark how a0 a1 p0 p1 F Hmark Hzmark Hids Hzids g n base Hg Hbase i j u v C Hz). unfold newv. now rewrite Hmark.
Qed.
Lemma newv_id i j u v : cok i j u v -> znd (lz i j u v) = false -> newv i j (g i j u v) = N i j (g i j u v).
Proof.
  intros C Hz. pose proof (local_id znd cnd mark how a0 a1 p0 p1 F Hmark Hzmark Hids Hzids g n base Hg Hbase i j u v C Hz). destruct (Hrange i j (proj1 C)). unfold newv. rewrite Hids by lia. reflexivity.
Qed.
Lemma G_R x : rectangle 0 a0 0 a1 x -> vl x -> R (idof x) (G x).
Proof.
  intros Hx Hz. destruct (cell_cok x Hx) as (i & j & u & v & C & ->). unfold G, idof. rewrite !at_cell_of by exact C. rewrite newv_id by assumption. apply HNR; [exact (proj1 C)|].
  exact (local_id znd cnd mark how a0 a1 p0 p1 F Hmark Hzmark Hids Hzids g n base Hg Hbase i j u v C Hz).
Qed.
Lemma G_range x : rectangle 0 a0 0 a1 x -> vl x -> 0 <= G x < V.
Proof. intros Hx Hz. destruct (G_R x Hx Hz) as (y & w & _ & O & _). exact (own_range _ _ O). Qed.
Lemma own_J id x y : own id x -> own id y -> JG x y.
Proof. exact (own_joined znd cnd mark how a0 a1 p0 p1 F Hp0 Hp1 Hmark Hzmark Hids Hzids g n base Hg Hbase id x y). Qed.
Lemma R_joined x y : rectangle 0 a0 0 a1 x -> vl x -> rectangle 0 a0 0 a1 y -> vl y -> R (idof x) (idof y) -> JG x y.
Proof.
  intros Hx Vx Hy Vy (x' & y' & O1 & O2 & J). eapply joined_trans; [exact (own_J _ _ _ (own_of x Hx Vx) O1)|]. eapply joined_trans; [exact J|]. exact (own_J _ _ _ O2 (own_of y Hy Vy)).
Qed.
Lemma Rtrans x y w : R x y -> R y w -> R x w.
Proof. exact (R_trans znd cnd mark how a0 a1 p0 p1 F Hp0 Hp1 Hmark Hzmark Hids Hzids g n base Hg Hbase x y w). Qed.
Lemma Rsym x y : R x y -> R y x.
Proof. intros (x' & y' & O1 & O2 & J). exists y', x'. split; [exact O2|]. split; [exact O1|]. now apply joined_sym. Qed.
Lemma G_sound x y : rectangle 0 a0 0 a1 x -> vl x -> rectangle 0 a0 0 a1 y -> vl y -> G x = G y -> JG x y.
Proof. intros Hx Vx Hy Vy E. apply R_joined; auto. eapply Rtrans; [exact (G_R x Hx Vx)|]. rewrite E. apply Rsym. exact (G_R y Hy Vy). Qed.

Lemma piece_part x y : same_piece how [a0; a1] [p0; p1] znd f x y <->
  exists i j u v u' v', cok i j u v /\ cok i j u' v' /\ x = (gr p0 i u, gc p1 j v) /\ y = (gr p0 i u', gc p1 j v') /\ joined how (rectangle 0 (e0 i) 0 (e1 j)) znd (fun x => lz i j (fst x) (snd x)) (u, v) (u', v').
Proof.
  split.
  - intros [c [Hc HJ]]. destruct c as [|i [|j [|? ?]]]; try contradiction; cbn [parts_shape in_shape] in Hc; try lia. destruct Hc as [Hi [Hj _]]. cbn [part_offset part_extent] in HJ. fold (e0 i) in HJ. fold (e1 j) in HJ.
    pose proof (joined_left _ _ _ _ _ _ HJ) as L. pose proof (joined_right _ _ _ _ _ _ HJ) as Rr. destruct x as [r c], y as [r' c']. cbn [in_box fst snd] in L, Rr.
    exists i, j, (r - i * p0), (c - j * p1), (r' - i * p0), (c' - j * p1). split; [split; [split; assumption|lia]|]. split; [split; [split; assumption|lia]|]. unfold gr, gc. split; [f_equal; lia|]. split; [f_equal; lia|].
    apply (joined_map how how _ (rectangle 0 (e0 i) 0 (e1 j)) znd _ (fun x => lz i j (fst x) (snd x)) (fun w => (fst w - i * p0, snd w - j * p1))) in HJ; [exact HJ| | |].
    + intros [r1 c1] Hw. cbn [in_box fst snd] in Hw. split; cbn [fst snd]; lia.
    + intros [r1 c1] _. unfold ClumpProofs6.lz, gr, gc. cbn [fst snd]. do 2 f_equal; [lia|]. f_equal. lia.
    + intros [r1 c1] [r2 c2]. unfold neighbours. cbn [fst snd]. destruct how; lia.
  - intros (i & j & u & v & u' & v' & C & C' & -> & -> & HJ). destruct C as ([Hi Hj] & Hu & Hv). exists [i; j]. split; [cbn [parts_shape in_shape]; auto|]. cbn [part_offset part_extent]. fold (e0 i). fold (e1 j).
    apply (joined_map how how _ (fun w => in_box [i * p0; j * p1] [e0 i; e1 j] [fst w; snd w]) znd _ (fun w => f [fst w; snd w]) (fun w => (gr p0 i (fst w), gc p1 j (snd w)))) in HJ; [exact HJ| | |].
    + intros [r1 c1] [H1 H2]. cbn [in_box fst snd] in *. unfold gr, gc. lia.
    + intros w _. reflexivity.
    + intros [r1 c1] [r2 c2]. unfold neighbours, gr, gc. cbn [fst snd]. destruct how; lia.
Qed.
Lemma same_ids i j u v u' v' : cok i j u v -> cok i j u' v' -> joined how (rectangle 0 (e0 i) 0 (e1 j)) znd (fun x => lz i j (fst x) (snd x)) (u, v) (u', v') -> g i j u v = g i j u' v'.
Proof.
  intros C C' HJ. pose proof (joined_valid _ _ _ _ _ _ HJ) as V1. pose proof (joined_valid _ _ _ _ _ _ (joined_sym _ _ _ _ _ _ HJ)) as V2. cbn [fst snd] in V1, V2.
  apply (local_same znd cnd mark how a0 a1 p0 p1 F Hmark Hzmark Hids Hzids g n base Hg Hbase i j u v u' v' C C' V1 V2). exact HJ.
Qed.
Lemma piece_same x y : same_piece how [a0; a1] [p0; p1] znd f x y -> idof x = idof y /\ G x = G y.
Proof.
  intros H. apply piece_part in H. destruct H as (i & j & u & v & u' & v' & C & C' & -> & -> & HJ). unfold idof, G. rewrite !at_cell_of by assumption. rewrite (same_ids i j u v u' v' C C' HJ). auto.
Qed.

(** Neighbours are in the same partition, or in partitions that touch. *)
Lemma pidx_near a p r r' : 0 < p <= a -> 0 <= r < a -> 0 <= r' < a -> Z.abs (r - r') <= 1 -> Z.abs (pidx a p r - pidx a p r') <= 1.
Proof.
  intros Hp Hr Hr' H. assert (r' = r \/ r' = r + 1 \/ r' = r - 1) as [->|[->| ->]] by lia.
  - lia.
  - pose proof (Z.div_le_mono r (r + 1) p ltac:(lia) ltac:(lia)). assert ((r + 1) / p <= r / p + 1) by (transitivity ((r + 1 * p) / p); [apply Z.div_le_mono; lia|rewrite Z.div_add by lia; lia]). unfold pidx. lia.
  - pose proof (Z.div_le_mono (r - 1) r p ltac:(lia) ltac:(lia)). assert (r / p <= (r - 1) / p + 1) by (transitivity ((r - 1 + 1 * p) / p); [apply Z.div_le_mono; lia|rewrite Z.div_add by lia; lia]). unfold pidx. lia.
Qed.
Lemma neighbours_parts i j u v i' j' u' v' : cok i j u v -> cok i' j' u' v' -> neighbours how (gr p0 i u, gc p1 j v) (gr p0 i' u', gc p1 j' v') -> (i' = i /\ j' = j) \/ touches how i j i' j' \/ touches how i' j' i j.
Proof.
  intros C C' Hn. destruct (cokg _ _ _ _ C) as [A1 A2]. destruct (cokg _ _ _ _ C') as [B1 B2].
  destruct C as ([Hi Hj] & Hu & Hv), C' as ([Hi' Hj'] & Hu' & Hv'). cbn [fst snd] in *. unfold neighbours in Hn. cbn [fst snd] in Hn.
  pose proof (pidx_near a0 p0 (gr p0 i u) (gr p0 i' u') Hp0 ltac:(lia) ltac:(lia) ltac:(destruct how; lia)) as D1. pose proof (pidx_near a1 p1 (gc p1 j v) (gc p1 j' v') Hp1 ltac:(lia) ltac:(lia) ltac:(destruct how; lia)) as D2.
  pose proof (pidx_of a0 p0 i u Hp0 Hi Hu) as E1. pose proof (pidx_of a0 p0 i' u' Hp0 Hi' Hu') as E2. pose proof (pidx_of a1 p1 j v Hp1 Hj Hv) as E3. pose proof (pidx_of a1 p1 j' v' Hp1 Hj' Hv') as E4. fold (gr p0 i u) in E1. fold (gr p0 i' u') in E2. fold (gc p1 j v) in E3. fold (gc p1 j' v') in E4.
  rewrite E1, E2 in D1. rewrite E3, E4 in D2.
  assert (Hs1 : gr p0 i u = gr p0 i' u' -> i = i') by (intros X; rewrite X in E1; congruence). assert (Hs2 : gc p1 j v = gc p1 j' v' -> j = j') by (intros X; rewrite X in E3; congruence).
  clear - Hn D1 D2 Hs1 Hs2. unfold touches.
  destruct how.
  - assert (i' = i \/ i' = i + 1 \/ i = i' + 1) as [X|[X|X]] by lia; assert (j' = j \/ j' = j + 1 \/ j = j' + 1) as [Y|[Y|Y]] by lia; intuition lia.
  - assert (gr p0 i u = gr p0 i' u' \/ gc p1 j v = gc p1 j' v') as [X|X] by lia; [apply Hs1 in X|apply Hs2 in X]; intuition lia.
Qed.

Lemma G_step x0 x y : small znd how a0 a1 p0 p1 F g base (idof x0) -> rectangle 0 a0 0 a1 x0 -> vl x0 -> JG x0 x -> rectangle 0 a0 0 a1 y -> neighbours how x y -> f [fst y; snd y] = f [fst x; snd x] -> G x = G y.
Proof.
  intros Hs Hx0 V0 HJ Hy Hn Ev. pose proof (joined_right _ _ _ _ _ _ HJ) as Hx. pose proof (joined_valid _ _ _ _ _ _ (joined_sym _ _ _ _ _ _ HJ)) as Vx. cbv beta in Vx. assert (Vy : vl y) by congruence.
  assert (Rx : R (idof x) (idof x0)) by (exists x, x0; split; [now apply own_of|]; split; [now apply own_of|]; now apply joined_sym).
  assert (Ry : R (idof y) (idof x0)).
  { exists y, x0. split; [now apply own_of|]. split; [now apply own_of|]. apply joined_sym. eapply joined_step; [exact HJ|exact Hy|exact Hn|exact Ev]. }
  destruct (cell_cok x Hx) as (i & j & u & v & C & ->). destruct (cell_cok y Hy) as (i' & j' & u' & v' & C' & ->). unfold G, idof in *. rewrite !at_cell_of in * by assumption. cbn [fst snd] in *.
  destruct (neighbours_parts _ _ _ _ _ _ _ _ C C' Hn) as [[-> ->]|T].
  - f_equal. apply same_ids; [exact C|exact C'|]. pose proof C as (_ & Cu & Cv). pose proof C' as (_ & Cu' & Cv'). apply joined_one; [split; cbn [fst snd]; lia|exact Vx|split; cbn [fst snd]; lia| |exact Ev].
    unfold neighbours, gr, gc in *. cbn [fst snd] in *. destruct how; lia.
  - rewrite !newv_id by assumption. destruct T as [T|T].
    + apply (HNsmall _ Hs); [|exact T|exact Rx]. split; [exact C|]. split; [exact C'|]. split; [exact Hn|]. split; [exact Vx|exact Ev].
    + symmetry. apply (HNsmall _ Hs); [|exact T|exact Ry]. split; [exact C'|]. split; [exact C|]. split; [|split; [exact Vy|symmetry; exact Ev]]. now apply neighbours_sym.
Qed.
Lemma G_complete x y : (exists c1 c2 c3, forall w, JG x w -> same_piece how [a0; a1] [p0; p1] znd f w c1 \/ same_piece how [a0; a1] [p0; p1] znd f w c2 \/ same_piece how [a0; a1] [p0; p1] znd f w c3) -> JG x y -> G x = G y.
Proof.
  intros (c1 & c2 & c3 & Hc) HJ. pose proof (joined_left _ _ _ _ _ _ HJ) as Hx. pose proof (joined_valid _ _ _ _ _ _ HJ) as Vx. cbv beta in Vx.
  assert (Hs : small znd how a0 a1 p0 p1 F g base (idof x)).
  { exists (idof c1), (idof c2), (idof c3). intros id (w & x' & O1 & O2 & J). pose proof (own_J _ _ _ (own_of x Hx Vx) O2) as J2. pose proof (joined_trans _ _ _ _ _ _ _ J2 (joined_sym _ _ _ _ _ _ J)) as J3. apply own_idof in O1. subst id.
    destruct (Hc w J3) as [X|[X|X]]; destruct (piece_same _ _ X) as [E _]; rewrite E; auto. }
  remember x as x0 eqn:E0 in HJ. induction HJ as [x1 I1 H1|x1 y w HJ IH Ii Hn Ev].
  - subst. reflexivity.
  - rewrite IH by assumption. subst x1. apply (G_step x); assumption.
Qed.
Lemma G_all_pieces x y : P0 = 1 -> P1 = 1 -> JG x y -> same_piece how [a0; a1] [p0; p1] znd f x y.
Proof.
  intros E0 E1 HJ. exists [0; 0]. split; [cbn [parts_shape in_shape]; lia|]. cbn [part_offset part_extent]. rewrite E0, E1. change (0 =? 1 - 1) with true. cbv iota. eapply joined_inside; [|exact HJ]. intros [r c] [Hr Hc]. cbn [in_box fst snd] in *. lia.
Qed.
End Cells.
