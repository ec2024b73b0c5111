(** Proofs about clump (C28): all borders and corners of the partitions. *)
From Verif Require Import Common CommonProofs IndexModel DecompModel ArrayModel ArrayProofs GridModel GridProofs GridRaster UniqueModel UniqueSpec UniqueProofs ClumpSpec ClumpModel
  ClumpProofs ClumpProofs2 ClumpProofs3 ClumpProofs4 ClumpProofs5.

Lemma side_north : forall n0 n1 h, 0 < n0 -> side_of North (gmake n0 n1 h) = Ok (map (fun t => h 0 t) (zseq 0 n1)).
Proof. intros n0 n1 h H. unfold side_of, grid_row. change (g1 (gmake n0 n1 h)) with n1. apply sequence_map_ok. intros t Ht. apply in_zseq in Ht. apply gget_make; lia. Qed.
Lemma side_south : forall n0 n1 h, 0 < n0 -> side_of South (gmake n0 n1 h) = Ok (map (fun t => h (n0 - 1) t) (zseq 0 n1)).
Proof. intros n0 n1 h H. unfold side_of, grid_row. change (g1 (gmake n0 n1 h)) with n1. change (g0 (gmake n0 n1 h)) with n0. apply sequence_map_ok. intros t Ht. apply in_zseq in Ht. apply gget_make; lia. Qed.
Lemma side_west : forall n0 n1 h, 0 < n1 -> side_of West (gmake n0 n1 h) = Ok (map (fun t => h t 0) (zseq 0 n0)).
Proof. intros n0 n1 h H. unfold side_of, grid_column. change (g0 (gmake n0 n1 h)) with n0. apply sequence_map_ok. intros t Ht. apply in_zseq in Ht. apply gget_make; lia. Qed.
Lemma side_east : forall n0 n1 h, 0 < n1 -> side_of East (gmake n0 n1 h) = Ok (map (fun t => h t (n1 - 1)) (zseq 0 n0)).
Proof. intros n0 n1 h H. unfold side_of, grid_column. change (g1 (gmake n0 n1 h)) with n1. change (g0 (gmake n0 n1 h)) with n0. apply sequence_map_ok. intros t Ht. apply in_zseq in Ht. apply gget_make; lia. Qed.

Section Collect.
Context (znd cnd : Z -> bool) (mark : Z) (how : connectivity) (a0 a1 p0 p1 : Z) (F : Z -> Z -> Z).
Hypothesis Hp0 : 0 < p0 <= a0.
Hypothesis Hp1 : 0 < p1 <= a1.
Local Notation P0 := (a0 / p0).
Local Notation P1 := (a1 / p1).
Local Notation e0 := (ext1 a0 p0).
Local Notation e1 := (ext1 a1 p1).
Local Notation V := (a0 * a1).
Hypothesis Hmark : cnd mark = true.
Hypothesis Hzmark : znd mark = true.
Hypothesis Hids : forall id, 0 <= id < V -> cnd id = false.
Hypothesis Hzids : forall id, 0 <= id < V -> znd id = false.
Context (g : Z -> Z -> Z -> Z -> Z) (n base : Z -> Z -> Z).
Definition pok (i j : Z) : Prop := 0 <= i < P0 /\ 0 <= j < P1.
Definition cok (i j u v : Z) : Prop := pok i j /\ 0 <= u < e0 i /\ 0 <= v < e1 j.
Definition gr (i u : Z) : Z := i * p0 + u.
Definition gc (j v : Z) : Z := j * p1 + v.
Definition lz (i j u v : Z) : Z := F (gr i u) (gc j v).
Hypothesis Hg : forall i j, pok i j -> labelled znd mark how (e0 i) (e1 j) (lz i j) (cells2 0 (e0 i) 0 (e1 j)) (g i j) (n i j).
Hypothesis Hbase : forall i j i' j' l l', pok i j -> pok i' j' -> 0 <= l < n i j -> 0 <= l' < n i' j' -> base i j + l = base i' j' + l' -> i = i' /\ j = j' /\ l = l'.

Definition res (i j : Z) : local_result := LocalResult (gmake (e0 i) (e1 j) (lz i j)) (gmake (e0 i) (e1 j) (g i j)) (map (Z.add (base i j)) (zseq 0 (n i j))).
Local Notation JG := (joined how (rectangle 0 a0 0 a1) znd (fun x => F (fst x) (snd x))).
Local Notation JL i j := (joined how (rectangle 0 (e0 i) 0 (e1 j)) znd (fun x => lz i j (fst x) (snd x))).

Lemma e0_pos : forall i, 0 <= i < P0 -> p0 <= e0 i.
Proof. intros i Hi. now apply ext1_pos. Qed.
Lemma e1_pos : forall j, 0 <= j < P1 -> p1 <= e1 j.
Proof. intros j Hj. now apply ext1_pos. Qed.
Lemma cok_global : forall i j u v, cok i j u v -> rectangle 0 a0 0 a1 (gr i u, gc j v).
Proof. intros i j u v ([Hi Hj] & Hu & Hv). pose proof (ext1_in a0 p0 i u Hp0 Hi Hu). pose proof (ext1_in a1 p1 j v Hp1 Hj Hv). unfold rectangle, gr, gc. cbn [fst snd]. lia. Qed.

Lemma all_seen : forall i j u v, cok i j u v -> znd (lz i j u v) = false -> seen_joined znd how (e0 i) (e1 j) (lz i j) (cells2 0 (e0 i) 0 (e1 j)) (u, v).
Proof.
  intros i j u v (Hp & Hu & Hv) Hz. exists (u, v). split; [apply in_cells2; lia|]. apply joined_refl; [split; cbn [fst snd]; lia|exact Hz].
Qed.
Lemma local_id : forall i j u v, cok i j u v -> znd (lz i j u v) = false -> 0 <= g i j u v < n i j.
Proof.
  intros i j u v C Hz. pose proof (all_seen i j u v C Hz) as S. destruct C as (Hp & Hu & Hv). destruct (Hg i j Hp) as (_ & L2 & _). destruct (L2 (u, v)) as [[_ N]|[L _]]; [split; cbn [fst snd]; lia|contradiction|exact L].
Qed.
Lemma local_mark : forall i j u v, cok i j u v -> znd (lz i j u v) = true -> g i j u v = mark.
Proof.
  intros i j u v (Hp & Hu & Hv) Hz. destruct (Hg i j Hp) as (_ & L2 & _). destruct (L2 (u, v)) as [[E _]|[_ [y [_ S]]]]; [split; cbn [fst snd]; lia|exact E|].
  pose proof (joined_valid _ _ _ _ _ _ S) as H1. pose proof (joined_value _ _ _ _ _ _ S) as H2. cbn [fst snd] in *. congruence.
Qed.
Lemma local_same : forall i j u v u' v', cok i j u v -> cok i j u' v' -> znd (lz i j u v) = false -> znd (lz i j u' v') = false -> (g i j u v = g i j u' v' <-> JL i j (u, v) (u', v')).
Proof.
  intros i j u v u' v' C C' Hz Hz'. pose proof (all_seen _ _ _ _ C Hz) as S. pose proof (all_seen _ _ _ _ C' Hz') as S'. destruct C as (Hp & _). destruct (Hg i j Hp) as (_ & _ & L3 & _). exact (L3 (u, v) (u', v') S S').
Qed.
Lemma local_global : forall i j x y, pok i j -> JL i j x y -> JG (gr i (fst x), gc j (snd x)) (gr i (fst y), gc j (snd y)).
Proof.
  intros i j x y Hp H. apply (joined_map how how (rectangle 0 (e0 i) 0 (e1 j)) (rectangle 0 a0 0 a1) znd (fun x => lz i j (fst x) (snd x)) (fun x => F (fst x) (snd x)) (fun w => (gr i (fst w), gc j (snd w)))); [| | |exact H].
  - intros [u v] [Hu Hv]. cbn [fst snd] in *. apply cok_global. split; [exact Hp|lia].
  - intros w _. reflexivity.
  - intros [u v] [u' v']. unfold neighbours, gr, gc. cbn [fst snd]. destruct how; lia.
Qed.

(** The cells with an ID *)
Definition own (id : Z) (x : Z * Z) : Prop := exists i j u v, cok i j u v /\ x = (gr i u, gc j v) /\ znd (F (fst x) (snd x)) = false /\ id = base i j + g i j u v.
Definition R (id id' : Z) : Prop := exists x y, own id x /\ own id' y /\ JG x y.

Lemma own_joined : forall id x y, own id x -> own id y -> JG x y.
Proof.
  intros id x y (i & j & u & v & C & -> & Hz & E) (i' & j' & u' & v' & C' & -> & Hz' & E'). cbn [fst snd] in *.
  destruct (Hbase i j i' j' (g i j u v) (g i' j' u' v')) as (-> & -> & Eg); [apply C|apply C'|now apply local_id|now apply local_id|lia|].
  apply (local_same i' j' u v u' v') in Eg; auto. apply local_global in Eg; [exact Eg|apply C].
Qed.
Lemma R_sym : forall x y, R x y -> R y x.
Proof. intros a b (x & y & H1 & H2 & H3). exists y, x. split; [exact H2|]. split; [exact H1|now apply joined_sym]. Qed.
Lemma R_trans : forall x y w, R x y -> R y w -> R x w.
Proof.
  intros a b c (x & y & H1 & H2 & H3) (y' & w & H4 & H5 & H6). exists x, w. split; [exact H1|]. split; [exact H5|]. eapply joined_trans; [exact H3|]. eapply joined_trans; [|exact H6]. exact (own_joined b y y' H2 H4).
Qed.

Definition key (i j l : Z) : clump_key := (i * P1 + j, l).
Definition vk (k : clump_key) : Prop := exists i j, pok i j /\ fst k = i * P1 + j /\ 0 <= snd k < n i j.
Definition gid (k : clump_key) : Z := base (fst k / P1) (fst k mod P1) + snd k.
Lemma part_of_key : forall i j, 0 <= j < P1 -> (i * P1 + j) / P1 = i /\ (i * P1 + j) mod P1 = j.
Proof. intros i j Hj. split; [symmetry; apply Z.div_unique with j; lia|symmetry; apply Z.mod_unique with i; lia]. Qed.
Lemma gid_key : forall i j l, pok i j -> gid (key i j l) = base i j + l.
Proof. intros i j l [_ Hj]. unfold gid, key. cbn [fst snd]. destruct (part_of_key i j Hj) as [-> ->]. reflexivity. Qed.
Lemma vk_key : forall i j l, pok i j -> 0 <= l < n i j -> vk (key i j l).
Proof. intros i j l Hp Hl. exists i, j. auto. Qed.
Lemma gid_inj : forall k k', vk k -> vk k' -> gid k = gid k' -> k = k'.
Proof.
  intros [p l] [p' l'] (i & j & Hp & E & Hl) (i' & j' & Hp' & E' & Hl') Eg. cbn [fst snd] in *. subst p p'. change (i * P1 + j, l) with (key i j l) in *. change (i' * P1 + j', l') with (key i' j' l') in *.
  rewrite !gid_key in Eg by assumption. destruct (Hbase i j i' j' l l' Hp Hp' Hl Hl' Eg) as (-> & -> & ->). reflexivity.
Qed.
Lemma global_id : forall i j l, pok i j -> 0 <= l < n i j -> global_clump_id (res i j) l = Ok (gid (key i j l)).
Proof.
  intros i j l Hp Hl. unfold global_clump_id, res. cbn [lr_lut]. rewrite (nth_z_at _ _ _ (nth_z_map_zseq (Z.add (base i j)) (n i j) l Hl)). rewrite gid_key by assumption. reflexivity.
Qed.
Lemma own_cell : forall i j u v, cok i j u v -> znd (lz i j u v) = false -> own (gid (key i j (g i j u v))) (gr i u, gc j v).
Proof. intros i j u v C Hz. exists i, j, u, v. split; [exact C|]. split; [reflexivity|]. split; [exact Hz|]. apply gid_key. apply C. Qed.

Local Notation INV := (inv R vk gid).
Definition at_ (i j : Z) : Z * local_result := (i * P1 + j, res i j).

(** A border between two partitions *)
Lemma border_parts : forall i j i' j' len (nu nv su sv : Z -> Z) ms, INV ms -> pok i j -> pok i' j' -> (i, j) <> (i', j') -> 0 < len -> 2 * len <= V ->
  (forall t, 0 <= t < len -> cok i j (nu t) (nv t)) -> (forall t, 0 <= t < len -> cok i' j' (su t) (sv t)) ->
  (forall a t a' t', (a = 0 \/ a = 1) -> (a' = 0 \/ a' = 1) -> 0 <= t < len -> 0 <= t' < len -> neighbours how (a, t) (a', t') ->
     neighbours how (if a =? 0 then (gr i (nu t), gc j (nv t)) else (gr i' (su t), gc j' (sv t))) (if a' =? 0 then (gr i (nu t'), gc j (nv t')) else (gr i' (su t'), gc j' (sv t')))) ->
  let nz := map (fun t => lz i j (nu t) (nv t)) (zseq 0 len) in
  exists ms', obind (fill_cells znd cnd mark how (Grid 2 len (nz ++ map (fun t => lz i' j' (su t) (sv t)) (zseq 0 len))) (cells2 0 1 0 len)) (fun '(boundary, _) =>
    merge_border znd (at_ i j) (at_ i' j') (map (fun t => g i j (nu t) (nv t)) (zseq 0 len)) (map (fun t => g i' j' (su t) (sv t)) (zseq 0 len)) (firstn (length nz) (gl boundary)) (skipn (length nz) (gl boundary)) ms) = Ok ms' /\
    INV ms' /\ grows ms ms' /\ (forall t t', 0 <= t < len -> 0 <= t' < len -> neighbours how (0, t) (1, t') -> znd (lz i j (nu t) (nv t)) = false -> lz i' j' (su t') (sv t') = lz i j (nu t) (nv t) ->
      together gid ms' (key i j (g i j (nu t) (nv t))) (key i' j' (g i' j' (su t') (sv t')))).
Proof.
  intros i j i' j' len nu nv su sv ms HI Hp Hp' Hne Hlen HV HN HS Hnb nz. subst nz.
  assert (Hrow : forall a t a' t', joined how (rectangle 0 2 0 len) znd (fun x => two_rows (fun t => lz i j (nu t) (nv t)) (fun t => lz i' j' (su t) (sv t)) (fst x) (snd x)) (a, t) (a', t') ->
     JG (if a =? 0 then (gr i (nu t), gc j (nv t)) else (gr i' (su t), gc j' (sv t))) (if a' =? 0 then (gr i (nu t'), gc j (nv t')) else (gr i' (su t'), gc j' (sv t')))).
  { intros a t a' t' H. set (m := fun x : Z * Z => if fst x =? 0 then (gr i (nu (snd x)), gc j (nv (snd x))) else (gr i' (su (snd x)), gc j' (sv (snd x)))).
    change (JG (m (a, t)) (m (a', t'))). 
    remember (a, t) as x eqn:Ex. remember (a', t') as y eqn:Ey. clear a t a' t' Ex Ey.
    assert (Hm1 : forall w, rectangle 0 2 0 len w -> rectangle 0 a0 0 a1 (m w)).
    { intros [a t] [Ha Ht]. cbn [fst snd] in *. unfold m. cbn [fst snd]. destruct (Z.eqb_spec a 0); apply cok_global; [apply HN|apply HS]; lia. }
    assert (Hm2 : forall w, F (fst (m w)) (snd (m w)) = two_rows (fun t => lz i j (nu t) (nv t)) (fun t => lz i' j' (su t) (sv t)) (fst w) (snd w)).
    { intros [a t]. unfold m, two_rows. cbn [fst snd]. destruct (Z.eqb_spec a 0); reflexivity. }
    induction H as [x Ii Hv|x y w H IH Ii N E].
    - apply joined_refl; [apply Hm1; exact Ii|]. rewrite Hm2. exact Hv.
    - eapply joined_step; [exact IH|apply Hm1; exact Ii| |rewrite !Hm2; exact E]. pose proof (joined_right _ _ _ _ _ _ H) as [Y1 Y2]. destruct Ii as [W1 W2]. destruct y as [a t], w as [a' t']. cbn [fst snd] in *. unfold m. cbn [fst snd]. apply Hnb; auto; lia. }
  destruct (border_ok R vk gid R_sym R_trans gid_inj znd cnd mark V Hmark Hzmark Hids Hzids how len (i * P1 + j) (i' * P1 + j') (res i j) (res i' j')
    (fun t => lz i j (nu t) (nv t)) (fun t => lz i' j' (su t) (sv t)) (fun t => g i j (nu t) (nv t)) (fun t => g i' j' (su t) (sv t))) with (ms := ms) as [ms' (E & I' & G' & T')]; auto.
  - intros E. apply Hne. destruct (part_of_key i j) as [D1 M1]; [apply Hp|]. destruct (part_of_key i' j') as [D2 M2]; [apply Hp'|]. rewrite E in D1, M1. congruence.
  - intros t Ht Hz. pose proof (local_id _ _ _ _ (HN t Ht) Hz) as L. split; [apply (vk_key i j); auto|apply (global_id i j); auto].
  - intros t Ht Hz. pose proof (local_id _ _ _ _ (HS t Ht) Hz) as L. split; [apply (vk_key i' j'); auto|apply (global_id i' j'); auto].
  - intros a t a' t' H.
    assert (Hown : forall a t b, rectangle 0 2 0 len (a, t) -> znd (two_rows (fun t => lz i j (nu t) (nv t)) (fun t => lz i' j' (su t) (sv t)) a t) = false -> b = (if a =? 0 then (gr i (nu t), gc j (nv t)) else (gr i' (su t), gc j' (sv t))) ->
       own (gid (row_key (i * P1 + j) (i' * P1 + j') (fun t => g i j (nu t) (nv t)) (fun t => g i' j' (su t) (sv t)) a t)) b).
    { clear H Hrow a t a' t'. intros a t b [Ha Ht] Hz ->. cbn [fst snd] in *. unfold two_rows in Hz. unfold row_key. destruct (Z.eqb_spec a 0); apply (own_cell _ _ _ _) in Hz; try exact Hz; [apply HN|apply HS]; lia. }
    eexists. eexists. split; [|split; [|exact (Hrow _ _ _ _ H)]].
    + apply Hown; [exact (joined_left _ _ _ _ _ _ H)|exact (joined_valid _ _ _ _ _ _ H)|reflexivity].
    + apply Hown; [exact (joined_right _ _ _ _ _ _ H)|exact (joined_valid _ _ _ _ _ _ (joined_sym _ _ _ _ _ _ H))|reflexivity].
  - exists ms'. split; [exact E|]. split; [exact I'|]. split; [exact G'|]. intros t t' Ht Ht' N Hz Ev. apply T'. apply joined_one; [split; cbn [fst snd]; lia|exact Hz|split; cbn [fst snd]; lia|exact N|exact Ev].
Qed.

Lemma e0_inner : forall i, 0 <= i < P0 - 1 -> e0 i = p0.
Proof. intros i Hi. unfold ext1. destruct (Z.eqb_spec i (P0 - 1)); [lia|reflexivity]. Qed.
Lemma e1_inner : forall j, 0 <= j < P1 - 1 -> e1 j = p1.
Proof. intros j Hj. unfold ext1. destruct (Z.eqb_spec j (P1 - 1)); [lia|reflexivity]. Qed.
Lemma a0_two : forall i, 0 <= i < P0 - 1 -> 2 <= a0.
Proof. intros i Hi. pose proof (Z.mul_div_le a0 p0 ltac:(lia)). nia. Qed.
Lemma a1_two : forall j, 0 <= j < P1 - 1 -> 2 <= a1.
Proof. intros j Hj. pose proof (Z.mul_div_le a1 p1 ltac:(lia)). nia. Qed.
Lemma e0_le : forall i, 0 <= i < P0 -> e0 i <= a0.
Proof. intros i Hi. pose proof (e0_pos i Hi). pose proof (ext1_in a0 p0 i (e0 i - 1) Hp0 Hi ltac:(lia)). nia. Qed.
Lemma e1_le : forall j, 0 <= j < P1 -> e1 j <= a1.
Proof. intros j Hj. pose proof (e1_pos j Hj). pose proof (ext1_in a1 p1 j (e1 j - 1) Hp1 Hj ltac:(lia)). nia. Qed.

(** Cells in different partitions that touch and hold the same value *)
Definition touching (i j u v i' j' u' v' : Z) : Prop :=
  cok i j u v /\ cok i' j' u' v' /\ neighbours how (gr i u, gc j v) (gr i' u', gc j' v') /\ znd (lz i j u v) = false /\ lz i' j' u' v' = lz i j u v.
Definition linked (ms : merge_state) (i j i' j' : Z) : Prop :=
  forall u v u' v', touching i j u v i' j' u' v' -> together gid ms (key i j (g i j u v)) (key i' j' (g i' j' u' v')).
Lemma linked_grows : forall ms ms' i j i' j', grows ms ms' -> linked ms i j i' j' -> linked ms' i j i' j'.
Proof. intros ms ms' i j i' j' G L u v u' v' H. eapply together_grows; [exact G|]. apply L. exact H. Qed.

Lemma h_border : forall i j ms, INV ms -> pok i j -> i < P0 - 1 ->
  exists ms', handle_border znd cnd mark how (at_ i j) South (at_ (i + 1) j) North ms = Ok ms' /\ INV ms' /\ grows ms ms' /\ linked ms' i j (i + 1) j.
Proof.
  intros i j ms HI Hp Hi. assert (Hp' : pok (i + 1) j) by (unfold pok in *; lia). pose proof (e0_pos i ltac:(unfold pok in *; lia)) as E0. pose proof (e0_pos (i + 1) ltac:(unfold pok in *; lia)) as E0'. pose proof (e1_pos j ltac:(unfold pok in *; lia)) as E1.
  pose proof (e0_inner i ltac:(unfold pok in *; lia)) as Ei. pose proof (a0_two i ltac:(unfold pok in *; lia)) as A2. pose proof (e1_le j ltac:(unfold pok in *; lia)) as El.
  unfold handle_border, at_. cbn [fst snd]. unfold res. cbn [lr_zones lr_clumps]. rewrite !side_south, !side_north by lia. cbn [obind]. rewrite !map_length, !zseq_length, Z.eqb_refl. cbn [assert]. replace (Z.of_nat (Z.to_nat (e1 j))) with (e1 j) by lia.
  destruct (border_parts i j (i + 1) j (e1 j) (fun _ => e0 i - 1) (fun t => t) (fun _ => 0) (fun t => t) ms HI Hp Hp') as [ms' (E & I' & G' & T')].
  - intros X. injection X. lia.
  - lia.
  - nia.
  - intros t Ht. split; [exact Hp|lia].
  - intros t Ht. split; [exact Hp'|lia].
  - intros a t a' t' Ha Ha' Ht Ht' N. unfold neighbours, gr, gc in *. rewrite Ei. destruct Ha as [->| ->], Ha' as [->| ->]; cbn [Z.eqb fst snd] in *; destruct how; lia.
  - rewrite map_length, zseq_length in E. unfold at_, res in E. exists ms'. split; [exact E|]. split; [exact I'|]. split; [exact G'|].
    intros u v u' v' (C & C' & N & Hz & Ev). destruct C as (_ & Cu & Cv), C' as (_ & Cu' & Cv').
    assert (u = e0 i - 1 /\ u' = 0) as [-> ->] by (clear - N Cu Cu' Ei Hp0; unfold neighbours, gr, gc in N; cbn [fst snd] in N; rewrite Ei in *; destruct how; nia).
    apply T'; auto. unfold neighbours, gr, gc in *. cbn [fst snd] in *. rewrite Ei in *. destruct how; lia.
Qed.
Lemma v_border : forall i j ms, INV ms -> pok i j -> j < P1 - 1 ->
  exists ms', handle_border znd cnd mark how (at_ i j) East (at_ i (j + 1)) West ms = Ok ms' /\ INV ms' /\ grows ms ms' /\ linked ms' i j i (j + 1).
Proof.
  intros i j ms HI Hp Hj. assert (Hp' : pok i (j + 1)) by (unfold pok in *; lia). pose proof (e1_pos j ltac:(unfold pok in *; lia)) as E0. pose proof (e1_pos (j + 1) ltac:(unfold pok in *; lia)) as E0'. pose proof (e0_pos i ltac:(unfold pok in *; lia)) as E1.
  pose proof (e1_inner j ltac:(unfold pok in *; lia)) as Ei. pose proof (a1_two j ltac:(unfold pok in *; lia)) as A2. pose proof (e0_le i ltac:(unfold pok in *; lia)) as El.
  unfold handle_border, at_. cbn [fst snd]. unfold res. cbn [lr_zones lr_clumps]. rewrite !side_east, !side_west by lia. cbn [obind]. rewrite !map_length, !zseq_length, Z.eqb_refl. cbn [assert]. replace (Z.of_nat (Z.to_nat (e0 i))) with (e0 i) by lia.
  destruct (border_parts i j i (j + 1) (e0 i) (fun t => t) (fun _ => e1 j - 1) (fun t => t) (fun _ => 0) ms HI Hp Hp') as [ms' (E & I' & G' & T')].
  - intros X. injection X. lia.
  - lia.
  - nia.
  - intros t Ht. split; [exact Hp|lia].
  - intros t Ht. split; [exact Hp'|lia].
  - intros a t a' t' Ha Ha' Ht Ht' N. unfold neighbours, gr, gc in *. rewrite Ei. destruct Ha as [->| ->], Ha' as [->| ->]; cbn [Z.eqb fst snd] in *; destruct how; lia.
  - rewrite map_length, zseq_length in E. unfold at_, res in E. exists ms'. split; [exact E|]. split; [exact I'|]. split; [exact G'|].
    intros u v u' v' (C & C' & N & Hz & Ev). destruct C as (_ & Cu & Cv), C' as (_ & Cu' & Cv').
    assert (v = e1 j - 1 /\ v' = 0) as [-> ->] by (clear - N Cv Cv' Ei Hp1; unfold neighbours, gr, gc in N; cbn [fst snd] in N; rewrite Ei in *; destruct how; nia).
    apply T'; auto. unfold neighbours, gr, gc in *. cbn [fst snd] in *. rewrite Ei in *. destruct how; lia.
Qed.

(** Merging two cells that touch *)
Lemma diagonal_ok : forall i j u v i' j' u' v' ms, INV ms -> touching i j u v i' j' u' v' -> (i, j) <> (i', j') ->
  exists ms', merge_diagonal (at_ i j) (g i j u v) (at_ i' j') (g i' j' u' v') ms = Ok ms' /\ INV ms' /\ grows ms ms' /\ together gid ms' (key i j (g i j u v)) (key i' j' (g i' j' u' v')).
Proof.
  intros i j u v i' j' u' v' ms HI (C & C' & N & Hz & Ev) Hne. assert (Hz' : znd (lz i' j' u' v') = false) by congruence.
  pose proof (local_id _ _ _ _ C Hz) as L. pose proof (local_id _ _ _ _ C' Hz') as L'. pose proof (proj1 C) as Hp. pose proof (proj1 C') as Hp'.
  apply (merge_diagonal_ok R vk gid R_sym R_trans gid_inj); auto.
  - now apply vk_key.
  - now apply vk_key.
  - exists (gr i u, gc j v), (gr i' u', gc j' v'). split; [now apply own_cell|]. split; [now apply own_cell|]. apply joined_one; [now apply cok_global|exact Hz|now apply cok_global|exact N|exact Ev].
  - intros E. apply Hne. destruct (part_of_key i j) as [D1 M1]; [apply Hp|]. destruct (part_of_key i' j') as [D2 M2]; [apply Hp'|]. rewrite E in D1, M1. congruence.
  - now apply global_id.
  - now apply global_id.
Qed.

Lemma corner_ok : forall i j ms, how = Diagonal -> INV ms -> pok i j -> i < P0 - 1 -> j < P1 - 1 ->
  exists ms', handle_corner znd cnd mark (at_ i j) (at_ i (j + 1)) (at_ (i + 1) j) (at_ (i + 1) (j + 1)) ms = Ok ms' /\ INV ms' /\ grows ms ms' /\ linked ms' i j (i + 1) (j + 1) /\ linked ms' i (j + 1) (i + 1) j.
Proof.
  intros i j ms Hhow HI Hp Hi Hj. pose proof Hp as [Pi Pj].
  pose proof (e0_pos i ltac:(lia)) as E0. pose proof (e0_pos (i + 1) ltac:(lia)) as E0'. pose proof (e1_pos j ltac:(lia)) as E1. pose proof (e1_pos (j + 1) ltac:(lia)) as E1'.
  pose proof (e0_inner i ltac:(lia)) as Ei. pose proof (e1_inner j ltac:(lia)) as Ej. pose proof (a0_two i ltac:(lia)) as A0. pose proof (a1_two j ltac:(lia)) as A1.
  assert (C00 : cok i j (e0 i - 1) (e1 j - 1)) by (split; [split|]; lia). assert (C01 : cok i (j + 1) (e0 i - 1) 0) by (split; [split|]; lia).
  assert (C10 : cok (i + 1) j 0 (e1 j - 1)) by (split; [split|]; lia). assert (C11 : cok (i + 1) (j + 1) 0 0) by (split; [split|]; lia).
  unfold handle_corner, at_. cbn [fst snd]. unfold res. cbn [lr_zones lr_clumps]. cbv beta zeta.
  repeat match goal with |- context [g0 (gmake ?x ?y ?h)] => change (g0 (gmake x y h)) with x end. repeat match goal with |- context [g1 (gmake ?x ?y ?h)] => change (g1 (gmake x y h)) with y end.
  rewrite !gget_make by lia. cbn [obind].
  set (z0 := lz i j (e0 i - 1) (e1 j - 1)). set (z1 := lz i (j + 1) (e0 i - 1) 0). set (z2 := lz (i + 1) j 0 (e1 j - 1)). set (z3 := lz (i + 1) (j + 1) 0 0).
  set (zz := fun a t : Z => if a =? 0 then if t =? 0 then z0 else z1 else if t =? 0 then z2 else z3).
  change (Grid 2 2 [z0; z1; z2; z3]) with (gmake 2 2 zz).
  destruct (fill_cells_ok znd cnd mark V Diagonal 2 2 zz ltac:(lia) ltac:(lia) ltac:(nia) Hmark Hids 2 ltac:(lia)) as [gb [nb [Ef L]]]. rewrite Ef. cbn [obind]. clear Ef.
  change (gl (gmake 2 2 gb)) with [gb 0 0; gb 0 1; gb 1 0; gb 1 1].
  destruct L as (L1 & L2 & L3 & _). rewrite cells2_length in L1 by lia. change (Z.of_nat (Z.to_nat (2 * 2))) with 4 in L1.
  set (seen := seen_joined znd Diagonal 2 2 zz (cells2 0 2 0 2)) in *.
  assert (Hb : forall a t, (a = 0 \/ a = 1) -> (t = 0 \/ t = 1) -> (gb a t = mark /\ znd (zz a t) = true) \/ (znd (gb a t) = false /\ znd (zz a t) = false /\ seen (a, t))).
  { intros a t Ha Ht. assert (Ii : rectangle 0 2 0 2 (a, t)) by (split; cbn [fst snd]; lia). destruct (L2 (a, t) Ii) as [[E N]|[E S]]; cbn [fst snd] in E.
    - left. split; [exact E|]. destruct (znd (zz a t)) eqn:Ez; [reflexivity|]. exfalso. apply N. exists (a, t). split; [apply in_cells2; lia|now apply joined_refl].
    - right. split; [apply Hzids; nia|]. split; [|exact S]. destruct S as [y [_ S]]. pose proof (joined_valid _ _ _ _ _ _ S) as X1. pose proof (joined_value _ _ _ _ _ _ S) as X2. cbn [fst snd] in *. congruence. }
  assert (Hpair : forall a t a' t', (a = 0 \/ a = 1) -> (t = 0 \/ t = 1) -> (a' = 0 \/ a' = 1) -> (t' = 0 \/ t' = 1) -> neighbours Diagonal (a, t) (a', t') ->
    negb (znd (gb a t)) && negb (znd (gb a' t')) && (gb a t =? gb a' t') = true <-> znd (zz a t) = false /\ zz a' t' = zz a t).
  { intros a t a' t' Ha Ht Ha' Ht' N. split.
    - intros H. assert (znd (gb a t) = false /\ znd (gb a' t') = false /\ gb a t = gb a' t') as (H1 & H2 & H3) by lia.
      destruct (Hb a t Ha Ht) as [[X _]|(_ & X1 & X2)]; [congruence|]. destruct (Hb a' t' Ha' Ht') as [[X _]|(_ & X3 & X4)]; [congruence|].
      pose proof (proj1 (L3 (a, t) (a', t') X2 X4) H3) as HJ. apply joined_value in HJ. cbn [fst snd] in HJ. auto.
    - intros [H1 H2]. destruct (Hb a t Ha Ht) as [[_ X]|(X0 & X1 & X2)]; [congruence|]. destruct (Hb a' t' Ha' Ht') as [[_ X]|(X3 & X4 & X5)]; [congruence|]. rewrite X0, X3. cbn [negb andb]. apply Z.eqb_eq. apply (L3 (a, t) (a', t') X2 X5).
      apply joined_one; [split; cbn [fst snd]; lia|exact H1|split; cbn [fst snd]; lia|exact N|exact H2]. }
  assert (Hlink : forall i' j' u v i'' j'' u' v' ms1, touching i' j' u v i'' j'' u' v' \/ (~ (znd (lz i' j' u v) = false /\ lz i'' j'' u' v' = lz i' j' u v)) -> INV ms1 -> (i', j') <> (i'', j'') ->
     forall b : bool, (b = true <-> znd (lz i' j' u v) = false /\ lz i'' j'' u' v' = lz i' j' u v) -> (forall x y x' y', touching i' j' x y i'' j'' x' y' -> x = u /\ y = v /\ x' = u' /\ y' = v') ->
     exists ms', (if b then merge_diagonal (at_ i' j') (g i' j' u v) (at_ i'' j'') (g i'' j'' u' v') ms1 else Ok ms1) = Ok ms' /\ INV ms' /\ grows ms1 ms' /\ linked ms' i' j' i'' j'').
  { intros i' j' u v i'' j'' u' v' ms1 Ht HI1 Hne b Hbb Huniq. destruct b.
    - destruct Ht as [Ht|Ht]; [|exfalso; apply Ht, Hbb; reflexivity]. destruct (diagonal_ok _ _ _ _ _ _ _ _ ms1 HI1 Ht Hne) as [ms' (E & X1 & X2 & X3)]. exists ms'. split; [exact E|]. split; [exact X1|]. split; [exact X2|].
      intros x y x' y' T. destruct (Huniq _ _ _ _ T) as (-> & -> & -> & ->). exact X3.
    - exists ms1. split; [reflexivity|]. split; [exact HI1|]. split; [apply grows_refl|]. intros x y x' y' T. destruct (Huniq _ _ _ _ T) as (-> & -> & -> & ->). destruct T as (_ & _ & _ & Hz & Ev). assert (false = true) by (apply Hbb; auto). discriminate. }
  destruct (Hlink i j (e0 i - 1) (e1 j - 1) (i + 1) (j + 1) 0 0 ms) with (b := negb (znd (gb 0 0)) && negb (znd (gb 1 1)) && (gb 0 0 =? gb 1 1)) as [ms1 (X1 & X2 & X3 & X4)]; auto.
  { destruct (znd z0) eqn:Ez; [right; intros [X _]; fold z0 in X; congruence|]. destruct (Z.eq_dec z3 z0) as [Eq|Nq]; [left|right; intros [_ X]; apply Nq; exact X].
    split; [exact C00|]. split; [exact C11|]. split; [|split; [exact Ez|exact Eq]]. rewrite Hhow. unfold neighbours, gr, gc. cbn [fst snd]. lia. }
  { intros X. injection X. lia. }
  { apply (Hpair 0 0 1 1); auto. unfold neighbours. cbn [fst snd]. lia. }
  { intros x y x' y' ((_ & Cu & Cv) & (_ & Cu' & Cv') & N & _). clear - N Cu Cv Cu' Cv' Ei Ej Hhow Hp0 Hp1. unfold neighbours, gr, gc in N. rewrite Hhow in N. cbn [fst snd] in N. rewrite Ei, Ej in *. nia. }
  unfold at_ in X1. unfold res in X1. rewrite X1. cbn [obind].
  destruct (Hlink i (j + 1) (e0 i - 1) 0 (i + 1) j 0 (e1 j - 1) ms1) with (b := negb (znd (gb 0 1)) && negb (znd (gb 1 0)) && (gb 0 1 =? gb 1 0)) as [ms2 (Y1 & Y2 & Y3 & Y4)]; auto.
  { destruct (znd z1) eqn:Ez; [right; intros [X _]; fold z1 in X; congruence|]. destruct (Z.eq_dec z2 z1) as [Eq|Nq]; [left|right; intros [_ X]; apply Nq; exact X].
    split; [exact C01|]. split; [exact C10|]. split; [|split; [exact Ez|exact Eq]]. rewrite Hhow. unfold neighbours, gr, gc. cbn [fst snd]. lia. }
  { intros X. injection X. lia. }
  { apply (Hpair 0 1 1 0); auto. unfold neighbours. cbn [fst snd]. lia. }
  { intros x y x' y' ((_ & Cu & Cv) & (_ & Cu' & Cv') & N & _). clear - N Cu Cv Cu' Cv' Ei Ej Hhow Hp0 Hp1. unfold neighbours, gr, gc in N. rewrite Hhow in N. cbn [fst snd] in N. rewrite Ei, Ej in *. nia. }
  unfold at_, res in Y1. rewrite Y1. exists ms2. split; [reflexivity|]. split; [exact Y2|]. split; [eapply grows_trans; eassumption|]. split; [eapply linked_grows; eassumption|exact Y4].
Qed.

(** One partition *)
Definition covered (ms : merge_state) (i j : Z) : Prop :=
  (i < P0 - 1 -> linked ms i j (i + 1) j) /\ (j < P1 - 1 -> linked ms i j i (j + 1)) /\
  (how = Diagonal -> i < P0 - 1 -> j < P1 - 1 -> linked ms i j (i + 1) (j + 1) /\ linked ms i (j + 1) (i + 1) j).
Lemma covered_grows : forall ms ms' i j, grows ms ms' -> covered ms i j -> covered ms' i j.
Proof.
  intros ms ms' i j G (A & B & C). split; [intros; eapply linked_grows; eauto|]. split; [intros; eapply linked_grows; eauto|]. intros H1 H2 H3. destruct (C H1 H2 H3). split; eapply linked_grows; eauto.
Qed.

Lemma partition_ok : forall i j ms, INV ms -> pok i j ->
  exists ms', handle_partition znd cnd mark how (gmake P0 P1 res) i j ms = Ok ms' /\ INV ms' /\ grows ms ms' /\ covered ms' i j.
Proof.
  intros i j ms HI Hp. pose proof Hp as [Pi Pj].
  assert (Hat : forall i j, pok i j -> obind (gget (gmake P0 P1 res) i j) (fun x => Ok (i * g1 (gmake P0 P1 res) + j, x)) = Ok (at_ i j)) by (intros i' j' [H1 H2]; rewrite gget_make by assumption; reflexivity).
  unfold handle_partition. cbv zeta. rewrite (Hat i j Hp). cbn [obind]. change (g0 (gmake P0 P1 res)) with P0. change (g1 (gmake P0 P1 res)) with P1.
  assert (H1 : exists ms1, (if i <? P0 - 1 then obind (obind (gget (gmake P0 P1 res) (i + 1) j) (fun x => Ok ((i + 1) * P1 + j, x))) (fun s => handle_border znd cnd mark how (at_ i j) South s North ms) else Ok ms) = Ok ms1 /\ INV ms1 /\ grows ms ms1 /\ (i < P0 - 1 -> linked ms1 i j (i + 1) j)).
  { destruct (Z.ltb_spec i (P0 - 1)).
    - change P1 with (g1 (gmake P0 P1 res)) at 2. rewrite Hat by (split; lia). cbn [obind]. destruct (h_border i j ms HI Hp H) as [ms' (X1 & X2 & X3 & X4)]. exists ms'. auto.
    - exists ms. split; [reflexivity|]. split; [exact HI|]. split; [apply grows_refl|lia]. }
  destruct H1 as [ms1 (X1 & X2 & X3 & X4)]. rewrite X1. cbn [obind]. clear X1.
  assert (H2 : exists ms2, (if j <? P1 - 1 then obind (obind (gget (gmake P0 P1 res) i (j + 1)) (fun x => Ok (i * P1 + (j + 1), x))) (fun e => handle_border znd cnd mark how (at_ i j) East e West ms1) else Ok ms1) = Ok ms2 /\ INV ms2 /\ grows ms1 ms2 /\ (j < P1 - 1 -> linked ms2 i j i (j + 1))).
  { destruct (Z.ltb_spec j (P1 - 1)).
    - change (i * P1) with (i * g1 (gmake P0 P1 res)). rewrite Hat by (split; lia). cbn [obind]. destruct (v_border i j ms1 X2 Hp H) as [ms' (Y1 & Y2 & Y3 & Y4)]. exists ms'. auto.
    - exists ms1. split; [reflexivity|]. split; [exact X2|]. split; [apply grows_refl|lia]. }
  destruct H2 as [ms2 (Y1 & Y2 & Y3 & Y4)]. rewrite Y1. cbn [obind]. clear Y1.
  assert (Hat' : forall i j, pok i j -> obind (gget (gmake P0 P1 res) i j) (fun x => Ok (i * P1 + j, x)) = Ok (at_ i j)) by exact Hat.
  assert (H3 : exists ms3, match how with Diagonal => if (i <? P0 - 1) && (j <? P1 - 1) then
        obind (obind (gget (gmake P0 P1 res) i (j + 1)) (fun x => Ok (i * P1 + (j + 1), x))) (fun ne => obind (obind (gget (gmake P0 P1 res) (i + 1) j) (fun x => Ok ((i + 1) * P1 + j, x))) (fun sw =>
        obind (obind (gget (gmake P0 P1 res) (i + 1) (j + 1)) (fun x => Ok ((i + 1) * P1 + (j + 1), x))) (fun se => handle_corner znd cnd mark (at_ i j) ne sw se ms2))) else Ok ms2 | Nondiagonal => Ok ms2 end = Ok ms3 /\
      INV ms3 /\ grows ms2 ms3 /\ (how = Diagonal -> i < P0 - 1 -> j < P1 - 1 -> linked ms3 i j (i + 1) (j + 1) /\ linked ms3 i (j + 1) (i + 1) j)).
  { assert (D : how = Diagonal \/ how = Nondiagonal) by (clear; destruct how; auto). destruct D as [D|D].
    - destruct (Z.ltb_spec i (P0 - 1)) as [Li|Li]; [destruct (Z.ltb_spec j (P1 - 1)) as [Lj|Lj]|].
      + destruct (corner_ok i j ms2 D Y2 Hp Li Lj) as [ms3 (Z1 & Z2 & Z3 & Z4)]. exists ms3. split; [|auto]. rewrite !Hat' by (split; lia). cbn [obind andb]. rewrite Z1. rewrite D. reflexivity.
      + exists ms2. split; [rewrite D; reflexivity|]. split; [exact Y2|]. split; [apply grows_refl|lia].
      + exists ms2. split; [rewrite D; reflexivity|]. split; [exact Y2|]. split; [apply grows_refl|lia].
    - exists ms2. split; [rewrite D; reflexivity|]. split; [exact Y2|]. split; [apply grows_refl|]. intros X. rewrite D in X. discriminate. }
  destruct H3 as [ms3 (Z1 & Z2 & Z3 & Z4)]. exists ms3. split; [exact Z1|]. split; [exact Z2|]. split; [eapply grows_trans; [exact X3|]; eapply grows_trans; [exact Y3|exact Z3]|].
  split; [intros H; eapply linked_grows; [exact Z3|]; eapply linked_grows; [exact Y3|]; now apply X4|]. split; [intros H; eapply linked_grows; [exact Z3|]; now apply Y4|exact Z4].
Qed.

(** All partitions *)
Lemma inv_nil : INV (MergeState [] []).
Proof.
  assert (X : forall A i (s : A), nth_z i [] = Some s -> False) by (intros A i s H; apply nth_z_range in H; cbn [length] in H; lia).
  split; [split|]; cbn [ms_sets ms_index].
  - intros i s H. destruct (X _ _ _ H).
  - intros k i [].
  - intros i s H. destruct (X _ _ _ H).
Qed.
Lemma collect_ok : exists ms, collect_sets znd cnd mark how (gmake P0 P1 res) = Ok ms /\ INV ms /\ forall i j, pok i j -> covered ms i j.
Proof.
  unfold collect_sets. change (g0 (gmake P0 P1 res)) with P0. change (g1 (gmake P0 P1 res)) with P1.
  assert (Hf : forall l ms, INV ms -> (forall i j, In (i, j) l -> pok i j) ->
    exists ms', fold_left (fun acc '(row, col) => obind acc (fun ms => handle_partition znd cnd mark how (gmake P0 P1 res) row col ms)) l (Ok ms) = Ok ms' /\ INV ms' /\ grows ms ms' /\ forall i j, In (i, j) l -> covered ms' i j).
  { induction l as [|[i j] l IH]; intros ms HI Hl.
    - exists ms. split; [reflexivity|]. split; [exact HI|]. split; [apply grows_refl|]. intros i j [].
    - cbn [fold_left obind]. destruct (partition_ok i j ms HI (Hl i j (or_introl eq_refl))) as [ms1 (X1 & X2 & X3 & X4)]. rewrite X1.
      destruct (IH ms1 X2) as [ms2 (Y1 & Y2 & Y3 & Y4)]; [intros; apply Hl; now right|]. exists ms2. split; [exact Y1|]. split; [exact Y2|]. split; [eapply grows_trans; eassumption|].
      intros i' j' [E|H]; [injection E as <- <-; eapply covered_grows; eassumption|now apply Y4]. }
  destruct (Hf (cells2 0 P0 0 P1) (MergeState [] []) inv_nil) as [ms (X1 & X2 & _ & X4)].
  - intros i j H. apply in_cells2 in H. unfold pok. lia.
  - exists ms. split; [exact X1|]. split; [exact X2|]. intros i j [H1 H2]. apply X4. apply in_cells2. lia.
Qed.

(** The lookup tables after merging *)
Definition resN (N : Z -> Z -> Z -> Z) (i j : Z) : local_result := LocalResult (gmake (e0 i) (e1 j) (lz i j)) (gmake (e0 i) (e1 j) (g i j)) (map (N i j) (zseq 0 (n i j))).
Lemma set_lut_ok : forall N i j l id, pok i j -> 0 <= l < n i j ->
  set_lut (gl (gmake P0 P1 (resN N))) (i * P1 + j) l id = Ok (gl (gmake P0 P1 (resN (fun i' j' l' => if (i' =? i) && (j' =? j) && (l' =? l) then id else N i' j' l')))).
Proof.
  intros N i j l id [Hi Hj] Hl. unfold set_lut.
  pose proof (gget_make P0 P1 (resN N) i j Hi Hj) as G. unfold gget in G. replace (in_grid (gmake P0 P1 (resN N)) i j) with true in G by (symmetry; apply in_grid_spec; cbn [g0 g1 gmake]; lia). change (g1 (gmake P0 P1 (resN N))) with P1 in G. rewrite G. cbn [obind]. clear G.
  unfold resN at 1. cbn [lr_lut].
  destruct (upd_z_ok (map (N i j) (zseq 0 (n i j))) l (N i j l) id (nth_z_map_zseq _ _ _ Hl)) as [lut (U & UL & U1 & U2)]. rewrite U.
  assert (El : lut = map (fun t => if t =? l then id else N i j t) (zseq 0 (n i j))).
  { apply nth_error_ext. intros k. destruct (Nat.lt_ge_cases k (length lut)) as [Hk|Hk].
    - rewrite UL, map_length, zseq_length in Hk. assert (Hk' : 0 <= Z.of_nat k < n i j) by lia. pose proof (nth_z_map_zseq (fun t => if t =? l then id else N i j t) (n i j) (Z.of_nat k) Hk') as E.
      rewrite nth_z_nat, Nat2Z.id in E by lia. rewrite E. destruct (Z.eqb_spec (Z.of_nat k) l) as [<-|Ne].
      + rewrite nth_z_nat, Nat2Z.id in U1 by lia. exact U1.
      + specialize (U2 _ Ne). rewrite (nth_z_map_zseq _ _ _ Hk') in U2. rewrite nth_z_nat, Nat2Z.id in U2 by lia. exact U2.
    - assert (nth_error lut k = None) as -> by (apply nth_error_None; lia). symmetry. apply nth_error_None. rewrite UL, map_length, zseq_length in Hk. rewrite map_length, zseq_length. exact Hk. }
  pose proof (gset_make P0 P1 (resN N) i j (LocalResult (lr_zones (resN N i j)) (lr_clumps (resN N i j)) lut) Hi Hj) as G. unfold gset in G.
  replace (in_grid (gmake P0 P1 (resN N)) i j) with true in G by (symmetry; apply in_grid_spec; cbn [g0 g1 gmake]; lia). change (g1 (gmake P0 P1 (resN N))) with P1 in G.
  destruct (upd_z (i * P1 + j) (LocalResult (lr_zones (resN N i j)) (lr_clumps (resN N i j)) lut) (gl (gmake P0 P1 (resN N)))) as [l'|]; [|discriminate]. f_equal.
  injection G as G. rewrite G. rewrite gl_make. apply map_ext_in. intros [i' j'] _. cbn [fst snd]. unfold resN. cbn [lr_zones lr_clumps].
  destruct ((i' =? i) && (j' =? j)) eqn:E; cbn [andb]; [|reflexivity]. assert (i' = i /\ j' = j) as [-> ->] by lia. rewrite El. reflexivity.
Qed.

Definition new_ids (sets : list (list Z)) (updates : list (Z * Z)) (results : list local_result) (index : list (clump_key * Z)) : outcome (list local_result) :=
  fold_left (fun acc '(key, i) => obind acc (fun results => obind (at_z sets (find_update updates i)) (fun s => match s with [] => UB | id :: _ => set_lut results (fst key) (snd key) id end)))
    index (Ok results).
Lemma new_ids_ok : forall sets updates index N, (forall k i, In (k, i) index -> vk k /\ exists id s, nth_z (find_update updates i) sets = Some (id :: s)) ->
  exists N', new_ids sets updates (gl (gmake P0 P1 (resN N))) index = Ok (gl (gmake P0 P1 (resN N'))) /\
    forall i j l, pok i j -> (N' i j l = N i j l /\ (forall t, ~ In (key i j l, t) index)) \/ exists t s, In (key i j l, t) index /\ nth_z (find_update updates t) sets = Some (N' i j l :: s).
Proof.
  intros sets updates. unfold new_ids. induction index as [|[[p l] t] index IH]; intros N H.
  - exists N. split; [reflexivity|]. intros i j l _. left. split; [reflexivity|intros t []].
  - cbn [fold_left obind]. destruct (H _ _ (or_introl eq_refl)) as [(i & j & Hp & Ep & Hl) [id [s Es]]]. cbn [fst snd] in Ep, Hl. subst p. rewrite (nth_z_at _ _ _ Es). cbn [obind fst snd]. rewrite set_lut_ok by assumption.
    destruct (IH (fun i' j' l' => if (i' =? i) && (j' =? j) && (l' =? l) then id else N i' j' l')) as [N' [E HN]]; [intros; apply H; now right|].
    exists N'. split; [exact E|]. intros i' j' l' Hp'. destruct (HN i' j' l' Hp') as [[X1 X2]|[t' [s' [X1 X2]]]]; [|right; exists t', s'; split; [now right|exact X2]].
    destruct ((i' =? i) && (j' =? j) && (l' =? l)) eqn:Ek.
    + assert (i' = i /\ j' = j /\ l' = l) as (-> & -> & ->) by lia. right. exists t, s. split; [now left|]. rewrite X1. exact Es.
    + left. split; [exact X1|]. intros t' [Ek'|Ek']; [|exact (X2 _ Ek')]. injection Ek' as Ep El _. destruct (part_of_key i j) as [D1 M1]; [apply Hp|]. destruct (part_of_key i' j') as [D2 M2]; [apply Hp'|]. rewrite Ep in D1, M1. lia.
Qed.

(** A clump that consists of at most three parts of partitions *)
Definition small (id0 : Z) : Prop := exists u1 u2 u3, forall id, R id id0 -> id = u1 \/ id = u2 \/ id = u3.
Lemma small_q : forall ms id0, INV ms -> small id0 -> q_ok (fun id => R id id0) (ms_sets ms).
Proof.
  intros ms id0 [[P _] T] [u1 [u2 [u3 Hu]]] i j s t Hi Hj [x [Xs Xq]] [y [Ys Yq]].
  assert (S1 : forall w, In w s -> R w id0) by (intros w Hw; destruct (P i s Hi) as [Q _]; eapply R_trans; [exact (Q w x Hw Xs)|exact Xq]).
  assert (S2 : forall w, In w t -> R w id0) by (intros w Hw; destruct (P j t Hj) as [Q _]; eapply R_trans; [exact (Q w y Hw Ys)|exact Yq]).
  destruct (T i s Hi) as (v1 & v2 & V1 & V2 & Nv). destruct (T j t Hj) as (w1 & w2 & W1 & W2 & Nw).
  pose proof (Hu v1 (S1 _ V1)). pose proof (Hu v2 (S1 _ V2)). pose proof (Hu w1 (S2 _ W1)). pose proof (Hu w2 (S2 _ W2)).
  assert (v1 = w1 \/ v1 = w2 \/ v2 = w1 \/ v2 = w2) as [E|[E|[E|E]]] by (clear - H H0 H1 H2 Nv Nw; lia); subst; eauto.
Qed.

Definition touches (i j i' j' : Z) : Prop := (i' = i + 1 /\ j' = j) \/ (i' = i /\ j' = j + 1) \/ (how = Diagonal /\ i' = i + 1 /\ (j' = j + 1 \/ j' = j - 1)).

Lemma luts_ok : exists N, obind (collect_sets znd cnd mark how (gmake P0 P1 res)) (fun ms => obind (merge_sets (ms_sets ms)) (fun '(sets, updates) => new_ids sets updates (gl (gmake P0 P1 res)) (ms_index ms))) = Ok (gl (gmake P0 P1 (resN N))) /\
  (forall i j l, pok i j -> 0 <= l < n i j -> R (base i j + l) (N i j l)) /\
  (forall id0, small id0 -> forall i j u v i' j' u' v', touching i j u v i' j' u' v' -> touches i j i' j' -> R (base i j + g i j u v) id0 -> N i j (g i j u v) = N i' j' (g i' j' u' v')).
Proof.
  destruct collect_ok as [ms (Ec & HI & HC)]. rewrite Ec. cbn [obind]. pose proof HI as [[HP HX] HT].
  destruct (merge_sets_ok R R_sym R_trans (ms_sets ms) (fun _ => False)) as [sets [updates (Em & Ps & Pf & _)]]; [exact HP|]. rewrite Em. cbn [obind].
  change (gmake P0 P1 res) with (gmake P0 P1 (resN (fun i j l => base i j + l))).
  destruct (new_ids_ok sets updates (ms_index ms) (fun i j l => base i j + l)) as [N [En HN]].
  { intros k t H. destruct (HX k t H) as [V [s [S1 S2]]]. split; [exact V|]. destruct (Pf t s S1) as [s' [S3 S4]]. destruct s' as [|id s']; [destruct (S4 _ S2)|]. eauto. }
  exists N. split; [exact En|].
  assert (Rrefl : forall i j l, pok i j -> 0 <= l < n i j -> R (base i j + l) (base i j + l)).
  { intros i j l Hp Hl. destruct (Hg i j Hp) as (_ & L2 & _ & L4). destruct (L4 l Hl) as [[u v] [Sx E]]. cbn [fst snd] in E.
    destruct Sx as [y [_ Sx]]. pose proof (joined_right _ _ _ _ _ _ Sx) as [Iu Iv]. cbn [fst snd] in Iu, Iv. pose proof (joined_valid _ _ _ _ _ _ (joined_sym _ _ _ _ _ _ Sx)) as Hz. cbn [fst snd] in Hz.
    assert (C : cok i j u v) by (split; [exact Hp|lia]). pose proof (own_cell i j u v C Hz) as O. rewrite gid_key in O by assumption. rewrite E in O. exists (gr i u, gc j v), (gr i u, gc j v). split; [exact O|]. split; [exact O|].
    apply joined_refl; [now apply cok_global|exact Hz]. }
  split.
  - intros i j l Hp Hl. destruct (HN i j l Hp) as [[-> _]|[t [s [I1 I2]]]]; [now apply Rrefl|]. destruct (HX _ _ I1) as [_ [s0 [S1 S2]]]. destruct (Pf t s0 S1) as [s' [S3 S4]]. rewrite I2 in S3. injection S3 as <-. rewrite gid_key in S2 by assumption.
    destruct (Ps _ _ I2) as [Q _]. apply Q; [apply S4, S2|left; reflexivity].
  - intros id0 Hs i j u v i' j' u' v' Ht Htt Hr.
    assert (T : together gid ms (key i j (g i j u v)) (key i' j' (g i' j' u' v'))).
    { pose proof Ht as (C & C' & N' & Hz & Ev). pose proof (proj1 C) as Hp. pose proof (proj1 C') as Hp'. destruct (HC i j Hp) as (K1 & K2 & K3). destruct Hp as [Hi Hj], Hp' as [Hi' Hj'].
      destruct Htt as [[-> ->]|[[-> ->]|(Hh & -> & [->| ->])]].
      - apply K1; [lia|exact Ht].
      - apply K2; [lia|exact Ht].
      - apply K3; [exact Hh|lia|lia|exact Ht].
      - destruct (HC i (j - 1)) as (_ & _ & K4); [split; lia|]. destruct (K4 Hh ltac:(lia) ltac:(lia)) as [_ K5]. replace (j - 1 + 1) with j in K5 by lia. apply K5. exact Ht. }
    destruct T as ([t1 T1] & [t2 T2] & t & s & S1 & S2 & S3).
    destruct (merge_sets_ok R R_sym R_trans (ms_sets ms) (fun id => R id id0)) as [sets' [updates' (Em' & _ & Pf' & Q')]]; [exact HP|]. rewrite Em in Em'. injection Em' as <- <-.
    specialize (Q' (small_q ms id0 HI Hs) (fun x y H1 H2 => R_trans _ _ _ (R_sym _ _ H1) H2)).
    pose proof (proj1 Ht) as C. pose proof (proj1 (proj2 Ht)) as C'.
    assert (Hr1 : R (gid (key i j (g i j u v))) id0) by (rewrite gid_key by apply C; exact Hr).
    assert (Hr2 : R (gid (key i' j' (g i' j' u' v'))) id0) by (eapply R_trans; [|exact Hr1]; destruct (HP _ _ S1) as [Q _]; apply Q; assumption).
    assert (Hone : forall i j l, pok i j -> (exists t, In (key i j l, t) (ms_index ms)) -> R (gid (key i j l)) id0 -> exists t s, nth_z t sets = Some (N i j l :: s) /\ meets (fun id => R id id0) (N i j l :: s)).
    { intros i1 j1 l1 Hp1' [t' Ht'] Hr'. destruct (HN i1 j1 l1 Hp1') as [[_ X]|[t3 [s3 [I1 I2]]]]; [destruct (X _ Ht')|]. destruct (HX _ _ I1) as [_ [s0 [Z1 Z2]]]. destruct (Pf t3 s0 Z1) as [s' [S4 S5]]. rewrite I2 in S4. injection S4 as <-. exists (find_update updates t3), s3. split; [exact I2|]. exists (gid (key i1 j1 l1)). split; [apply S5, Z2|exact Hr']. }
    destruct (Hone i j (g i j u v)) as [t3 [s3 [A1 A2]]]; [apply C|eauto|exact Hr1|]. destruct (Hone i' j' (g i' j' u' v')) as [t4 [s4 [B1 B2]]]; [apply C'|eauto|exact Hr2|].
    pose proof (Q' _ _ _ _ A1 B1 A2 B2) as Et. subst t4. rewrite A1 in B1. injection B1 as E _. exact E.
Qed.
End Collect.
