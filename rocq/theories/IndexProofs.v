(** Proofs about IndexModel.v *)
From Verif Require Import Common CommonProofs CoreSpec IndexModel.

(** ** Enumerating a box *)

Fixpoint box_cells (s n : list Z) : list (list Z) :=
  match s, n with
  | [], [] => [[]]
  | s :: ss, n :: ns => flat_map (fun i => map (cons i) (box_cells ss ns)) (zseq s n)
  | _, _ => []
  end.

Fixpoint shape_cells (n : list Z) : list (list Z) :=
  match n with
  | [] => [[]]
  | n :: ns => flat_map (fun i => map (cons i) (shape_cells ns)) (zseq 0 n)
  end.

Lemma in_box_cells s n c : In c (box_cells s n) <-> in_box s n c.
Proof.
  revert n c. induction s as [|s ss IH]; intros [|n ns] c; cbn.
  - destruct c; cbn; intuition congruence.
  - tauto.
  - destruct c; tauto.
  - rewrite in_flat_map. split.
    + intros [i [Hi Hc]]. apply in_map_iff in Hc. destruct Hc as [c' [<- Hc']].
      apply in_zseq in Hi. apply IH in Hc'. auto.
    + destruct c as [|i c']; [tauto|]. intros [Hi Hc']. exists i. split; [apply in_zseq; lia|].
      apply in_map_iff. exists c'. split; [reflexivity|]. now apply IH.
Qed.

Lemma in_shape_cells n c : In c (shape_cells n) <-> in_shape n c.
Proof.
  revert c. induction n as [|n ns IH]; intros c; cbn.
  - destruct c; cbn; intuition congruence.
  - rewrite in_flat_map. split.
    + intros [i [Hi Hc]]. apply in_map_iff in Hc. destruct Hc as [c' [<- Hc']].
      apply in_zseq in Hi. apply IH in Hc'. split; [lia|assumption].
    + destruct c as [|i c']; [tauto|]. intros [Hi Hc']. exists i. split; [apply in_zseq; lia|].
      apply in_map_iff. exists c'. split; [reflexivity|]. now apply IH.
Qed.

Lemma shape_cells_box n : shape_cells n = box_cells (map (fun _ => 0) n) n.
Proof. induction n as [|n ns IH]; cbn; [reflexivity|]. now rewrite IH. Qed.

(** strongly sorted lists of cells *)
Lemma lex_lt_irrefl c : ~ lex_lt c c.
Proof. induction c as [|x c IH]; cbn; [tauto|]. intros [H|[_ H]]; [lia|auto]. Qed.

Lemma StronglySorted_app {A} (R : A -> A -> Prop) l1 l2 :
  StronglySorted R l1 -> StronglySorted R l2 -> (forall a b, In a l1 -> In b l2 -> R a b) ->
  StronglySorted R (l1 ++ l2).
Proof.
  intros H1 H2 H. induction H1 as [|a l1 Hs IH Hf]; cbn; [assumption|].
  constructor.
  - apply IH. intros; apply H; [now right|assumption].
  - apply Forall_app. split; [assumption|]. apply Forall_forall. intros b Hb. apply H; [now left|assumption].
Qed.

Lemma StronglySorted_map {A B} (R : A -> A -> Prop) (S : B -> B -> Prop) (f : A -> B) l :
  (forall a b, R a b -> S (f a) (f b)) -> StronglySorted R l -> StronglySorted S (map f l).
Proof.
  intros Hf H. induction H as [|a l Hs IH Hfa]; cbn; constructor; [assumption|].
  apply Forall_forall. intros b Hb. apply in_map_iff in Hb. destruct Hb as [x [<- Hx]].
  apply Hf. rewrite Forall_forall in Hfa. auto.
Qed.

Lemma StronglySorted_NoDup {A} (R : A -> A -> Prop) l :
  (forall a, ~ R a a) -> StronglySorted R l -> NoDup l.
Proof.
  intros Hir H. induction H as [|a l Hs IH Hf]; constructor; [|assumption].
  intros Hin. rewrite Forall_forall in Hf. exact (Hir a (Hf a Hin)).
Qed.

Lemma zseq_sorted_gen s k : 0 <= k -> StronglySorted Z.lt (zseq s k).
Proof.
  intros Hk. revert s. pattern k. apply natlike_ind; [| |exact Hk].
  - intros s. rewrite zseq_nil by lia. constructor.
  - intros j Hj IH s. rewrite zseq_cons by lia. constructor.
    + replace (Z.succ j - 1) with j by lia. apply IH.
    + apply Forall_forall. intros i Hi. apply in_zseq in Hi. lia.
Qed.

Lemma zseq_sorted s n : StronglySorted Z.lt (zseq s n).
Proof.
  destruct (Z_lt_ge_dec n 0) as [H|H]; [rewrite zseq_nil by lia; constructor|].
  apply zseq_sorted_gen. lia.
Qed.

Lemma box_cells_sorted s n : StronglySorted lex_lt (box_cells s n).
Proof.
  revert n. induction s as [|s ss IH]; intros [|n ns]; cbn.
  - repeat constructor.
  - constructor.
  - constructor.
  - generalize (zseq_sorted s n). generalize (zseq s n). intros l Hl.
    induction Hl as [|i l Hs IHl Hf]; cbn; [constructor|].
    apply StronglySorted_app.
    + eapply StronglySorted_map; [|apply IH]. cbn. intros; right; auto.
    + assumption.
    + intros a b Ha Hb. apply in_map_iff in Ha. destruct Ha as [a' [<- _]].
      apply in_flat_map in Hb. destruct Hb as [j [Hj Hb]]. apply in_map_iff in Hb.
      destruct Hb as [b' [<- _]]. cbn. left. rewrite Forall_forall in Hf. auto.
Qed.

Lemma box_cells_NoDup s n : NoDup (box_cells s n).
Proof. eapply StronglySorted_NoDup; [apply lex_lt_irrefl|apply box_cells_sorted]. Qed.

Lemma shape_cells_NoDup n : NoDup (shape_cells n).
Proof. rewrite shape_cells_box. apply box_cells_NoDup. Qed.

Lemma volume_prodZ s : volume s = prodZ s.
Proof. induction s as [|e s IH]; cbn [volume]; rewrite ?prodZ_cons, ?prodZ_nil; congruence. Qed.

Lemma flat_map_const_length {A B} (f : A -> list B) k l :
  (forall a, In a l -> length (f a) = k) -> length (flat_map f l) = (length l * k)%nat.
Proof.
  induction l as [|a l IH]; intros H; cbn; [reflexivity|].
  rewrite app_length, (H a) by now left. rewrite IH; [lia|]. intros; apply H; now right.
Qed.

Lemma shape_cells_length n : is_shape n -> Z.of_nat (length (shape_cells n)) = prodZ n.
Proof.
  induction 1 as [|e n He Hn IH]; cbn [shape_cells]; [reflexivity|].
  rewrite (flat_map_const_length _ (length (shape_cells n))).
  - rewrite zseq_length, prodZ_cons. nia.
  - intros. now rewrite map_length.
Qed.

(** ** linear index *)

Lemma in_shape_length n c : in_shape n c -> length n = length c.
Proof. revert c. induction n as [|e n IH]; intros [|i c]; cbn; try tauto. intros [_ H]. f_equal. auto. Qed.

Lemma linear_idx_cons c cs e shape :
  length cs = length shape -> linear_idx (c :: cs) (e :: shape) = c * prodZ shape + linear_idx cs shape.
Proof.
  intros H. destruct cs as [|c' cs]; cbn [linear_idx].
  - destruct shape; [|discriminate]. rewrite prodZ_nil. lia.
  - reflexivity.
Qed.

Lemma in_shape_pos n c : in_shape n c -> pos_shape n.
Proof.
  revert c. induction n as [|e n IH]; intros [|i c]; cbn; try tauto; intros H; constructor.
  - lia.
  - eapply IH. apply H.
Qed.

Lemma linear_idx_range n c : n <> [] -> in_shape n c -> 0 <= linear_idx c n < prodZ n.
Proof.
  revert c. induction n as [|e n IH]; intros c Hn H; [congruence|].
  destruct c as [|i c]; [destruct H|]. destruct H as [Hi Hc].
  pose proof (in_shape_length _ _ Hc) as Hl.
  rewrite linear_idx_cons by auto. rewrite prodZ_cons.
  destruct n as [|e' n'].
  - destruct c; [|destruct Hc]. cbn [linear_idx]. rewrite prodZ_nil. lia.
  - specialize (IH c). destruct IH as [H1 H2]; [congruence|assumption|].
    split; [nia|]. nia.
Qed.

Lemma prodZ_pos_shape n : pos_shape n -> 0 < prodZ n.
Proof. apply prodZ_pos. Qed.

Lemma idxs_to_linear_loop_ok acc idxs shape :
  in_shape shape idxs -> idxs_to_linear_idx_loop acc idxs shape = Ok (acc + linear_idx idxs shape).
Proof.
  revert acc idxs. induction shape as [|e shape IH]; intros acc [|i idxs] H; cbn in H; try contradiction.
  - cbn. f_equal. lia.
  - destruct H as [Hi Hr]. cbn [idxs_to_linear_idx_loop].
    destruct (Z.ltb_spec i e); [|lia]. rewrite IH by assumption.
    rewrite linear_idx_cons by (symmetry; now apply in_shape_length). f_equal. lia.
Qed.

Lemma idxs_to_linear_idx_ok idxs shape :
  shape <> [] -> in_shape shape idxs -> idxs_to_linear_idx idxs shape = Ok (linear_idx idxs shape).
Proof.
  intros Hn H. unfold idxs_to_linear_idx, nr_elements.
  destruct shape as [|e s]; [congruence|].
  pose proof (prodZ_pos_shape _ (in_shape_pos _ _ H)).
  destruct (Z.ltb_spec 0 (prodZ (e :: s))); [|lia].
  rewrite idxs_to_linear_loop_ok by assumption. f_equal.
Qed.

(** Division lemmas *)
Lemma linear_to_idxs_mod m i shape :
  pos_shape shape -> 0 <= i -> 0 <= m ->
  linear_idx_to_idxs (m * prodZ shape + i) shape = linear_idx_to_idxs i shape.
Proof.
  intros Hp Hi. revert m. induction Hp as [|e s He Hs IH]; intros m Hm; cbn [linear_idx_to_idxs]; [reflexivity|].
  pose proof (prodZ_pos_shape _ Hs) as Hps. rewrite prodZ_cons.
  f_equal.
  - rewrite !Z.quot_div_nonneg by nia. rewrite !Z.rem_mod_nonneg by (try lia; apply Z.div_pos; nia).
    replace (m * (e * prodZ s) + i) with (i + (m * e) * prodZ s) by ring.
    rewrite Z.div_add by lia. rewrite Z.mod_add by lia. reflexivity.
  - replace (m * (e * prodZ s) + i) with ((m * e) * prodZ s + i) by ring. apply IH. nia.
Qed.

Lemma idxs_roundtrip idxs shape :
  in_shape shape idxs -> linear_idx_to_idxs (linear_idx idxs shape) shape = idxs.
Proof.
  revert idxs. induction shape as [|e s IH]; intros [|i idxs] H; cbn in H; try contradiction; [reflexivity|].
  destruct H as [Hi Hr]. pose proof (in_shape_length _ _ Hr) as Hl.
  pose proof (in_shape_pos _ _ Hr) as Hp. pose proof (prodZ_pos_shape _ Hp) as Hps.
  rewrite linear_idx_cons by auto. cbn [linear_idx_to_idxs].
  assert (Hlin : 0 <= linear_idx idxs s < prodZ s).
  { destruct s; [destruct idxs; [cbn; rewrite prodZ_nil; lia|destruct Hr]|]. apply linear_idx_range; [congruence|assumption]. }
  f_equal.
  - rewrite Z.quot_div_nonneg by nia. rewrite Z.rem_mod_nonneg by (try lia; apply Z.div_pos; nia).
    rewrite Z.add_comm, Z.div_add by lia. rewrite (Z.div_small (linear_idx idxs s)) by lia.
    cbn [Z.add]. apply Z.mod_small. lia.
  - rewrite linear_to_idxs_mod by (try assumption; lia). now apply IH.
Qed.

Lemma linear_to_idxs_in_shape i shape :
  pos_shape shape -> 0 <= i -> in_shape shape (linear_idx_to_idxs i shape).
Proof.
  intros Hp Hi. induction Hp as [|e s He Hs IH]; cbn; [exact I|].
  split; [|assumption]. pose proof (prodZ_pos_shape _ Hs).
  rewrite Z.quot_div_nonneg by lia. rewrite Z.rem_mod_nonneg by (try lia; apply Z.div_pos; lia).
  apply Z.mod_pos_bound. lia.
Qed.

Lemma linear_roundtrip_aux i shape :
  pos_shape shape -> 0 <= i -> linear_idx (linear_idx_to_idxs i shape) shape = Z.modulo i (prodZ shape).
Proof.
  intros Hp Hi. induction Hp as [|e s He Hs IH].
  - cbn. rewrite prodZ_nil, Z.mod_1_r. reflexivity.
  - cbn [linear_idx_to_idxs]. pose proof (prodZ_pos_shape _ Hs) as Hps.
    rewrite linear_idx_cons.
    + rewrite IH, prodZ_cons. rewrite Z.quot_div_nonneg by lia.
      rewrite Z.rem_mod_nonneg by (try lia; apply Z.div_pos; lia).
      rewrite (Z.mul_comm e (prodZ s)), Z.rem_mul_r by lia. lia.
    + symmetry. apply in_shape_length. apply linear_to_idxs_in_shape; assumption.
Qed.

Lemma linear_roundtrip i shape :
  pos_shape shape -> 0 <= i < prodZ shape -> linear_idx (linear_idx_to_idxs i shape) shape = i.
Proof. intros Hp Hi. rewrite linear_roundtrip_aux by (try assumption; lia). apply Z.mod_small. lia. Qed.

Lemma linear_to_shape_index_ok i shape :
  pos_shape shape -> 0 <= i < prodZ shape -> linear_to_shape_index shape i = linear_idx_to_idxs i shape.
Proof.
  intros Hp. revert i. induction Hp as [|e s He Hs IH]; intros i Hi; cbn [linear_to_shape_index linear_idx_to_idxs]; [reflexivity|].
  pose proof (prodZ_pos_shape _ Hs) as Hps. rewrite prodZ_cons in Hi.
  rewrite Z.quot_div_nonneg by lia.
  assert (Hd : 0 <= i / prodZ s < e) by (split; [apply Z.div_pos; lia|apply Z.div_lt_upper_bound; lia]).
  f_equal.
  - rewrite Z.rem_mod_nonneg by lia. symmetry. apply Z.mod_small. lia.
  - pose proof (Z.div_mod i (prodZ s)) as Hdm. pose proof (Z.mod_pos_bound i (prodZ s) Hps) as Hmb.
    rewrite IH by lia.
    assert (E : i = i / prodZ s * prodZ s + (i - i / prodZ s * prodZ s)) by lia.
    rewrite E at 3. rewrite linear_to_idxs_mod; [reflexivity|assumption|lia|lia].
Qed.

(** Position of a cell in the row-major enumeration *)
Lemma nth_error_flat_map_const {A B} (f : A -> list B) k l n m a :
  (forall a, In a l -> length (f a) = k) -> nth_error l n = Some a -> (m < k)%nat ->
  nth_error (flat_map f l) (n * k + m) = nth_error (f a) m.
Proof.
  revert n. induction l as [|x l IH]; intros n Hk Hn Hm; [destruct n; discriminate|].
  destruct n as [|n]; cbn in Hn.
  - injection Hn as ->. cbn. rewrite nth_error_app1; [reflexivity|]. rewrite Hk; [assumption|now left].
  - cbn [flat_map]. rewrite nth_error_app2; rewrite (Hk x) by now left.
    + replace (S n * k + m - k)%nat with (n * k + m)%nat by lia. apply IH; auto. intros; apply Hk; now right.
    + lia.
Qed.

Lemma nth_error_shape_cells n c :
  in_shape n c -> nth_error (shape_cells n) (Z.to_nat (linear_idx c n)) = Some c.
Proof.
  revert c. induction n as [|e n IH]; intros [|i c] H; cbn in H; try contradiction; [reflexivity|].
  destruct H as [Hi Hr]. pose proof (in_shape_length _ _ Hr) as Hl.
  pose proof (in_shape_pos _ _ Hr) as Hp. pose proof (prodZ_pos_shape _ Hp) as Hps.
  assert (Hsh : is_shape n) by (eapply Forall_impl; [|exact Hp]; cbn; lia).
  pose proof (shape_cells_length n Hsh) as Hlen.
  assert (Hlin : 0 <= linear_idx c n < prodZ n).
  { destruct n; [destruct c; [cbn; rewrite prodZ_nil; lia|destruct Hr]|]. apply linear_idx_range; [congruence|assumption]. }
  rewrite linear_idx_cons by auto. cbn [shape_cells].
  replace (Z.to_nat (i * prodZ n + linear_idx c n)) with
    (Z.to_nat i * length (shape_cells n) + Z.to_nat (linear_idx c n))%nat by nia.
  rewrite (nth_error_flat_map_const _ (length (shape_cells n)) _ _ _ i).
  - rewrite nth_error_map, IH by assumption. reflexivity.
  - intros. now rewrite map_length.
  - rewrite nth_error_zseq by lia. f_equal. lia.
  - lia.
Qed.

(** ** visit_array *)

Lemma nth_zset_same n v l : (n < length l)%nat -> znth n (zset n v l) = v.
Proof. unfold znth. revert l. induction n as [|n IH]; intros [|h t] H; cbn in *; try lia. apply IH. lia. Qed.

Lemma zset_length n v l : length (zset n v l) = length l.
Proof. revert l. induction n as [|n IH]; intros [|h t]; cbn; auto. Qed.

Lemma zset_app_r p v h t : zset (length p) v (p ++ h :: t) = p ++ v :: t.
Proof. induction p as [|x p IH]; cbn; [reflexivity|]. now rewrite IH. Qed.

Lemma znth_app_r p h t : znth (length p) (p ++ h :: t) = h.
Proof. unfold znth. induction p as [|x p IH]; cbn; auto. Qed.

(** At depth [length p], the cursor's current cell is [p ++ start of the rest]. *)
Lemma visit_rec_spec : forall ss ns ps pn p,
  length ss = length ns -> length ps = length p -> length pn = length p -> ss <> [] ->
  forall c, c = Cursor (ps ++ ss) (pn ++ ns) (p ++ ss) (length p) ->
  exists c', visit_array_rec (length ss) c = (c', map (app p) (box_cells ss ns)) /\
    c' = Cursor (ps ++ ss) (pn ++ ns)
           (p ++ match ss, ns with s :: st, n :: _ => s + Z.max 0 n :: st | _, _ => [] end) (length p).
Proof.
  induction ss as [|s ss IH]; intros ns ps pn p Hl Hps Hpn Hne c ->; [congruence|].
  destruct ns as [|n ns]; [discriminate|]. injection Hl as Hl.
  change (length (s :: ss)) with (S (length ss)). cbn [visit_array_rec].
  unfold end_idx, start_idx. cbn [dimension_idx cur_start cur_count].
  assert (E1 : znth (length p) (ps ++ s :: ss) = s) by (rewrite <- Hps; apply znth_app_r).
  assert (E2 : znth (length p) (pn ++ n :: ns) = n) by (rewrite <- Hpn; apply znth_app_r).
  rewrite E1, E2. replace (s + n - s) with n by lia.
  cbn [box_cells].
  (* generalise over the loop *)
  match goal with |- exists c', visit_loop _ ?b _ = _ /\ _ => set (body := b) end.
  assert (Hloop : forall k t, exists c',
    visit_loop k body (Cursor (ps ++ s :: ss) (pn ++ n :: ns) (p ++ t :: ss) (length p)) =
      (c', map (app p) (flat_map (fun i => map (cons i) (box_cells ss ns)) (zseq t (Z.of_nat k)))) /\
    c' = Cursor (ps ++ s :: ss) (pn ++ n :: ns) (p ++ (t + Z.of_nat k) :: ss) (length p)).
  { induction k as [|k IHk]; intros t.
    - cbn. eexists. split; [reflexivity|]. replace (t + 0) with t by lia. reflexivity.
    - cbn [visit_loop].
      assert (Hbody : body (Cursor (ps ++ s :: ss) (pn ++ n :: ns) (p ++ t :: ss) (length p)) =
        (Cursor (ps ++ s :: ss) (pn ++ n :: ns) (p ++ (t + 1) :: ss) (length p),
         map (app p) (map (cons t) (box_cells ss ns)))).
      { unfold body. destruct ss as [|s' ss'].
        - destruct ns; [|discriminate]. cbn [length visit_array_rec].
          unfold cursor_incr. cbn [cur_start cur_count current_cell dimension_idx box_cells map].
          rewrite zset_app_r, znth_app_r. reflexivity.
        - change (length (s' :: ss')) with (S (length ss')). cbv iota zeta.
          destruct ns as [|n' ns']; [discriminate|].
          destruct (IH (n' :: ns') (ps ++ [s]) (pn ++ [n]) (p ++ [t])
            ltac:(assumption) ltac:(rewrite !app_length, Hps; reflexivity)
            ltac:(rewrite !app_length, Hpn; reflexivity) ltac:(congruence) _ eq_refl) as [c' [Hv Hc']].
          replace (enter_next_dimension _) with
            (Cursor ((ps ++ [s]) ++ s' :: ss') ((pn ++ [n]) ++ n' :: ns') ((p ++ [t]) ++ s' :: ss') (length (p ++ [t]))).
          2:{ unfold enter_next_dimension. cbn [cur_start cur_count current_cell dimension_idx].
              rewrite <- !app_assoc. cbn [app]. rewrite app_length. cbn. f_equal. lia. }
          change (S (length ss')) with (length (s' :: ss')). rewrite Hv. subst c'.
          unfold leave_current_dimension, cursor_incr. cbn [cur_start cur_count current_cell dimension_idx].
          assert (Ez : znth (length (p ++ [t])) ((ps ++ [s]) ++ s' :: ss') = s').
          { replace (length (p ++ [t])) with (length (ps ++ [s])) by (rewrite !app_length, Hps; reflexivity).
            apply znth_app_r. }
          rewrite Ez, zset_app_r.
          replace (pred (length (p ++ [t]))) with (length p) by (rewrite app_length; cbn; lia).
          rewrite <- !app_assoc. cbn [app]. rewrite zset_app_r, znth_app_r. f_equal.
          rewrite map_map. apply map_ext. intros a. rewrite <- app_assoc. reflexivity. }
      rewrite Hbody. destruct (IHk (t + 1)) as [c' [Hv Hc']]. rewrite Hv.
      eexists. split.
      2:{ rewrite Hc'. replace (t + 1 + Z.of_nat k) with (t + Z.of_nat (S k)) by lia. reflexivity. }
      f_equal. rewrite (zseq_cons t) by lia. cbn [flat_map]. rewrite map_app.
      replace (Z.of_nat (S k) - 1) with (Z.of_nat k) by lia. reflexivity. }
  destruct (Hloop (Z.to_nat n) s) as [c' [Hv Hc']]. rewrite Hv. eexists. split.
  - f_equal. do 2 f_equal. unfold zseq. now rewrite Nat2Z.id.
  - rewrite Hc'. replace (s + Z.max 0 n) with (s + Z.of_nat (Z.to_nat n)) by lia. reflexivity.
Qed.

Lemma visit_array_cells b e :
  length b = length e -> b <> [] ->
  visit_array b e = box_cells b (map (fun '(b, e) => e - b) (combine b e)).
Proof.
  intros Hl Hne. unfold visit_array.
  set (n := map (fun '(b, e) => e - b) (combine b e)).
  assert (Hn : length b = length n) by (unfold n; rewrite map_length, combine_length; lia).
  destruct (visit_rec_spec b n [] [] [] Hn eq_refl eq_refl Hne _ eq_refl) as [c' [Hv _]].
  cbn [app length] in Hv. rewrite Hv. cbn [snd].
  rewrite <- (map_id (box_cells b n)) at 2. reflexivity.
Qed.

(** ** curves *)

Lemma map_flat_map {A B C} (g : B -> C) (f : A -> list B) l :
  map g (flat_map f l) = flat_map (fun a => map g (f a)) l.
Proof. induction l as [|a l IH]; cbn; [reflexivity|]. now rewrite map_app, IH. Qed.

Lemma linear_curve_cells_ok shape :
  shape <> [] -> (length shape <= 3)%nat -> linear_curve_cells shape = shape_cells shape.
Proof.
  intros Hne Hl. destruct shape as [|n0 [|n1 [|n2 [|]]]]; cbn in Hl; try congruence; try lia; cbn;
    repeat (apply flat_map_ext; intros ?; cbn); rewrite ?map_flat_map;
    repeat (apply flat_map_ext; intros ?; cbn); rewrite ?map_flat_map; try reflexivity.
Qed.

(** ** Hilbert curve *)

Definition rect (px py ux uy w vx vy h : Z) : list (Z * Z) :=
  flat_map (fun i => map (fun j => (py + i * uy + j * vy, px + i * ux + j * vx)) (zseq 0 h)) (zseq 0 w).

Lemma flat_map_app_perm {A B} (f g : A -> list B) l :
  Permutation (flat_map (fun a => f a ++ g a) l) (flat_map f l ++ flat_map g l).
Proof.
  induction l as [|a l IH]; cbn; [constructor|].
  rewrite IH. rewrite <- !app_assoc. apply Permutation_app_head.
  rewrite !app_assoc. apply Permutation_app_tail. apply Permutation_app_comm.
Qed.

Lemma flat_map_swap {A B C} (f : A -> B -> C) la lb :
  Permutation (flat_map (fun a => map (f a) lb) la) (flat_map (fun b => map (fun a => f a b) la) lb).
Proof.
  induction la as [|a la IH]; cbn.
  - induction lb; cbn; auto.
  - rewrite IH. symmetry.
    transitivity (flat_map (fun b => [f a b] ++ map (fun a0 => f a0 b) la) lb); [reflexivity|].
    rewrite flat_map_app_perm. apply Permutation_app_tail.
    clear. induction lb; cbn; auto.
Qed.

Lemma rect_swap px py ux uy w vx vy h :
  Permutation (rect px py ux uy w vx vy h) (rect px py vx vy h ux uy w).
Proof.
  unfold rect. rewrite flat_map_swap. erewrite flat_map_ext; [reflexivity|].
  intros j. apply map_ext. intros i. f_equal; lia.
Qed.

Lemma flat_map_map {A B C} (f : B -> list C) (g : A -> B) l :
  flat_map f (map g l) = flat_map (fun a => f (g a)) l.
Proof. induction l as [|a l IH]; cbn; [reflexivity|]. now rewrite IH. Qed.

Lemma rect_split px py ux uy w1 w2 vx vy h :
  0 <= w1 -> 0 <= w2 ->
  rect px py ux uy (w1 + w2) vx vy h =
  rect px py ux uy w1 vx vy h ++ rect (px + w1 * ux) (py + w1 * uy) ux uy w2 vx vy h.
Proof.
  intros H1 H2. unfold rect. rewrite zseq_app by lia. rewrite flat_map_app. f_equal.
  rewrite (zseq_shift (0 + w1) w2), flat_map_map. apply flat_map_ext. intros i.
  apply map_ext. intros j. f_equal; lia.
Qed.

Lemma zseq_rev n : 0 <= n -> map (fun i => n - 1 - i) (zseq 0 n) = rev (zseq 0 n).
Proof.
  intros Hn. pattern n. apply natlike_ind; [reflexivity| |exact Hn].
  intros k Hk IH. unfold Z.succ. rewrite zseq_snoc at 2 by lia. rewrite rev_app_distr. cbn [rev app].
  rewrite zseq_cons by lia. cbn [map]. f_equal; [lia|]. rewrite <- IH.
  rewrite (zseq_shift (0 + 1)), map_map. replace (k + 1 - 1) with k by lia.
  apply map_ext. intros; lia.
Qed.

Lemma rect_flip px py ux uy w vx vy h :
  0 <= w ->
  Permutation (rect (px + (w - 1) * ux) (py + (w - 1) * uy) (- ux) (- uy) w vx vy h)
              (rect px py ux uy w vx vy h).
Proof.
  intros Hw. unfold rect.
  transitivity (flat_map (fun i => map (fun j => (py + i * uy + j * vy, px + i * ux + j * vx)) (zseq 0 h))
     (rev (zseq 0 w))).
  - rewrite <- zseq_rev by lia. rewrite flat_map_map. erewrite flat_map_ext; [reflexivity|].
    intros i. apply map_ext. intros j. f_equal; ring.
  - apply Permutation_flat_map. symmetry. apply Permutation_rev.
Qed.

(** unit axis vectors *)
Definition unit_axes (ux uy vx vy : Z) : Prop :=
  (ux = 0 /\ (uy = 1 \/ uy = -1) /\ vy = 0 /\ (vx = 1 \/ vx = -1)) \/
  (uy = 0 /\ (ux = 1 \/ ux = -1) /\ vx = 0 /\ (vy = 1 \/ vy = -1)).

Lemma unit_axes_swap ux uy vx vy : unit_axes ux uy vx vy -> unit_axes vx vy ux uy.
Proof. unfold unit_axes. lia. Qed.
Lemma unit_axes_neg ux uy vx vy : unit_axes ux uy vx vy -> unit_axes (- ux) (- uy) (- vx) (- vy).
Proof. unfold unit_axes. lia. Qed.

Lemma sgn_mul w u : 0 < w -> (u = 0 \/ u = 1 \/ u = -1) -> sgn_offset (w * u) = u.
Proof. intros Hw Hu. unfold sgn_offset. destruct (Z.ltb_spec (w*u) 0), (Z.ltb_spec 0 (w*u)); nia. Qed.

Lemma quot_mul w u : 0 <= w -> (u = 0 \/ u = 1 \/ u = -1) -> Z.quot (w * u) 2 = (w / 2) * u.
Proof.
  intros Hw [-> | [-> | ->]].
  - rewrite !Z.mul_0_r. reflexivity.
  - rewrite !Z.mul_1_r. apply Z.quot_div_nonneg; lia.
  - replace (w * -1) with (- w) by lia. rewrite Z.quot_opp_l by lia. rewrite Z.quot_div_nonneg by lia. lia.
Qed.

Lemma abs_axis w ux uy vx vy : 0 <= w -> unit_axes ux uy vx vy -> Z.abs (w * ux + w * uy) = w.
Proof. unfold unit_axes. intros Hw H. destruct H as [(-> & H & _)|(-> & H & _)]; destruct H as [-> | ->]; lia. Qed.

Lemma hilbert_perm : forall fuel px py ux uy w vx vy h,
  unit_axes ux uy vx vy -> 0 < w -> 0 < h -> w + h <= Z.of_nat fuel + 1 ->
  exists v, hilbert fuel px py (w * ux) (w * uy) (h * vx) (h * vy) = Some v /\
            Permutation v (rect px py ux uy w vx vy h).
Proof.
  induction fuel as [|fuel IH]; intros px py ux uy w vx vy h Hu Hw Hh Hf; [lia|].
  assert (Hux : ux = 0 \/ ux = 1 \/ ux = -1) by (unfold unit_axes in Hu; lia).
  assert (Huy : uy = 0 \/ uy = 1 \/ uy = -1) by (unfold unit_axes in Hu; lia).
  assert (Hvx : vx = 0 \/ vx = 1 \/ vx = -1) by (unfold unit_axes in Hu; lia).
  assert (Hvy : vy = 0 \/ vy = 1 \/ vy = -1) by (unfold unit_axes in Hu; lia).
  cbn [hilbert].
  rewrite (abs_axis w _ _ _ _ ltac:(lia) Hu).
  rewrite (abs_axis h _ _ _ _ ltac:(lia) (unit_axes_swap _ _ _ _ Hu)).
  rewrite !sgn_mul by assumption. rewrite !quot_mul by (assumption || lia).
  assert (Hw2 : 0 <= w / 2) by (apply Z.div_pos; lia).
  assert (Hh2 : 0 <= h / 2) by (apply Z.div_pos; lia).
  rewrite (abs_axis (w / 2) _ _ _ _ ltac:(lia) Hu).
  rewrite (abs_axis (h / 2) _ _ _ _ ltac:(lia) (unit_axes_swap _ _ _ _ Hu)).
  destruct (Z.eqb_spec h 1) as [->|Hh1].
  { eexists. split; [reflexivity|]. unfold rect.
    replace (zseq 0 1) with [0] by reflexivity. cbn [map].
    match goal with |- Permutation ?a ?b => replace b with a; [reflexivity|] end.
    clear. induction (zseq 0 w) as [|i l IHl]; [reflexivity|].
    cbn [map flat_map app]. rewrite IHl. f_equal. f_equal; lia. }
  destruct (Z.eqb_spec w 1) as [->|Hw1].
  { eexists. split; [reflexivity|]. unfold rect.
    replace (zseq 0 1) with [0] by reflexivity. cbn [flat_map]. rewrite app_nil_r.
    match goal with |- Permutation ?a ?b => replace b with a; [reflexivity|] end.
    apply map_ext. intros j; cbn. f_equal; lia. }
  destruct (Z.ltb_spec (3 * h) (2 * w)) as [Hlong|Hstd].
  - set (adj := (0 <? Z.rem (w / 2) 2) && (2 <? w)).
    set (k := if adj then w / 2 + 1 else w / 2).
    assert (Ex : (if adj then w / 2 * ux + ux else w / 2 * ux) = k * ux) by (unfold k; destruct adj; lia).
    assert (Ey : (if adj then w / 2 * uy + uy else w / 2 * uy) = k * uy) by (unfold k; destruct adj; lia).
    rewrite Ex, Ey.
    assert (Hk : 1 <= k < w).
    { assert (2 * (w / 2) <= w < 2 * (w / 2) + 2) by (pose proof (Z.div_mod w 2); pose proof (Z.mod_pos_bound w 2); lia).
      unfold k. destruct adj; lia. }
    destruct (IH px py ux uy k vx vy h Hu ltac:(lia) Hh ltac:(lia)) as [v1 [Hv1 Hp1]]. rewrite Hv1.
    replace (w * ux - k * ux) with ((w - k) * ux) by ring.
    replace (w * uy - k * uy) with ((w - k) * uy) by ring.
    destruct (IH (px + k * ux) (py + k * uy) ux uy (w - k) vx vy h Hu ltac:(lia) Hh ltac:(lia)) as [v2 [Hv2 Hp2]].
    rewrite Hv2. eexists. split; [reflexivity|].
    rewrite Hp1, Hp2. replace w with (k + (w - k)) at 2 by lia. rewrite rect_split by lia. reflexivity.
  - set (adj := (0 <? Z.rem (h / 2) 2) && (2 <? h)).
    set (k := if adj then h / 2 + 1 else h / 2).
    assert (Ex : (if adj then h / 2 * vx + vx else h / 2 * vx) = k * vx) by (unfold k; destruct adj; lia).
    assert (Ey : (if adj then h / 2 * vy + vy else h / 2 * vy) = k * vy) by (unfold k; destruct adj; lia).
    rewrite Ex, Ey.
    assert (Hk : 1 <= k < h).
    { assert (2 * (h / 2) <= h < 2 * (h / 2) + 2) by (pose proof (Z.div_mod h 2); pose proof (Z.mod_pos_bound h 2); lia).
      unfold k. destruct adj eqn:Ea; [|lia]. unfold adj in Ea. lia. }
    set (m := w / 2).
    assert (Hm : 1 <= m < w).
    { unfold m. assert (2 * (w / 2) <= w < 2 * (w / 2) + 2) by (pose proof (Z.div_mod w 2); pose proof (Z.mod_pos_bound w 2); lia). lia. }
    destruct (IH px py vx vy k ux uy m (unit_axes_swap _ _ _ _ Hu) ltac:(lia) ltac:(lia) ltac:(lia)) as [v1 [Hv1 Hp1]].
    rewrite Hv1.
    replace (h * vx - k * vx) with ((h - k) * vx) by ring.
    replace (h * vy - k * vy) with ((h - k) * vy) by ring.
    destruct (IH (px + k * vx) (py + k * vy) ux uy w vx vy (h - k) Hu ltac:(lia) ltac:(lia) ltac:(lia)) as [v2 [Hv2 Hp2]].
    rewrite Hv2.
    replace (- (k * vx)) with (k * - vx) by ring. replace (- (k * vy)) with (k * - vy) by ring.
    replace (- (w * ux - m * ux)) with ((w - m) * - ux) by ring.
    replace (- (w * uy - m * uy)) with ((w - m) * - uy) by ring.
    destruct (IH (px + (w * ux - ux) + (k * vx - vx)) (py + (w * uy - uy) + (k * vy - vy)) (- vx) (- vy) k (- ux) (- uy) (w - m)
       (unit_axes_neg _ _ _ _ (unit_axes_swap _ _ _ _ Hu)) ltac:(lia) ltac:(lia) ltac:(lia)) as [v3 [Hv3 Hp3]].
    rewrite Hv3. eexists. split; [reflexivity|].
    rewrite Hp1, Hp2, Hp3.
    (* third rectangle: flip both axes *)
    assert (H3 : Permutation
      (rect (px + (w * ux - ux) + (k * vx - vx)) (py + (w * uy - uy) + (k * vy - vy)) (- vx) (- vy) k (- ux) (- uy) (w - m))
      (rect (px + m * ux) (py + m * uy) vx vy k ux uy (w - m))).
    { replace (px + (w * ux - ux) + (k * vx - vx)) with ((px + (w * ux - ux)) + (k - 1) * vx) by ring.
      replace (py + (w * uy - uy) + (k * vy - vy)) with ((py + (w * uy - uy)) + (k - 1) * vy) by ring.
      rewrite rect_flip by lia. rewrite rect_swap.
      replace (px + (w * ux - ux)) with ((px + m * ux) + ((w - m) - 1) * ux) by ring.
      replace (py + (w * uy - uy)) with ((py + m * uy) + ((w - m) - 1) * uy) by ring.
      rewrite rect_flip by lia. apply rect_swap. }
    rewrite H3.
    rewrite (rect_swap px py ux uy w vx vy h).
    replace h with (k + (h - k)) at 2 by lia. rewrite (rect_split px py vx vy k (h - k)) by lia.
    rewrite (rect_swap (px + k * vx)).
    rewrite (rect_swap px py vx vy k ux uy w).
    replace w with (m + (w - m)) at 3 by lia. rewrite (rect_split px py ux uy m (w - m)) by lia.
    rewrite (rect_swap px py ux uy m). rewrite (rect_swap (px + m * ux) _ ux uy).
    rewrite <- app_assoc. apply Permutation_app_head. apply Permutation_app_comm.
Qed.

Lemma rect_origin_in w h p :
  In p (rect 0 0 1 0 w 0 1 h) <-> 0 <= fst p < h /\ 0 <= snd p < w.
Proof.
  unfold rect. rewrite in_flat_map. split.
  - intros [i [Hi Hp]]. apply in_map_iff in Hp. destruct Hp as [j [<- Hj]].
    apply in_zseq in Hi, Hj. cbn. lia.
  - destruct p as [a b]. cbn. intros H. exists b. split; [apply in_zseq; lia|].
    apply in_map_iff. exists a. split; [f_equal; lia|apply in_zseq; lia].
Qed.

Lemma rect_origin_NoDup w h : NoDup (rect 0 0 1 0 w 0 1 h).
Proof.
  unfold rect. generalize (zseq_NoDup 0 w). generalize (zseq 0 w). intros l Hl.
  induction Hl as [|i l Hni Hl IH]; cbn [flat_map]; [constructor|].
  assert (Hm : NoDup (map (fun j => (0 + i * 0 + j * 1, 0 + i * 1 + j * 0)) (zseq 0 h))).
  { apply FinFun.Injective_map_NoDup; [|apply zseq_NoDup]. intros a b E. injection E. lia. }
  revert Hm. generalize (zseq 0 h) at 1 2. intros lh Hm. induction lh as [|j lh IHl]; [exact IH|].
  cbn [map app]. inversion Hm as [|? ? Hn Hm']; subst. constructor; [|auto].
  rewrite in_app_iff. intros [H|H]; [contradiction|].
  apply in_flat_map in H. destruct H as [i' [Hi' H]]. apply in_map_iff in H. destruct H as [j' [E _]].
  injection E as _ E2. assert (i = i') by lia. subst. contradiction.
Qed.

Lemma map_fst_combine {A B} (l : list A) (l' : list B) : length l = length l' -> map fst (combine l l') = l.
Proof. revert l'. induction l as [|a l IH]; intros [|b l'] H; cbn in *; try discriminate; [reflexivity|]. f_equal. auto. Qed.
Lemma map_snd_combine {A B} (l : list A) (l' : list B) : length l = length l' -> map snd (combine l l') = l'.
Proof. revert l'. induction l as [|a l IH]; intros [|b l'] H; cbn in *; try discriminate; [reflexivity|]. f_equal. auto. Qed.

Lemma number_visits_snd {A} (v : list A) : map snd (number_visits v) = v.
Proof. unfold number_visits. apply map_snd_combine. rewrite zseq_length. lia. Qed.
Lemma number_visits_fst {A} (v : list A) : map fst (number_visits v) = zseq 0 (Z.of_nat (length v)).
Proof. unfold number_visits. apply map_fst_combine. rewrite zseq_length. lia. Qed.

Lemma rect_length px py ux uy w vx vy h :
  0 <= w -> 0 <= h -> Z.of_nat (length (rect px py ux uy w vx vy h)) = w * h.
Proof.
  intros Hw Hh. unfold rect. rewrite (flat_map_const_length _ (Z.to_nat h)).
  - rewrite zseq_length. nia.
  - intros. rewrite map_length, zseq_length. reflexivity.
Qed.

Lemma hilbert_curve_ok n0 n1 :
  0 <= n0 -> 0 <= n1 ->
  exists visits, hilbert_curve n0 n1 = Some visits /\
    map fst visits = zseq 0 (n0 * n1) /\
    NoDup (map snd visits) /\
    (forall i j, In (i, j) (map snd visits) <-> 0 <= i < n0 /\ 0 <= j < n1).
Proof.
  intros H0 H1. unfold hilbert_curve, nr_elements. rewrite !prodZ_cons, prodZ_nil.
  destruct (Z.ltb_spec 0 (n0 * (n1 * 1))) as [Hp|Hp].
  2:{ exists []. split; [reflexivity|]. split; [rewrite zseq_nil by lia; reflexivity|].
      split; [constructor|]. cbn. intros i j. split; [tauto|]. intros [Hi Hj]. nia. }
  assert (0 < n0 /\ 0 < n1) as [Hp0 Hp1] by nia.
  assert (exists v, (if n0 <=? n1 then hilbert (Z.to_nat (n0 + n1)) 0 0 n1 0 0 n0
                      else hilbert (Z.to_nat (n0 + n1)) 0 0 0 n0 n1 0) = Some v /\
                    Permutation v (rect 0 0 1 0 n1 0 1 n0)) as [v [Hv Hperm]].
  { destruct (Z.leb_spec n0 n1).
    - destruct (hilbert_perm (Z.to_nat (n0 + n1)) 0 0 1 0 n1 0 1 n0) as [v Hv];
        [unfold unit_axes; lia|lia|lia|lia|].
      rewrite !Z.mul_1_r, !Z.mul_0_r in Hv. exists v. exact Hv.
    - destruct (hilbert_perm (Z.to_nat (n0 + n1)) 0 0 0 1 n0 1 0 n1) as [v [Hv Hpv]];
        [unfold unit_axes; lia|lia|lia|lia|].
      rewrite !Z.mul_1_r, !Z.mul_0_r in Hv. exists v. split; [exact Hv|].
      rewrite Hpv. apply rect_swap. }
  rewrite Hv. cbn [option_map]. eexists. split; [reflexivity|].
  rewrite number_visits_fst, number_visits_snd. split; [|split].
  - f_equal. rewrite (Permutation_length Hperm). rewrite rect_length by lia. lia.
  - eapply Permutation_NoDup; [symmetry; exact Hperm|]. apply rect_origin_NoDup.
  - intros i j. split.
    + intros H. apply (Permutation_in _ Hperm) in H. apply rect_origin_in in H. exact H.
    + intros H. apply (Permutation_in _ (Permutation_sym Hperm)). now apply rect_origin_in.
Qed.

Lemma linear_curve_ok shape :
  shape <> [] -> (length shape <= 3)%nat -> is_shape shape ->
  map fst (linear_curve shape) = zseq 0 (volume shape) /\
  (forall k c, In (k, c) (linear_curve shape) <-> in_shape shape c /\ idxs_to_linear_idx c shape = Ok k).
Proof.
  intros Hne Hl Hs. unfold linear_curve.
  assert (Hnr : nr_elements shape = prodZ shape) by (destruct shape; [congruence|reflexivity]).
  rewrite Hnr. rewrite volume_prodZ. pose proof (prodZ_nonneg _ Hs) as Hnn.
  destruct (Z.ltb_spec 0 (prodZ shape)) as [Hp|Hp].
  - rewrite linear_curve_cells_ok by assumption. split.
    + rewrite number_visits_fst. f_equal. now apply shape_cells_length.
    + intros k c.
      assert (Hpos : pos_shape shape) by (apply prodZ_pos_inv; [assumption|lia]).
      assert (Hnth : forall k c, In (k, c) (number_visits (shape_cells shape)) <->
                 0 <= k /\ nth_error (shape_cells shape) (Z.to_nat k) = Some c).
      { clear. intros k c. unfold number_visits. generalize (shape_cells shape). intros l.
        assert (G : forall s, In (k, c) (combine (zseq s (Z.of_nat (length l))) l) <->
                   s <= k /\ nth_error l (Z.to_nat (k - s)) = Some c).
        { induction l as [|a l IH]; intros s.
          - cbn [length]. rewrite zseq_nil by (cbn [length]; lia). cbn. split; [tauto|]. destruct (Z.to_nat (k - s)); cbn; intros [_ ?]; discriminate.
          - rewrite zseq_cons by (cbn [length]; lia). cbn [combine].
            replace (Z.of_nat (length (a :: l)) - 1) with (Z.of_nat (length l)) by (cbn [length]; lia).
            cbn [In]. rewrite IH. split.
            + intros [E|[Hk Hn]].
              * injection E as -> ->. split; [lia|]. replace (k - k) with 0 by lia. reflexivity.
              * split; [lia|]. replace (Z.to_nat (k - s)) with (S (Z.to_nat (k - (s + 1)))) by lia. exact Hn.
            + intros [Hk Hn]. destruct (Z.eq_dec k s) as [->|Hne].
              * left. replace (s - s) with 0 in Hn by lia. cbn in Hn. congruence.
              * right. split; [lia|]. replace (Z.to_nat (k - s)) with (S (Z.to_nat (k - (s + 1)))) in Hn by lia. exact Hn. }
        rewrite G. now rewrite Z.sub_0_r. }
      rewrite Hnth. split.
      * intros [Hk Hn]. assert (Hc : in_shape shape c) by (apply in_shape_cells; eapply nth_error_In; eauto).
        split; [assumption|]. rewrite idxs_to_linear_idx_ok by assumption. f_equal.
        pose proof (linear_idx_range _ _ Hne Hc) as Hr.
        pose proof (nth_error_shape_cells _ _ Hc) as Hn'.
        assert (Z.to_nat k = Z.to_nat (linear_idx c shape)); [|lia].
        apply (proj1 (NoDup_nth_error _) (shape_cells_NoDup shape)).
        -- apply nth_error_Some. congruence.
        -- congruence.
      * intros [Hc Hk]. rewrite idxs_to_linear_idx_ok in Hk by assumption. injection Hk as <-.
        split; [apply linear_idx_range; assumption|]. now apply nth_error_shape_cells.
  - split; [rewrite zseq_nil by lia; reflexivity|]. intros k c. cbn. split; [tauto|].
    intros [Hc _]. pose proof (prodZ_pos_shape _ (in_shape_pos _ _ Hc)). lia.
Qed.

Lemma linear_idx_mono shape a b :
  in_shape shape a -> in_shape shape b -> lex_lt a b -> linear_idx a shape < linear_idx b shape.
Proof.
  revert a b. induction shape as [|e s IH]; intros [|i a] [|j b] Ha Hb Hlt; cbn in Ha, Hb; try contradiction.
  destruct Ha as [Hi Ha], Hb as [Hj Hb].
  rewrite !linear_idx_cons by (symmetry; now apply in_shape_length).
  assert (R : forall c, in_shape s c -> 0 <= linear_idx c s < prodZ s).
  { intros c Hc. destruct s; [destruct c; [cbn; rewrite prodZ_nil; lia|destruct Hc]|]. apply linear_idx_range; [congruence|assumption]. }
  pose proof (R a Ha) as Ra. pose proof (R b Hb) as Rb.
  cbn in Hlt. destruct Hlt as [H|[-> H]].
  - nia.
  - specialize (IH a b Ha Hb H). lia.
Qed.

Lemma idxs_roundtrip_full shape idxs :
  shape <> [] -> in_shape shape idxs ->
  exists i, idxs_to_linear_idx idxs shape = Ok i /\ 0 <= i < volume shape /\
            linear_idx_to_idxs_checked i shape = Ok idxs.
Proof.
  intros Hne H. exists (linear_idx idxs shape). rewrite volume_prodZ.
  pose proof (linear_idx_range _ _ Hne H) as Hr.
  split; [now apply idxs_to_linear_idx_ok|]. split; [assumption|].
  unfold linear_idx_to_idxs_checked.
  assert (Hnr : nr_elements shape = prodZ shape) by (destruct shape; [congruence|reflexivity]).
  rewrite Hnr. destruct (Z.ltb_spec 0 (prodZ shape)); [|lia].
  destruct (Z.ltb_spec (linear_idx idxs shape) (prodZ shape)); [|lia]. cbn. f_equal. now apply idxs_roundtrip.
Qed.

Lemma linear_roundtrip_full shape i :
  shape <> [] -> pos_shape shape -> 0 <= i < volume shape ->
  exists idxs, linear_idx_to_idxs_checked i shape = Ok idxs /\ in_shape shape idxs /\
               idxs_to_linear_idx idxs shape = Ok i.
Proof.
  intros Hne Hp. rewrite volume_prodZ. intros Hi. exists (linear_idx_to_idxs i shape).
  pose proof (linear_to_idxs_in_shape i shape Hp ltac:(lia)) as Hin.
  split; [|split; [assumption|]].
  - unfold linear_idx_to_idxs_checked.
    assert (Hnr : nr_elements shape = prodZ shape) by (destruct shape; [congruence|reflexivity]).
    rewrite Hnr. destruct (Z.ltb_spec 0 (prodZ shape)); [|lia]. destruct (Z.ltb_spec i (prodZ shape)); [|lia]. reflexivity.
  - rewrite idxs_to_linear_idx_ok by assumption. f_equal. now apply linear_roundtrip.
Qed.

Lemma linear_order_full shape a b i j :
  shape <> [] -> in_shape shape a -> in_shape shape b ->
  idxs_to_linear_idx a shape = Ok i -> idxs_to_linear_idx b shape = Ok j ->
  lex_lt a b -> i < j.
Proof.
  intros Hne Ha Hb. rewrite !idxs_to_linear_idx_ok by assumption.
  intros E1 E2. injection E1 as <-. injection E2 as <-. now apply linear_idx_mono.
Qed.

Lemma index_functions_agree shape idxs :
  shape <> [] -> in_shape shape idxs ->
  idxs_to_linear_idx idxs shape = Ok (linear_idx idxs shape) /\
  linear_to_shape_index shape (linear_idx idxs shape) = idxs.
Proof.
  intros Hne H. split; [now apply idxs_to_linear_idx_ok|].
  rewrite linear_to_shape_index_ok; [now apply idxs_roundtrip|eapply in_shape_pos; eauto|now apply linear_idx_range].
Qed.

(** The box selected by begin and end indices *)
Lemma in_box_diff b e c :
  length b = length e ->
  in_box b (map (fun '(b, e) => e - b) (combine b e)) c <->
  (length c = length b /\ forall d, (d < length b)%nat -> nth d b 0 <= nth d c 0 < nth d e 0).
Proof.
  revert e c. induction b as [|b0 b IH]; intros [|e0 e] c Hl; cbn in Hl; try discriminate.
  - destruct c; cbn; split; try tauto.
    + intros _. split; [reflexivity|]. intros d Hd. lia.
    + intros [H _]. discriminate.
  - destruct c as [|c0 c]; cbn [combine map in_box].
    + split; [tauto|]. intros [H _]. discriminate.
    + rewrite IH by lia. split.
      * intros [H0 [Hlc H]]. split; [cbn; congruence|]. intros [|d] Hd; cbn in *; [lia|]. apply H. lia.
      * intros [Hlc H]. split; [specialize (H O); cbn in H; lia|].
        split; [cbn in Hlc; congruence|]. intros d Hd. specialize (H (S d)). cbn in H. apply H. lia.
Qed.

Lemma visit_array_ok b e :
  length b = length e -> b <> [] ->
  StronglySorted lex_lt (visit_array b e) /\ NoDup (visit_array b e) /\
  (forall c, In c (visit_array b e) <->
     length c = length b /\ forall d, (d < length b)%nat -> nth d b 0 <= nth d c 0 < nth d e 0).
Proof.
  intros Hl Hne. rewrite visit_array_cells by assumption. split; [apply box_cells_sorted|].
  split; [apply box_cells_NoDup|]. intros c. rewrite in_box_cells. now apply in_box_diff.
Qed.

(** Hyperslab *)
Lemma half_extent_eq c : 0 <= c -> half_extent c = c / 2.
Proof.
  intros Hc. unfold half_extent. rewrite Z.rem_mod_nonneg by lia.
  destruct (Z.eqb_spec (c mod 2) 1) as [E|E].
  - pose proof (Z.div_mod c 2). rewrite Z.quot_div_nonneg by lia.
    replace (c - 1) with ((c / 2) * 2) by lia. apply Z.div_mul. lia.
  - rewrite Z.quot_div_nonneg by lia. reflexivity.
Qed.

Lemma hyperslab_at_ok center shape :
  length center = length shape -> is_shape shape ->
  (forall d, (d < length shape)%nat -> nth d shape 0 / 2 <= nth d center 0) ->
  exists offsets, hyperslab_at center shape = Ok (offsets, shape) /\
    length offsets = length shape /\
    (forall d, (d < length shape)%nat ->
       0 <= nth d offsets 0 /\ nth d offsets 0 + nth d shape 0 / 2 = nth d center 0).
Proof.
  intros Hl Hs H. unfold hyperslab_at.
  assert (Hf : forallb (fun '(count, idx) => count <=? idx) (combine (map half_extent shape) center) = true).
  { apply forallb_forall. intros [c i] Hin. apply Z.leb_le.
    revert center Hl H Hin. induction Hs as [|e s He Hs IH]; intros [|i0 center] Hl H Hin; cbn in Hin; try tauto.
    destruct Hin as [E|Hin].
    - injection E as <- <-. rewrite half_extent_eq by assumption. specialize (H O). cbn in H. apply H. lia.
    - apply (IH center); [cbn in Hl; congruence| |assumption]. intros d Hd. specialize (H (S d)). cbn in H. apply H. lia. }
  rewrite Hf. eexists. split; [reflexivity|].
  clear Hf. revert center Hl H. induction Hs as [|e s He Hs IH]; intros [|i0 center] Hl H; cbn in Hl; try discriminate; cbn [map combine length].
  - split; [reflexivity|]. intros; lia.
  - destruct (IH center) as [Hlen Hd]; [congruence| |].
    { intros d Hd. specialize (H (S d)). cbn in H. apply H. lia. }
    split; [congruence|]. intros [|d] Hd'; cbn [nth].
    + rewrite half_extent_eq by assumption. specialize (H O). cbn [nth length] in H.
      assert (e / 2 <= i0) by (apply H; lia). lia.
    + apply Hd. lia.
Qed.

Lemma hyperslab_at_throw center shape d :
  length center = length shape -> is_shape shape -> (d < length shape)%nat ->
  nth d center 0 < nth d shape 0 / 2 -> hyperslab_at center shape = Throw.
Proof.
  intros Hl Hs Hd H. unfold hyperslab_at.
  destruct (forallb _ _) eqn:E; [|reflexivity]. exfalso.
  rewrite forallb_forall in E.
  assert (Hin : In (half_extent (nth d shape 0), nth d center 0) (combine (map half_extent shape) center)).
  { replace (half_extent (nth d shape 0)) with (nth d (map half_extent shape) 0).
    - rewrite <- combine_nth by (rewrite map_length; auto). apply nth_In. rewrite combine_length, map_length. lia.
    - rewrite nth_indep with (d' := half_extent 0) by (rewrite map_length; lia). apply map_nth. }
  specialize (E _ Hin). cbn in E. rewrite half_extent_eq in E; [lia|].
  unfold is_shape in Hs. rewrite Forall_forall in Hs. apply Hs. now apply nth_In.
Qed.

Lemma is_contained_by_ok offsets counts array_shape :
  length offsets = length array_shape -> length counts = length array_shape -> pos_shape counts ->
  Forall (fun o => 0 <= o) offsets ->
  is_contained_by offsets counts array_shape = true <->
  (forall c, in_box offsets counts c -> in_shape array_shape c).
Proof.
  intros H1 H2 H3 H4. revert offsets counts H1 H2 H3 H4.
  induction array_shape as [|e s IH]; intros [|o os] [|n ns] H1 H2 H3 H4; cbn in H1, H2; try discriminate.
  - unfold is_contained_by. cbn. split; [|reflexivity]. intros _ [|] ?; auto.
  - inversion H3 as [|? ? Hn Hns]; subst. inversion H4 as [|? ? Ho Hos]; subst.
    unfold is_contained_by. cbn [combine forallb]. rewrite andb_true_iff.
    fold (is_contained_by os ns s). rewrite IH by (auto; lia). split.
    + intros [Ha Hb] [|c cs] Hc; cbn in *; [tauto|]. split; [lia|]. apply Hb. tauto.
    + intros H.
      assert (Hw : exists c, in_box os ns c).
      { clear -Hns H1 H2. assert (length os = length ns) as Hl by lia. clear H1 H2.
        revert os Hl. induction Hns as [|n ns Hn Hns IHn]; intros [|o os] Hl; cbn in Hl; try discriminate.
        - exists []. exact I.
        - destruct (IHn os) as [c Hc]; [lia|]. exists (o :: c). cbn. split; [lia|assumption]. }
      destruct Hw as [cw Hcw]. split.
      * specialize (H (o + n - 1 :: cw)). cbn in H. destruct H as [Hd _]; [split; [lia|assumption]|]. lia.
      * intros c Hc. specialize (H (o :: c)). cbn in H. apply H. split; [lia|assumption].
Qed.
