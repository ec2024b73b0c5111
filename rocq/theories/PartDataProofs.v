(** Proofs about the data of array partitions. *)
From Verif Require Import Common IndexModel PartDataModel PartDataSpec.

Section Proofs.
Context {E : Type} (rank : nat).
Notation heap := (heap E).
Notation state := (state E).
Notation view := (@view E).

Definition holds (h : heap) (p : Z) (l : list E) : Prop :=
  ar_size (h_arrays h p) = Z.of_nat (length l) /\
  match l with
  | [] => ar_block (h_arrays h p) = null
  | _ => 0 <= ar_block (h_arrays h p) < h_next h /\ h_blocks h (ar_block (h_arrays h p)) = Some l
  end.

Record okv (h : heap) (w : view) (d : data) (sh : list Z) (r : Z) : Prop := {
  ok_shape : d_shape d = sh;
  ok_span : d_span d = sh;
  ok_handle : d_handle d = ar_block (h_arrays h (d_ptr d));
  ok_ptr : 0 <= d_ptr d < h_next h;
  ok_r : 0 <= r < vw_next w;
  ok_nr : nr_elements sh = Z.of_nat (length (vw_cells w r));
  ok_holds : holds h (d_ptr d) (vw_cells w r) }.

Definition binds (st : state) (w : view) v sh r d : Prop := vw_vars w v = Some (sh, r) /\ st_vars st v = Some d.

Record inv (st : state) (w : view) : Prop := {
  i_next : 0 <= h_next (st_heap st);
  i_wnext : 0 <= vw_next w;
  i_same : forall v, vw_vars w v = None <-> st_vars st v = None;
  i_ok : forall v sh r d, binds st w v sh r d -> okv (st_heap st) w d sh r;
  i_s1 : forall v u sh sh' r d d', binds st w v sh r d -> binds st w u sh' r d' -> d_ptr d = d_ptr d';
  i_s2 : forall v u sh sh' r r' d d', binds st w v sh r d -> binds st w u sh' r' d' -> d_ptr d = d_ptr d' -> vw_cells w r <> [] -> r = r';
  i_s3 : forall v u sh sh' r r' d d', binds st w v sh r d -> binds st w u sh' r' d' -> d_handle d = d_handle d' -> vw_cells w r <> [] -> d_ptr d = d_ptr d' }.

Lemma put_eq {T} (f : Z -> T) i v : put f i v i = v.
Proof. unfold put. now rewrite Z.eqb_refl. Qed.
Lemma put_ne {T} (f : Z -> T) i v j : j <> i -> put f i v j = f j.
Proof. intros H. unfold put. apply Z.eqb_neq in H. now rewrite H. Qed.
Lemma set_put {T} (f : Z -> T) i v : set f i v = put f i v.
Proof. reflexivity. Qed.

Lemma nr_zeros n : nr_elements (repeat 0 n) = 0.
Proof.
  destruct n as [|n]; [reflexivity|]. cbn. unfold prodZ. cbn [fold_left]. change (1 * 0) with 0.
  induction n as [|n IH]; [reflexivity|]. cbn [repeat fold_left]. exact IH.
Qed.

Lemma obind_ok {A B} (a : A) (f : A -> outcome B) : obind (Ok a) f = f a.
Proof. reflexivity. Qed.

Lemma allocate_spec (h : heap) l h' p : 0 <= h_next h -> allocate h l = (h', p) ->
  p = h_next h /\ h_next h < h_next h' /\
  (forall q, q < h_next h -> h_arrays h' q = h_arrays h q) /\
  (forall b, b < h_next h -> h_blocks h' b = h_blocks h b) /\
  holds h' p l /\ (ar_block (h_arrays h' p) = null \/ h_next h <= ar_block (h_arrays h' p)).
Proof.
  intros Hn. unfold allocate. destruct l as [|e l]; intros H; injection H as <- <-; cbn [h_next h_arrays h_blocks].
  - repeat split; try lia.
    + intros q Hq. apply put_ne. lia.
    + cbn. now rewrite put_eq.
    + cbn. now rewrite put_eq.
    + left. now rewrite put_eq.
  - split; [reflexivity|]. split; [lia|]. split; [intros q Hq; apply put_ne; lia|]. split; [intros q Hq; apply put_ne; lia|].
    unfold holds. cbn [h_next h_arrays h_blocks]. rewrite !put_eq. cbn [ar_size ar_block]. rewrite ?put_eq.
    split; [repeat split; try lia; apply put_eq|]. right. lia.
Qed.

Lemma holds_frame (h h' : heap) p l :
  h_arrays h' p = h_arrays h p -> h_next h <= h_next h' ->
  (forall b, 0 <= b < h_next h -> l <> [] -> b = ar_block (h_arrays h p) -> h_blocks h' b = h_blocks h b) ->
  holds h p l -> holds h' p l.
Proof.
  intros Ha Hn Hb [H1 H2]. split; rewrite Ha; [exact H1|]. destruct l as [|e l]; [exact H2|].
  destruct H2 as [H2 H3]. split; [lia|]. rewrite Hb; auto. discriminate.
Qed.

Lemma holds_nil_block (h : heap) p l : holds h p l -> l <> [] -> 0 <= ar_block (h_arrays h p) < h_next h.
Proof. intros [_ H] N. destruct l; [congruence|]. tauto. Qed.
Lemma holds_null (h : heap) p l : holds h p l -> ar_block (h_arrays h p) = null -> l = [].
Proof. intros H N. destruct l as [|e l]; [reflexivity|]. apply holds_nil_block in H; [|discriminate]. unfold null in N. lia. Qed.

Lemma invariants_hold h w d sh r : okv h w d sh r -> assert_invariants h d = Ok tt.
Proof.
  intros [A B C D F G [H1 H2]]. unfold assert_invariants, assertion. rewrite A, B, C, G, H1, !Z.eqb_refl. reflexivity.
Qed.

Lemma inv_ext st st' w w' : inv st w ->
  st_heap st' = st_heap st -> (forall v, st_vars st' v = st_vars st v) ->
  vw_next w' = vw_next w -> (forall v, vw_vars w' v = vw_vars w v) -> (forall r, vw_cells w' r = vw_cells w r) -> inv st' w'.
Proof.
  intros [A B C D F G H] H1 H2 H3 H4 H5.
  assert (X : forall v sh r d, binds st' w' v sh r d -> binds st w v sh r d).
  { intros v sh r d [P Q]. rewrite H4 in P. rewrite H2 in Q. now split. }
  constructor.
  - now rewrite H1.
  - now rewrite H3.
  - intros v. now rewrite H2, H4.
  - intros v sh r d P. rewrite H1. destruct (D _ _ _ _ (X _ _ _ _ P)). constructor; auto; rewrite ?H3, ?H5; auto.
  - intros. eapply F; eauto.
  - intros v u sh sh' r r' d d' P Q. rewrite H5. eapply G; eauto.
  - intros v u sh sh' r r' d d' P Q. rewrite H5. eapply H; eauto.
Qed.

(** A variable is rebound to what another one refers to, or removed. *)
Lemma inv_copy st w v x : inv st w ->
  inv (State (st_heap st) (put (st_vars st) v (st_vars st x))) (View (vw_next w) (set (vw_vars w) v (vw_vars w x)) (vw_cells w)).
Proof.
  intros [A B C D F G H].
  assert (X : forall u sh r d, binds (State (st_heap st) (put (st_vars st) v (st_vars st x))) (View (vw_next w) (set (vw_vars w) v (vw_vars w x)) (vw_cells w)) u sh r d ->
    binds st w (if u =? v then x else u) sh r d).
  { intros u sh r d [P Q]. cbn in P, Q. unfold set in P. unfold put in Q. destruct (u =? v); now split. }
  constructor; cbn [st_heap st_vars vw_next vw_vars vw_cells]; auto.
  - intros u. unfold set, put. destruct (u =? v); apply C.
  - intros u sh r d P. destruct (D _ _ _ _ (X _ _ _ _ P)). constructor; auto.
  - intros. eapply F; eauto.
  - intros. eapply G; eauto.
  - intros. eapply H; eauto.
Qed.
Lemma inv_remove st w v : inv st w ->
  inv (State (st_heap st) (put (st_vars st) v None)) (View (vw_next w) (set (vw_vars w) v None) (vw_cells w)).
Proof.
  intros [A B C D F G H].
  assert (X : forall u sh r d, binds (State (st_heap st) (put (st_vars st) v None)) (View (vw_next w) (set (vw_vars w) v None) (vw_cells w)) u sh r d ->
    binds st w u sh r d).
  { intros u sh r d [P Q]. cbn in P, Q. unfold set in P. unfold put in Q. destruct (u =? v); [discriminate|now split]. }
  constructor; cbn [st_heap st_vars vw_next vw_vars vw_cells]; auto.
  - intros u. unfold set, put. destruct (u =? v); [tauto|apply C].
  - intros u sh r d P. destruct (D _ _ _ _ (X _ _ _ _ P)). constructor; auto.
  - intros. eapply F; eauto.
  - intros. eapply G; eauto.
  - intros. eapply H; eauto.
Qed.

(** More is allocated. *)
Lemma inv_heap st w h' : inv st w -> h_next (st_heap st) <= h_next h' ->
  (forall q, q < h_next (st_heap st) -> h_arrays h' q = h_arrays (st_heap st) q) ->
  (forall b, b < h_next (st_heap st) -> h_blocks h' b = h_blocks (st_heap st) b) ->
  inv (State h' (st_vars st)) w.
Proof.
  intros [A B C D F G H] Hn Ha Hb. constructor; cbn [st_heap st_vars]; auto; try lia.
  intros u sh r d P. destruct (D _ _ _ _ P) as [D1 D2 D3 D4 D5 D6 D7]. constructor; auto.
  - rewrite D3, Ha; lia.
  - lia.
  - eapply holds_frame; [apply Ha; lia|lia| |exact D7]. intros. apply Hb. lia.
Qed.

(** A variable is bound to an array to which no elements belong that are referred to. *)
Lemma inv_bind st w v sh p l : inv st w -> 0 <= p < h_next (st_heap st) -> holds (st_heap st) p l ->
  nr_elements sh = Z.of_nat (length l) ->
  (forall u sh' r' d', l <> [] -> binds st w u sh' r' d' ->
     d_ptr d' <> p /\ d_handle d' <> ar_block (h_arrays (st_heap st) p)) ->
  inv (State (st_heap st) (put (st_vars st) v (Some (with_span (st_heap st) sh p))))
      (View (vw_next w + 1) (set (vw_vars w) v (Some (sh, vw_next w))) (set (vw_cells w) (vw_next w) l)).
Proof.
  intros [A B C D F G H] Hp Hl Hs Hu.
  set (st' := State _ _). set (w' := View _ _ _).
  assert (X : forall u sh' r d, binds st' w' u sh' r d ->
    u = v /\ sh' = sh /\ r = vw_next w /\ d = with_span (st_heap st) sh p \/ u <> v /\ binds st w u sh' r d /\ r <> vw_next w).
  { intros u sh' r d [P Q]. cbn in P, Q. unfold set in P. unfold put in Q. destruct (Z.eqb_spec u v) as [Y|Y].
    - left. injection P as <- <-. injection Q as <-. repeat split; assumption || reflexivity.
    - right. assert (Z : binds st w u sh' r d) by now split. split; [exact Y|]. split; [exact Z|].
      apply D in Z. destruct Z. lia. }
  assert (N : vw_cells w' (vw_next w) = l) by (cbn; unfold set; now rewrite Z.eqb_refl).
  assert (O : forall r, r <> vw_next w -> vw_cells w' r = vw_cells w r) by (intros r Y; cbn; now apply put_ne).
  assert (K : forall u sh' r d, binds st w u sh' r d -> d_ptr d = p -> vw_cells w r = []).
  { intros u sh' r d P Y. destruct (D _ _ _ _ P) as [_ _ _ _ _ _ D7]. destruct l as [|e l].
    - destruct Hl as [_ Hl]. rewrite Y in D7. eapply holds_null; eauto.
    - exfalso. destruct (Hu u sh' r d) as [K _]; [discriminate|exact P|exact (K Y)]. }
  constructor; cbn [st_heap st_vars vw_next vw_vars vw_cells]; auto; try (cbn; lia).
  - intros u. unfold st', w'. cbn. unfold set, put. destruct (u =? v); [split; discriminate|apply C].
  - intros u sh' r d P. destruct (X _ _ _ _ P) as [(-> & -> & -> & ->)|(Y & P' & Y')].
    + constructor; cbn [with_span d_shape d_span d_handle d_ptr]; auto; try (rewrite N; auto); cbn; lia.
    + destruct (D _ _ _ _ P') as [D1 D2 D3 D4 D5 D6 D7]. constructor; auto; try (rewrite O; auto). cbn. lia.
  - intros u u' sh1 sh2 r d d' P Q.
    destruct (X _ _ _ _ P) as [(-> & -> & -> & ->)|(Y & P' & Y')]; destruct (X _ _ _ _ Q) as [(-> & -> & R & ->)|(W & Q' & W')]; try congruence.
    eapply F; eauto.
  - intros u u' sh1 sh2 r r' d d' P Q I J.
    destruct (X _ _ _ _ P) as [(-> & -> & -> & ->)|(Y & P' & Y')]; destruct (X _ _ _ _ Q) as [(-> & -> & -> & ->)|(W & Q' & W')]; try congruence.
    + exfalso. rewrite N in J. destruct (Hu _ _ _ _ J Q') as [K1 K2]. cbn in I. congruence.
    + exfalso. rewrite O in J by exact Y'. apply J. eapply K; eauto.
    + rewrite O in J by exact Y'. eapply G; eauto.
  - intros u u' sh1 sh2 r r' d d' P Q I J.
    destruct (X _ _ _ _ P) as [(-> & -> & -> & ->)|(Y & P' & Y')]; destruct (X _ _ _ _ Q) as [(-> & -> & -> & ->)|(W & Q' & W')]; try congruence.
    + exfalso. rewrite N in J. destruct (Hu _ _ _ _ J Q') as [K1 K2]. cbn in I. congruence.
    + exfalso. rewrite O in J by exact Y'. destruct l as [|e l].
      * destruct (D _ _ _ _ P') as [D1 D2 D3 D4 D5 D6 D7]. apply holds_nil_block in D7; [|exact J].
        destruct Hl as [_ Hl]. cbn in I. rewrite Hl in I. unfold null in I. rewrite D3 in I. lia.
      * destruct (Hu u sh1 r d) as [K1 K2]; [discriminate|exact P'|]. cbn in I. congruence.
    + rewrite O in J by exact Y'. eapply H; eauto.
Qed.

(** The array of a variable which is the only one to refer to its elements is cleared; the variable goes. *)
Lemma inv_clear st w v sh r d : inv st w -> binds st w v sh r d -> alone w v ->
  inv (State (clear (st_heap st) (d_ptr d)) (put (st_vars st) v None)) (View (vw_next w) (set (vw_vars w) v None) (vw_cells w)).
Proof.
  intros I P Al. pose proof I as [A B C D F G H].
  assert (X : forall u sh' r' d', binds (State (clear (st_heap st) (d_ptr d)) (put (st_vars st) v None)) (View (vw_next w) (set (vw_vars w) v None) (vw_cells w)) u sh' r' d' ->
    u <> v /\ binds st w u sh' r' d').
  { intros u sh' r' d' [Q R]. cbn in Q, R. unfold set in Q. unfold put in R. destruct (Z.eqb_spec u v); [discriminate|].
    split; [assumption|now split]. }
  assert (Em : forall u sh' r' d', u <> v -> binds st w u sh' r' d' -> d_ptr d' = d_ptr d -> vw_cells w r' = []).
  { intros u sh' r' d' Hu Q Y. destruct (vw_cells w r') eqn:Z; [reflexivity|]. exfalso.
    assert (r' = r) by (eapply G; eauto; rewrite Z; discriminate). subst r'.
    destruct P as [P P']. destruct (Al sh r P) as [K|K]; [congruence|]. destruct Q as [Q _]. exact (K u sh' Hu Q). }
  constructor; cbn [st_heap st_vars vw_next vw_vars vw_cells]; auto.
  - intros u. unfold set, put. destruct (u =? v); [tauto|apply C].
  - intros u sh' r' d' Q. destruct (X _ _ _ _ Q) as [Hu Q']. destruct (D _ _ _ _ Q') as [D1 D2 D3 D4 D5 D6 D7].
    pose proof (Em _ _ _ _ Hu Q') as Y.
    destruct (Z.eq_dec (d_ptr d') (d_ptr d)) as [Z|Z].
    + specialize (Y Z). constructor; cbn [vw_next vw_cells clear h_next h_arrays]; auto.
      * rewrite Z, put_eq. cbn. rewrite D3. destruct D7 as [_ D7]. rewrite Y in D7. exact D7.
      * rewrite Y. unfold holds. cbn [clear h_arrays]. rewrite Z, put_eq. now cbn.
    + constructor; cbn [vw_next vw_cells clear h_next h_arrays]; auto.
      * rewrite put_ne by exact Z. exact D3.
      * eapply holds_frame; [..|exact D7]; cbn [clear h_arrays h_next h_blocks].
        -- now apply put_ne.
        -- lia.
        -- intros b Hb Hl Eb. apply put_ne. intros W. apply Z.
           destruct (D _ _ _ _ P) as [E1 E2 E3 E4 E5 E6 E7].
           eapply (H u v); eauto. rewrite D3, E3. congruence.
  - intros a b sh1 sh2 r1 d1 d2 Q R. destruct (X _ _ _ _ Q). destruct (X _ _ _ _ R). eapply F; eauto.
  - intros a b sh1 sh2 r1 r2 d1 d2 Q R. destruct (X _ _ _ _ Q). destruct (X _ _ _ _ R). eapply G; eauto.
  - intros a b sh1 sh2 r1 r2 d1 d2 Q R. destruct (X _ _ _ _ Q). destruct (X _ _ _ _ R). eapply H; eauto.
Qed.

(** Elements of a buffer change. *)
Lemma inv_store st w v sh r d l' : inv st w -> binds st w v sh r d -> vw_cells w r <> [] -> length l' = length (vw_cells w r) ->
  inv (State (Heap (h_next (st_heap st)) (h_arrays (st_heap st)) (put (h_blocks (st_heap st)) (d_handle d) (Some l'))) (st_vars st))
      (View (vw_next w) (vw_vars w) (set (vw_cells w) r l')).
Proof.
  intros I P Ne Le. pose proof I as [A B C D F G H].
  set (h' := Heap _ _ _).
  assert (X : forall u sh' r' d', binds (State h' (st_vars st)) (View (vw_next w) (vw_vars w) (set (vw_cells w) r l')) u sh' r' d' -> binds st w u sh' r' d').
  { intros u sh' r' d' [Q R]. now split. }
  assert (Len : forall r', length (set (vw_cells w) r l' r') = length (vw_cells w r')).
  { intros r'. unfold set. destruct (Z.eqb_spec r' r); [subst; exact Le|reflexivity]. }
  assert (Nn : forall r', set (vw_cells w) r l' r' <> [] -> vw_cells w r' <> []).
  { intros r' Y. rewrite <- length_zero_iff_nil in Y |- *. now rewrite Len in Y. }
  constructor; cbn [st_heap st_vars vw_next vw_vars vw_cells]; auto.
  - intros u sh' r' d' Q. apply X in Q. pose proof (D _ _ _ _ Q) as [D1 D2 D3 D4 D5 D6 D7].
    constructor; cbn [vw_next vw_cells]; auto.
    + now rewrite Len.
    + destruct (Z.eq_dec r' r) as [Y|Y].
      * subst r'. unfold set. rewrite Z.eqb_refl.
        assert (S : d_ptr d' = d_ptr d) by (eapply F; eauto).
        destruct (D _ _ _ _ P) as [E1 E2 E3 E4 E5 E6 E7].
        pose proof (holds_nil_block _ _ _ D7 Ne) as Hb.
        unfold holds. cbn [h_arrays h_next h_blocks h']. split.
        -- rewrite Le. apply D7.
        -- destruct l' as [|e l']; [exfalso; cbn in Le; destruct (vw_cells w r); [now apply Ne|discriminate]|].
           split; [exact Hb|]. rewrite E3, S. apply put_eq.
      * rewrite set_put, put_ne by exact Y. eapply (holds_frame (st_heap st)); [reflexivity|cbn; lia| |exact D7].
        intros b Hb Hl Eb. cbn [h_blocks h']. apply put_ne. intros W. apply Y.
        assert (d_ptr d' = d_ptr d) by (eapply (H u v); eauto; congruence).
        eapply (G u v); eauto.
  - intros a b sh1 sh2 r1 r2 d1 d2 Q R S T. eapply G; eauto.
  - intros a b sh1 sh2 r1 r2 d1 d2 Q R S T. eapply H; eauto.
Qed.
End Proofs.
