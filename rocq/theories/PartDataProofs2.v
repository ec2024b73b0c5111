(** Proofs about the data of array partitions: programs. *)
From Verif Require Import Common IndexModel PartDataModel PartDataSpec PartDataProofs.

Section Proofs.
Context {E : Type} (rank : nat).
Notation heap := (heap E).
Notation state := (state E).
Notation view := (@view E).

Lemma inv_start : inv (@start E) no_data_yet.
Proof.
  constructor; cbn; try lia; try tauto; intros; match goal with H : binds _ _ _ _ _ _ |- _ => destruct H; discriminate end.
Qed.

Lemma defined_get (st : state) (w : view) x : inv st w -> defined w x -> exists sh r (d : data), binds st w x sh r d /\ okv (st_heap st) w d sh r.
Proof.
  intros I D. destruct (vw_vars w x) as [[sh r]|] eqn:A; [|congruence]. destruct (st_vars st x) as [d|] eqn:B.
  - exists sh, r, d. assert (X : binds st w x sh r d) by now split. split; [exact X|]. eapply i_ok; eauto.
  - apply (i_same _ _ I) in B. congruence.
Qed.
Lemma fresh_ok (st : state) (w : view) v : inv st w -> ~ defined w v -> fresh st v = Ok tt /\ vw_vars w v = None /\ st_vars st v = None.
Proof.
  intros I N. assert (A : vw_vars w v = None) by (destruct (vw_vars w v) eqn:A; [exfalso; apply N; unfold defined; congruence|reflexivity]).
  assert (B : st_vars st v = None) by now apply (i_same _ _ I). unfold fresh. rewrite B. auto.
Qed.

(** An instance with new elements. *)
Lemma inv_new (st : state) (w : view) v sh l h p : inv st w -> allocate (st_heap st) l = (h, p) -> nr_elements sh = Z.of_nat (length l) ->
  assert_invariants h (with_span h sh p) = Ok tt /\
  inv (State h (put (st_vars st) v (Some (with_span h sh p))))
      (View (vw_next w + 1) (set (vw_vars w) v (Some (sh, vw_next w))) (set (vw_cells w) (vw_next w) l)).
Proof.
  intros I Al Nr. pose proof (i_next _ _ I) as Hn. apply allocate_spec in Al as (Hp & Hlt & Ha & Hb & Hh & Hf); [|exact Hn].
  assert (I' : inv (State h (st_vars st)) w) by (eapply inv_heap; eauto; lia).
  assert (I'' : inv (State h (put (st_vars st) v (Some (with_span h sh p))))
      (View (vw_next w + 1) (set (vw_vars w) v (Some (sh, vw_next w))) (set (vw_cells w) (vw_next w) l))).
  { eapply (inv_bind (State h (st_vars st))); cbn [st_heap]; eauto; [lia|].
    intros u sh' r' d' Ne Q. assert (Q' : binds st w u sh' r' d') by (destruct Q; now split).
    pose proof (i_ok _ _ I _ _ _ _ Q') as [D1 D2 D3 D4 D5 D6 D7]. split; [lia|]. rewrite D3.
    pose proof (holds_nil_block _ _ _ Hh Ne) as K. destruct Hf as [Hf|Hf]; [unfold null in Hf; lia|].
    destruct (list_eq_dec Z.eq_dec [] []) as [_|]; [|congruence].
    assert (ar_block (h_arrays (st_heap st) (d_ptr d')) < h_next (st_heap st)); [|lia].
    destruct (vw_cells w r') eqn:C.
    - destruct D7 as [_ D7]. rewrite D7. unfold null. lia.
    - apply holds_nil_block in D7; [lia|discriminate]. }
  split; [|exact I'']. eapply invariants_hold. eapply (i_ok _ _ I'' v). split; cbn; unfold set, put; rewrite Z.eqb_refl; reflexivity.
Qed.

Lemma construct_ok (st : state) (w : view) v sh l : inv st w -> nr_elements sh = Z.of_nat (length l) ->
  exists h d, construct (st_heap st) sh l = Ok (h, d) /\
  inv (State h (put (st_vars st) v (Some d)))
      (View (vw_next w + 1) (set (vw_vars w) v (Some (sh, vw_next w))) (set (vw_cells w) (vw_next w) l)).
Proof.
  intros I Nr. unfold construct. destruct (allocate (st_heap st) l) as [h p] eqn:Al.
  destruct (inv_new st w v sh l h p I Al Nr) as [A B]. exists h, (with_span h sh p). split; [|exact B].
  unfold assertion. rewrite Nr, Z.eqb_refl. cbn [obind]. rewrite A. reflexivity.
Qed.

Lemma with_span_same (h : heap) (w : view) d sh r : okv h w d sh r -> with_span h (d_shape d) (d_ptr d) = d.
Proof. intros [A B C _ _ _ _]. destruct d as [s p b t]. cbn in *. unfold with_span. subst. reflexivity. Qed.

Lemma step_ok o (st : state) (w : view) : inv st w -> allowed rank w o -> exists st', step rank o st = Ok st' /\ inv st' (expected rank o w).
Proof.
  intros I. destruct o as [v|v sh l|v x|v x|v x|v x|v|v i e|v e]; intros Hal; cbn [allowed] in Hal; cbn [step expected].
  - destruct (fresh_ok _ _ _ I Hal) as (Hf & _). rewrite Hf. cbn [obind].
    destruct (construct_ok st w v (zeros rank) [] I) as (h & d & A & B); [apply nr_zeros|].
    rewrite A. cbn [obind]. eexists. split; [reflexivity|exact B].
  - destruct Hal as (Hal & _ & Nr). destruct (fresh_ok _ _ _ I Hal) as (Hf & _). rewrite Hf. cbn [obind].
    destruct (construct_ok st w v sh l I Nr) as (h & d & A & B).
    rewrite A. cbn [obind]. eexists. split; [reflexivity|exact B].
  - destruct Hal as (Hal & Hx). destruct (fresh_ok _ _ _ I Hal) as (Hf & _). rewrite Hf. cbn [obind].
    destruct (defined_get _ _ _ I Hx) as (sh & r & d & [P Q] & K). unfold get. rewrite Q. cbn [obind].
    eexists. split; [reflexivity|]. rewrite <- Q. now apply inv_copy.
  - destruct Hal as (Hal & Hx). destruct (fresh_ok _ _ _ I Hal) as (Hf & Hv & Hv'). rewrite Hf. cbn [obind].
    destruct (defined_get _ _ _ I Hx) as (sh & r & d & [P Q] & K). unfold get. rewrite Q. cbn [obind].
    assert (Nx : x <> v) by congruence.
    unfold move_construct. destruct (allocate (st_heap st) []) as [h p] eqn:Al.
    pose proof (inv_copy st w v x I) as I1.
    destruct (inv_new _ _ x (zeros rank) [] h p I1 Al (nr_zeros rank)) as [A B].
    cbn [st_heap] in A. rewrite A. cbn [obind]. cbn [with_span d_shape] in A |- *. unfold zeros, assertion. rewrite nr_zeros. cbn [Z.eqb obind].
    assert (Y : binds (State h (put (put (st_vars st) v (st_vars st x)) x (Some (with_span h (zeros rank) p))))
      (View (vw_next w + 1) (set (set (vw_vars w) v (vw_vars w x)) x (Some (zeros rank, vw_next w))) (set (vw_cells w) (vw_next w) [])) v sh r d).
    { split; cbn; rewrite ?set_put, put_ne by congruence; now rewrite ?set_put, put_eq. }
    pose proof (i_ok _ _ B _ _ _ _ Y) as Kd. cbn [st_heap] in Kd.
    rewrite (with_span_same _ _ _ _ _ Kd), (invariants_hold _ _ _ _ _ Kd). cbn [obind].
    eexists. split; [reflexivity|]. eapply inv_ext; [exact B|..]; cbn; auto.
    + intros u. unfold put, with_span, zeros. destruct (Z.eqb_spec u v), (Z.eqb_spec u x); congruence.
    + intros u. unfold set, zeros, empty_shape. destruct (Z.eqb_spec u v), (Z.eqb_spec u x); congruence.
  - destruct Hal as (Hv & Hx). destruct (defined_get _ _ _ I Hv) as (sh' & r' & d' & [P' Q'] & K').
    destruct (defined_get _ _ _ I Hx) as (sh & r & d & [P Q] & K). unfold get. rewrite Q, Q'. cbn [obind].
    eexists. split; [reflexivity|]. rewrite <- Q. now apply inv_copy.
  - destruct Hal as (Hv & Hx & Ha). destruct (defined_get _ _ _ I Hv) as (sh' & r' & d' & [P' Q'] & K').
    destruct (defined_get _ _ _ I Hx) as (sh & r & d & [P Q] & K). unfold get. rewrite Q, Q'. cbn [obind].
    destruct (Z.eqb_spec v x) as [Vx|Vx].
    { rewrite (invariants_hold _ _ _ _ _ K'). eexists. split; [reflexivity|exact I]. }
    specialize (Ha Vx). unfold move_assign.
    pose proof (inv_clear st w v sh' r' d' I (conj P' Q') Ha) as I1.
    pose proof (inv_copy _ _ v x I1) as I2.
    set (h := clear (st_heap st) (d_ptr d')) in *. cbn [st_heap st_vars vw_next vw_vars vw_cells] in I2.
    assert (Hh : holds h (d_ptr d') []) by (split; cbn; rewrite put_eq; reflexivity).
    pose proof (inv_bind _ _ x (zeros rank) (d_ptr d') [] I2) as B. cbn [st_heap st_vars vw_next vw_vars vw_cells] in B.
    specialize (B (ok_ptr _ _ _ _ _ K') Hh (nr_zeros rank)).
    assert (B' : inv (State h (put (put (st_vars st) v (Some d)) x (Some (with_span h (zeros rank) (d_ptr d')))))
      (View (vw_next w + 1) (set (set (vw_vars w) v (vw_vars w x)) x (Some (zeros rank, vw_next w))) (set (vw_cells w) (vw_next w) []))).
    { eapply inv_ext; [apply B; congruence|..]; cbn; auto.
      + intros u. unfold put, with_span, zeros. destruct (Z.eqb_spec u x); [congruence|]. destruct (Z.eqb_spec u v); [|congruence].
        destruct (Z.eqb_spec x v); congruence.
      + intros u. unfold set, zeros, empty_shape. destruct (Z.eqb_spec u x); [congruence|]. destruct (Z.eqb_spec u v); [|congruence].
        destruct (Z.eqb_spec x v); congruence. }
    clear B I1 I2. 
    assert (Y : binds (State h (put (put (st_vars st) v (Some d)) x (Some (with_span h (zeros rank) (d_ptr d')))))
      (View (vw_next w + 1) (set (set (vw_vars w) v (vw_vars w x)) x (Some (zeros rank, vw_next w))) (set (vw_cells w) (vw_next w) [])) v sh r d).
    { split; cbn; rewrite ?set_put, put_ne by congruence; now rewrite ?set_put, put_eq. }
    pose proof (i_ok _ _ B' _ _ _ _ Y) as Kd. cbn [st_heap] in Kd.
    assert (Y' : binds (State h (put (put (st_vars st) v (Some d)) x (Some (with_span h (zeros rank) (d_ptr d')))))
      (View (vw_next w + 1) (set (set (vw_vars w) v (vw_vars w x)) x (Some (zeros rank, vw_next w))) (set (vw_cells w) (vw_next w) []))
      x (zeros rank) (vw_next w) (with_span h (zeros rank) (d_ptr d'))).
    { split; cbn; rewrite ?set_put; now rewrite put_eq. }
    pose proof (i_ok _ _ B' _ _ _ _ Y') as Ko. cbn [st_heap] in Ko.
    fold h. destruct Hh as [Hz _]. rewrite Hz. unfold assertion at 1. cbn [length Z.of_nat Z.eqb obind].
    rewrite (invariants_hold _ _ _ _ _ Ko). cbn [obind]. cbn [with_span d_shape]. unfold zeros, assertion. rewrite nr_zeros. cbn [Z.eqb obind].
    rewrite (with_span_same _ _ _ _ _ Kd), (invariants_hold _ _ _ _ _ Kd). cbn [obind].
    eexists. split; [reflexivity|]. exact B'.
  - destruct (defined_get _ _ _ I Hal) as (sh & r & d & [P Q] & K). unfold get. rewrite Q. cbn [obind].
    eexists. split; [reflexivity|]. now apply inv_remove.
  - destruct Hal as (sh & r & P & Hi). destruct (defined_get st w v I) as (sh' & r' & d & [P' Q] & K); [congruence|].
    rewrite P in P'. injection P' as <- <-. unfold get. rewrite Q. cbn [obind]. rewrite P.
    assert (Ne : vw_cells w r <> []) by (intros Y; rewrite Y in Hi; cbn in Hi; lia).
    unfold write. rewrite (ok_handle _ _ _ _ _ K). destruct (ok_holds _ _ _ _ _ K) as [H1 H2].
    destruct (vw_cells w r) as [|c cs] eqn:Ec; [congruence|]. destruct H2 as [H2 H3]. rewrite H3.
    replace ((0 <=? i) && (i <? Z.of_nat (length (c :: cs)))) with true by (symmetry; apply andb_true_intro; split; lia).
    cbn [obind]. eexists. split; [reflexivity|].
    assert (R : forall l n, (n < length l)%nat -> replace l n e = firstn n l ++ e :: skipn (n + 1) l).
    { clear. induction l as [|y l IH]; intros n Hn; cbn in Hn; [lia|]. destruct n as [|n]; [reflexivity|].
      cbn. f_equal. apply IH. lia. }
    assert (L : forall l n, length (replace l n e) = length l).
    { clear. induction l as [|y l IH]; intros n; [reflexivity|]. destruct n; cbn; [reflexivity|]. now rewrite IH. }
    rewrite <- (ok_handle _ _ _ _ _ K). unfold put_at. rewrite <- R by lia.
    apply (inv_store st w v sh r d); [exact I|now split|congruence|]. rewrite Ec. apply L.
  - destruct (defined_get _ _ _ I Hal) as (sh & r & d & [P Q] & K). unfold get. rewrite Q. cbn [obind]. rewrite P.
    unfold fill. destruct (ok_holds _ _ _ _ _ K) as [H1 H2]. rewrite H1.
    destruct (vw_cells w r) as [|c cs] eqn:Ec.
    + cbn [length Z.of_nat Z.eqb obind]. eexists. split; [reflexivity|]. eapply inv_ext; [exact I|..]; cbn; auto.
      intros r'. unfold set. destruct (Z.eqb_spec r' r); congruence.
    + destruct H2 as [H2 H3]. rewrite H3. replace (Z.of_nat (length (c :: cs)) =? 0) with false by (cbn [length]; lia).
      rewrite Z.eqb_refl. cbn [obind]. eexists. split; [reflexivity|].
      rewrite <- (ok_handle _ _ _ _ _ K).
      apply (inv_store st w v sh r d); [exact I|now split|congruence|]. rewrite Ec. apply repeat_length.
Qed.

Lemma exec_ok (ops : list (op E)) : forall (st : state) (w : view), inv st w -> all_allowed rank ops w ->
  exists st', exec rank ops st = Ok st' /\ inv st' (expected_all rank ops w).
Proof.
  induction ops as [|o ops IH]; intros st w I Hal; cbn.
  - eauto.
  - destruct Hal as [Ho Hal]. destruct (step_ok o st w I Ho) as (st' & A & B). rewrite A. cbn [obind]. now apply IH.
Qed.

Lemma inv_shows (st : state) (w : view) : inv st w -> shows st w.
Proof.
  intros I v. destruct (vw_vars w v) as [[sh r]|] eqn:P.
  - destruct (defined_get st w v I) as (sh' & r' & d & [P' Q] & K); [congruence|].
    rewrite P in P'. injection P' as <- <-. exists d. destruct K as [K1 K2 K3 K4 K5 K6 K7].
    repeat split; auto. intros i Hi. destruct K7 as [H1 H2].
    destruct (vw_cells w r) as [|c cs] eqn:Ec; [rewrite K6 in Hi; cbn in Hi; lia|]. destruct H2 as [H2 H3].
    destruct (nth_error (c :: cs) (Z.to_nat i)) as [e|] eqn:En.
    2:{ apply nth_error_None in En. lia. }
    exists e. split; [reflexivity|]. unfold read_span, read_linear, at_. rewrite K3, H3, H1, En.
    replace ((0 <=? i) && (i <? Z.of_nat (length (c :: cs)))) with true by (symmetry; apply andb_true_intro; split; lia).
    unfold assertion. replace (i <? Z.of_nat (length (c :: cs))) with true by lia. cbn. auto.
  - now apply (i_same _ _ I).
Qed.

Lemma refines (ops : list (op E)) : all_allowed rank ops (@no_data_yet E) ->
  exists st, exec rank ops (@start E) = Ok st /\ shows st (expected_all rank ops no_data_yet).
Proof.
  intros H. destruct (exec_ok ops _ _ inv_start H) as (st & A & B). exists st. split; [exact A|now apply inv_shows].
Qed.
End Proofs.
