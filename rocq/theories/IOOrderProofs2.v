(** Proofs about the order of calls of to_lue and from_lue (C42). *)
From Coq Require Import Permutation Sorted.
From Verif Require Import Common IOOrderModel IOOrderSpec.

Section Proofs.
Context (ts : bool) (L : nat) (calls : list io_call).
Local Notation step := (io_step ts L calls).

Lemma previous_spec : forall o c, match previous o calls c with
  | Some c' => (c' < c)%nat /\ (exists v, nth_error calls c' = Some (o, v)) /\ forall x v, (c' < x < c)%nat -> nth_error calls x <> Some (o, v)
  | None => forall x v, (x < c)%nat -> nth_error calls x <> Some (o, v)
  end.
Proof.
  intros o c. induction c as [|c IH]; cbn [previous]; [intros; lia|].
  destruct (nth_error calls c) as [[o' v']|] eqn:E.
  - destruct (is_operation o (o', v')) eqn:Eo.
    + assert (o' = o) by (destruct o, o'; cbn in Eo; congruence). subst o'. split; [lia|]. split; [exists v'; assumption|]. intros; lia.
    + assert (o' <> o) by (destruct o, o'; cbn in Eo; congruence). destruct (previous o calls c) as [c'|].
      * destruct IH as [A [B C]]. split; [lia|]. split; [assumption|]. intros x v Hx. destruct (Nat.eq_dec x c) as [->|]; [congruence|apply C; lia].
      * intros x v Hx. destruct (Nat.eq_dec x c) as [->|]; [congruence|apply IH; lia].
  - destruct (previous o calls c) as [c'|].
    + destruct IH as [A [B C]]. split; [lia|]. split; [assumption|]. intros x v Hx. destruct (Nat.eq_dec x c) as [->|]; [congruence|apply C; lia].
    + intros x v Hx. destruct (Nat.eq_dec x c) as [->|]; [congruence|apply IH; lia].
Qed.

Lemma previous_bound : forall o c x v, (x < c)%nat -> nth_error calls x = Some (o, v) -> exists c', previous o calls c = Some c' /\ (x <= c' < c)%nat.
Proof.
  intros o c x v Hx E. pose proof (previous_spec o c) as P. destruct (previous o calls c) as [c'|].
  - exists c'. split; [reflexivity|]. destruct P as [A [_ C]]. split; [|assumption]. destruct (Nat.le_gt_cases x c') as [D|D]; [assumption|]. elim (C x v); [lia|assumption].
  - elim (P x v Hx E).
Qed.

(** Phases only grow. *)
Definition le_state (s s' : io_state) : Prop := forall c l, (phase_nr (s c l) <= phase_nr (s' c l))%nat.
Lemma reached_mono : forall s s' p o l, le_state s s' -> reached p s o l = true -> reached p s' o l = true.
Proof. intros s s' p o l H. unfold reached. destruct o; [|auto]. rewrite !Nat.leb_le. specialize (H n l). lia. Qed.
Lemma finished_mono : forall s s' o, le_state s s' -> finished L s o = true -> finished L s' o = true.
Proof. intros s s' o H. unfold finished. rewrite !forallb_forall. intros A x Hx. eapply reached_mono; eauto. Qed.
Lemma can_start_mono : forall s s' c l k, le_state s s' -> can_start ts L calls s c l k = true -> can_start ts L calls s' c l k = true.
Proof.
  intros s s' c l k H. unfold can_start. destruct (fst k); [|destruct l].
  - rewrite !andb_true_iff, !orb_true_iff. intros [A B]. split; [eapply finished_mono; eauto|]. destruct B; [tauto|right; eapply finished_mono; eauto].
  - rewrite !andb_true_iff. intros [A B]. split; eapply finished_mono; eauto.
  - apply reached_mono. assumption.
Qed.
Lemma can_open_mono : forall s s' c l k, le_state s s' -> can_open ts calls s c l k = true -> can_open ts calls s' c l k = true.
Proof.
  intros s s' c l [[] []] H; unfold can_open; try destruct ts; rewrite ?andb_true_iff; try tauto; try (intros [A B]; split); eauto using reached_mono.
Qed.
Lemma can_close_mono : forall s s' c l k, le_state s s' -> can_close calls s c l k = true -> can_close calls s' c l k = true.
Proof. intros s s' c l [[] []] H; unfold can_close; try tauto; eauto using reached_mono. Qed.

Lemma set_phase_same : forall s c l p, set_phase s c l p c l = p.
Proof. intros. unfold set_phase. rewrite !Nat.eqb_refl. reflexivity. Qed.
Lemma set_phase_other : forall s c l p c' l', (c', l') <> (c, l) -> set_phase s c l p c' l' = s c' l'.
Proof. intros s c l p c' l' H. unfold set_phase. destruct (Nat.eqb_spec c' c), (Nat.eqb_spec l' l); cbn; try reflexivity. congruence. Qed.

Lemma step_some : forall c l s s', step c l s = Some s' -> exists call, nth_error calls c = Some call /\ (l < L)%nat /\
  match s c l with NotStarted => can_start ts L calls s c l call | Started => can_open ts calls s c l call | Opened => true | Accessed => can_close calls s c l call | Closed => false end = true /\
  s' = set_phase s c l (next_phase (s c l)).
Proof.
  intros c l s s' H. unfold io_step in H. destruct (nth_error calls c) as [call|]; [|discriminate]. exists call. split; [reflexivity|].
  destruct (Nat.ltb_spec l L); [|discriminate]. split; [assumption|].
  match type of H with (if ?x then _ else _) = _ => destruct x eqn:E; [|discriminate] end. split; [reflexivity|]. congruence.
Qed.

Lemma step_le : forall c l s s', step c l s = Some s' -> le_state s s'.
Proof.
  intros c l s s' H. destruct (step_some _ _ _ _ H) as [call [_ [_ [_ ->]]]]. intros c' l'. unfold set_phase. destruct (_ && _) eqn:E; [|lia].
  apply andb_true_iff in E. destruct E as [A B]. apply Nat.eqb_eq in A, B. subst. destruct (s c l); cbn; lia.
Qed.

(** What tasks have passed, still holds. *)
Definition passed (s : io_state) : Prop := forall c l, s c l <> NotStarted -> exists call, nth_error calls c = Some call /\ (l < L)%nat /\
  can_start ts L calls s c l call = true /\
  (phase_nr (s c l) >= 2 -> can_open ts calls s c l call = true)%nat /\
  (s c l = Closed -> can_close calls s c l call = true).

Lemma passed_init : passed io_init.
Proof. intros c l H. elim H. reflexivity. Qed.

Lemma passed_step : forall c l s s', passed s -> step c l s = Some s' -> passed s'.
Proof.
  intros c l s s' P H. pose proof (step_le _ _ _ _ H) as M. destruct (step_some _ _ _ _ H) as [call [Ec [Hl [G Es]]]].
  intros c' l' Hs. destruct (Nat.eq_dec c' c) as [->|N]; [destruct (Nat.eq_dec l' l) as [->|N]|].
  - exists call. split; [assumption|]. split; [assumption|]. assert (E' : s' c l = next_phase (s c l)) by (rewrite Es; apply set_phase_same). rewrite E'.
    assert (K : s c l <> NotStarted -> can_start ts L calls s c l call = true /\ ((phase_nr (s c l) >= 2)%nat -> can_open ts calls s c l call = true)).
    { intros K. destruct (P c l K) as [call' [A [_ [B [C _]]]]]. rewrite Ec in A. injection A as <-. split; assumption. }
    destruct (s c l) eqn:E; cbn [next_phase phase_nr] in *.
    + split; [eapply can_start_mono; eauto|]. split; [lia|discriminate].
    + destruct K as [K1 K2]; [discriminate|]. split; [eapply can_start_mono; eauto|]. split; [intros _; eapply can_open_mono; eauto|discriminate].
    + destruct K as [K1 K2]; [discriminate|]. split; [eapply can_start_mono; eauto|]. split; [intros _; eapply can_open_mono; eauto|discriminate].
    + destruct K as [K1 K2]; [discriminate|]. split; [eapply can_start_mono; eauto|]. split; [intros _; eapply can_open_mono; eauto; apply K2; lia|intros _; eapply can_close_mono; eauto].
    + discriminate.
  - assert (E' : s' c l' = s c l') by (rewrite Es; apply set_phase_other; congruence). rewrite E' in Hs |- *.
    destruct (P c l' Hs) as [k [A [B [C [D F]]]]]. exists k. split; [assumption|]. split; [assumption|]. split; [eapply can_start_mono; eauto|]. split; intros X; [eapply can_open_mono|eapply can_close_mono]; eauto.
  - assert (E' : s' c' l' = s c' l') by (rewrite Es; apply set_phase_other; congruence). rewrite E' in Hs |- *.
    destruct (P c' l' Hs) as [k [A [B [C [D F]]]]]. exists k. split; [assumption|]. split; [assumption|]. split; [eapply can_start_mono; eauto|]. split; intros X; [eapply can_open_mono|eapply can_close_mono]; eauto.
Qed.

Lemma passed_run : forall es s s', passed s -> io_run ts L calls es s = Some s' -> passed s'.
Proof.
  induction es as [|[c l] es IH]; intros s s' P H; cbn [io_run] in H; [injection H as <-; assumption|]. destruct (step c l s) as [s1|] eqn:E; [|discriminate].
  eapply IH; [|exact H]. eapply passed_step; eauto.
Qed.

Lemma reached_closed : forall s c l, reached Closed s (Some c) l = true -> s c l = Closed.
Proof. intros s c l H. unfold reached in H. apply Nat.leb_le in H. destruct (s c l); cbn in H; try lia; reflexivity. Qed.
Lemma finished_done : forall s c, finished L s (Some c) = true <-> done_everywhere L s c.
Proof.
  intros s c. unfold finished, done_everywhere. rewrite forallb_forall. split.
  - intros H l Hl. apply reached_closed. apply H. apply in_seq. lia.
  - intros H l Hl. apply in_seq in Hl. unfold reached. rewrite H by lia. reflexivity.
Qed.

(** *** Under the condition on reads *)
Context (Hreads : ts = false \/ reads_apart calls).

Lemma write_started : forall s c v, passed s -> nth_error calls c = Some (ToLue, v) -> forall l, under_way s c l ->
  (forall l', (l' < l)%nat -> s c l' = Closed) /\ finished L s (previous ToLue calls c) = true /\ finished L s (previous FromLue calls c) = true.
Proof.
  intros s c v P E. induction l as [|l IH]; intros H; destruct (P c _ H) as [k [A [B [C _]]]]; rewrite E in A; injection A as <-; cbn [can_start fst] in C.
  - apply andb_true_iff in C. split; [intros; lia|tauto].
  - apply reached_closed in C. assert (U : under_way s c l) by (unfold under_way; rewrite C; discriminate). destruct (IH U) as [I1 I2]. split; [|assumption].
    intros l' Hl'. destruct (Nat.eq_dec l' l) as [->|]; [assumption|apply I1; lia].
Qed.

Lemma read_started : forall s c v l, passed s -> nth_error calls c = Some (FromLue, v) -> under_way s c l ->
  finished L s (previous ToLue calls c) = true /\ (ts = false -> finished L s (previous FromLue calls c) = true).
Proof.
  intros s c v l P E H. destruct (P c l H) as [k [A [B [C _]]]]. rewrite E in A; injection A as <-. cbn [can_start fst] in C. apply andb_true_iff in C. destruct C as [C D].
  split; [assumption|]. intros ->. exact D.
Qed.

Lemma op_cases : forall c, (c < length calls)%nat -> exists o v, nth_error calls c = Some (o, v).
Proof. intros c H. destruct (nth_error calls c) as [[o v]|] eqn:E; [eauto|]. apply nth_error_None in E. lia. Qed.

Lemma variable_read_previous : forall s c, passed s -> (0 < L)%nat -> nth_error calls c = Some (FromLue, VariableValue) ->
  ts = true -> forall x v, (x < c)%nat -> nth_error calls x = Some (FromLue, v) -> exists w u, previous ToLue calls c = Some w /\ (x < w < c)%nat /\ nth_error calls w = Some (ToLue, u).
Proof.
  intros s c P HL E Hts x v Hx Ex. destruct Hreads as [Hr|Hr]; [congruence|]. destruct (Hr x c v Hx Ex E) as [w [u [Hw Ew]]].
  destruct (previous_bound ToLue c w u) as [w' [Ew' Hw']]; [lia|assumption|]. pose proof (previous_spec ToLue c) as S. rewrite Ew' in S. destruct S as [_ [[u' Eu'] _]].
  exists w', u'. split; [assumption|]. split; [lia|assumption].
Qed.

Lemma done_before : forall s, passed s -> (0 < L)%nat -> forall c, (c < length calls)%nat -> done_everywhere L s c -> forall c', (c' < c)%nat -> done_everywhere L s c'.
Proof.
  intros s P HL c. induction c as [c IH] using lt_wf_ind. intros Hc D c' Hc'.
  assert (U : forall l, (l < L)%nat -> under_way s c l) by (intros l Hl; unfold under_way; rewrite D by assumption; discriminate).
  destruct (op_cases c Hc) as [o [v E]]. destruct (op_cases c') as [o' [v' E']]; [lia|].
  assert (Hp : forall x, (c' <= x < c)%nat -> done_everywhere L s x -> done_everywhere L s c').
  { intros x Hx Dx. destruct (Nat.eq_dec c' x) as [->|]; [assumption|]. apply (IH x); try lia. assumption. }
  destruct (previous_bound o' c c' v' Hc' E') as [x [Ex Hx]]. apply (Hp x); [lia|]. apply finished_done. destruct o.
  - destruct (read_started s c v 0 P E (U 0%nat HL)) as [A B]. destruct o'; [|rewrite <- Ex; assumption].
    destruct (Bool.bool_dec ts true) as [Ets|Ets]; [|rewrite <- Ex; apply B; apply not_true_is_false; assumption].
    pose proof (previous_spec FromLue c) as S. rewrite Ex in S. destruct S as [_ [[vx Ex'] _]]. destruct v.
    + apply finished_done. intros l Hl. destruct (P c l (U l Hl)) as [k [A1 [_ [_ [_ A2]]]]]. rewrite E in A1. injection A1 as <-.
      specialize (A2 (D l Hl)). cbn [can_close] in A2. rewrite Ex in A2. apply reached_closed. assumption.
    + destruct (variable_read_previous s c P HL E Ets x vx) as [w [u [Ew [Hw Ew']]]]; [lia|assumption|].
      apply finished_done. rewrite Ew in A. apply finished_done in A. apply (IH w); try lia. assumption.
  - destruct (write_started s c v P E 0 (U 0%nat HL)) as [_ [A B]]. destruct o'; rewrite <- Ex; assumption.
Qed.

(** Calls of which one is a write do not overlap. *)
Lemma conflicts_ordered : forall s, passed s -> forall c1 c2 k1 k2 l, (c1 < c2)%nat -> nth_error calls c1 = Some k1 -> nth_error calls c2 = Some k2 ->
  is_write k1 = true \/ is_write k2 = true -> under_way s c2 l -> done_everywhere L s c1.
Proof.
  intros s P c1 c2 [o1 v1] [o2 v2] l Hc E1 E2 Hw H.
  assert (HL : (0 < L)%nat) by (destruct (P c2 l H) as [k [_ [B _]]]; lia).
  assert (H2 : (c2 < length calls)%nat) by (apply nth_error_Some; congruence).
  assert (F : finished L s (previous o1 calls c2) = true).
  { destruct o2.
    - destruct (read_started s c2 v2 l P E2 H) as [A _]. destruct o1; [cbn in Hw; destruct Hw; discriminate|assumption].
    - destruct (write_started s c2 v2 P E2 l H) as [_ [A B]]. destruct o1; assumption. }
  destruct (previous_bound o1 c2 c1 v1 Hc E1) as [x [Ex Hx]]. rewrite Ex in F. apply finished_done in F.
  destruct (Nat.eq_dec c1 x) as [->|]; [assumption|]. eapply (done_before s P HL x); try lia. assumption.
Qed.

Lemma assertions_hold : forall s, passed s -> forall c l, assertions ts calls c l s = true.
Proof.
  intros s P c l. unfold assertions. destruct (nth_error calls c) as [[o v]|] eqn:E; [|reflexivity].
  assert (R : under_way s c l -> forall p, (forall x u, previous p calls c = Some x -> nth_error calls x = Some (p, u) -> (x < c)%nat -> done_everywhere L s x) -> reached Closed s (previous p calls c) l = true).
  { intros U p Hp. pose proof (previous_spec p c) as S. destruct (previous p calls c) as [x|]; [|reflexivity]. destruct S as [A [[u Eu] _]].
    specialize (Hp x u eq_refl Eu A). destruct (P c l U) as [k [_ [Hl _]]]. unfold reached. rewrite Hp by assumption. reflexivity. }
  assert (C : under_way s c l -> forall p, is_write (p, v) = true \/ is_write (o, v) = true -> reached Closed s (previous p calls c) l = true).
  { intros U p Hw. apply R; [assumption|]. intros x u _ Ex Hx. apply (conflicts_ordered s P x c (p, u) (o, v) l); auto. }
  assert (O1 : forall x, reached Closed s x l = true -> reached Opened s x l = true).
  { intros [x|]; cbn; [|auto]. destruct (s x l); cbn; auto. }
  destruct (s c l) eqn:Es; try reflexivity; assert (U : under_way s c l) by (unfold under_way; rewrite Es; discriminate); specialize (C U); destruct o, v; try reflexivity;
    rewrite ?andb_true_iff, ?orb_true_iff; repeat split; try (apply C; cbn; tauto).
  - destruct (Bool.bool_dec ts true) as [Ets|Ets]; [left; assumption|right]. apply not_true_is_false in Ets. apply O1. destruct (read_started s c VariableValue l P E U) as [_ B]. specialize (B Ets).
    apply R; [assumption|]. intros x u Ex _ _. rewrite Ex in B. apply finished_done. assumption.
  - apply R; [assumption|]. intros x u Ex Eu Hx. destruct (read_started s c VariableValue l P E U) as [A B]. destruct (Bool.bool_dec ts true) as [Ets|Ets].
    + assert (HL : (0 < L)%nat) by (destruct (P c l U) as [k [_ [Hl _]]]; lia).
      destruct (variable_read_previous s c P HL E Ets x u Hx Eu) as [w [u' [Ew [Hw Ew']]]]. rewrite Ew in A. apply finished_done in A. apply (done_before s P HL w); [|assumption|lia].
      apply nth_error_Some. congruence.
    + specialize (B (not_true_is_false _ Ets)). rewrite Ex in B. apply finished_done. assumption.
Qed.
End Proofs.

(** *** No deadlock, in any state *)
Lemma some_step : forall ts L calls s, all_done L calls s \/ exists c l s', io_step ts L calls c l s = Some s'.
Proof.
  intros ts L calls s.
  assert (M : forall n, (n <= length calls)%nat -> (forall c, (c < n)%nat -> done_everywhere L s c) \/ exists c l s', io_step ts L calls c l s = Some s').
  { induction n as [|n IHn]; intros Hn; [left; intros; lia|]. destruct IHn as [D|S]; [lia| |right; assumption].
    assert (K : forall m, (m <= L)%nat -> (forall l, (l < m)%nat -> s n l = Closed) \/ exists c l s', io_step ts L calls c l s = Some s').
    { induction m as [|m IHm]; intros Hm; [left; intros; lia|]. destruct IHm as [Dm|S]; [lia| |right; assumption].
      destruct (nth_error calls n) as [k|] eqn:E; [|apply nth_error_None in E; lia].
      assert (F : forall o, finished L s (previous o calls n) = true).
      { intros o. pose proof (previous_spec calls o n) as Sp. destruct (previous o calls n) as [x|]; [|unfold finished; apply forallb_forall; intros; reflexivity].
        apply (finished_done L). apply D. tauto. }
      assert (R : forall p o, reached p s (previous o calls n) m = true).
      { intros p o. specialize (F o). unfold finished in F. rewrite forallb_forall in F. specialize (F m). rewrite in_seq in F. specialize (F ltac:(lia)).
        destruct (previous o calls n) as [x|]; [|reflexivity]. unfold reached in *. apply Nat.leb_le in F. apply Nat.leb_le. destruct p; cbn in *; lia. }
      destruct (s n m) eqn:Es.
      - right. exists n, m. eexists. unfold io_step. rewrite E. replace (m <? L)%nat with true by (symmetry; apply Nat.ltb_lt; lia). rewrite Es.
        assert (G : can_start ts L calls s n m k = true).
        { unfold can_start. destruct (fst k); [rewrite !F, orb_true_r; reflexivity|]. destruct m; [rewrite !F; reflexivity|]. unfold reached. rewrite Dm by lia. reflexivity. }
        rewrite G. reflexivity.
      - right. exists n, m. eexists. unfold io_step. rewrite E. replace (m <? L)%nat with true by (symmetry; apply Nat.ltb_lt; lia). rewrite Es.
        assert (G : can_open ts calls s n m k = true). { destruct k as [[] []]; cbn [can_open]; rewrite ?R; try reflexivity. destruct ts; reflexivity. }
        rewrite G. reflexivity.
      - right. exists n, m. eexists. unfold io_step. rewrite E. replace (m <? L)%nat with true by (symmetry; apply Nat.ltb_lt; lia). rewrite Es. reflexivity.
      - right. exists n, m. eexists. unfold io_step. rewrite E. replace (m <? L)%nat with true by (symmetry; apply Nat.ltb_lt; lia). rewrite Es.
        assert (G : can_close calls s n m k = true) by (destruct k as [[] []]; cbn [can_close]; rewrite ?R; reflexivity).
        rewrite G. reflexivity.
      - left. intros l Hl. destruct (Nat.eq_dec l m) as [->|]; [assumption|apply Dm; lia]. }
    destruct (K L (Nat.le_refl _)) as [Dn|S]; [|right; assumption]. left. intros c Hc. destruct (Nat.eq_dec c n) as [->|]; [exact Dn|apply D; lia]. }
  destruct (M (length calls) (Nat.le_refl _)) as [D|S]; [left; exact D|right; assumption].
Qed.

(** *** Number of steps *)
Definition row_total (L : nat) (s : io_state) (c : nat) : nat := list_sum (map (fun l => phase_nr (s c l)) (seq 0 L)).
Definition total (L n : nat) (s : io_state) : nat := list_sum (map (row_total L s) (seq 0 n)).

Lemma list_sum_change : forall (f g : nat -> nat) (x : nat) (l : list nat), NoDup l -> In x l -> (forall y, y <> x -> f y = g y) -> g x = S (f x) ->
  list_sum (map g l) = S (list_sum (map f l)).
Proof.
  intros f g x l Hn Hi Ho Hx. induction l as [|y l IH]; [contradiction|]. inversion Hn as [|? ? N1 N2]; subst. cbn [map list_sum fold_right]. change (fold_right Nat.add 0 ?q)%nat with (list_sum q).
  destruct Hi as [->|Hi].
  - rewrite Hx. replace (map g l) with (map f l); [cbn; lia|]. apply map_ext_in. intros z Hz. apply Ho. intros ->. contradiction.
  - rewrite (Ho y) by (intros ->; contradiction). rewrite IH by assumption. lia.
Qed.

Lemma list_sum_bound : forall (f : nat -> nat) b l, (forall x, (f x <= b)%nat) -> (list_sum (map f l) <= b * length l)%nat.
Proof. intros f b l H. induction l as [|y l IH]; cbn; [lia|]. change (fold_right Nat.add 0 ?q)%nat with (list_sum q). specialize (H y). nia. Qed.

Lemma step_total : forall ts L calls c l s s', io_step ts L calls c l s = Some s' -> total L (length calls) s' = S (total L (length calls) s).
Proof.
  intros ts L calls c l s s' H. destruct (step_some _ _ _ _ _ _ _ H) as [call [Ec [Hl [G ->]]]]. unfold total.
  apply list_sum_change with (x := c); [apply seq_NoDup| | |].
  - apply in_seq. assert (c < length calls)%nat by (apply nth_error_Some; congruence). lia.
  - intros y Hy. unfold row_total. f_equal. apply map_ext. intros z. rewrite set_phase_other; congruence.
  - unfold row_total. apply list_sum_change with (x := l); [apply seq_NoDup|apply in_seq; lia| |].
    + intros y Hy. rewrite set_phase_other; congruence.
    + rewrite set_phase_same. destruct (s c l); cbn in *; congruence.
Qed.

Lemma total_bound : forall L n s, (total L n s <= 4 * L * n)%nat.
Proof.
  intros L n s. unfold total. etransitivity; [apply (list_sum_bound _ (4 * L))|rewrite seq_length; lia].
  intros x. unfold row_total. etransitivity; [apply (list_sum_bound _ 4)|rewrite seq_length; lia]. intros l. destruct (s x l); cbn; lia.
Qed.

Lemma run_length : forall ts L calls es s s', io_run ts L calls es s = Some s' -> (total L (length calls) s + length es = total L (length calls) s')%nat.
Proof.
  intros ts L calls es. induction es as [|[c l] es IH]; intros s s' H; cbn [io_run] in H; [injection H as ->; cbn; lia|].
  destruct (io_step ts L calls c l s) as [s1|] eqn:E; [|discriminate]. apply step_total in E. apply IH in H. cbn [length]. lia.
Qed.

(** *** Contents of the file *)
Section Contents.
Context {F : Type} (ts : bool) (L : nat) (calls : list io_call) (effect : nat -> nat -> F -> F) (f0 : F).
Context (Hreads : ts = false \/ reads_apart calls).

Definition write_at (c : nat) : bool := match nth_error calls c with Some (ToLue, _) => true | _ => false end.
Definition writes (n : nat) : list (nat * nat) := concat (map (fun c => if write_at c then map (pair c) (seq 0 L) else []) (seq 0 n)).
Definition accessed (s : io_state) (x : nat * nat) : bool := (3 <=? phase_nr (s (fst x) (snd x)))%nat.
Definition perform (l : list (nat * nat)) : F := fold_left (fun f '(c, l) => effect c l f) l f0.

Lemma sequentially_perform : forall n, sequentially L calls effect n f0 = perform (writes n).
Proof.
  intros n. unfold sequentially, perform, writes. generalize f0. generalize (seq 0 n) as cs. induction cs as [|c cs IH]; intros f; cbn; [reflexivity|].
  rewrite fold_left_app, IH. f_equal. unfold write_at. destruct (nth_error calls c) as [[[] v]|]; try reflexivity. generalize (seq 0 L) as ls. intros ls. revert f.
  induction ls as [|l ls IHl]; intros f; cbn; [reflexivity|]. apply IHl.
Qed.

Lemma writes_in : forall n x, In x (writes n) <-> (fst x < n)%nat /\ write_at (fst x) = true /\ (snd x < L)%nat.
Proof.
  intros n [c l]. unfold writes. rewrite in_concat. cbn [fst snd]. split.
  - intros [k [A B]]. apply in_map_iff in A. destruct A as [c' [A C]]. apply in_seq in C. destruct (write_at c') eqn:E; subst k; [|contradiction].
    apply in_map_iff in B. destruct B as [l' [B D]]. apply in_seq in D. injection B as <- <-. repeat split; [lia|assumption|lia].
  - intros [A [B C]]. exists (map (pair c) (seq 0 L)). split.
    + apply in_map_iff. exists c. rewrite B. split; [reflexivity|]. apply in_seq. lia.
    + apply in_map. apply in_seq. lia.
Qed.

Definition before (x y : nat * nat) : Prop := (fst x < fst y)%nat \/ (fst x = fst y /\ (snd x < snd y)%nat).

Lemma sorted_app : forall (X : Type) (R : X -> X -> Prop) l m, StronglySorted R l -> StronglySorted R m -> (forall x y, In x l -> In y m -> R x y) -> StronglySorted R (l ++ m).
Proof.
  intros X R l m Hl Hm H. induction l as [|x l IH]; cbn; [assumption|]. inversion Hl; subst. constructor.
  - apply IH; [assumption|]. intros a b Ha Hb. apply H; [right|]; assumption.
  - apply Forall_app. split; [assumption|]. apply Forall_forall. intros y Hy. apply H; [left; reflexivity|assumption].
Qed.
Lemma seq_sorted : forall n a, StronglySorted lt (seq a n).
Proof.
  induction n as [|n IH]; intros a; cbn; constructor; [apply IH|]. apply Forall_forall. intros x Hx. apply in_seq in Hx. lia.
Qed.
Lemma writes_sorted : forall n, StronglySorted before (writes n).
Proof.
  intros n. induction n as [|n IH]; [constructor|]. unfold writes. rewrite seq_S, map_app, concat_app. cbn [Nat.add map concat]. rewrite app_nil_r.
  apply sorted_app; [exact IH| |].
  - destruct (write_at n); [|constructor]. pose proof (seq_sorted L 0) as S. induction S as [|x l S IHS HF]; cbn; constructor; [assumption|].
    rewrite Forall_forall in HF |- *. intros y Hy. apply in_map_iff in Hy. destruct Hy as [z [<- Hz]]. right. split; [reflexivity|]. cbn. apply HF. assumption.
  - intros x y Hx Hy. left. apply (writes_in n) in Hx. destruct (write_at n); [|contradiction]. apply in_map_iff in Hy. destruct Hy as [z [<- _]]. cbn. tauto.
Qed.

Lemma filter_none : forall (X : Type) (p : X -> bool) l, (forall x, In x l -> p x = false) -> filter p l = [].
Proof. intros X p l H. induction l as [|x l IH]; cbn; [reflexivity|]. rewrite H by (left; reflexivity). apply IH. intros y Hy. apply H. right. assumption. Qed.

Lemma filter_snoc : forall (X : Type) (R : X -> X -> Prop) (p q : X -> bool) x l, StronglySorted R l -> (forall y, ~ R y y) -> In x l ->
  p x = false -> q x = true -> (forall y, In y l -> y <> x -> q y = p y) -> (forall y, In y l -> R x y -> p y = false) -> filter q l = filter p l ++ [x].
Proof.
  intros X R p q x l HS Hirr Hin Hp Hq Ho Hl. induction HS as [|y l HS IH HF]; [contradiction|]. rewrite Forall_forall in HF. cbn [filter]. destruct Hin as [->|Hin].
  - rewrite Hp, Hq. assert (A : filter p l = []). { apply filter_none. intros z Hz. apply Hl; [right; assumption|]. apply HF. assumption. }
    assert (B : filter q l = []). { apply filter_none. intros z Hz. rewrite Ho; [apply Hl; [right; assumption|apply HF; assumption]|right; assumption|]. intros ->. apply (Hirr x). apply HF. assumption. }
    rewrite A, B. reflexivity.
  - rewrite (Ho y); [|left; reflexivity|intros ->; apply (Hirr x); apply HF; assumption].
    rewrite IH; [destruct (p y); reflexivity|assumption| |]; intros z Hz; [apply Ho|apply Hl]; right; assumption.
Qed.

Lemma before_irr : forall y, ~ before y y.
Proof. intros y. unfold before. lia. Qed.

(** The file holds the writes that were performed, in order; what was read are the writes of earlier calls. *)
Record cinv (s : io_state) (x : F * list (nat * nat * F)) : Prop := {
  ci_passed : passed ts L calls s;
  ci_file : fst x = perform (filter (accessed s) (writes (length calls)));
  ci_reads : forall c l f, In (c, l, f) (snd x) -> f = perform (writes c);
  ci_all : forall c l v, nth_error calls c = Some (FromLue, v) -> accessed s (c, l) = true -> exists f, In (c, l, f) (snd x)
}.

Lemma filter_writes_le : forall n c, (c <= n)%nat -> filter (fun x => (fst x <? c)%nat) (writes n) = writes c.
Proof.
  intros n c H. replace n with (c + (n - c))%nat by lia. unfold writes. rewrite seq_app, map_app, concat_app, filter_app. cbn [Nat.add].
  rewrite (filter_none _ _ (concat (map _ (seq c (n - c))))).
  - rewrite app_nil_r. fold (writes c). assert (G : forall l : list (nat * nat), (forall x, In x l -> (fst x <? c)%nat = true) -> filter (fun x => (fst x <? c)%nat) l = l).
    { induction l as [|y l IH]; intros G; cbn [filter]; [reflexivity|]. rewrite G by (left; reflexivity). rewrite IH; [reflexivity|]. intros z Hz. apply G. right. assumption. }
    apply G. intros x Hx. apply writes_in in Hx. apply Nat.ltb_lt. tauto.
  - intros x Hx. apply in_concat in Hx. destruct Hx as [k [A B]]. apply in_map_iff in A. destruct A as [c' [A C]]. apply in_seq in C. apply Nat.ltb_ge.
    destruct (write_at c'); subst k; [|contradiction]. apply in_map_iff in B. destruct B as [l [<- _]]. cbn. lia.
Qed.

Lemma accessed_under_way : forall s c l, accessed s (c, l) = true -> under_way s c l.
Proof. intros s c l H. unfold accessed in H. cbn [fst snd] in H. apply Nat.leb_le in H. unfold under_way. intros E. rewrite E in H. cbn in H. lia. Qed.

Lemma cinv_step : forall c l s s' x, cinv s x -> io_step ts L calls c l s = Some s' -> cinv s' (access calls effect c l s x).
Proof.
  intros c l s s' x [I1 I2 I3 I4] H. pose proof (passed_step _ _ _ _ _ _ _ I1 H) as P'. destruct (step_some _ _ _ _ _ _ _ H) as [k [Ec [Hl [G Es]]]].
  assert (Hc : (c < length calls)%nat) by (apply nth_error_Some; congruence).
  assert (Hother : forall y, y <> (c, l) -> accessed s' y = accessed s y).
  { intros [c' l'] Hy. unfold accessed. cbn [fst snd]. rewrite Es, set_phase_other by assumption. reflexivity. }
  assert (Hsame : s c l <> Opened -> accessed s' (c, l) = accessed s (c, l)).
  { intros Ho. unfold accessed. cbn [fst snd]. rewrite Es, set_phase_same. destruct (s c l); try reflexivity. congruence. }
  assert (Hall : (forall y, accessed s' y = accessed s y) -> access calls effect c l s x = x -> cinv s' (access calls effect c l s x)).
  { intros A ->. split; [assumption| |assumption|].
    - rewrite I2. f_equal. apply filter_ext. intros y. symmetry. apply A.
    - intros c' l' v E' A'. eapply I4; [eassumption|]. rewrite <- A. assumption. }
  assert (Hcase : s c l <> Opened -> cinv s' (access calls effect c l s x)).
  { intros Ho. apply Hall.
    - intros y. destruct (Nat.eq_dec (fst y) c) as [E1|E1]; [destruct (Nat.eq_dec (snd y) l) as [E2|E2]|].
      + destruct y; cbn in *; subst. apply Hsame. assumption.
      + apply Hother. intros E. subst y. cbn in *. congruence.
      + apply Hother. intros E. subst y. cbn in *. congruence.
    - unfold access. destruct (s c l); try reflexivity. congruence. }
  destruct (s c l) eqn:Ep; try (apply Hcase; discriminate). clear Hcase Hall Hsame.
  assert (U : under_way s c l) by (unfold under_way; rewrite Ep; discriminate).
  assert (Aold : accessed s (c, l) = false) by (unfold accessed; cbn [fst snd]; rewrite Ep; reflexivity).
  assert (Anew : accessed s' (c, l) = true) by (unfold accessed; cbn [fst snd]; rewrite Es, set_phase_same; reflexivity).
  assert (Later : forall y k', (c < fst y)%nat -> nth_error calls (fst y) = Some k' -> is_write k' = true \/ is_write k = true -> accessed s y = false).
  { intros [c' l'] k' Hy E' Hw. cbn [fst] in *. destruct (accessed s (c', l')) eqn:A; [|reflexivity]. apply accessed_under_way in A.
    pose proof (conflicts_ordered ts L calls Hreads s I1 c c' k k' l' Hy Ec E') as D. specialize (D ltac:(tauto) A l Hl). congruence. }
  unfold access. rewrite Ep, Ec. destruct k as [[] v]; cbn [fst snd].
  - (* a read *)
    split; [assumption| | |]; cbn [fst snd].
    + rewrite I2. f_equal. apply filter_ext_in. intros y Hy. symmetry. apply Hother. intros ->. apply writes_in in Hy. cbn [fst] in Hy. destruct Hy as [_ [Hy _]]. unfold write_at in Hy. rewrite Ec in Hy. discriminate.
    + intros c' l' f [E|Hin]; [|eapply I3; eassumption]. injection E as <- <- <-. rewrite I2. f_equal. rewrite <- (filter_writes_le (length calls) c) by lia. apply filter_ext_in. intros y Hy.
      apply writes_in in Hy. destruct Hy as [Y1 [Y2 Y3]]. unfold write_at in Y2. destruct (nth_error calls (fst y)) as [[[] vy]|] eqn:Ey; try discriminate.
      destruct (Nat.ltb_spec (fst y) c) as [Hlt|Hge].
      * pose proof (conflicts_ordered ts L calls Hreads s I1 (fst y) c _ _ l Hlt Ey Ec) as D. specialize (D ltac:(cbn; tauto) U (snd y) Y3). unfold accessed. rewrite D. reflexivity.
      * apply (Later y (ToLue, vy)); [|assumption|left; reflexivity]. assert (fst y <> c) by (intros E; rewrite E in Ey; congruence). lia.
    + intros c' l' v' E' A'. destruct (Nat.eq_dec c' c) as [->|N]; [destruct (Nat.eq_dec l' l) as [->|N]|].
      * exists (fst x). left. reflexivity.
      * rewrite Hother in A' by congruence. destruct (I4 _ _ _ E' A') as [f Hf]. exists f. right. assumption.
      * rewrite Hother in A' by congruence. destruct (I4 _ _ _ E' A') as [f Hf]. exists f. right. assumption.
  - (* a write *)
    split; [assumption| |assumption|]; cbn [fst snd].
    + rewrite (filter_snoc _ before (accessed s) (accessed s') (c, l)).
      * unfold perform. rewrite fold_left_app. cbn [fold_left]. rewrite I2. reflexivity.
      * apply writes_sorted.
      * apply before_irr.
      * apply writes_in. cbn [fst snd]. unfold write_at. rewrite Ec. auto.
      * assumption.
      * assumption.
      * intros y _ Hy. apply Hother. assumption.
      * intros y Hy [B|[B1 B2]]; cbn [fst snd] in *.
        -- apply writes_in in Hy. destruct Hy as [_ [Hy _]]. unfold write_at in Hy. destruct (nth_error calls (fst y)) as [ky|] eqn:Ey; [|discriminate]. eapply Later; [assumption|exact Ey|right; reflexivity].
        -- destruct (accessed s y) eqn:A; [|reflexivity]. destruct y as [c' l']. cbn [fst snd] in *. subst c'. apply accessed_under_way in A.
           destruct (write_started ts L calls Hreads s c v I1 Ec _ A) as [D _]. specialize (D l B2). congruence.
    + intros c' l' v' E' A'. apply (I4 c' l' v' E'). rewrite <- A'. symmetry. apply Hother. congruence.
Qed.

Lemma cinv_init : cinv io_init (f0, []).
Proof.
  split; [apply passed_init| | |]; cbn [fst snd].
  - rewrite filter_none; [reflexivity|]. intros x _. reflexivity.
  - intros c l f [].
  - intros c l v _ A. discriminate.
Qed.

Lemma cinv_run : forall es s x s' x', cinv s x -> history ts L calls effect es s x = Some (s', x') -> cinv s' x'.
Proof.
  induction es as [|[c l] es IH]; intros s x s' x' I H; cbn [history] in H; [injection H as <- <-; assumption|]. destruct (io_step ts L calls c l s) as [s1|] eqn:E; [|discriminate].
  eapply IH; [|exact H]. eapply cinv_step; eassumption.
Qed.

Lemma history_ok : forall es s x, history ts L calls effect es io_init (f0, []) = Some (s, x) ->
  (forall c l f, In (c, l, f) (snd x) -> f = sequentially L calls effect c f0) /\
  (all_done L calls s -> fst x = sequentially L calls effect (length calls) f0 /\
     forall c l v, nth_error calls c = Some (FromLue, v) -> (l < L)%nat -> exists f, In (c, l, f) (snd x)).
Proof.
  intros es s x H. pose proof (cinv_run es _ _ _ _ cinv_init H) as [I1 I2 I3 I4]. split; [intros c l f Hin; rewrite sequentially_perform; eapply I3; eassumption|].
  intros D. split.
  - rewrite sequentially_perform, I2. f_equal. rewrite <- (filter_writes_le (length calls) (length calls)) at 2 by lia. apply filter_ext_in. intros y Hy. apply writes_in in Hy. destruct Hy as [Y1 [Y2 Y3]].
    unfold accessed. rewrite (D _ Y1 _ Y3). symmetry. apply Nat.ltb_lt. assumption.
  - intros c l v E Hl. apply (I4 c l v E). unfold accessed. cbn [fst snd]. rewrite D; [reflexivity| |assumption]. apply nth_error_Some. congruence.
Qed.
End Contents.

Lemma history_run : forall (F : Type) ts L calls (effect : nat -> nat -> F -> F) es s x s' x', history ts L calls effect es s x = Some (s', x') -> io_run ts L calls es s = Some s'.
Proof.
  intros F ts L calls effect. induction es as [|[c l] es IH]; intros s x s' x' H; cbn [history io_run] in *; [congruence|]. destruct (io_step ts L calls c l s); [|discriminate]. eapply IH; eassumption.
Qed.
