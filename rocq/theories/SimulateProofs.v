(** Proofs about simulations. *)
From Verif Require Import Common CommonProofs ArrayModel SimulateModel SimulateSpec.

Lemma is_in_spec t l : is_in t l = true <-> In t l.
Proof.
  unfold is_in. rewrite existsb_exists. split.
  - intros [x [H1 H2]]. apply Z.eqb_eq in H2. now subst.
  - intros H. exists t. split; [assumption|apply Z.eqb_refl].
Qed.
Lemma is_in_false t l : is_in t l = false <-> ~ In t l.
Proof. rewrite <- is_in_spec. destruct (is_in t l); intuition congruence. Qed.

Ltac fields := cbn [ss_todo ss_log ss_semaphore ss_started ss_finished ss_signalled ss_dangling sim_step] in *.

(** ** The calls that are made *)
Definition command_call (c : command) : list call := match c with Call c => [c] | StartTimeStep t => [SimulateModel t] | _ => [] end.
Definition calls (l : list command) : list call := flat_map command_call l.

Lemma log_step e s s' : sim_step e s = Some s' -> ss_log s' ++ calls (ss_todo s') = ss_log s ++ calls (ss_todo s).
Proof.
  destruct s as [todo log sem st fin sig dang]. destruct e as [|t|]; fields.
  - unfold step_main. fields. destruct todo as [|c todo]; [discriminate|]. destruct c; intros H.
    + injection H as <-. cbn. now rewrite <- app_assoc.
    + injection H as <-. reflexivity.
    + injection H as <-. cbn. now rewrite <- app_assoc.
    + destruct sem as [[d lo]|]; [|discriminate]. destruct (lo <? time_step - d); [discriminate|]. injection H as <-. reflexivity.
    + destruct (sig =? length st)%nat; [|discriminate]. injection H as <-. reflexivity.
    + injection H as <-. reflexivity.
  - destruct (is_in t st && negb (is_in t fin)); [|discriminate]. intros H. injection H as <-. reflexivity.
  - unfold step_signal. fields. destruct (nth_error st sig) as [t|]; [|discriminate]. destruct (is_in t fin); [|discriminate].
    destruct sem as [[d lo]|]; intros H; injection H as <-; reflexivity.
Qed.
Lemma log_run es : forall s s', sim_run es s = Some s' -> ss_log s' ++ calls (ss_todo s') = ss_log s ++ calls (ss_todo s).
Proof.
  induction es as [|e es IH]; intros s s' H; cbn in H; [now injection H as <-|].
  destruct (sim_step e s) as [s1|] eqn:E; [|discriminate]. rewrite (IH _ _ H). now apply log_step with e.
Qed.

(** ** Invariant *)
Section Invariant.
Context (n lim : Z) (Hn : 1 <= n) (Hlim : 1 <= lim).

Definition loop (t : Z) : list command := flat_map (time_step_commands n) (zseq t (n + 1 - t)).
Definition tail (t : Z) : list command := (if t =? n then [WaitState] else []) ++ loop (t + 1).

Lemma loop_cons t : t <= n -> loop t = StartTimeStep t :: WaitSemaphore t :: Call (SimulateProgressor t) :: tail t.
Proof. intros H. unfold loop, tail. rewrite zseq_cons by lia. cbn [flat_map time_step_commands app]. unfold loop. do 4 f_equal. f_equal. f_equal. lia. Qed.
Lemma loop_nil t : n < t -> loop t = [].
Proof. intros H. unfold loop. rewrite zseq_nil by lia. reflexivity. Qed.

Inductive wf : list command -> Prop :=
| wf_nil : wf []
| wf_call c l : wf l -> wf (Call c :: l)
| wf_sim l : wf l -> wf (MakeSemaphore (lim - 1) 1 :: loop 1 ++ DropSemaphore :: l).

Inductive phase (lo sig : Z) : Z -> list command -> Prop :=
| phase_next t l : wf l -> 1 <= t <= n + 1 -> (t = 1 \/ t - lim <= lo) -> (t = n + 1 -> sig = n) -> phase lo sig (t - 1) (loop t ++ DropSemaphore :: l)
| phase_started t l : wf l -> 1 <= t <= n -> (t = 1 \/ t - lim <= lo) -> phase lo sig t (WaitSemaphore t :: Call (SimulateProgressor t) :: tail t ++ DropSemaphore :: l)
| phase_waited t l : wf l -> 1 <= t <= n -> t - (lim - 1) <= lo -> phase lo sig t (Call (SimulateProgressor t) :: tail t ++ DropSemaphore :: l)
| phase_last l : wf l -> n - (lim - 1) <= lo -> phase lo sig n (WaitState :: DropSemaphore :: l).

Record Inv (s : sim_state) : Prop := {
  inv_ok : ss_dangling s = false;
  inv_started : exists k, 0 <= k <= n /\ ss_started s = zseq 1 k /\ Z.of_nat (ss_signalled s) <= k /\
    match ss_semaphore s with
    | None => wf (ss_todo s) /\ Z.of_nat (ss_signalled s) = k
    | Some (d, lo) => d = lim - 1 /\ lo = Z.max 1 (Z.of_nat (ss_signalled s)) /\ phase lo (Z.of_nat (ss_signalled s)) k (ss_todo s)
    end;
  inv_finished : NoDup (ss_finished s) /\ incl (ss_finished s) (ss_started s);
  inv_signalled : forall t, 1 <= t <= Z.of_nat (ss_signalled s) -> In t (ss_finished s) }.

Lemma zseq_snoc1 k : 0 <= k -> zseq 1 k ++ [k + 1] = zseq 1 (k + 1).
Proof. intros H. rewrite zseq_snoc by assumption. do 2 f_equal. lia. Qed.

Lemma inv_main s s' : Inv s -> step_main s = Some s' -> Inv s'.
Proof.
  destruct s as [todo log sem st fin sig dang]. intros [I1 [k [Hk [Est [Hsig P]]]] [I3 I3'] I4] H. fields. subst dang st.
  assert (Hlen : length (zseq 1 k) = Z.to_nat k) by apply zseq_length.
  unfold step_main in H. fields. destruct sem as [[d lo]|].
  - destruct P as [-> [-> P]]. inversion P as [t l W T1 T2 T3 E1 E2|t l W T1 T2 E1 E2|t l W T1 T2 E1 E2|l W T1 E1 E2]; subst.
    + destruct (Z.eq_dec t (n + 1)) as [->|Hne].
      * rewrite loop_nil in H by lia. cbn [app] in H. injection H as <-. specialize (T3 eq_refl). rewrite Hlen. split; cbn [ss_dangling ss_started ss_signalled ss_semaphore ss_todo ss_finished].
        -- replace (sig =? Z.to_nat (n + 1 - 1))%nat with true by (symmetry; apply Nat.eqb_eq; lia). reflexivity.
        -- exists (n + 1 - 1). repeat split; try lia; assumption.
        -- split; assumption.
        -- assumption.
      * rewrite loop_cons in H by lia. cbn [app] in H. injection H as <-. split; cbn [ss_dangling ss_started ss_signalled ss_semaphore ss_todo ss_finished].
        -- reflexivity.
        -- exists t. split; [lia|]. split; [|split; [lia|split; [reflexivity|split; [reflexivity|]]]].
           ++ replace t with (t - 1 + 1) at 2 3 by lia. apply zseq_snoc1. lia.
           ++ apply phase_started; try assumption; lia.
        -- split; [assumption|]. intros x Hx. apply in_app_iff. left. apply I3'. assumption.
        -- assumption.
    + destruct (Z.ltb_spec (Z.max 1 (Z.of_nat sig)) (k - (lim - 1))) as [|L]; [discriminate|]. injection H as <-. split; cbn [ss_dangling ss_started ss_signalled ss_semaphore ss_todo ss_finished].
      * reflexivity.
      * exists k. repeat split; try lia. apply phase_waited; try assumption; lia.
      * split; assumption.
      * assumption.
    + injection H as <-. split; cbn [ss_dangling ss_started ss_signalled ss_semaphore ss_todo ss_finished].
      * reflexivity.
      * exists k. repeat split; try lia. unfold tail. destruct (Z.eqb_spec k n) as [->|Hne]; cbn [app].
        -- rewrite loop_nil by lia. cbn [app]. apply phase_last; [assumption|lia].
        -- replace k with (k + 1 - 1) at 1 by lia. apply phase_next; try assumption; lia.
      * split; assumption.
      * assumption.
    + destruct (Nat.eqb_spec sig (length (zseq 1 n))) as [E|]; [|discriminate]. injection H as <-. rewrite Hlen in E. split; cbn [ss_dangling ss_started ss_signalled ss_semaphore ss_todo ss_finished].
      * reflexivity.
      * exists n. repeat split; try lia. pose proof (phase_next (Z.max 1 (Z.of_nat sig)) (Z.of_nat sig) (n + 1) l W) as X. rewrite loop_nil in X by lia. cbn [app] in X.
        replace (n + 1 - 1) with n in X by lia. apply X; lia.
      * split; assumption.
      * assumption.
  - destruct P as [W Hs]. inversion W as [E|c l W' E|l W' E]; subst.
    + discriminate.
    + injection H as <-. split; cbn [ss_dangling ss_started ss_signalled ss_semaphore ss_todo ss_finished]; try (split; assumption); try assumption; try reflexivity.
      exists (Z.of_nat sig). repeat split; try lia; assumption.
    + injection H as <-. split; cbn [ss_dangling ss_started ss_signalled ss_semaphore ss_todo ss_finished].
      * reflexivity.
      * exists 0. repeat split; try lia. apply (phase_next 1 (Z.of_nat 0) 1); try assumption; lia.
      * split; [constructor|intros x []].
      * intros t Ht. lia.
Qed.

Lemma phase_mono lo lo' sig k todo : lo <= lo' -> sig <= k -> phase lo sig k todo -> forall sig', sig <= sig' <= k -> phase lo' sig' k todo.
Proof.
  intros Hlo _ P sig' Hs. inversion P as [t l W T1 T2 T3 E1 E2|t l W T1 T2 E1 E2|t l W T1 T2 E1 E2|l W T1 E1 E2]; subst.
  - apply phase_next; try assumption; lia.
  - apply phase_started; try assumption; lia.
  - apply phase_waited; try assumption; lia.
  - apply phase_last; try assumption; lia.
Qed.

Lemma inv_step e s s' : Inv s -> sim_step e s = Some s' -> Inv s'.
Proof.
  intros I H. destruct e as [|t|]; [now apply inv_main with s| |].
  - destruct s as [todo log sem st fin sig dang]. destruct I as [I1 I2 [I3 I3'] I4]. fields.
    destruct (is_in t st) eqn:E1; [|discriminate]. destruct (is_in t fin) eqn:E2; [discriminate|]. cbn in H. injection H as <-.
    apply is_in_spec in E1. apply is_in_false in E2. split; cbn [ss_dangling ss_started ss_signalled ss_semaphore ss_todo ss_finished]; try assumption.
    + split; [now constructor|]. intros x [<-|Hx]; auto.
    + intros x Hx. right. auto.
  - destruct s as [todo log sem st fin sig dang]. destruct I as [I1 [k [Hk [Est [Hsig P]]]] [I3 I3'] I4]. fields. subst st dang. unfold step_signal in H. fields.
    destruct (nth_error (zseq 1 k) sig) as [t|] eqn:E; [|discriminate]. destruct (is_in t fin) eqn:E1; [|discriminate]. apply is_in_spec in E1.
    assert (Hl : (sig < Z.to_nat k)%nat) by (rewrite <- (zseq_length 1 k); apply nth_error_Some; congruence).
    rewrite nth_error_zseq in E by assumption. assert (Et : t = 1 + Z.of_nat sig) by congruence. subst t. clear E.
    destruct sem as [[d lo]|]; [|destruct P; lia]. apply (f_equal (fun o => match o with Some x => x | None => s' end)) in H. subst s'. destruct P as [-> [-> P]]. split; cbn [ss_dangling ss_started ss_signalled ss_semaphore ss_todo ss_finished].
    + reflexivity.
    + exists k. split; [lia|]. split; [reflexivity|]. split; [lia|]. split; [reflexivity|]. split; [lia|].
      apply (phase_mono (Z.max 1 (Z.of_nat sig)) _ (Z.of_nat sig)); try lia. assumption.
    + split; assumption.
    + intros t Ht. destruct (Z.eq_dec t (Z.of_nat (S sig))) as [->|]; [|apply I4; lia]. replace (Z.of_nat (S sig)) with (1 + Z.of_nat sig) by lia. assumption.
Qed.

Lemma inv_init program : wf program -> Inv (sim_init program).
Proof.
  intros W. split; cbn.
  - reflexivity.
  - exists 0. repeat split; try lia. assumption.
  - split; [constructor|intros x []].
  - lia.
Qed.
Lemma inv_run es : forall s s', Inv s -> sim_run es s = Some s' -> Inv s'.
Proof.
  induction es as [|e es IH]; intros s s' I H; cbn in H; [now injection H as <-|].
  destruct (sim_step e s) as [s1|] eqn:E; [|discriminate]. eapply IH; [|exact H]. eapply inv_step; eassumption.
Qed.

(** ** Consequences *)
Lemma filter_le {A} (f : A -> bool) l : (length (filter f l) <= length l)%nat.
Proof. induction l as [|x l IH]; cbn; [lia|]. destruct (f x); cbn; lia. Qed.

Lemma in_flight_bound k m fin : 0 <= m <= k -> (forall t, 1 <= t <= m -> In t fin) ->
  Z.of_nat (length (filter (fun t => negb (is_in t fin)) (zseq 1 k))) <= k - m.
Proof.
  intros Hm H. replace k with (m + (k - m)) at 1 by lia. rewrite zseq_app by lia. rewrite filter_app, app_length.
  assert (E : filter (fun t => negb (is_in t fin)) (zseq 1 m) = []).
  { destruct (filter (fun t => negb (is_in t fin)) (zseq 1 m)) as [|x l] eqn:E; [reflexivity|]. exfalso.
    assert (Hx : In x (filter (fun t => negb (is_in t fin)) (zseq 1 m))) by (rewrite E; now left). apply filter_In in Hx. destruct Hx as [H1 H2].
    apply in_zseq in H1. apply negb_true_iff, is_in_false in H2. apply H2, H. lia. }
  rewrite E. cbn [length plus]. pose proof (filter_le (fun t => negb (is_in t fin)) (zseq (1 + m) (k - m))) as L. rewrite zseq_length in L. lia.
Qed.

Lemma inv_flight s : Inv s -> Z.of_nat (length (in_flight s)) <= lim + 1 /\ (In 1 (ss_finished s) -> Z.of_nat (length (in_flight s)) <= lim).
Proof.
  destruct s as [todo log sem st fin sig dang]. intros [I1 [k [Hk [Est [Hsig P]]]] [I3 I3'] I4]. unfold in_flight. cbn [ss_dangling ss_started ss_signalled ss_semaphore ss_todo ss_finished] in *. subst st.
  pose proof (in_flight_bound k (Z.of_nat sig) fin ltac:(lia) I4) as B.
  assert (Hb : k <= Z.max 1 (Z.of_nat sig) + lim).
  { destruct sem as [[d lo]|]; [|lia]. destruct P as [-> [-> P]]. inversion P; subst; lia. }
  split; [lia|]. intros H1. destruct (Z.eq_dec (Z.of_nat sig) 0) as [E|]; [|lia].
  destruct (Z.eq_dec k 0) as [->|]; [cbn; lia|].
  pose proof (in_flight_bound k 1 fin ltac:(lia)) as B1. rewrite E in *. enough (Z.of_nat (length (filter (fun t => negb (is_in t fin)) (zseq 1 k))) <= k - 1) by lia.
  apply B1. intros t Ht. replace t with 1 by lia. assumption.
Qed.

(** Each event brings the end closer. *)
Definition weight (c : command) : nat := match c with StartTimeStep _ => 3 | _ => 1 end.
Definition todo_weight (l : list command) : nat := fold_right (fun c acc => (weight c + acc)%nat) 0%nat l.
Definition measure (s : sim_state) : nat := (todo_weight (ss_todo s) + (length (ss_started s) - length (ss_finished s)) + (length (ss_started s) - ss_signalled s))%nat.

Lemma inv_all_finished s k : Inv s -> ss_started s = zseq 1 k -> Z.of_nat (ss_signalled s) = k -> length (ss_finished s) = length (ss_started s).
Proof.
  intros [_ _ [I3 I3'] I4] E1 E2. rewrite E1 in *. apply Nat.le_antisymm; apply NoDup_incl_length; try assumption.
  - apply zseq_NoDup.
  - intros t Ht. apply in_zseq in Ht. apply I4. lia.
Qed.

Lemma measure_step e s s' : Inv s -> sim_step e s = Some s' -> measure s = S (measure s').
Proof.
  intros I H. assert (I' := inv_step e s s' I H). pose proof (inv_finished s I) as [F1 F2]. pose proof (NoDup_incl_length F1 F2) as FL.
  destruct (inv_started s I) as [k [Hk [Est [Hsig P]]]].
  destruct e as [|t|].
  - cbn [sim_step] in H. unfold step_main in H. destruct s as [todo log sem st fin sig dang]. fields.
    destruct todo as [|c todo]; [discriminate|]. unfold measure. fields. destruct c; cbn [todo_weight fold_right weight].
    + injection H as <-. reflexivity.
    + injection H as <-. cbn. destruct sem as [[d lo]|].
      * exfalso. destruct P as [_ [_ P]]. inversion P as [t l W T1 T2 T3 E1 E2| | |]; subst.
        destruct (Z.eq_dec t (n + 1)) as [->|]; [rewrite loop_nil in E2 by lia; discriminate|rewrite loop_cons in E2 by lia; discriminate].
      * destruct P as [_ Hs]. pose proof (inv_all_finished _ k I Est Hs) as AF. cbn in AF. rewrite Est in AF |- *. rewrite zseq_length in *. lia.
    + injection H as <-. cbn. rewrite app_length. cbn. rewrite Est in *. rewrite zseq_length in *. lia.
    + destruct sem as [[d lo]|]; [|discriminate]. destruct (lo <? time_step - d); [discriminate|]. injection H as <-. reflexivity.
    + destruct (sig =? length st)%nat; [|discriminate]. injection H as <-. reflexivity.
    + injection H as <-. reflexivity.
  - destruct s as [todo log sem st fin sig dang]. fields. destruct (is_in t st) eqn:E1; [|discriminate]. destruct (is_in t fin) eqn:E2; [discriminate|]. cbn in H. injection H as <-.
    pose proof (inv_finished _ I') as [G1 G2]. pose proof (NoDup_incl_length G1 G2) as GL. cbn in GL. unfold measure. cbn. rewrite Est in *. rewrite zseq_length in *. lia.
  - cbn [sim_step] in H. unfold step_signal in H. destruct s as [todo log sem st fin sig dang]. fields. destruct (nth_error st sig) as [t|] eqn:E; [|discriminate].
    assert (Hl : (sig < length st)%nat) by (apply nth_error_Some; congruence). destruct (is_in t fin); [|discriminate].
    destruct sem as [[d lo]|]; injection H as <-; unfold measure; cbn; lia.
Qed.
Lemma run_length es : forall s s', Inv s -> sim_run es s = Some s' -> (length es <= measure s)%nat.
Proof.
  induction es as [|e es IH]; intros s s' I H; cbn in H; [cbn; lia|]. destruct (sim_step e s) as [s1|] eqn:E; [|discriminate].
  rewrite (measure_step e s s1 I E). cbn. apply le_n_S. eapply IH; [|exact H]. eapply inv_step; eassumption.
Qed.

Lemma not_stuck s : Inv s -> ss_todo s <> [] -> exists e s', sim_step e s = Some s'.
Proof.
  intros I Hne. destruct (inv_started s I) as [k [Hk [Est [Hsig P]]]].
  destruct (Z.eq_dec (Z.of_nat (ss_signalled s)) k) as [E|NE].
  - exists Main. cbn. unfold step_main. destruct (ss_todo s) as [|c todo] eqn:Et; [congruence|]. destruct c; try (eexists; reflexivity).
    + destruct (ss_semaphore s) as [[d lo]|].
      * destruct P as [-> [-> P]]. inversion P as [t l W T1 T2 T3 E1 E2|t l W T1 T2 E1 E2| |]; subst.
        -- destruct (Z.eq_dec t (n + 1)) as [->|]; [rewrite loop_nil in E2 by lia; discriminate|rewrite loop_cons in E2 by lia; discriminate].
        -- match goal with |- context [?x <? ?y] => destruct (Z.ltb_spec x y) end; [lia|]. eexists. reflexivity.
      * destruct P as [W _]. inversion W.
    + rewrite Est, zseq_length. replace (ss_signalled s =? Z.to_nat k)%nat with true by (symmetry; apply Nat.eqb_eq; lia). eexists. reflexivity.
  - set (t := 1 + Z.of_nat (ss_signalled s)). assert (Hnth : nth_error (ss_started s) (ss_signalled s) = Some t) by (rewrite Est, nth_error_zseq by lia; reflexivity).
    destruct (is_in t (ss_finished s)) eqn:Ef.
    + exists Signal. cbn [sim_step]. unfold step_signal. rewrite Hnth, Ef. destruct (ss_semaphore s) as [[d lo]|]; eexists; reflexivity.
    + exists (Finish t). cbn [sim_step]. rewrite Ef. assert (Hin : In t (ss_started s)) by (eapply nth_error_In; exact Hnth). apply is_in_spec in Hin. rewrite Hin. eexists. reflexivity.
Qed.
End Invariant.

Definition program (n r : Z) (prog : list command) : Prop := run_deterministic n r = Ok prog \/ exists samples, run_stochastic samples n r = Ok prog.

Lemma wf_app n lim l l' : wf n lim l -> wf n lim l' -> wf n lim (l ++ l').
Proof.
  intros H H'. induction H as [|c l H IH|l H IH]; cbn [app]; [assumption|now constructor|].
  rewrite <- app_assoc. cbn [app]. now constructor.
Qed.

Lemma deterministic_wf n r prog : 1 <= n -> 0 <= r -> run_deterministic n r = Ok prog -> wf n (effective_limit n r) prog.
Proof.
  intros Hn Hr H. unfold run_deterministic in H. destruct (Z.ltb_spec 0 n); [|lia]. unfold simulate in H.
  destruct (Z.ltb_spec r 0); [lia|]. destruct (Z.ltb_spec n 1); [lia|]. cbn [orb obind] in H. injection H as <-. do 2 constructor.
  rewrite <- app_assoc. cbn [app]. replace (n - 1 + 1) with (n + 1 - 1) by lia. fold (loop n 1).
  replace (if 0 <? r then r else n + 1 - 1) with (effective_limit n r) by (unfold effective_limit; destruct (0 <? r); lia).
  apply (wf_sim n). repeat constructor.
Qed.
Lemma stochastic_split samples n r prog : run_stochastic samples n r = Ok prog -> (exists d, run_deterministic n r = Ok d) \/ samples <= 0.
Proof.
  intros H. destruct (Z_lt_le_dec 0 samples) as [L|L]; [|now right]. left. unfold run_stochastic in H. rewrite zseq_cons in H by assumption. cbn [map sequence] in H.
  destruct (run_deterministic n r) as [d| |]; cbn [obind] in H; try discriminate. eauto.
Qed.
Lemma sequence_const {A B} (f : A -> outcome B) (g : A -> B) l : (forall x, f x = Ok (g x)) -> sequence (map f l) = Ok (map g l).
Proof. intros H. induction l as [|x l IH]; [reflexivity|]. cbn [map sequence]. now rewrite H, IH. Qed.
Lemma stochastic_form samples n r d : run_deterministic n r = Ok d -> run_stochastic samples n r =
  Ok (flat_map (fun s => [Call (PreprocessProgressor s); Call (PreprocessModel s)] ++ d ++ [Call PostprocessModel; Call PostprocessProgressor]) (zseq 1 samples)).
Proof.
  intros H. unfold run_stochastic. rewrite (sequence_const _ (fun s => [Call (PreprocessProgressor s); Call (PreprocessModel s)] ++ d ++ [Call PostprocessModel; Call PostprocessProgressor])).
  - cbn [obind]. now rewrite <- flat_map_concat_map.
  - intros s. now rewrite H.
Qed.

Lemma program_wf n r prog : 1 <= n -> 0 <= r -> program n r prog -> wf n (effective_limit n r) prog.
Proof.
  intros Hn Hr [H|[samples H]]; [now apply deterministic_wf|].
  destruct (stochastic_split _ _ _ _ H) as [[d E]|L].
  - rewrite (stochastic_form _ _ _ _ E) in H. injection H as <-. pose proof (deterministic_wf n r d Hn Hr E) as W.
    induction (zseq 1 samples) as [|s l IH]; cbn [flat_map]; [constructor|]. apply wf_app; [|assumption]. cbn [app]. do 2 constructor. apply wf_app; [assumption|]. repeat constructor.
  - unfold run_stochastic in H. rewrite zseq_nil in H by assumption. injection H as <-. constructor.
Qed.
Lemma effective_pos n r : 1 <= n -> 1 <= effective_limit n r.
Proof. intros H. unfold effective_limit. destruct (Z.ltb_spec 0 r); lia. Qed.

Lemma rate_limit n r prog es s : 1 <= n -> 0 <= r -> program n r prog -> sim_run es (sim_init prog) = Some s ->
  Z.of_nat (length (in_flight s)) <= effective_limit n r + 1 /\
  (In 1 (ss_finished s) -> Z.of_nat (length (in_flight s)) <= effective_limit n r).
Proof.
  intros Hn Hr Hp H. pose proof (effective_pos n r Hn) as HL. apply inv_flight with n; try assumption.
  eapply inv_run; [exact Hn| |exact H]. apply inv_init; try assumption. now apply program_wf.
Qed.

Lemma nothing_left n r prog es s : 1 <= n -> 0 <= r -> program n r prog -> sim_run es (sim_init prog) = Some s ->
  ss_dangling s = false /\
  (ss_todo s = [] \/ (exists c rest, ss_todo s = Call c :: rest /\ forall t, c <> SimulateProgressor t) -> in_flight s = []).
Proof.
  intros Hn Hr Hp H. pose proof (effective_pos n r Hn) as HL.
  assert (I : Inv n (effective_limit n r) s) by (eapply inv_run; [exact Hn| |exact H]; apply inv_init; try assumption; now apply program_wf).
  split; [apply I|]. intros Ht. destruct (inv_started _ _ _ I) as [k [Hk [Est [Hsig P]]]].
  assert (Hs : Z.of_nat (ss_signalled s) = k).
  { destruct (ss_semaphore s) as [[d lo]|]; [|apply P]. exfalso. destruct P as [_ [_ P]].
    inversion P as [t l W T1 T2 T3 E1 E2|t l W T1 T2 E1 E2|t l W T1 T2 E1 E2|l W T1 E1 E2].
    - destruct (Z.eq_dec t (n + 1)) as [->|]; [rewrite loop_nil in E2 by lia|rewrite loop_cons in E2 by lia]; rewrite <- E2 in Ht; destruct Ht as [Ht|[c [rest [Ht _]]]]; discriminate.
    - rewrite <- E2 in Ht. destruct Ht as [Ht|[c [rest [Ht _]]]]; discriminate.
    - rewrite <- E2 in Ht. destruct Ht as [Ht|[c [rest [Ht N]]]]; [discriminate|]. injection Ht as <- _. now apply (N k).
    - rewrite <- E2 in Ht. destruct Ht as [Ht|[c [rest [Ht _]]]]; discriminate. }
  subst k. pose proof (in_flight_bound _ _ (ss_finished s) (conj (proj1 Hk) (Z.le_refl _)) (inv_signalled _ _ _ I)) as B.
  unfold in_flight. rewrite Est. destruct (filter _ (zseq 1 _)); [reflexivity|cbn [length] in B; lia].
Qed.

Lemma ends n r prog : 1 <= n -> 0 <= r -> program n r prog -> exists bound, forall es s, sim_run es (sim_init prog) = Some s ->
  (length es <= bound)%nat /\ (ss_todo s <> [] -> exists e s', sim_step e s = Some s').
Proof.
  intros Hn Hr Hp. pose proof (effective_pos n r Hn) as HL. pose proof (inv_init n (effective_limit n r) Hn prog (program_wf n r prog Hn Hr Hp)) as I0.
  exists (measure (sim_init prog)). intros es s H. split; [exact (run_length n (effective_limit n r) Hn es _ _ I0 H)|].
  intros Ht. apply (not_stuck n (effective_limit n r)); try assumption. eapply inv_run; eassumption.
Qed.

Lemma calls_app l l' : calls (l ++ l') = calls l ++ calls l'.
Proof. unfold calls. apply flat_map_app. Qed.
Lemma calls_deterministic n r prog : run_deterministic n r = Ok prog -> calls prog = expected_deterministic n.
Proof.
  intros H. unfold run_deterministic in H. unfold expected_deterministic. destruct (Z.ltb_spec 0 n) as [L|L].
  - unfold simulate in H. destruct ((r <? 0) || (n <? 1)); [discriminate|]. cbn [obind] in H. apply (f_equal (fun o => match o with Ok x => x | _ => [] end)) in H. cbv beta iota in H. subst prog.
    rewrite calls_app, (calls_app (MakeSemaphore _ _ :: _)).
    change (calls (MakeSemaphore ((if 0 <? r then r else n - 1 + 1) - 1) 1 :: flat_map (time_step_commands n) (zseq 1 (n - 1 + 1)) ++ [DropSemaphore]))
      with (calls (flat_map (time_step_commands n) (zseq 1 (n - 1 + 1)) ++ [DropSemaphore])).
    rewrite calls_app. change (calls [DropSemaphore]) with (@nil call). rewrite app_nil_r. replace (n - 1 + 1) with n by lia.
    assert (E : forall l, calls (flat_map (time_step_commands n) l) = flat_map (fun t => [SimulateModel t; SimulateProgressor t]) l).
    { induction l as [|t l IH]; [reflexivity|]. cbn [flat_map]. rewrite calls_app, IH. f_equal.
      unfold time_step_commands. destruct (t =? n); reflexivity. }
    rewrite E. reflexivity.
  - cbn [obind] in H. injection H as <-. unfold expected_steps. rewrite zseq_nil by assumption. reflexivity.
Qed.
Lemma calls_stochastic samples n r prog : run_stochastic samples n r = Ok prog -> calls prog = expected_stochastic samples n.
Proof.
  intros H. destruct (stochastic_split _ _ _ _ H) as [[d E]|L].
  - rewrite (stochastic_form _ _ _ _ E) in H. apply (f_equal (fun o => match o with Ok x => x | _ => [] end)) in H. cbv beta iota in H. subst prog. unfold expected_stochastic. pose proof (calls_deterministic n r d E) as C.
    induction (zseq 1 samples) as [|s l IH]; cbn [flat_map]; [reflexivity|]. rewrite calls_app, IH. f_equal. rewrite calls_app, calls_app, C. reflexivity.
  - unfold run_stochastic in H. rewrite zseq_nil in H by assumption. injection H as <-. unfold expected_stochastic. rewrite zseq_nil by assumption. reflexivity.
Qed.
Lemma in_order prog es s : sim_run es (sim_init prog) = Some s -> exists rest, calls prog = ss_log s ++ rest /\ (ss_todo s = [] -> rest = []).
Proof.
  intros H. apply log_run in H. cbn [sim_init ss_log ss_todo app] in H. exists (calls (ss_todo s)). split; [congruence|]. intros ->. reflexivity.
Qed.
