(** Routing with an accumulator that follows two others: whenever these do not fail, the first does not either, and the results are related.
    Used to compare routing in floating point arithmetic with routing in exact arithmetic. *)
From Verif Require Import Common CommonProofs IndexModel DecompModel ArrayModel GridModel FlowModel RouterModel.

Inductive Forall3 {B1 B2 B3 : Type} (R : B1 -> B2 -> B3 -> Prop) : list B1 -> list B2 -> list B3 -> Prop :=
| F3_nil : Forall3 R [] [] []
| F3_cons a b c l m n : R a b c -> Forall3 R l m n -> Forall3 R (a :: l) (b :: m) (c :: n).

Lemma Forall3_nth {B1 B2 B3} (R : B1 -> B2 -> B3 -> Prop) l m n : Forall3 R l m n -> forall k b, nth_error m k = Some b ->
  exists a c, nth_error l k = Some a /\ nth_error n k = Some c /\ R a b c.
Proof. induction 1 as [|a b c l m n H F IH]; intros [|k] b' E; cbn in *; try discriminate; [injection E as <-; eauto|auto]. Qed.
Lemma Forall3_len {B1 B2 B3} (R : B1 -> B2 -> B3 -> Prop) l m n : Forall3 R l m n -> length l = length m /\ length l = length n.
Proof. induction 1 as [|a b c l m n H F IH]; cbn; [auto|]. destruct IH. split; congruence. Qed.
Lemma Forall3_upd {B1 B2 B3} (R : B1 -> B2 -> B3 -> Prop) l m n : Forall3 R l m n -> forall k a b c m' n', R a b c ->
  upd_nth k b m = Some m' -> upd_nth k c n = Some n' -> exists l', upd_nth k a l = Some l' /\ Forall3 R l' m' n'.
Proof.
  induction 1 as [|a0 b0 c0 l m n H F IH]; intros [|k] a b c m' n' HR E1 E2; cbn in *; try discriminate.
  - injection E1 as <-. injection E2 as <-. eexists. split; [reflexivity|]. now constructor.
  - destruct (upd_nth k b m) as [m1|] eqn:E3; [|discriminate]. destruct (upd_nth k c n) as [n1|] eqn:E4; [|discriminate]. injection E1 as <-. injection E2 as <-.
    destruct (IH k a b c m1 n1 HR E3 E4) as [l1 [-> F1]]. eexists. split; [reflexivity|]. now constructor.
Qed.
Lemma Forall3_app {B1 B2 B3} (R : B1 -> B2 -> B3 -> Prop) l m n l' m' n' : Forall3 R l m n -> Forall3 R l' m' n' -> Forall3 R (l ++ l') (m ++ m') (n ++ n').
Proof. induction 1; intros; cbn; [assumption|]. constructor; auto. Qed.
Lemma Forall3_map {B B1 B2 B3} (R : B1 -> B2 -> B3 -> Prop) (f : B -> B1) (g : B -> B2) (h : B -> B3) l : (forall x, In x l -> R (f x) (g x) (h x)) -> Forall3 R (map f l) (map g l) (map h l).
Proof. induction l as [|x l IH]; intros H; constructor; [apply H; now left|]. apply IH. intros. apply H. now right. Qed.

(** Computations: when the second and third succeed the first does *)
Definition OR {B1 B2 B3 : Type} (R : B1 -> B2 -> B3 -> Prop) (o1 : outcome B1) (o2 : outcome B2) (o3 : outcome B3) : Prop :=
  forall y2 y3, o2 = Ok y2 -> o3 = Ok y3 -> exists y1, o1 = Ok y1 /\ R y1 y2 y3.
Definition same3 {B : Type} (a b c : B) : Prop := a = b /\ a = c.
Lemma OR_ok {B1 B2 B3} (R : B1 -> B2 -> B3 -> Prop) a b c : R a b c -> OR R (Ok a) (Ok b) (Ok c).
Proof. intros H y2 y3 E2 E3. injection E2 as <-. injection E3 as <-. eauto. Qed.
Lemma OR_UB {B1 B2 B3} (R : B1 -> B2 -> B3 -> Prop) o1 o3 : OR R o1 UB o3. Proof. intros y2 y3 E. discriminate. Qed.
Lemma OR_same {B} (o : outcome B) : OR same3 o o o.
Proof. intros y2 y3 E2 E3. exists y2. split; [exact E2|]. split; congruence. Qed.
Lemma OR_bind {B1 B2 B3 C1 C2 C3} (R : B1 -> B2 -> B3 -> Prop) (S : C1 -> C2 -> C3 -> Prop) o1 o2 o3 f1 f2 f3 :
  OR R o1 o2 o3 -> (forall a b c, R a b c -> OR S (f1 a) (f2 b) (f3 c)) -> OR S (obind o1 f1) (obind o2 f2) (obind o3 f3).
Proof.
  intros H HF z2 z3 E2 E3. destruct o2 as [y2| |]; try discriminate E2. destruct o3 as [y3| |]; try discriminate E3.
  destruct (H y2 y3 eq_refl eq_refl) as [y1 [-> HR]]. cbn in *. apply (HF y1 y2 y3 HR z2 z3 E2 E3).
Qed.
Lemma OR_bind_same {B C1 C2 C3} (S : C1 -> C2 -> C3 -> Prop) (o : outcome B) f1 f2 f3 :
  (forall b, o = Ok b -> OR S (f1 b) (f2 b) (f3 b)) -> OR S (obind o f1) (obind o f2) (obind o f3).
Proof. intros H. destruct o as [b| |]; cbn; [apply H; reflexivity|intros ? ? E; discriminate|intros ? ? E; discriminate]. Qed.
Lemma OR_seq {B B1 B2 B3} (R : B1 -> B2 -> B3 -> Prop) (f : B -> outcome B1) (g : B -> outcome B2) (h : B -> outcome B3) l :
  (forall x, In x l -> OR R (f x) (g x) (h x)) -> OR (Forall3 R) (sequence (map f l)) (sequence (map g l)) (sequence (map h l)).
Proof.
  induction l as [|x l IH]; intros H; cbn [map sequence]; [apply OR_ok; constructor|].
  eapply OR_bind; [apply H; now left|]. intros a b c HR. eapply OR_bind; [apply IH; intros; apply H; now right|]. intros l1 l2 l3 HF. apply OR_ok. now constructor.
Qed.

(** Grids *)
Definition GR {B1 B2 B3 : Type} (R : B1 -> B2 -> B3 -> Prop) (a : grid B1) (b : grid B2) (c : grid B3) : Prop :=
  (g0 a = g0 b /\ g1 a = g1 b) /\ (g0 a = g0 c /\ g1 a = g1 c) /\ Forall3 R (gl a) (gl b) (gl c).
Lemma gget_OR {B1 B2 B3} (R : B1 -> B2 -> B3 -> Prop) a b c x y : GR R a b c -> OR R (gget a x y) (gget b x y) (gget c x y).
Proof.
  intros [[E1 E2] [[E3 E4] F]] v2 v3. unfold gget, in_grid. rewrite <- E1, <- E2, <- E3, <- E4. destruct (_ && _); [|discriminate].
  unfold at_z. intros H2 H3. destruct (nth_z _ (gl b)) as [w2|] eqn:N2; [|discriminate]. destruct (nth_z _ (gl c)) as [w3|] eqn:N3; [|discriminate].
  injection H2 as ->. injection H3 as ->. unfold nth_z in *. destruct (_ <? 0); [discriminate|].
  destruct (Forall3_nth _ _ _ _ F _ _ N2) as [w1 [w3' [-> [N3' HR]]]]. rewrite N3 in N3'. injection N3' as <-. eauto.
Qed.
Lemma gset_OR {B1 B2 B3} (R : B1 -> B2 -> B3 -> Prop) a b c x y v1 v2 v3 : GR R a b c -> R v1 v2 v3 -> OR (GR R) (gset a x y v1) (gset b x y v2) (gset c x y v3).
Proof.
  intros [[E1 E2] [[E3 E4] F]] HR h2 h3. unfold gset, in_grid. rewrite <- E1, <- E2, <- E3, <- E4. destruct (_ && _); [|discriminate].
  unfold upd_z. destruct (_ <? 0); [discriminate|]. intros H2 H3. destruct (upd_nth _ _ (gl b)) as [w2|] eqn:N2; [|discriminate]. destruct (upd_nth _ _ (gl c)) as [w3|] eqn:N3; [|discriminate].
  injection H2 as <-. injection H3 as <-. destruct (Forall3_upd _ _ _ _ F _ _ _ _ _ _ HR N2 N3) as [w1 [-> F1]]. eexists. split; [reflexivity|]. repeat split; assumption.
Qed.

Section Sim.
Context {A1 A2 A3 X1 X2 X3 M1 M2 M3 : Type} (ac1 : accumulator A1 X1 M1) (ac2 : accumulator A2 X2 M2) (ac3 : accumulator A3 X3 M3).
Context (RA : A1 -> A2 -> A3 -> Prop) (RX : X1 -> X2 -> X3 -> Prop) (RM : M1 -> M2 -> M3 -> Prop).

(** What is asked of the accumulators *)
Record follows : Prop := Follows {
  fo_initial : RX (ac_initial ac1) (ac_initial ac2) (ac_initial ac3);
  fo_mark : RX (ac_mark_no_data ac1) (ac_mark_no_data ac2) (ac_mark_no_data ac3);
  fo_enter : forall a b c x y z, RA a b c -> RX x y z -> OR RX (ac_enter_cell ac1 a x) (ac_enter_cell ac2 b y) (ac_enter_cell ac3 c z);
  fo_leave : forall u v w x y z, RX u v w -> RX x y z -> OR RX (ac_leave_cell ac1 u x) (ac_leave_cell ac2 v y) (ac_leave_cell ac3 w z);
  fo_inter : forall a b c x y z, RM a b c -> RX x y z -> OR RX (ac_enter_inter ac1 a x) (ac_enter_inter ac2 b y) (ac_enter_inter ac3 c z);
  fo_outflow : forall x y z, RX x y z -> RM (ac_outflow ac1 x) (ac_outflow ac2 y) (ac_outflow ac3 z)
}.
Context (HF : follows) (nd : Z -> bool).

Definition message3 (a : Z * M1) (b : Z * M2) (c : Z * M3) : Prop := fst a = fst b /\ fst a = fst c /\ RM (snd a) (snd b) (snd c).
Definition channel3 (a : @channel M1) (b : @channel M2) (c : @channel M3) : Prop :=
  Forall3 message3 (ch_queue a) (ch_queue b) (ch_queue c) /\ ch_closed a = ch_closed b /\ ch_closed a = ch_closed c.

Record SR (s : @partition_state A1 X1 M1) (t : @partition_state A2 X2 M2) (u : @partition_state A3 X3 M3) : Prop := MkSR {
  sr_flow : same3 (ps_flow s) (ps_flow t) (ps_flow u);
  sr_args : GR RA (ps_args s) (ps_args t) (ps_args u);
  sr_original : same3 (ps_original s) (ps_original t) (ps_original u);
  sr_count : same3 (ps_count s) (ps_count t) (ps_count u);
  sr_result : GR RX (ps_result s) (ps_result t) (ps_result u);
  sr_outputs : same3 (ps_outputs s) (ps_outputs t) (ps_outputs u);
  sr_inputs : forall d, same3 (ps_inputs s d) (ps_inputs t d) (ps_inputs u d);
  sr_todo : same3 (ps_todo s) (ps_todo t) (ps_todo u);
  sr_sends : forall d, channel3 (ps_sends s d) (ps_sends t d) (ps_sends u d)
}.

Lemma SR_result s t u g h k : SR s t u -> GR RX g h k -> SR (set_result s g) (set_result t h) (set_result u k).
Proof. intros [] H. constructor; assumption. Qed.
Lemma SR_count s t u g : SR s t u -> SR (set_count s g) (set_count t g) (set_count u g).
Proof. intros []. constructor; try assumption. split; reflexivity. Qed.
Lemma SR_outputs s t u o : SR s t u -> SR (set_outputs s o) (set_outputs t o) (set_outputs u o).
Proof. intros []. constructor; try assumption. split; reflexivity. Qed.
Lemma SR_input s t u d i : SR s t u -> SR (set_input s d i) (set_input t d i) (set_input u d i).
Proof. intros []. constructor; try assumption. intros d'. cbn. unfold upd_z_fun. destruct (d' =? d); [split; reflexivity|auto]. Qed.
Lemma SR_todo s t u l : SR s t u -> SR (set_todo s l) (set_todo t l) (set_todo u l).
Proof. intros []. constructor; try assumption. split; reflexivity. Qed.
Lemma SR_send s t u d a b c : SR s t u -> channel3 a b c -> SR (set_send s d a) (set_send t d b) (set_send u d c).
Proof. intros [] H. constructor; try assumption. intros d'. cbn. unfold upd_z_fun. destruct (d' =? d); auto. Qed.

Lemma update_result_OR s t u r c b1 b2 b3 : SR s t u -> (forall x y z, RX x y z -> OR RX (b1 x) (b2 y) (b3 z)) ->
  OR SR (update_result s r c b1) (update_result t r c b2) (update_result u r c b3).
Proof.
  intros HS HB. unfold update_result. eapply OR_bind; [apply gget_OR, HS|]. intros x y z HX. eapply OR_bind; [apply HB, HX|]. intros x' y' z' HX'.
  eapply OR_bind; [apply gset_OR; [apply HS|exact HX']|]. intros g h k HG. apply OR_ok, SR_result; assumption.
Qed.
Lemma send_OR s t u d idx a b c : SR s t u -> RM a b c -> OR SR (send s d (idx, a)) (send t d (idx, b)) (send u d (idx, c)).
Proof.
  intros HS HM. unfold send. destruct (sr_sends _ _ _ HS d) as [F [E1 E2]]. rewrite <- E1, <- E2. destruct (ch_closed (ps_sends s d)); [apply OR_UB|].
  apply OR_ok, SR_send; [exact HS|]. split; [|split; reflexivity]. apply Forall3_app; [exact F|]. constructor; [|constructor]. split; [reflexivity|split; [reflexivity|exact HM]].
Qed.
Lemma SR_close s t u d : SR s t u -> SR (close s d) (close t d) (close u d).
Proof. intros HS. apply SR_send; [exact HS|]. destruct (sr_sends _ _ _ HS d) as [F _]. split; [exact F|]. split; reflexivity. Qed.

Lemma stop_OR hn s t u n0 n1 r c dr dc : SR s t u ->
  OR SR (stop_at_partition_output_cell ac1 hn s n0 n1 r c dr dc) (stop_at_partition_output_cell ac2 hn t n0 n1 r c dr dc) (stop_at_partition_output_cell ac3 hn u n0 n1 r c dr dc).
Proof.
  intros HS. unfold stop_at_partition_output_cell. apply OR_bind_same. intros [d idx] _. destruct (sr_outputs _ _ _ HS) as [<- <-]. apply OR_bind_same. intros o _.
  pose proof (SR_outputs _ _ _ o HS) as HS'. destruct (hn d); [|apply OR_ok, HS'].
  eapply OR_bind; [apply gget_OR, HS'|]. intros x y z HX. eapply OR_bind; [apply send_OR; [exact HS'|apply (fo_outflow HF), HX]|]. intros s' t' u' HS2. apply OR_ok. destruct (filter _ o); [apply SR_close|]; exact HS2.
Qed.

Lemma accumulate_OR fuel : forall hn s t u r c, SR s t u -> OR SR (accumulate ac1 fuel hn s r c) (accumulate ac2 fuel hn t r c) (accumulate ac3 fuel hn u r c).
Proof.
  induction fuel as [|fuel IH]; intros hn s t u r c HS; [apply OR_UB|]. cbn [accumulate].
  destruct (sr_count _ _ _ HS) as [E1 E2]. rewrite <- E1, <- E2. apply OR_bind_same. intros k _. destruct (negb (k =? 0)); [apply OR_UB|].
  eapply OR_bind; [apply gget_OR, HS|]. intros a1 a2 a3 HA. destruct (sr_flow _ _ _ HS) as [F1 F2]. rewrite <- F1, <- F2.
  eapply OR_bind; [apply update_result_OR; [exact HS|intros; now apply (fo_enter HF)]|]. intros s1 t1 u1 HS1.
  destruct (sr_flow _ _ _ HS1) as [F3 F4]. rewrite <- F3, <- F4. apply OR_bind_same. intros [[dr dc] within] _.
  destruct ((dr =? 0) && (dc =? 0)); [apply OR_ok, HS1|]. destruct (negb within); [apply stop_OR, HS1|].
  eapply OR_bind; [apply gget_OR, HS1|]. intros x y z HX. eapply OR_bind; [apply update_result_OR; [exact HS1|intros; now apply (fo_leave HF)]|]. intros s2 t2 u2 HS2.
  destruct (sr_count _ _ _ HS2) as [E3 E4]. rewrite <- E3, <- E4. apply OR_bind_same. intros k2 _. destruct (negb (1 <=? k2)); [apply OR_UB|].
  apply OR_bind_same. intros g _. destruct (0 <? k2 - 1); [apply OR_ok, SR_count, HS2|]. apply IH, SR_count, HS2.
Qed.

Lemma iterations_same s t u : SR s t u -> iterations t = iterations s /\ iterations u = iterations s.
Proof. intros HS. unfold iterations. destruct (sr_flow _ _ _ HS) as [<- <-]. auto. Qed.

Lemma intra_OR hn s t u r c : SR s t u -> OR SR (intra ac1 nd hn s r c) (intra ac2 nd hn t r c) (intra ac3 nd hn u r c).
Proof.
  intros HS. unfold intra. destruct (sr_flow _ _ _ HS) as [F1 F2]. rewrite <- F1, <- F2. apply OR_bind_same. intros d _. destruct (nd d).
  - apply update_result_OR; [exact HS|]. intros. apply OR_ok, (fo_mark HF).
  - destruct (sr_original _ _ _ HS) as [E1 E2]. rewrite <- E1, <- E2. apply OR_bind_same. intros k _. destruct (k =? 0); [|apply OR_ok, HS].
    destruct (iterations_same _ _ _ HS) as [-> ->]. apply accumulate_OR, HS.
Qed.

Lemma inter_OR hn s t u r c a b d : SR s t u -> RM a b d -> OR SR (inter ac1 hn s r c a) (inter ac2 hn t r c b) (inter ac3 hn u r c d).
Proof.
  intros HS HM. unfold inter. destruct (sr_count _ _ _ HS) as [E1 E2]. rewrite <- E1, <- E2. apply OR_bind_same. intros k _. destruct (negb (1 <=? k)); [apply OR_UB|].
  eapply OR_bind; [apply update_result_OR; [exact HS|intros; now apply (fo_inter HF)]|]. intros s1 t1 u1 HS1.
  destruct (sr_count _ _ _ HS1) as [E3 E4]. rewrite <- E3, <- E4. apply OR_bind_same. intros g _. destruct (iterations_same _ _ _ HS1) as [-> ->].
  destruct (k - 1 =? 0); [apply accumulate_OR, SR_count, HS1|apply OR_ok, SR_count, HS1].
Qed.

(** The state of all partitions *)
Definition StR (s : @router_state A1 X1 M1) (t : @router_state A2 X2 M2) (u : @router_state A3 X3 M3) : Prop := forall r c, SR (s r c) (t r c) (u r c).
Lemma StR_upd s t u r c a b d : StR s t u -> SR a b d -> StR (upd_part s r c a) (upd_part t r c b) (upd_part u r c d).
Proof. intros H HS r' c'. unfold upd_part. destruct (_ && _); [exact HS|apply H]. Qed.

Definition steps3 (o1 : option (outcome (@router_state A1 X1 M1))) (o2 : option (outcome (@router_state A2 X2 M2))) (o3 : option (outcome (@router_state A3 X3 M3))) : Prop :=
  match o1, o2, o3 with
  | None, None, None => True
  | Some a, Some b, Some c => OR StR a b c
  | _, _, _ => False
  end.

Lemma step_OR n0 n1 l s t u : StR s t u -> steps3 (step ac1 nd n0 n1 l s) (step ac2 nd n0 n1 l t) (step ac3 nd n0 n1 l u).
Proof.
  intros HS. destruct l as [r c|r c d]; cbn [step].
  - destruct (in_parts n0 n1 r c); [|exact I]. destruct (sr_todo _ _ _ (HS r c)) as [E1 E2]. rewrite <- E1, <- E2. destruct (ps_todo (s r c)) as [|[i j] todo]; [exact I|].
    cbn [steps3]. eapply OR_bind; [apply intra_OR, SR_todo, HS|]. intros a b e HR. apply OR_ok, StR_upd; assumption.
  - destruct (in_parts n0 n1 r c && (0 <=? d) && (d <? 8)); [|exact I]. destruct (sr_todo _ _ _ (HS r c)) as [E1 E2]. rewrite <- E1, <- E2. destruct (ps_todo (s r c)) as [|]; [|exact I].
    destruct (sr_inputs _ _ _ (HS r c) d) as [E3 E4]. rewrite <- E3, <- E4. destruct (ps_inputs (s r c) d) as [|? ?]; [exact I|].
    destruct (has_neighbour n0 n1 r c d); [|apply OR_UB]. destruct (neighbour_idxs d r c) as [rn cn].
    destruct (sr_sends _ _ _ (HS rn cn) (sender_direction d)) as [F [E5 E6]]. rewrite <- E5, <- E6.
    destruct F as [|[i1 m1] [i2 m2] [i3 m3] q1 q2 q3 [X [Y HM]] F].
    + destruct (ch_closed _); [apply OR_UB|exact I].
    + cbn [fst snd] in X, Y, HM. subst i2 i3. cbv zeta.
      set (s' := upd_part s _ _ _). set (t' := upd_part t _ _ _). set (u' := upd_part u _ _ _).
      assert (HS' : StR s' t' u'). { apply StR_upd; [exact HS|]. apply SR_send; [apply HS|]. split; [exact F|]. split; reflexivity. }
      destruct (sr_flow _ _ _ (HS' r c)) as [F1 F2]. rewrite <- F1, <- F2. destruct (idx_to_idxs d (g0 (ps_flow (s' r c))) (g1 (ps_flow (s' r c))) i1) as [i j].
      destruct (sr_inputs _ _ _ (HS' r c) d) as [E7 E8]. rewrite <- E7, <- E8. cbn [steps3]. apply OR_bind_same. intros inputs _.
      eapply OR_bind; [apply inter_OR; [apply SR_input, HS'|exact HM]|]. intros a b e HR. apply OR_ok, StR_upd; assumption.
Qed.

Lemma finished_same n0 n1 s t u : StR s t u -> finished n0 n1 t = finished n0 n1 s /\ finished n0 n1 u = finished n0 n1 s.
Proof.
  intros HS. unfold finished. induction (cells2 0 n0 0 n1) as [|[r c] l [IH1 IH2]]; [auto|]. cbn [forallb fst snd]. rewrite IH1, IH2.
  assert (P : part_finished (t r c) = part_finished (s r c) /\ part_finished (u r c) = part_finished (s r c)); [|destruct P as [-> ->]; auto].
  unfold part_finished. destruct (sr_todo _ _ _ (HS r c)) as [<- <-]. destruct (ps_todo (s r c)); [|auto].
  assert (I := sr_inputs _ _ _ (HS r c)). split; (induction all_directions as [|d l' IH]; [reflexivity|]; cbn [forallb]; rewrite IH; f_equal; destruct (I d) as [E1 E2]).
  - rewrite <- E1. reflexivity.
  - rewrite <- E2. reflexivity.
Qed.

(** A state from which no step fails, ever *)
Definition never_fails {A X M} (ac : accumulator A X M) (n0 n1 : Z) (st : @router_state A X M) : Prop :=
  forall steps st', run ac nd n0 n1 st steps st' -> forall l o, step ac nd n0 n1 l st' = Some o -> exists st'', o = Ok st''.

Lemma run_OR n0 n1 s steps s' : run ac1 nd n0 n1 s steps s' -> forall t u, StR s t u -> never_fails ac2 n0 n1 t -> never_fails ac3 n0 n1 u ->
  exists t' u', run ac2 nd n0 n1 t steps t' /\ run ac3 nd n0 n1 u steps u' /\ StR s' t' u'.
Proof.
  induction 1 as [s|s l s1 ls s2 E R IH]; intros t u HS N2 N3; [exists t, u; split; [constructor|split; [constructor|exact HS]]|].
  pose proof (step_OR n0 n1 l s t u HS) as O. rewrite E in O. destruct (step ac2 nd n0 n1 l t) as [o2|] eqn:E2; [|contradiction]. destruct (step ac3 nd n0 n1 l u) as [o3|] eqn:E3; [|contradiction].
  destruct (N2 [] t (run_nil _ _ _ _ _) l o2 E2) as [t1 ->]. destruct (N3 [] u (run_nil _ _ _ _ _) l o3 E3) as [u1 ->].
  destruct (O t1 u1 eq_refl eq_refl) as [s1' [ES HS1]]. injection ES as <-.
  destruct (IH t1 u1 HS1) as [t' [u' [R2 [R3 HS2]]]].
  - intros steps st' R'. apply (N2 (l :: steps) st'). econstructor; eassumption.
  - intros steps st' R'. apply (N3 (l :: steps) st'). econstructor; eassumption.
  - exists t', u'. split; [econstructor; eassumption|]. split; [econstructor; eassumption|exact HS2].
Qed.
End Sim.
