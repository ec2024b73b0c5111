(** Consequences for programs. *)
From Verif Require Import Common CommonProofs IdentifierModel IdentifierSpec IdentifierProofs.

Section Program.
Context (debug : bool) (ops : list op) (A : accepted [] ops) (O : owning ops).
Context (st : state) (E : exec debug ops start = Ok st).

Lemma reached : exists D live, inv D live st /\ forall i, In i D -> In (Invalidate i) ops.
Proof.
  destruct (exec_ok debug ops [] [] start start_inv A O) as [st' [D [live [E' [I H]]]]]. assert (st' = st) by congruence. subst st'.
  exists D, live. split; [exact I|]. intros i Hi. destruct (H i Hi) as [[]|Q]. exact Q.
Qed.
Lemma ident_known v x : lookup (st_store st) v = Some x -> id_ x = -1 \/ 0 <= id_ x < lib_next (st_lib st).
Proof. intros H. destruct reached as [D [live [[_ [_ [OK _]]] _]]]. destruct (OK v x (lookup_in _ _ _ H)) as [Q|[Q _]]; auto. Qed.

Lemma counts i : 0 <= i < lib_next (st_lib st) -> ~ In (Invalidate i) ops ->
  lib_refs (st_lib st) i = holders (st_store st) i /\ lib_closed (st_lib st) i = (if holders (st_store st) i =? 0 then 1 else 0).
Proof.
  intros Hi N. destruct reached as [D [live [[_ [_ [_ [_ H]]]] HD]]]. destruct (H i ltac:(lia)) as [[R|[_ Q]] [C _]]; [|now apply HD in Q].
  split; [exact R|]. rewrite <- R. apply C. lia.
Qed.
Lemma closed_at_most_once i : 0 <= i -> 0 <= lib_closed (st_lib st) i <= 1.
Proof.
  intros Hi. destruct reached as [D [live [[_ [_ [_ [_ H]]]] HD]]]. destruct (H i Hi) as [_ [C B]]. destruct (Z.lt_ge_cases i (lib_next (st_lib st))) as [L|L]; [rewrite C by lia; destruct (_ =? _); lia|].
  specialize (B L). lia.
Qed.
Lemma valid_count v x : lookup (st_store st) v = Some x -> is_valid (st_lib st) x = true ->
  reference_count (st_lib st) x = Ok (holders (st_store st) (id_ x)).
Proof.
  intros Hv V. unfold reference_count. rewrite V. unfold is_valid in V. destruct (Z.leb_spec 0 (id_ x)) as [P|]; [|discriminate V]. apply Z.ltb_lt in V.
  destruct reached as [D [live [[_ [_ [_ [_ H]]]] HD]]]. destruct (H (id_ x) P) as [[R|[R _]] _]; [now rewrite R|lia].
Qed.
Lemma open_while_held v x : lookup (st_store st) v = Some x -> 0 <= id_ x -> ~ In (Invalidate (id_ x)) ops ->
  is_valid (st_lib st) x = true /\ lib_closed (st_lib st) (id_ x) = 0.
Proof.
  intros Hv P N. destruct (ident_known v x Hv) as [Q|Q]; [lia|]. destruct (counts (id_ x) Q N) as [R C]. pose proof (holders_lookup _ _ _ Hv) as Hh.
  split; [unfold is_valid; rewrite (proj2 (Z.leb_le _ _) P); apply Z.ltb_lt; lia|]. rewrite C. rewrite (proj2 (Z.eqb_neq _ _)) by lia. reflexivity.
Qed.
End Program.

Lemma exec_app debug a b st : exec debug (a ++ b) st = obind (exec debug a st) (exec debug b).
Proof. revert st. induction a as [|o a IH]; intros st; [reflexivity|]. cbn [app exec]. destruct (step debug o st); cbn [obind]; auto. Qed.

Lemma step_alone debug o st st' v x : step debug o st = Ok st' -> leaves_alone v o -> lookup (st_store st) v = Some x -> lookup (st_store st') v = Some x.
Proof.
  destruct st as [L s]. cbn [st_store]. intros E A H.
  assert (AD : forall w y s1 s2, add s1 w y = Ok s2 -> lookup s1 v = Some x -> lookup s2 v = Some x).
  { intros w y s1 s2. unfold add. destruct (lookup s1 w) eqn:EL; [discriminate|]. intros [= <-] H1. cbn [lookup]. destruct (Z.eqb_spec w v) as [->|]; [congruence|exact H1]. }
  assert (UP : forall w y s1, w <> v -> lookup s1 v = Some x -> lookup (update s1 w y) v = Some x).
  { intros w y s1 N H1. rewrite lookup_update. destruct (Z.eqb_spec v w); [congruence|exact H1]. }
  destruct o as [w|w|w|w i|w u|w u|w|w u|w u|i]; cbn [step st_lib st_store leaves_alone] in *.
  - destruct (add s w nothing) eqn:E1; try discriminate E. injection E as <-. cbn [st_store]. eauto.
  - destruct (assert_invariant _ _ _); try discriminate E. cbn [obind] in E. destruct (add s w _) eqn:E1; try discriminate E. injection E as <-. cbn [st_store]. eauto.
  - destruct (add s w _) eqn:E1; try discriminate E. injection E as <-. cbn [st_store]. eauto.
  - destruct (add s w _) eqn:E1; try discriminate E. injection E as <-. cbn [st_store]. eauto.
  - destruct (get s u) as [y| |]; try discriminate E. cbn [obind] in E. destruct (copy_construct debug L y) as [[L1 z]| |]; try discriminate E. cbn [obind] in E. destruct (add s w z) eqn:E1; try discriminate E. injection E as <-. cbn [st_store]. eauto.
  - destruct (get s u) as [y| |]; try discriminate E. cbn [obind] in E. destruct (move_construct debug L y) as [[z z']| |]; try discriminate E. cbn [obind] in E. destruct (add (update s u z') w z) eqn:E1; try discriminate E. injection E as <-. cbn [st_store]. eauto.
  - destruct (get s w) as [y| |]; try discriminate E. cbn [obind] in E. destruct (destruct_ debug L y); try discriminate E. injection E as <-. cbn [st_store]. rewrite lookup_remove by congruence. exact H.
  - destruct (get s w) as [y| |]; try discriminate E. cbn [obind] in E. destruct (get s u) as [z| |]; try discriminate E. cbn [obind] in E. destruct (w =? u); [injection E as <-; exact H|].
    destruct (copy_assign debug L y z) as [[L1 z']| |]; try discriminate E. injection E as <-. cbn [st_store]. auto.
  - destruct A as [A1 A2]. destruct (get s w) as [y| |]; try discriminate E. cbn [obind] in E. destruct (get s u) as [z| |]; try discriminate E. cbn [obind] in E. destruct (w =? u).
    + destruct (move_assign_self debug L y) as [[L1 z']| |]; try discriminate E. injection E as <-. cbn [st_store]. auto.
    + destruct (move_assign debug L y z) as [[[L1 z'] z'']| |]; try discriminate E. injection E as <-. cbn [st_store]. auto.
  - injection E as <-. exact H.
Qed.
Lemma exec_alone debug ops v x : forall st st', exec debug ops st = Ok st' -> (forall o, In o ops -> leaves_alone v o) -> lookup (st_store st) v = Some x -> lookup (st_store st') v = Some x.
Proof.
  induction ops as [|o ops IH]; intros st st' E A H; [cbn in E; injection E as <-; exact H|]. cbn [exec] in E. destruct (step debug o st) as [st1| |] eqn:E1; try discriminate E. cbn [obind] in E.
  apply (IH st1 st' E); [intros o' Ho; apply A; now right|]. eapply step_alone; [exact E1|apply A; now left|exact H].
Qed.

(** What copies and moves do to the instances that are involved *)
Lemma effect_copy_construct debug st st' v w y : step debug (CopyConstruct v w) st = Ok st' -> lookup (st_store st) w = Some y -> v <> w ->
  lookup (st_store st') v = Some y /\ lookup (st_store st') w = Some y.
Proof.
  destruct st as [L s]. cbn [step st_lib st_store]. intros E H N. unfold get in E. rewrite H in E. cbn [obind] in E. unfold copy_construct in E.
  replace (Identifier (id_ y) (close_ y)) with y in E by now destruct y. destruct (if is_valid L y then _ else _) as [L1| |]; try discriminate E. cbn [obind] in E.
  destruct (assert_invariant debug L1 y); try discriminate E. cbn [obind] in E. unfold add in E. destruct (lookup s v); try discriminate E. injection E as <-. cbn [st_store lookup].
  rewrite Z.eqb_refl. split; [reflexivity|]. destruct (Z.eqb_spec v w); [contradiction|exact H].
Qed.
Lemma effect_move_construct debug st st' v w y : step debug (MoveConstruct v w) st = Ok st' -> lookup (st_store st) w = Some y -> v <> w ->
  lookup (st_store st') v = Some y /\ lookup (st_store st') w = Some nothing /\ st_lib st' = st_lib st.
Proof.
  destruct st as [L s]. cbn [step st_lib st_store]. intros E H N. unfold get in E. rewrite H in E. cbn [obind] in E. unfold move_construct in E.
  replace (Identifier (id_ y) (close_ y)) with y in E by now destruct y. destruct (assert_invariant debug L y); try discriminate E. cbn [obind] in E.
  destruct (assertion debug _); try discriminate E. cbn [obind] in E. unfold add in E. destruct (lookup (update s w nothing) v); try discriminate E. injection E as <-. cbn [st_store st_lib lookup].
  rewrite Z.eqb_refl. split; [reflexivity|]. split; [|reflexivity]. destruct (Z.eqb_spec v w); [contradiction|]. rewrite lookup_update, Z.eqb_refl, H. reflexivity.
Qed.
Lemma effect_copy_assign debug st st' v w y : step debug (CopyAssign v w) st = Ok st' -> lookup (st_store st) w = Some y ->
  lookup (st_store st') v = Some y /\ lookup (st_store st') w = Some y.
Proof.
  destruct st as [L s]. cbn [step st_lib st_store]. intros E H. unfold get in E. rewrite H in E. destruct (lookup s v) as [x|] eqn:EV; [|discriminate E]. cbn [obind] in E.
  destruct (Z.eqb_spec v w) as [->|N]; [injection E as <-; cbn [st_store]; rewrite H; now split|]. unfold copy_assign in E.
  destruct (close_if_valid debug L x) as [L1| |]; try discriminate E. cbn [obind] in E. destruct (if is_valid L1 _ then _ else _) as [L2| |]; try discriminate E. cbn [obind id_ close_] in E.
  replace (Identifier (id_ y) (close_ y)) with y in E by now destruct y. destruct (assert_invariant debug L2 y); try discriminate E. injection E as <-. cbn [st_store].
  rewrite !lookup_update, Z.eqb_refl, EV. split; [reflexivity|]. destruct (Z.eqb_spec w v); [congruence|exact H].
Qed.
Lemma effect_move_assign debug D live st st' v w y : inv D live st -> step debug (MoveAssign v w) st = Ok st' -> lookup (st_store st) w = Some y -> v <> w ->
  lookup (st_store st') v = Some y /\ lookup (st_store st') w = Some nothing.
Proof.
  destruct st as [L s]. cbn [step st_lib st_store]. intros [_ [_ [OK LK]]] E H N. cbn [st_lib st_store] in *. unfold get in E. rewrite H in E. destruct (lookup s v) as [x|] eqn:EV; [|discriminate E]. cbn [obind] in E.
  destruct (Z.eqb_spec v w) as [|_]; [contradiction|]. unfold move_assign in E.
  destruct (release_ok debug D L _ x LK (OK _ _ (lookup_in _ _ _ EV))) as [L1 [F1 _]]; [intros _; now apply (holders_lookup s v)|]. rewrite F1 in E. cbn [obind] in E.
  replace (Identifier (id_ y) (close_ y)) with y in E by now destruct y.
  assert (NT : forall b, assertion debug b <> Throw) by (intros b; unfold assertion; destruct (debug && negb b); discriminate).
  unfold assert_invariant in E. destruct (assertion debug _) as [[]| |] eqn:E1 in E; [|now apply NT in E1|discriminate E]. cbn [obind] in E.
  destruct (assertion debug _) as [[]| |] eqn:E2 in E; [|now apply NT in E2|discriminate E]. cbn [obind noexcept] in E. injection E as <-. cbn [st_store].
  rewrite !lookup_update, !Z.eqb_refl, H, EV. destruct (Z.eqb_spec v w); [contradiction|]. destruct (Z.eqb_spec w v); [congruence|]. now split.
Qed.

Lemma effects debug ops st o st' : accepted [] ops -> owning ops -> exec debug ops start = Ok st -> step debug o st = Ok st' ->
  match o with
  | Default v | Failed v => exists x, lookup (st_store st') v = Some x /\ is_valid (st_lib st') x = false
  | Open v => exists x, lookup (st_store st') v = Some x /\ is_valid (st_lib st') x = true /\ id_ x = lib_next (st_lib st) /\ holders (st_store st) (id_ x) = 0
  | CopyConstruct v w | CopyAssign v w => exists x y, lookup (st_store st) w = Some y /\ lookup (st_store st') v = Some x /\ id_ x = id_ y /\ lookup (st_store st') w = Some y
  | MoveConstruct v w => exists x y z, lookup (st_store st) w = Some y /\ lookup (st_store st') v = Some x /\ id_ x = id_ y /\ lookup (st_store st') w = Some z /\ is_valid (st_lib st') z = false
  | MoveAssign v w => v <> w -> exists x y z, lookup (st_store st) w = Some y /\ lookup (st_store st') v = Some x /\ id_ x = id_ y /\ lookup (st_store st') w = Some z /\ is_valid (st_lib st') z = false
  | Destruct v => lookup (st_store st') v = None
  | Invalidate _ => st_store st' = st_store st
  | Borrow _ _ => True
  end.
Proof.
  intros A O E S. destruct (reached debug ops A O st E) as [D [live [I _]]].
  assert (GW : forall w A (k : identifier -> outcome A) a, obind (get (st_store st) w) k = Ok a -> exists y, lookup (st_store st) w = Some y).
  { intros w T k a. unfold get. destruct (lookup _ w); [eauto|discriminate]. }
  assert (LN : forall s v x s', add s v x = Ok s' -> lookup s' v = Some x).
  { intros s v x s'. unfold add. destruct (lookup s v); [discriminate|]. intros [= <-]. cbn. now rewrite Z.eqb_refl. }
  destruct o as [v|v|v|v i|v w|v w|v|v w|v w|i]; try exact Logic.I.
  - cbn [step] in S. destruct (add _ v nothing) eqn:E1; try discriminate S. injection S as <-. exists nothing. split; [eapply LN; exact E1|reflexivity].
  - cbn [step] in S. destruct (assert_invariant _ _ _); try discriminate S. cbn [obind] in S. destruct (add _ v _) eqn:E1; try discriminate S. injection S as <-. eexists. split; [eapply LN; exact E1|].
    destruct I as [_ [_ [_ [N H]]]]. cbn [st_lib id_ lib_next]. replace (lib_next (st_lib st) + 1 - 1) with (lib_next (st_lib st)) by lia. split; [|split; [reflexivity|]].
    + unfold is_valid. cbn [id_ lib_refs]. replace (lib_next (st_lib st) + 1 - 1) with (lib_next (st_lib st)) by lia. rewrite (proj2 (Z.leb_le _ _) N). unfold put. now rewrite Z.eqb_refl.
    + destruct (H (lib_next (st_lib st)) N) as [_ [_ Q]]. apply Q. lia.
  - cbn [step] in S. destruct (add _ v _) eqn:E1; try discriminate S. injection S as <-. eexists. split; [eapply LN; exact E1|reflexivity].
  - destruct (GW w _ _ _ S) as [y Hy]. destruct (Z.eq_dec v w) as [->|N].
    { exfalso. cbn [step] in S. unfold get in S. rewrite Hy in S. cbn [obind] in S. destruct (copy_construct _ _ _) as [[L1 z]| |]; try discriminate S. cbn [obind] in S. unfold add in S. rewrite Hy in S. discriminate S. }
    destruct (effect_copy_construct debug st st' v w y S Hy N) as [Q1 Q2]. exists y, y. auto.
  - destruct (GW w _ _ _ S) as [y Hy]. destruct (Z.eq_dec v w) as [->|N].
    { exfalso. cbn [step] in S. unfold get in S. rewrite Hy in S. cbn [obind] in S. destruct (move_construct _ _ _) as [[L1 z]| |]; try discriminate S. cbn [obind] in S. unfold add in S. rewrite lookup_update, Z.eqb_refl, Hy in S. discriminate S. }
    destruct (effect_move_construct debug st st' v w y S Hy N) as [Q1 [Q2 _]]. exists y, y, nothing. auto.
  - destruct (GW v _ _ _ S) as [x Hx]. cbn [step] in S. unfold get in S. rewrite Hx in S. cbn [obind] in S. destruct (destruct_ _ _ _); try discriminate S. injection S as <-. cbn [st_store].
    apply lookup_none. rewrite keys_remove, filter_In, Z.eqb_refl. intros [_ Q]. discriminate Q.
  - destruct (GW v _ _ _ S) as [x Hx]. assert (Hw : exists y, lookup (st_store st) w = Some y).
    { cbn [step] in S. unfold get at 1 in S. rewrite Hx in S. cbn [obind] in S. exact (GW w _ _ _ S). }
    destruct Hw as [y Hy]. destruct (effect_copy_assign debug st st' v w y S Hy) as [Q1 Q2]. exists y, y. auto.
  - intros N. destruct (GW v _ _ _ S) as [x Hx]. assert (Hw : exists y, lookup (st_store st) w = Some y).
    { cbn [step] in S. unfold get at 1 in S. rewrite Hx in S. cbn [obind] in S. exact (GW w _ _ _ S). }
    destruct Hw as [y Hy]. destruct (effect_move_assign debug D live st st' v w y I S Hy N) as [Q1 Q2]. exists y, y, nothing. auto.
  - cbn [step] in S. injection S as <-. reflexivity.
Qed.
