(** The invariant of the router, and the loop that follows a stream. *)
From Verif Require Import Common CommonProofs GridModel GridProofs GridRaster FlowSpec FlowModel RouterModel FlowProofs FlowProofs2 FlowProofs3 FlowProofs4 RouterProofs.

(** What a cell accumulator does, if it does not fail.  [pre]: the states of cells before they are entered;
    [post]: those of cells that are left. *)
Record pure_accumulator {A X M} (ac : accumulator A X M) (enter : A -> X -> X) (add : X -> M -> X) (pre post : X -> Prop) : Prop := {
  pa_init : pre (ac_initial ac);
  pa_enter : forall a x, pre x -> ac_enter_cell ac a x = Ok (enter a x) /\ post (enter a x);
  pa_leave : forall u x, post u -> pre x -> ac_leave_cell ac u x = Ok (add x (ac_outflow ac u));
  pa_inter : forall u x, post u -> pre x -> ac_enter_inter ac (ac_outflow ac u) x = Ok (add x (ac_outflow ac u));
  pa_pre : forall u x, post u -> pre x -> pre (add x (ac_outflow ac u));
  pa_comm : forall u v x, post u -> post v -> pre x ->
    add (add x (ac_outflow ac u)) (ac_outflow ac v) = add (add x (ac_outflow ac v)) (ac_outflow ac u)
}.

Definition setb (h : cell -> bool) (x : cell) : cell -> bool := fun y => if cell_eqb y x then true else h y.
Lemma setb_same h x : setb h x x = true.
Proof. unfold setb. now rewrite cell_eqb_refl. Qed.
Lemma setb_other h x y : y <> x -> setb h x y = h y.
Proof. intros H. unfold setb. now rewrite cell_eqb_neq. Qed.
Lemma setb_true h x y : setb h x y = true <-> y = x \/ h y = true.
Proof. unfold setb. destruct (cell_eqb y x) eqn:E; [apply cell_eqb_spec in E; intuition|]. split; [auto|]. intros [->|H]; [rewrite cell_eqb_refl in E; discriminate|exact H]. Qed.

Lemma filter_none {T} (p : T -> bool) l : (forall x, In x l -> p x = false) -> filter p l = [].
Proof. induction l as [|x l IH]; intros H; [reflexivity|]. cbn. rewrite H by now left. apply IH. intros. apply H. now right. Qed.
Lemma filter_all {T} (p : T -> bool) l : (forall x, In x l -> p x = true) -> filter p l = l.
Proof. induction l as [|x l IH]; intros H; [reflexivity|]. cbn. rewrite H by now left. f_equal. apply IH. intros. apply H. now right. Qed.
Lemma filter_len_ext {T} (p q : T -> bool) l : (forall x, In x l -> p x = q x) -> filter p l = filter q l.
Proof. apply filter_ext_in. Qed.

Lemma filter_set (h : cell -> bool) x l : NoDup l -> In x l -> h x = false ->
  Permutation (filter (setb h x) l) (filter h l ++ [x]) /\
  S (length (filter (fun y => negb (setb h x y)) l)) = length (filter (fun y => negb (h y)) l).
Proof.
  induction l as [|y l IH]; intros N I H; [destruct I|]. inversion N as [|? ? N1 N2]; subst. destruct I as [->|I].
  - cbn. rewrite setb_same, H. cbn. split.
    + rewrite (filter_len_ext (setb h x) h); [|intros z Hz; apply setb_other; intros ->; contradiction].
      change (x :: filter h l) with ([x] ++ filter h l). apply Permutation_app_comm.
    + f_equal. f_equal. apply filter_len_ext. intros z Hz. f_equal. apply setb_other. intros ->. contradiction.
  - destruct (IH N2 I H) as [IH1 IH2]. assert (y <> x) by (intros ->; contradiction). cbn. rewrite setb_other by assumption.
    destruct (h y); cbn; split; try (apply perm_skip); auto.
Qed.

Section Inv.
Context (a0 a1 p0 p1 : Z) (nd : Z -> bool) (f : cell -> Z).
Context (P0 : 2 <= p0 <= a0) (P1 : 2 <= p1 <= a1).
Context (V : valid_network a0 a1 nd f) (AC : acyclic a0 a1 nd f).
Context {A X M : Type} (ac : accumulator A X M) (enter : A -> X -> X) (add : X -> M -> X) (pre post : X -> Prop) (arg : cell -> A).
Context (PA : pure_accumulator ac enter add pre post).

Notation glob := (glob p0 p1). Notation e0 := (e0 a0 p0). Notation e1 := (e1 a1 p1).
Notation M0 := (M0 a0 p0). Notation M1 := (M1 a1 p1). Notation part_ok := (part_ok a0 a1 p0 p1).
Notation lf := (lf p0 p1 f). Notation srcs := (srcs a0 a1 p0 p1 nd f). Notation input_of := (input_of a0 a1 p0 p1 f).
Notation prow := (prow a0 p0). Notation pcol := (pcol a1 p1). Notation loc := (loc a0 a1 p0 p1).
Notation outs := (outs a0 a1 p0 p1 nd f). Notation outc := (outc a0 a1 p0 p1 f). Notation odir := (odir a0 a1 p0 p1 f).
Notation up := (upstream a0 a1 nd f). Notation valid := (valid a0 a1 nd f).
Notation pstate := (@partition_state A X M).

Definition F (x : cell) : X := value a0 a1 nd f enter add (ac_outflow ac) (ac_initial ac) arg x.
Definition acc (L : list cell) : X := fold_left add (map (fun y => ac_outflow ac (F y)) L) (ac_initial ac).

Lemma F_eq x : valid x -> F x = enter (arg x) (acc (up x)).
Proof. intros Hx. exact (value_eq a0 a1 nd f AC V enter add (ac_outflow ac) (ac_initial ac) arg x Hx). Qed.
Lemma fold_pre L : (forall y, In y L -> post (F y)) -> forall x, pre x -> pre (fold_left add (map (fun y => ac_outflow ac (F y)) L) x).
Proof.
  induction L as [|y L IH]; intros H x Hx; [exact Hx|]. cbn. apply IH; [intros; apply H; now right|].
  apply (pa_pre _ _ _ _ _ PA); [apply H; now left|exact Hx].
Qed.
Lemma up_valid x y : In y (up x) -> valid y.
Proof. intros H. apply in_upstream in H. destruct H as [H1 [H2 _]]. now split. Qed.
Lemma F_post x : valid x -> post (F x).
Proof.
  intros Hx. pattern x. apply (upstream_ind a0 a1 nd f AC V); [|exact Hx]. clear x Hx. intros x Hx IH. rewrite F_eq by exact Hx.
  apply (pa_enter _ _ _ _ _ PA). apply fold_pre; [|apply (pa_init _ _ _ _ _ PA)]. intros y Hy. apply IH. now apply in_upstream.
Qed.
Lemma acc_pre L : (forall y, In y L -> valid y) -> pre (acc L).
Proof. intros H. apply fold_pre; [|apply (pa_init _ _ _ _ _ PA)]. intros y Hy. apply F_post. now apply H. Qed.
Lemma acc_perm L L' : (forall y, In y L -> valid y) -> Permutation L L' -> acc L = acc L'.
Proof.
  intros H HP. unfold acc. assert (HI : pre (ac_initial ac)) by apply (pa_init _ _ _ _ _ PA). revert HI H. generalize (ac_initial ac).
  induction HP as [|y L L' HP IH|y z L|L L' L'' HP1 IH1 HP2 IH2]; intros x Hx H.
  - reflexivity.
  - cbn. apply IH; [|intros; apply H; now right]. apply (pa_pre _ _ _ _ _ PA); [apply F_post, H; now left|exact Hx].
  - cbn. f_equal. apply (pa_comm _ _ _ _ _ PA); [| |exact Hx]; apply F_post, H; cbn; auto.
  - rewrite IH1 by assumption. apply IH2; [exact Hx|]. intros y Hy. apply H. apply (Permutation_in _ (Permutation_sym HP1) Hy).
Qed.
Lemma acc_snoc L y : acc (L ++ [y]) = add (acc L) (ac_outflow ac (F y)).
Proof. unfold acc. rewrite map_app, fold_left_app. reflexivity. Qed.

(** The inflow count and the result of a cell, given which cells are done and which cells' outflow has arrived. *)
Definition cnt (ar : cell -> bool) (x : cell) : Z := Z.of_nat (length (filter (fun y => negb (ar y)) (up x))).
Definition val (dn ar : cell -> bool) (x : cell) : X :=
  if nd (f x) then if dn x then ac_mark_no_data ac else ac_initial ac
  else if dn x then F x else acc (filter ar (up x)).

Lemma cnt_set ar x y : In y (up x) -> ar y = false -> cnt (setb ar y) x = cnt ar x - 1.
Proof. clear. intros I H. unfold cnt. destruct (filter_set ar y (up x) (upstream_NoDup _ _ _ _ _) I H) as [_ E]. lia. Qed.
Lemma cnt_other ar x y : ~ In y (up x) -> cnt (setb ar y) x = cnt ar x.
Proof. intros H. unfold cnt. do 2 f_equal. apply filter_len_ext. intros z Hz. f_equal. apply setb_other. intros ->. contradiction. Qed.
Lemma acc_set ar x y : In y (up x) -> ar y = false -> acc (filter (setb ar y) (up x)) = add (acc (filter ar (up x))) (ac_outflow ac (F y)).
Proof.
  clear P0 P1 p0 p1. intros I H. rewrite <- acc_snoc. apply acc_perm.
  - intros z Hz. apply filter_In in Hz. now apply (up_valid x).
  - apply filter_set; [apply upstream_NoDup|assumption|assumption].
Qed.
Lemma acc_other ar x y : ~ In y (up x) -> acc (filter (setb ar y) (up x)) = acc (filter ar (up x)).
Proof. intros H. f_equal. apply filter_len_ext. intros z Hz. apply setb_other. intros ->. contradiction. Qed.
Lemma cnt_zero ar x : cnt ar x = 0 <-> forall y, In y (up x) -> ar y = true.
Proof.
  clear. unfold cnt. split.
  - intros H y Hy. destruct (ar y) eqn:E; [reflexivity|]. exfalso.
    assert (I : In y (filter (fun y => negb (ar y)) (up x))) by (apply filter_In; now rewrite E).
    destruct (filter _ (up x)); [destruct I|cbn in H; lia].
  - intros H. rewrite filter_none; [reflexivity|]. intros y Hy. now rewrite H.
Qed.
Lemma cnt_pos ar x y : In y (up x) -> ar y = false -> 1 <= cnt ar x.
Proof.
  clear.
  intros Hy E. unfold cnt. assert (I : In y (filter (fun y => negb (ar y)) (up x))) by (apply filter_In; now rewrite E).
  destruct (filter _ (up x)); [destruct I|cbn; lia].
Qed.

(** A message: what an output cell sends. *)
Definition didx (r c : Z) (t : cell) : Z :=
  match destination_cell (e0 r) (e1 c) (fst t) (snd t) (fst (keypad (lf r c (fst t) (snd t)))) (snd (keypad (lf r c (fst t) (snd t)))) with
  | Ok (_, idx) => idx
  | _ => 0
  end.
Definition msg (r c : Z) (t : cell) : Z * M := (didx r c t, ac_outflow ac (F (glob r c t))).

Record part_rep (dn ar : cell -> bool) (r c : Z) (s : pstate) : Prop := {
  pr_flow : ps_flow s = gmake (e0 r) (e1 c) (lf r c);
  pr_args : ps_args s = gmake (e0 r) (e1 c) (fun i j => arg (glob r c (i, j)));
  pr_original : ps_original s = gmake (e0 r) (e1 c) (fun i j => cnt (fun _ => false) (glob r c (i, j)));
  pr_count : ps_count s = gmake (e0 r) (e1 c) (fun i j => cnt ar (glob r c (i, j)));
  pr_result : ps_result s = gmake (e0 r) (e1 c) (fun i j => val dn ar (glob r c (i, j)));
  pr_outputs : ps_outputs s = map (outc r c) (filter (fun t => negb (dn (glob r c t))) (outs r c));
  pr_inputs : forall d, 0 <= d < 8 -> Permutation (ps_inputs s d) (map input_of (filter (fun y => negb (ar y)) (srcs r c d)));
  pr_sends : forall d, 0 <= d < 8 ->
    (ch_closed (ps_sends s d) = true -> forall t, In t (outs r c) -> odir r c t = d -> dn (glob r c t) = true) /\
    exists q, ch_queue (ps_sends s d) = map (msg r c) q /\ NoDup q /\
      forall t, In t q <-> has_neighbour M0 M1 r c d = true /\ In t (outs r c) /\ odir r c t = d /\ dn (glob r c t) = true /\ ar (glob r c t) = false
}.

(** [exc]: cells for which some things do not hold (yet). *)
Record ghost_ok (todo : Z -> Z -> list cell) (dn ar : cell -> bool) (exc : cell -> Prop) : Prop := {
  g_done : forall y, ar y = true -> dn y = true;
  g_ups : forall x, valid x -> dn x = true -> forall y, In y (up x) -> ar y = true;
  g_ready : forall x, valid x -> ~ exc x -> up x <> [] -> (forall y, In y (up x) -> ar y = true) -> dn x = true;
  g_todo : forall r c t, part_ok r c -> inside (e0 r) (e1 c) t -> ~ exc (glob r c t) -> nd (f (glob r c t)) = true \/ up (glob r c t) = [] ->
    (dn (glob r c t) = true <-> ~ In t (todo r c));
  g_same : forall y, valid y -> towards f y <> y -> inside a0 a1 (towards f y) -> prow (towards f y) = prow y -> pcol (towards f y) = pcol y ->
    dn y = true -> ar y = true;
  g_nodup : forall r c, part_ok r c -> NoDup (todo r c)
}.

(** What can change by a task of partition (r, c), apart from receiving *)
Definition changes (r c : Z) (dn ar dn' ar' : cell -> bool) : Prop :=
  forall y, (dn' y <> dn y -> prow y = r /\ pcol y = c) /\
            (ar' y <> ar y -> prow y = r /\ pcol y = c /\ prow (towards f y) = r /\ pcol (towards f y) = c).

Lemma up_in_part x y : In y (up x) -> x = towards f y.
Proof. intros H. apply in_upstream in H. apply H. Qed.

Lemma not_up_dn dn ar todo exc x y : ghost_ok todo dn ar exc -> valid y -> In x (up y) -> ar x = false -> dn y = false.
Proof.
  intros G Hy Hx E. destruct (dn y) eqn:Ed; [|reflexivity]. rewrite (g_ups _ _ _ _ G y Hy Ed x Hx) in E. discriminate.
Qed.

Lemma grid_point {B} n0 n1 (h h' : Z -> Z -> B) (t : cell) v : inside n0 n1 t ->
  (forall i j, inside n0 n1 (i, j) -> (i, j) <> t -> h' i j = h i j) -> h' (fst t) (snd t) = v ->
  gset (gmake n0 n1 h) (fst t) (snd t) v = Ok (gmake n0 n1 h').
Proof.
  clear.
  intros [H0 H1] H E. rewrite gset_make by assumption. f_equal. apply gmake_ext. intros i j Hi Hj.
  destruct ((i =? fst t) && (j =? snd t)) eqn:Eb.
  - assert (i = fst t) by lia. assert (j = snd t) by lia. subst i j. now rewrite E.
  - symmetry. apply H; [split; assumption|]. intros Et. subst t. cbn in Eb. lia.
Qed.
Lemma grid_get {B} n0 n1 (h : Z -> Z -> B) (t : cell) : inside n0 n1 t -> gget (gmake n0 n1 h) (fst t) (snd t) = Ok (h (fst t) (snd t)).
Proof. intros [H0 H1]. now apply gget_make. Qed.

(** Entering a cell *)
Section Enter.
Context (r c : Z) (HP : part_ok r c) (t : cell) (Ht : inside (e0 r) (e1 c) t).
Notation x := (glob r c t).
Context (dn ar : cell -> bool) (s : pstate) (PR : part_rep dn ar r c s).
Context (Hn : nd (f x) = false) (Hdn : dn x = false) (Har : forall y, In y (up x) -> ar y = true).

Lemma x_valid : valid x.
Proof. split; [|exact Hn]. now apply (glob_inside a0 a1 p0 p1 P0 P1 r c t HP). Qed.
Lemma glob_eq u : glob r c u = x <-> u = t.
Proof. split; [apply glob_inj|now intros ->]. Qed.
Lemma pair_glob i j : (i, j) <> t -> glob r c (i, j) <> x.
Proof. intros H E. apply glob_eq in E. contradiction. Qed.
Lemma val_x : val dn ar x = acc (up x).
Proof. unfold val. rewrite Hn, Hdn. now rewrite filter_all. Qed.

Lemma enter_ok : update_result s (fst t) (snd t) (ac_enter_cell ac (arg x)) =
  Ok (set_result s (gmake (e0 r) (e1 c) (fun i j => val (setb dn x) ar (glob r c (i, j))))).
Proof.
  unfold update_result. rewrite (pr_result _ _ _ _ _ PR), grid_get by exact Ht. rewrite obind_Ok.
  rewrite <- surjective_pairing, val_x.
  destruct (pa_enter _ _ _ _ _ PA (arg x) (acc (up x))) as [-> _].
  { apply acc_pre. intros y. apply up_valid. }
  rewrite obind_Ok. rewrite <- F_eq by apply x_valid.
  rewrite (grid_point _ _ _ (fun i j => val (setb dn x) ar (glob r c (i, j)))); [reflexivity|exact Ht| |].
  - intros i j Hij Hne. unfold val. now rewrite setb_other by now apply pair_glob.
  - rewrite <- surjective_pairing. unfold val. now rewrite Hn, setb_same.
Qed.

(** If the cell does not drain out of the partition *)
Lemma part_rep_entered : inside (e0 r) (e1 c) (dest (lf r c) t) ->
  part_rep (setb dn x) ar r c (set_result s (gmake (e0 r) (e1 c) (fun i j => val (setb dn x) ar (glob r c (i, j))))).
Proof.
  intros Hi. destruct (outs_spec a0 a1 p0 p1 nd f P0 P1 r c HP) as [_ I].
  assert (NI : forall u, In u (outs r c) -> setb dn x (glob r c u) = dn (glob r c u)).
  { intros u Hu. apply setb_other. rewrite glob_eq. intros ->. apply I in Hu. tauto. }
  destruct PR. constructor; cbn; try assumption; try reflexivity.
  - rewrite pr_outputs0. f_equal. apply filter_len_ext. intros u Hu. now rewrite NI.
  - intros d Hd. destruct (pr_sends0 d Hd) as [C [q [E [N Q]]]]. split.
    + intros H u Hu. rewrite NI by exact Hu. now apply C.
    + exists q. split; [exact E|]. split; [exact N|]. intros u. rewrite Q. split; intros [H1 [H2 H3]]; rewrite NI in *; tauto.
Qed.

Context (Hx : ar x = false).

Notation s1 := (set_result s (gmake (e0 r) (e1 c) (fun i j => val (setb dn x) ar (glob r c (i, j))))).

(** If the cell drains out of the partition *)
Lemma stop_ok : ~ inside (e0 r) (e1 c) (dest (lf r c) t) ->
  exists s', stop_at_partition_output_cell ac (has_neighbour M0 M1 r c) s1 (e0 r) (e1 c) (fst t) (snd t)
               (fst (keypad (lf r c (fst t) (snd t)))) (snd (keypad (lf r c (fst t) (snd t)))) = Ok s' /\
    part_rep (setb dn x) ar r c s' /\ ps_todo s' = ps_todo s /\ ps_inputs s' = ps_inputs s.
Proof.
  intros Ho. destruct (outs_spec a0 a1 p0 p1 nd f P0 P1 r c HP) as [NO I].
  assert (It : In t (outs r c)) by (apply I; auto).
  set (d := odir r c t).
  assert (Hd : 0 <= d < 8) by (apply dir_range; now apply (output_dir a0 a1 p0 p1 f)).
  assert (ED : destination_cell (e0 r) (e1 c) (fst t) (snd t) (fst (keypad (lf r c (fst t) (snd t)))) (snd (keypad (lf r c (fst t) (snd t)))) = Ok (d, didx r c t)).
  { destruct (ext_big a0 a1 p0 p1 P0 P1 r c HP) as [B0 B1].
    destruct (destination_cell_ok nd (e0 r) (e1 c) (lf r c) B0 B1 (fst t) (snd t)) as [idx [E _]]; rewrite <- ?surjective_pairing; try assumption.
    unfold didx. rewrite E. rewrite <- surjective_pairing. reflexivity. }
  assert (NI : forall u, u <> t -> setb dn x (glob r c u) = dn (glob r c u)).
  { intros u Hu. apply setb_other. rewrite glob_eq. exact Hu. }
  set (L := filter (fun u => negb (dn (glob r c u))) (outs r c)). set (L' := filter (fun u => negb (setb dn x (glob r c u))) (outs r c)).
  assert (EE : erase_first (fun o => (oc_direction o =? d) && (fst (oc_cell o) =? fst t) && (snd (oc_cell o) =? snd t)) (map (outc r c) L) = Ok (map (outc r c) L')).
  { unfold L, L'. clear L L' I. revert NO It. induction (outs r c) as [|u l IH]; intros NO It; [destruct It|].
    inversion NO as [|? ? N1 N2]; subst. cbn [filter]. destruct (cell_dec u t) as [->|Hu].
    - rewrite Hdn, setb_same. cbn [negb map erase_first]. change (oc_direction (outc r c t)) with d. change (oc_cell (outc r c t)) with t.
      rewrite !Z.eqb_refl. cbn [andb]. f_equal. f_equal. apply filter_len_ext. intros u Hu. now rewrite NI by (intros ->; contradiction).
    - destruct It as [It|It]; [contradiction|]. rewrite NI by exact Hu. destruct (dn (glob r c u)); cbn [negb]; [now apply IH|].
      cbn [map erase_first]. change (oc_cell (outc r c u)) with u.
      rewrite <- andb_assoc. replace ((fst u =? fst t) && (snd u =? snd t)) with false by (symmetry; apply (cell_eqb_neq u t Hu)).
      rewrite andb_false_r. rewrite IH by assumption. reflexivity. }
  unfold stop_at_partition_output_cell. rewrite ED, obind_Ok. cbn [ps_outputs set_result]. rewrite (pr_outputs _ _ _ _ _ PR). fold L. rewrite EE, obind_Ok.
  assert (MONO : forall u, dn (glob r c u) = true -> setb dn x (glob r c u) = true) by (intros; apply setb_true; auto).
  destruct PR. destruct (has_neighbour M0 M1 r c d) eqn:Eh.
  - cbn [ps_result set_outputs set_result]. rewrite grid_get by exact Ht. rewrite obind_Ok. rewrite <- surjective_pairing.
    replace (val (setb dn x) ar x) with (F x) by (unfold val; now rewrite Hn, setb_same).
    destruct (pr_sends0 d Hd) as [C [q [Eq [N Q]]]]. unfold send. cbn [ps_sends set_outputs set_result].
    destruct (ch_closed (ps_sends s d)) eqn:Ec; [rewrite (C eq_refl t It eq_refl) in Hdn; discriminate|]. rewrite obind_Ok.
    change (didx r c t, ac_outflow ac (F x)) with (msg r c t). rewrite Eq.
    assert (Q' : NoDup (q ++ [t]) /\ forall u, In u (q ++ [t]) <-> has_neighbour M0 M1 r c d = true /\ In u (outs r c) /\ odir r c u = d /\ setb dn x (glob r c u) = true /\ ar (glob r c u) = false).
    { split.
      - apply NoDup_app; [exact N|repeat constructor; intros []|]. intros u Hu [<-|[]]. apply Q in Hu. destruct Hu as [_ [_ [_ [Hu _]]]]. congruence.
      - intros u. rewrite in_app_iff, Q. cbn [In]. split.
        + intros [H|[<-|[]]]; [intuition|]. rewrite setb_same. repeat split; try assumption; reflexivity.
        + intros [H1 [H2 [H3 [H4 H5]]]]. destruct (cell_dec u t) as [->|Hu]; [right; now left|left]. rewrite NI in H4 by exact Hu. tauto. }
    destruct Q' as [N' Q'].
    eexists. split; [reflexivity|]. split; [|destruct (filter _ (map _ L')); split; reflexivity].
    assert (SD : forall cl, (cl = true -> L' = [] \/ filter (fun o => oc_direction o =? d) (map (outc r c) L') = []) ->
       part_rep (setb dn x) ar r c (set_send (set_outputs s1 (map (outc r c) L')) d (Channel (map (msg r c) (q ++ [t])) cl))).
    { intros cl Hcl. constructor; cbn [ps_flow ps_args ps_original ps_count ps_result ps_outputs ps_inputs ps_sends set_send set_outputs set_result]; try assumption; try reflexivity.
      intros d' Hd'. unfold upd_z_fun. destruct (Z.eqb_spec d' d) as [->|Nd].
      - cbn [ch_closed ch_queue]. split; [|exists (q ++ [t]); split; [reflexivity|]; split; assumption].
        intros Ecl u Hu Eu. destruct (setb dn x (glob r c u)) eqn:Es; [reflexivity|]. exfalso.
        assert (IL : In u L') by (apply filter_In; rewrite Es; auto).
        destruct (Hcl Ecl) as [HL|HL]; [rewrite HL in IL; destruct IL|].
        assert (I' : In (outc r c u) (filter (fun o => oc_direction o =? d) (map (outc r c) L'))).
        { apply filter_In. split; [now apply in_map|]. change (oc_direction (outc r c u)) with (odir r c u). lia. }
        rewrite HL in I'. destruct I'.
      - destruct (pr_sends0 d' Hd') as [C' [q' [Eq' [N2 Q2]]]].
        assert (UT : forall u, odir r c u = d' -> u <> t) by (intros u Eu ->; now apply Nd).
        split.
        + intros H u Hu Eu. apply MONO. now apply C'.
        + exists q'. split; [exact Eq'|]. split; [exact N2|]. intros u. rewrite Q2. split; intros [H1 [H2 [H3 H4]]]; rewrite NI in *; auto. }
    rewrite map_app in SD. cbn [map] in SD.
    destruct (filter (fun o => oc_direction o =? d) (map (outc r c) L')) as [|o l] eqn:Ef.
    + unfold close. cbn [ps_sends set_send set_outputs set_result]. unfold upd_z_fun at 1. rewrite Z.eqb_refl. cbn [ch_queue].
      specialize (SD true (fun _ => or_intror eq_refl)). unfold set_send in SD |- *. cbn [ps_flow ps_args ps_original ps_count ps_result ps_outputs ps_inputs ps_todo ps_sends set_outputs set_result] in SD |- *.
      destruct SD. constructor; cbn [ps_flow ps_args ps_original ps_count ps_result ps_outputs ps_inputs ps_sends] in *; try assumption.
      intros d' Hd'. specialize (pr_sends1 d' Hd'). unfold upd_z_fun in *. destruct (d' =? d); exact pr_sends1.
    + apply SD. discriminate.
  - exists (set_outputs s1 (map (outc r c) L')). split; [reflexivity|]. split; [|split; reflexivity].
    constructor; cbn [ps_flow ps_args ps_original ps_count ps_result ps_outputs ps_inputs ps_sends set_outputs set_result]; try assumption; try reflexivity.
    intros d' Hd'. destruct (pr_sends0 d' Hd') as [C' [q' [Eq' [N2 Q2]]]]. split.
    + intros H u Hu Eu. apply MONO. now apply C'.
    + exists q'. split; [exact Eq'|]. split; [exact N2|]. intros u. rewrite Q2.
      split; intros [H1 [H2 [H3 H4]]]; (assert (u <> t) by (intros ->; fold d in H3; congruence)); rewrite NI in *; auto.
Qed.

(** If it drains into another cell of the partition *)
Notation u := (dest (lf r c) t).
Notation y := (glob r c u).
Context (Hu : inside (e0 r) (e1 c) u) (Hne : u <> t).

Lemma x_in_up : In x (up y).
Proof.
  apply in_upstream. destruct x_valid as [H1 H2]. repeat split; try apply H1; try assumption; [apply glob_dest| ].
  intros E. apply glob_inj in E. contradiction.
Qed.
Lemma y_valid : valid y.
Proof.
  split; [now apply (glob_inside a0 a1 p0 p1 P0 P1 r c u HP)|]. pose proof x_in_up as H. apply in_upstream in H.
  apply (V _ _ H). now apply (glob_inside a0 a1 p0 p1 P0 P1 r c u HP).
Qed.
Context (Hdy : dn y = false).

Notation s2 := (set_count (set_result s (gmake (e0 r) (e1 c) (fun i j => val (setb dn x) (setb ar x) (glob r c (i, j)))))
                  (gmake (e0 r) (e1 c) (fun i j => cnt (setb ar x) (glob r c (i, j))))).

Lemma setb_dn_y : setb dn x y = false.
Proof. rewrite setb_other; [exact Hdy|]. intros E. apply glob_inj in E. contradiction. Qed.

Lemma leave_ok : update_result s1 (fst u) (snd u) (ac_leave_cell ac (F x)) =
  Ok (set_result s (gmake (e0 r) (e1 c) (fun i j => val (setb dn x) (setb ar x) (glob r c (i, j))))).
Proof.
  unfold update_result. cbn [ps_result set_result]. rewrite grid_get by exact Hu. rewrite obind_Ok. rewrite <- surjective_pairing.
  assert (EV : val (setb dn x) ar y = acc (filter ar (up y))) by (unfold val; now rewrite (proj2 y_valid), setb_dn_y).
  rewrite EV. rewrite (pa_leave _ _ _ _ _ PA); [|apply F_post, x_valid|apply acc_pre; intros z Hz; apply filter_In in Hz; now apply (up_valid y)].
  rewrite obind_Ok.
  rewrite (grid_point _ _ _ (fun i j => val (setb dn x) (setb ar x) (glob r c (i, j)))); [reflexivity|exact Hu| |].
  - intros i j Hij Hn'. unfold val. rewrite acc_other; [reflexivity|]. intros I. apply up_in_part in I. rewrite <- glob_dest in I. apply glob_inj in I. contradiction.
  - rewrite <- surjective_pairing. unfold val. rewrite (proj2 y_valid), setb_dn_y. now apply acc_set; [apply x_in_up|].
Qed.
Lemma count_ok : ps_count s = gmake (e0 r) (e1 c) (fun i j => cnt ar (glob r c (i, j))) ->
  gset (ps_count s) (fst u) (snd u) (cnt ar y - 1) = Ok (gmake (e0 r) (e1 c) (fun i j => cnt (setb ar x) (glob r c (i, j)))).
Proof.
  intros ->. apply grid_point; [exact Hu| |].
  - intros i j Hij Hn'. apply cnt_other. intros I. apply up_in_part in I. rewrite <- glob_dest in I. apply glob_inj in I. contradiction.
  - rewrite <- surjective_pairing. now apply cnt_set; [apply x_in_up|].
Qed.
Lemma part_rep_advanced : part_rep (setb dn x) (setb ar x) r c s2.
Proof.
  pose proof (part_rep_entered Hu) as PE. destruct (outs_spec a0 a1 p0 p1 nd f P0 P1 r c HP) as [_ I].
  assert (NI : forall v, In v (outs r c) -> setb ar x (glob r c v) = ar (glob r c v)).
  { intros v Hv. apply setb_other. rewrite glob_eq. intros ->. apply I in Hv. tauto. }
  destruct PE. constructor; cbn [ps_flow ps_args ps_original ps_count ps_result ps_outputs ps_inputs ps_sends set_count set_result] in *; try assumption; try reflexivity.
  - intros d Hd. rewrite (pr_inputs0 d Hd). erewrite filter_len_ext; [apply Permutation_refl|]. intros z Hz. cbn beta. f_equal. symmetry. apply setb_other. intros ->.
    destruct (srcs_spec a0 a1 p0 p1 nd f P0 P1 r c d HP Hd) as [_ IS]. apply IS in Hz. destruct (glob_inside a0 a1 p0 p1 P0 P1 r c t HP Ht) as [_ [G0 G1]].
    destruct (off_ok d Hd) as [[_ [_ Z]] _]. apply Z. lia.
  - intros d Hd. destruct (pr_sends0 d Hd) as [C [q [E [N Q]]]]. split; [exact C|].
    exists q. split; [exact E|]. split; [exact N|]. intros v. rewrite Q. split; intros [H1 [H2 H3]]; rewrite NI in *; tauto.
Qed.
End Enter.

(** Cells that are not done *)
Definition undone (dn : cell -> bool) (r c : Z) : nat := length (filter (fun t => negb (dn (glob r c t))) (cells2 0 (e0 r) 0 (e1 c))).
Lemma undone_set dn r c t : part_ok r c -> inside (e0 r) (e1 c) t -> dn (glob r c t) = false -> undone dn r c = S (undone (setb dn (glob r c t)) r c).
Proof.
  intros HP Ht Hd. unfold undone. set (h := fun t => dn (glob r c t)).
  destruct (filter_set h t (cells2 0 (e0 r) 0 (e1 c))) as [_ E]; [apply cells2_NoDup|apply in_cells2'; unfold inside in Ht; lia|exact Hd|].
  unfold h in E. rewrite <- E. f_equal. f_equal. apply filter_len_ext. intros v _. f_equal. unfold setb.
  destruct (cell_eqb v t) eqn:Ev.
  - apply cell_eqb_spec in Ev. subst v. now rewrite cell_eqb_refl.
  - rewrite cell_eqb_neq; [reflexivity|]. intros E'. apply glob_inj in E'. subst v. rewrite cell_eqb_refl in Ev. discriminate.
Qed.

(** Entering a cell that leaves no other cell ready *)
Lemma ghost_entered todo dn ar r c t : part_ok r c -> inside (e0 r) (e1 c) t -> ghost_ok todo dn ar (eq (glob r c t)) ->
  valid (glob r c t) -> (forall y, In y (up (glob r c t)) -> ar y = true) ->
  (up (glob r c t) = [] -> ~ In t (todo r c)) ->
  (towards f (glob r c t) = glob r c t \/ ~ inside (e0 r) (e1 c) (dest (lf r c) t)) ->
  ghost_ok todo (setb dn (glob r c t)) ar (fun _ => False).
Proof.
  intros HP Ht G Hv Har HT HD. destruct G. constructor.
  - intros y Hy. apply setb_true. right. now apply g_done0.
  - intros x Hx Ed y Hy. apply setb_true in Ed. destruct Ed as [->|Ed]; [now apply Har|]. now apply (g_ups0 x Hx Ed).
  - intros x Hx _ Hne H. apply setb_true. destruct (cell_dec x (glob r c t)) as [->|N]; [now left|right]. apply g_ready0; auto.
  - intros r' c' t' HP' Ht' _ Hor. destruct (cell_dec (glob r' c' t') (glob r c t)) as [E|N].
    + assert (Q : r' = r /\ c' = c).
      { destruct (glob_inside a0 a1 p0 p1 P0 P1 r' c' t' HP' Ht') as [_ [G0 G1]]. destruct (glob_inside a0 a1 p0 p1 P0 P1 r c t HP Ht) as [_ [G2 G3]].
        rewrite E in G0, G1. split; congruence. }
      destruct Q as [-> ->]. apply glob_inj in E. subst t'. rewrite setb_same. split; [intros _|reflexivity].
      destruct Hor as [Hor|Hor]; [rewrite (proj2 Hv) in Hor; discriminate|now apply HT].
    + rewrite setb_other by exact N. apply g_todo0; auto.
  - intros y Hy Hn Hi E0 E1 Ed. apply setb_true in Ed. destruct Ed as [->|Ed]; [|now apply g_same0].
    exfalso. destruct HD as [HD|HD]; [contradiction|]. apply HD. apply (inside_glob a0 a1 p0 p1 P0 P1 r c _ HP). rewrite glob_dest.
    destruct (glob_inside a0 a1 p0 p1 P0 P1 r c t HP Ht) as [_ [G2 G3]]. rewrite E0, E1. auto.
  - exact g_nodup0.
Qed.

(** Entering a cell and moving to the next one *)
Lemma ghost_advanced todo dn ar r c t : part_ok r c -> inside (e0 r) (e1 c) t -> ghost_ok todo dn ar (eq (glob r c t)) ->
  valid (glob r c t) -> (forall y, In y (up (glob r c t)) -> ar y = true) ->
  (up (glob r c t) = [] -> ~ In t (todo r c)) ->
  inside (e0 r) (e1 c) (dest (lf r c) t) -> dest (lf r c) t <> t ->
  ghost_ok todo (setb dn (glob r c t)) (setb ar (glob r c t)) (eq (glob r c (dest (lf r c) t))).
Proof.
  intros HP Ht G Hv Har HT Hi Hne. pose proof (x_in_up r c HP t Ht (proj2 Hv) Hne) as IU. destruct G. constructor.
  - intros y Hy. apply setb_true. apply setb_true in Hy. destruct Hy as [->|Hy]; [now left|right]. now apply g_done0.
  - intros x Hx Ed y Hy. apply setb_true. apply setb_true in Ed. destruct Ed as [->|Ed]; right; [now apply Har|]. now apply (g_ups0 x Hx Ed).
  - intros x Hx Hex Hn H. apply setb_true. destruct (cell_dec x (glob r c t)) as [->|N]; [now left|right]. apply g_ready0; auto.
    intros y Hy. specialize (H y Hy). apply setb_true in H. destruct H as [->|H]; [|exact H]. exfalso. apply Hex.
    apply up_in_part in Hy. rewrite Hy. apply glob_dest.
  - intros r' c' t' HP' Ht' Hex Hor. destruct (cell_dec (glob r' c' t') (glob r c t)) as [E|N].
    + assert (Q : r' = r /\ c' = c).
      { destruct (glob_inside a0 a1 p0 p1 P0 P1 r' c' t' HP' Ht') as [_ [G0 G1]]. destruct (glob_inside a0 a1 p0 p1 P0 P1 r c t HP Ht) as [_ [G2 G3]].
        rewrite E in G0, G1. split; congruence. }
      destruct Q as [-> ->]. apply glob_inj in E. subst t'. rewrite setb_same. split; [intros _|reflexivity].
      destruct Hor as [Hor|Hor]; [rewrite (proj2 Hv) in Hor; discriminate|now apply HT].
    + rewrite setb_other by exact N. apply g_todo0; auto.
  - intros y Hy Hn Hi' E0 E1 Ed. apply setb_true. apply setb_true in Ed. destruct Ed as [->|Ed]; [now left|right]. now apply g_same0.
  - exact g_nodup0.
Qed.
Lemma ghost_not_ready todo dn ar x : ghost_ok todo dn ar (eq x) -> up x <> [] -> (exists y, In y (up x) /\ ar y = false) -> nd (f x) = false ->
  ghost_ok todo dn ar (fun _ => False).
Proof.
  intros G Hne [y [Hy Ey]] Hn. destruct G. constructor; try assumption.
  - intros z Hz _ Hnz H. apply g_ready0; try assumption. intros ->. rewrite H in Ey by exact Hy. discriminate.
  - intros r c t HP Ht _ Hor. apply g_todo0; try assumption. intros ->. destruct Hor as [Hor|Hor]; [congruence|contradiction].
Qed.

Lemma accumulate_ok todo fuel : forall r c dn ar (s : pstate) t, part_ok r c -> inside (e0 r) (e1 c) t ->
  nd (f (glob r c t)) = false -> dn (glob r c t) = false -> (forall y, In y (up (glob r c t)) -> ar y = true) ->
  part_rep dn ar r c s -> ghost_ok todo dn ar (eq (glob r c t)) -> (up (glob r c t) = [] -> ~ In t (todo r c)) ->
  (undone dn r c <= fuel)%nat ->
  exists s' dn' ar', accumulate ac fuel (has_neighbour M0 M1 r c) s (fst t) (snd t) = Ok s' /\
    part_rep dn' ar' r c s' /\ ghost_ok todo dn' ar' (fun _ => False) /\ changes r c dn ar dn' ar' /\
    ps_todo s' = ps_todo s /\ ps_inputs s' = ps_inputs s.
Proof.
  induction fuel as [|fuel IH]; intros r c dn ar s t HP Ht Hn Hdn Har PR G HT HF.
  - rewrite (undone_set dn r c t HP Ht Hdn) in HF. lia.
  - assert (Hv : valid (glob r c t)) by now apply (x_valid r c HP t Ht).
    assert (Hx : ar (glob r c t) = false) by (destruct (ar (glob r c t)) eqn:E; [rewrite (g_done _ _ _ _ G _ E) in Hdn; discriminate|reflexivity]).
    destruct (glob_inside a0 a1 p0 p1 P0 P1 r c t HP Ht) as [Gi [Gr Gc]].
    cbn [accumulate]. rewrite (pr_flow _ _ _ _ _ PR). change (g0 (gmake (e0 r) (e1 c) (lf r c))) with (e0 r). change (g1 (gmake (e0 r) (e1 c) (lf r c))) with (e1 c).
    rewrite (pr_count _ _ _ _ _ PR), grid_get by exact Ht. rewrite obind_Ok, <- surjective_pairing.
    rewrite (proj2 (cnt_zero ar (glob r c t)) Har). cbn [Z.eqb negb].
    rewrite (pr_args _ _ _ _ _ PR), grid_get by exact Ht. rewrite obind_Ok, <- surjective_pairing.
    rewrite (enter_ok r c HP t Ht dn ar s PR Hn Hdn Har), obind_Ok.
    cbn [ps_flow set_result]. rewrite (pr_flow _ _ _ _ _ PR). rewrite downstream_within_ok by apply Ht. rewrite obind_Ok, <- surjective_pairing.
    destruct (keypad (lf r c (fst t) (snd t))) as [dr dc] eqn:EK.
    assert (ED : dest (lf r c) t = (fst t + dr, snd t + dc)) by (unfold dest; now rewrite EK).
    destruct ((dr =? 0) && (dc =? 0)) eqn:E0.
    { assert (E : dest (lf r c) t = t) by (rewrite ED, (surjective_pairing t); cbn [fst snd]; f_equal; lia).
      eexists _, (setb dn (glob r c t)), ar. split; [reflexivity|]. split; [|split; [|split; [|split; reflexivity]]].
      - apply (part_rep_entered r c HP t dn ar s PR). now rewrite E.
      - apply ghost_entered; auto. left. rewrite <- glob_dest. now rewrite E.
      - intros y. split; [|congruence]. intros Hy. unfold setb in Hy. destruct (cell_eqb y (glob r c t)) eqn:Ey; [|congruence].
        apply cell_eqb_spec in Ey. subst y. auto. }
    assert (Ne : dest (lf r c) t <> t) by (rewrite ED; destruct t; cbn [fst snd]; intros E; injection E; lia).
    destruct (insideb (e0 r) (e1 c) (dest (lf r c) t)) eqn:Ei; cbn [negb].
    + apply insideb_spec in Ei. set (u := dest (lf r c) t) in *. 
      assert (U0 : fst t + dr = fst u) by now rewrite ED. assert (U1 : snd t + dc = snd u) by now rewrite ED. rewrite U0, U1. cbn [ps_result set_result]. rewrite grid_get by exact Ht. rewrite obind_Ok, <- surjective_pairing.
      replace (val (setb dn (glob r c t)) ar (glob r c t)) with (F (glob r c t)) by (unfold val; now rewrite Hn, setb_same).
      pose proof (x_in_up r c HP t Ht Hn Ne) as IU. pose proof (y_valid r c HP t Ht Hn Ei Ne) as Hvy. fold u in IU, Hvy.
      assert (Hdy : dn (glob r c u) = false) by (eapply not_up_dn; eassumption).
      pose proof (leave_ok r c HP t Ht dn ar s Hn Hx Ei Ne Hdy) as LK. fold u in LK. rewrite LK, obind_Ok. clear LK.
      cbn [ps_count set_result]. fold u.
      assert (EC : gget (ps_count s) (fst u) (snd u) = Ok (cnt ar (glob r c u))).
      { rewrite (pr_count _ _ _ _ _ PR), grid_get by exact Ei. now rewrite <- surjective_pairing. }
      rewrite EC, obind_Ok. pose proof (cnt_pos ar _ _ IU Hx). replace (1 <=? cnt ar (glob r c u)) with true by lia. cbn [negb].
      pose proof (count_ok r c HP t Ht ar s Hn Hx Ei Ne (pr_count _ _ _ _ _ PR)) as CK. fold u in CK. rewrite CK, obind_Ok. clear CK.
      pose proof (part_rep_advanced r c HP t Ht dn ar s PR Hn Hdn Har Hx Ei Hdy) as PR'.
      pose proof (ghost_advanced todo dn ar r c t HP Ht G Hv Har HT Ei Ne) as G'. fold u in G'.
      assert (CH : changes r c dn ar (setb dn (glob r c t)) (setb ar (glob r c t))).
      { intros y. split; intros Hy; unfold setb in Hy; (destruct (cell_eqb y (glob r c t)) eqn:Ey; [|congruence]); apply cell_eqb_spec in Ey; subst y; [auto|].
        rewrite <- glob_dest. fold u. destruct (glob_inside a0 a1 p0 p1 P0 P1 r c u HP Ei) as [_ [W0 W1]]. auto. }
      assert (CS : cnt (setb ar (glob r c t)) (glob r c u) = cnt ar (glob r c u) - 1) by now apply cnt_set.
      destruct (Z.ltb_spec 0 (cnt ar (glob r c u) - 1)) as [Hk|Hk].
      * eexists _, (setb dn (glob r c t)), (setb ar (glob r c t)). split; [reflexivity|]. split; [exact PR'|]. split; [|split; [exact CH|split; reflexivity]].
        apply ghost_not_ready with (x := glob r c u); [exact G'|intros E; rewrite E in IU; destruct IU| |apply Hvy].
        destruct (filter (fun y => negb (setb ar (glob r c t) y)) (up (glob r c u))) as [|z l] eqn:Ez.
        { unfold cnt in CS at 1. rewrite Ez in CS. cbn in CS. lia. }
        assert (Hz : In z (filter (fun y => negb (setb ar (glob r c t) y)) (up (glob r c u)))) by (rewrite Ez; now left).
        apply filter_In in Hz. destruct Hz as [Hz1 Hz2]. exists z. split; [exact Hz1|]. now apply negb_true_iff.
      * assert (CZ : cnt (setb ar (glob r c t)) (glob r c u) = 0) by lia.
        assert (D1 : setb dn (glob r c t) (glob r c u) = false) by (rewrite setb_other; [exact Hdy|intros E; apply glob_inj in E; contradiction]).
        assert (D2 : forall y, In y (up (glob r c u)) -> setb ar (glob r c t) y = true) by now apply cnt_zero.
        assert (D3 : up (glob r c u) = [] -> ~ In u (todo r c)) by (intros E; rewrite E in IU; destruct IU).
        assert (D4 : (undone (setb dn (glob r c t)) r c <= fuel)%nat) by (rewrite (undone_set dn r c t HP Ht Hdn) in HF; lia).
        destruct (IH r c _ _ _ u HP Ei (proj2 Hvy) D1 D2 PR' G' D3 D4) as [s' [dn' [ar' [Es [PR2 [G2 [CH2 [ET EI]]]]]]]].
        exists s', dn', ar'. split; [exact Es|]. split; [exact PR2|]. split; [exact G2|]. split; [|split; [exact ET|exact EI]].
        intros y. destruct (CH y) as [C1 C2], (CH2 y) as [C3 C4]. split; intros Hy.
        -- destruct (bool_dec (dn' y) (setb dn (glob r c t) y)) as [E|E]; [apply C1; congruence|now apply C3].
        -- destruct (bool_dec (ar' y) (setb ar (glob r c t) y)) as [E|E]; [apply C2; congruence|now apply C4].
    + apply insideb_false in Ei.
      destruct (stop_ok r c HP t Ht dn ar s PR Hn Hdn Har Hx Ei) as [s' [Es [PR' [ET EI]]]]. rewrite EK in Es. cbn [fst snd] in Es.
      exists s', (setb dn (glob r c t)), ar. split; [exact Es|]. split; [exact PR'|]. split; [|split; [|split; [exact ET|exact EI]]].
      * apply ghost_entered; auto.
      * intros y. split; [|congruence]. intros Hy. unfold setb in Hy. destruct (cell_eqb y (glob r c t)) eqn:Ey; [|congruence].
        apply cell_eqb_spec in Ey. subst y. auto.
Qed.
End Inv.
