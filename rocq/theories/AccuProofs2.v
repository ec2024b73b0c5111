(** What the accumulators calculate. *)
From Coq Require Import QArith Qcanon.
From Verif Require Import Common CommonProofs CoreSpec DecompSpec ArraySpec IndexModel DecompModel ArrayModel ArrayRep GridModel GridProofs FlowSpec AccuSpec FlowModel
  RouterModel AccuModel FlowProofs FlowProofs3 FlowProofs4 RouterProofs RouterProofs2 RouterProofs3 RouterProofs4 RouterProofs5 AccuProofs.
Local Notation q0 := (Q2Qc 0).
Opaque sum_of.

Definition usableb (m : option Qc) : bool := match m with Some q => inflow_ok q | None => false end.
Lemma usableb_spec m : usableb m = true <-> usable m.
Proof.
  unfold usable. destruct m as [q|]; cbn; split.
  - intros H. exists q. split; [reflexivity|]. now apply qc_le_spec.
  - intros [p [E H]]. injection E as ->. now apply qc_le_spec.
  - discriminate.
  - intros [p [E _]]. discriminate.
Qed.

Section Values.
Context (a0 a1 : Z) (nd : Z -> bool) (f : cell -> Z).
Context (AC : acyclic a0 a1 nd f) (V : valid_network a0 a1 nd f).
Notation up := (upstream a0 a1 nd f). Notation valid := (valid a0 a1 nd f). Notation catchment := (catchment a0 a1 nd f).

Section Accu.
Context (arg : cell -> material).
Notation G := (F a0 a1 nd f accu accu_enter accu_add arg).

Lemma fold_none l : fold_left accu_add l None = None.
Proof. induction l as [|m l IH]; [reflexivity|exact IH]. Qed.
Lemma fold_some (h : cell -> material) (k : cell -> list cell) l : (forall y, In y l -> h y = if forallb (fun z => usableb (arg z)) (k y) then Some (sum_of (fun z => amount (arg z)) (k y)) else None) ->
  forall i, fold_left accu_add (map h l) (Some i) =
    if forallb (fun z => usableb (arg z)) (flat_map k l) then Some (i + sum_of (fun z => amount (arg z)) (flat_map k l))%Qc else None.
Proof.
  induction l as [|y l IH]; intros H i.
  - cbn [map fold_left flat_map forallb]. rewrite sum_nil. f_equal. ring.
  - cbn [map fold_left flat_map]. rewrite (H y) by now left. rewrite forallb_app, sum_app. destruct (forallb _ (k y)); cbn [andb].
    + cbn [accu_add]. rewrite IH by (intros; apply H; now right). destruct (forallb _ (flat_map k l)); [|reflexivity]. f_equal. ring.
    + cbn [accu_add]. apply fold_none.
Qed.
Lemma accu_value x : valid x -> G x = if forallb (fun z => usableb (arg z)) (catchment x) then Some (sum_of (fun z => amount (arg z)) (catchment x)) else None.
Proof.
  revert x. apply (upstream_ind a0 a1 nd f AC V). intros x Hx IH. rewrite (F_eq a0 a1 nd f V AC accu accu_enter accu_add arg x Hx). unfold acc.
  change (ac_outflow accu) with (fun m : material => m). cbn beta. change (ac_initial accu) with (Some q0).
  rewrite (fold_some G catchment) by (intros y Hy; apply IH; now apply in_upstream).
  rewrite (catchment_eq a0 a1 nd f AC V x Hx). cbn [forallb]. rewrite sum_cons. unfold accu_enter, usableb at 2. destruct (forallb _ (flat_map catchment (up x))).
  - destruct (arg x) as [e|]; [|reflexivity]. destruct (inflow_ok e); cbn [andb amount]; [|reflexivity]. f_equal. ring.
  - now rewrite andb_false_r.
Qed.
End Accu.

Section Split.
Context (domain : Qc -> bool) (split_ : Qc -> Qc -> Qc * Qc).
Context (HS : forall t p, (q0 <= t)%Qc -> domain p = true -> (q0 <= fst (split_ t p))%Qc).
Context (arg : cell -> material * material).
Notation G := (F a0 a1 nd f (split_accumulator domain split_) (split_enter domain split_) split_add arg).

Lemma split_none l : fold_left split_add l (None, None) = (None, None).
Proof. induction l as [|m l IH]; [reflexivity|exact IH]. Qed.
Lemma split_some (h : cell -> material) l : forall i s,
  (Forall (fun y => h y <> None) l -> fold_left split_add (map h l) (Some i, s) = (Some (i + sum_of (fun y => amount (h y)) l)%Qc, s)) /\
  (Exists (fun y => h y = None) l -> fold_left split_add (map h l) (Some i, s) = (None, None)).
Proof.
  induction l as [|y l IH]; intros i s; cbn [map fold_left].
  - rewrite sum_nil. split; [intros _; do 2 f_equal; ring|intros H; inversion H].
  - split; intros H.
    + apply Forall_cons_iff in H. destruct H as [H1 H2]. unfold split_add at 2. cbn [fst snd]. rewrite sum_cons. destruct (h y) as [o|]; [|contradiction]. rewrite (proj1 (IH _ _) H2). do 2 f_equal. cbn [amount]. ring.
    + apply Exists_cons in H. unfold split_add at 2. cbn [fst snd]. destruct (h y) as [o|]; [|apply split_none]. destruct H as [H|H]; [discriminate|]. now apply IH.
Qed.

Definition domain_ok (a : material * material) : Prop := exists e p, a = (Some e, Some p) /\ (q0 <= e)%Qc /\ domain p = true.

Lemma split_value x : valid x ->
  (domain_ok (arg x) -> (forall y, drains a0 a1 nd f y x -> fst (G y) <> None) ->
     exists e p, arg x = (Some e, Some p) /\ G x = let (o, s) := split_ (sum_of (fun y => amount (fst (G y))) (up x) + e)%Qc p in (Some o, Some s)) /\
  ((~ domain_ok (arg x) \/ exists y, drains a0 a1 nd f y x /\ fst (G y) = None) -> G x = (None, None)).
Proof.
  intros Hx. rewrite (F_eq a0 a1 nd f V AC _ _ _ arg x Hx). unfold acc. 
  destruct (split_some (fun y => fst (G y)) (up x) q0 (Some q0)) as [S1 S2].
  match goal with |- context [fold_left ?a ?l ?i] => match type of S1 with _ -> ?t = _ => change (fold_left a l i) with t end end. split.
  - intros [e [p [Ea [He Hp]]]] HU. rewrite S1 by (apply Forall_forall; intros y Hy; apply HU; now apply in_upstream).
    exists e, p. split; [exact Ea|]. set (T := sum_of _ (up x)). unfold split_enter. rewrite Ea. cbn [fst snd]. rewrite (proj2 (qc_le_spec q0 e) He : inflow_ok e = true), Hp. cbn [andb].
    replace (q0 + T + e)%Qc with (T + e)%Qc by ring. reflexivity.
  - intros H. destruct (existsb (fun y => match fst (G y) with None => true | _ => false end) (up x)) eqn:E.
    + rewrite S2; [reflexivity|]. apply Exists_exists. apply existsb_exists in E. destruct E as [y [Hy E]]. exists y. split; [exact Hy|]. destruct (fst (G y)); [discriminate|reflexivity].
    + assert (HU : forall y, In y (up x) -> fst (G y) <> None).
      { intros y Hy E'. assert (existsb (fun y => match fst (G y) with None => true | _ => false end) (up x) = true); [|congruence].
        apply existsb_exists. exists y. split; [exact Hy|]. now rewrite E'. }
      rewrite S1 by (apply Forall_forall; exact HU). destruct H as [H|[y [D E']]]; [|exfalso; apply (HU y); [now apply in_upstream|exact E']].
      unfold split_enter. cbn [fst snd]. destruct (arg x) as [[e|] [p|]] eqn:Ea; try reflexivity. cbn [fst snd].
      destruct (inflow_ok e && domain p) eqn:Eb; [|reflexivity]. exfalso. apply H. apply andb_true_iff in Eb. destruct Eb as [E1 E2]. exists e, p. rewrite <- (qc_le_spec q0 e). auto.
Qed.
End Split.
End Values.

(** Networks are decidable: lists of cells exist. *)
Lemma network_listed a0 a1 nd f : exists C, lists (in_network a0 a1 nd f) C.
Proof.
  exists (filter (fun x => negb (nd (f x))) (cells2 0 a0 0 a1)). split; [apply NoDup_filter, cells2_NoDup|]. intros x. rewrite filter_In, in_cells2', negb_true_iff. unfold in_network, inside. intuition lia.
Qed.
Lemma outlets_listed a0 a1 nd f : exists O, lists (outlet a0 a1 nd f) O.
Proof.
  destruct (network_listed a0 a1 nd f) as [C [NC IC]]. exists (filter (fun x => negb (flowsb a0 a1 nd f x)) C). split; [now apply NoDup_filter|].
  intros x. rewrite filter_In, negb_true_iff, IC. unfold outlet. split.
  - intros [H E]. split; [exact H|]. intros y D Hy. assert (flowsb a0 a1 nd f x = true); [|congruence]. apply flowsb_spec. pose proof D as [_ [_ [D3 _]]]. rewrite <- D3. auto.
  - intros [H H']. split; [exact H|]. destruct (flowsb a0 a1 nd f x) eqn:E; [|reflexivity]. apply flowsb_spec in E. exfalso. exact (H' _ (proj1 E) (proj2 E)).
Qed.
