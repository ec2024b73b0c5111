(** The cell accumulators. *)
From Coq Require Import QArith Qcanon.
From Verif Require Import Common CommonProofs GridModel GridProofs FlowSpec AccuSpec FlowModel RouterModel AccuModel FlowProofs FlowProofs4 RouterProofs RouterProofs2.

Local Notation q0 := (Q2Qc 0).

Lemma qc_le_spec a b : qc_le a b = true <-> (a <= b)%Qc.
Proof.
  unfold qc_le. rewrite Qcle_alt. destruct (a ?= b)%Qc; split; intros; try reflexivity; try discriminate; congruence.
Qed.
Lemma qc_lt_spec a b : qc_lt a b = true <-> (a < b)%Qc.
Proof. unfold qc_lt. rewrite Qclt_alt. destruct (a ?= b)%Qc; split; intros; try reflexivity; discriminate. Qed.
Lemma qc_lt_false a b : qc_lt a b = false <-> (b <= a)%Qc.
Proof.
  split; intros H.
  - apply Qcnot_lt_le. intros L. apply qc_lt_spec in L. congruence.
  - destruct (qc_lt a b) eqn:E; [|reflexivity]. apply qc_lt_spec in E. exfalso. exact (Qclt_not_le _ _ E H).
Qed.

Lemma add_nonneg a b : (q0 <= a)%Qc -> (q0 <= b)%Qc -> (q0 <= a + b)%Qc.
Proof. intros Ha Hb. replace q0 with (q0 + q0)%Qc by reflexivity. now apply Qcplus_le_compat. Qed.

(** accu *)
Definition accu_add (x m : material) : material := match x with None => None | Some i => match m with None => None | Some o => Some (i + o)%Qc end end.
Definition accu_enter (a x : material) : material :=
  match x with None => None | Some o => match a with None => None | Some e => if inflow_ok e then Some (o + e)%Qc else None end end.
Definition nonneg (m : material) : Prop := match m with None => True | Some q => (q0 <= q)%Qc end.

Lemma accu_pure : pure_accumulator accu accu_enter accu_add nonneg nonneg.
Proof.
  constructor.
  - cbn. apply Qcle_refl.
  - intros [a|] [x|]; cbn; intros Hx; try (split; [reflexivity|exact I]). unfold inflow_ok. destruct (qc_le q0 a) eqn:E; cbn; (split; [reflexivity|]); [|exact I].
    apply qc_le_spec in E. now apply add_nonneg.
  - intros [u|] [x|]; cbn; intros Hu Hx; try reflexivity. apply qc_le_spec in Hu. now rewrite Hu.
  - intros [u|] [x|]; cbn; reflexivity.
  - intros [u|] [x|]; cbn; intros Hu Hx; try exact I. now apply add_nonneg.
  - intros [u|] [v|] [x|]; cbn; intros; try reflexivity. f_equal. ring.
Qed.

(** Splitting accumulators *)
Section Split.
Context (domain : Qc -> bool) (split_ : Qc -> Qc -> Qc * Qc).
Context (HS : forall t p, (q0 <= t)%Qc -> domain p = true -> (q0 <= fst (split_ t p))%Qc).

Definition split_add (x : flux) (m : material) : flux :=
  match fst x with None => x | Some i => match m with None => (None, None) | Some o => (Some (i + o)%Qc, snd x) end end.
Definition split_enter (arg : material * material) (x : flux) : flux :=
  match fst x with
  | None => x
  | Some o => match fst arg, snd arg with
              | Some e, Some p => if inflow_ok e && domain p then let (o', m') := split_ (o + e)%Qc p in (Some o', Some m') else (None, None)
              | _, _ => (None, None)
              end
  end.
Definition split_pre (x : flux) : Prop := x = (None, None) \/ exists i, x = (Some i, Some q0) /\ (q0 <= i)%Qc.
Definition split_post (x : flux) : Prop := x = (None, None) \/ exists o m, x = (Some o, Some m) /\ (q0 <= o)%Qc.

Lemma split_pure : pure_accumulator (split_accumulator domain split_) split_enter split_add split_pre split_post.
Proof.
  constructor.
  - right. exists q0. split; [reflexivity|apply Qcle_refl].
  - intros [a p] x [->|[i [-> Hi]]]; cbn.
    + split; [reflexivity|now left].
    + unfold split_enter. cbn [fst snd]. destruct a as [e|]; [|split; [reflexivity|now left]]. destruct p as [p|]; [|split; [reflexivity|now left]].
      destruct (inflow_ok e && domain p) eqn:E; cbn [negb]; [|split; [reflexivity|now left]]. apply andb_true_iff in E. destruct E as [E1 E2]. apply qc_le_spec in E1.
      specialize (HS (i + e)%Qc p (add_nonneg _ _ Hi E1) E2). destruct (split_ (i + e)%Qc p) as [o m]. cbn in HS. split; [reflexivity|]. right. eauto.
  - intros u x [->|[o [m [-> Ho]]]] [->|[i [-> Hi]]]; cbn; try reflexivity. apply qc_le_spec in Ho. now rewrite Ho.
  - intros u x [->|[o [m [-> Ho]]]] [->|[i [-> Hi]]]; cbn; reflexivity.
  - intros u x [->|[o [m [-> Ho]]]] [->|[i [-> Hi]]]; cbn; try (now left). right. eexists. split; [reflexivity|]. now apply add_nonneg.
  - intros u v x [->|[o [m [-> Ho]]]] [->|[o' [m' [-> Ho']]]] [->|[i [-> Hi]]]; cbn; try reflexivity. unfold split_add. cbn. do 2 f_equal. ring.
Qed.
End Split.

Lemma threshold_nonneg t p : (q0 <= t)%Qc -> non_negative p = true -> (q0 <= fst (threshold_split t p))%Qc.
Proof.
  intros Ht _. unfold threshold_split. destruct (qc_lt p t) eqn:E; cbn; [|apply Qcle_refl]. apply qc_lt_spec in E. apply Qclt_le_weak in E. now apply -> Qcle_minus_iff in E.
Qed.
Lemma capacity_nonneg t p : (q0 <= t)%Qc -> non_negative p = true -> (q0 <= fst (capacity_split t p))%Qc.
Proof. intros Ht Hp. apply qc_le_spec in Hp. unfold capacity_split. destruct (qc_lt p t); assumption. Qed.
Lemma fraction_nonneg t p : (q0 <= t)%Qc -> qc_le q0 p && qc_le p (Q2Qc 1) = true -> (q0 <= fst (fraction_split t p))%Qc.
Proof.
  intros Ht Hp. apply andb_true_iff in Hp. destruct Hp as [Hp _]. apply qc_le_spec in Hp. cbn. replace q0 with (q0 * t)%Qc by ring. now apply Qcmult_le_compat_r.
Qed.
Lemma trigger_nonneg t p : (q0 <= t)%Qc -> non_negative p = true -> (q0 <= fst (trigger_split t p))%Qc.
Proof. intros Ht _. unfold trigger_split. destruct (qc_lt t p); cbn; [apply Qcle_refl|assumption]. Qed.

(** Sums *)
Lemma sum_nil h : sum_of h [] = q0.
Proof. reflexivity. Qed.
Lemma sum_cons h x L : sum_of h (x :: L) = (h x + sum_of h L)%Qc.
Proof. reflexivity. Qed.
Opaque sum_of.
Lemma sum_app h L L' : sum_of h (L ++ L') = (sum_of h L + sum_of h L')%Qc.
Proof. induction L as [|x L IH]; [rewrite sum_nil; cbn [app]; ring|]. cbn [app]. rewrite !sum_cons, IH. ring. Qed.
Lemma sum_perm h L L' : Permutation L L' -> sum_of h L = sum_of h L'.
Proof. induction 1; rewrite ?sum_cons; try congruence; try ring. Qed.
Lemma sum_ext h h' L : (forall x, In x L -> h x = h' x) -> sum_of h L = sum_of h' L.
Proof. induction L as [|x L IH]; intros H; [reflexivity|]. rewrite !sum_cons, H by now left. f_equal. apply IH. intros. apply H. now right. Qed.
Lemma sum_plus h h' L : sum_of (fun x => h x + h' x)%Qc L = (sum_of h L + sum_of h' L)%Qc.
Proof. induction L as [|x L IH]; [rewrite !sum_nil; ring|]. rewrite !sum_cons, IH. ring. Qed.
Fixpoint sum_each {T} (h : cell -> Qc) (k : T -> list cell) (L : list T) : Qc := match L with [] => q0 | x :: L' => (sum_of h (k x) + sum_each h k L')%Qc end.
Lemma sum_flat {T} h (k : T -> list cell) L : sum_of h (flat_map k L) = sum_each h k L.
Proof. induction L as [|x L IH]; [reflexivity|]. cbn [flat_map sum_each]. now rewrite sum_app, IH. Qed.
Lemma filter_split (p : cell -> bool) h L : sum_of h L = (sum_of h (filter p L) + sum_of h (filter (fun x => negb (p x)) L))%Qc.
Proof. induction L as [|x L IH]; [cbn [filter]; rewrite sum_nil; ring|]. cbn [filter]. destruct (p x); cbn [negb]; rewrite !sum_cons, IH; ring. Qed.

Section Network.
Context (a0 a1 : Z) (nd : Z -> bool) (f : cell -> Z).
Context (AC : acyclic a0 a1 nd f) (V : valid_network a0 a1 nd f).
Notation up := (upstream a0 a1 nd f). Notation path := (path a0 a1 nd f). Notation drains := (drains a0 a1 nd f). Notation valid := (valid a0 a1 nd f).

Lemma drains_valid x y : drains x y -> valid x.
Proof. intros [H1 [H2 _]]. now split. Qed.
Lemma path_snoc x y z : path x y -> drains y z -> valid z -> path x z.
Proof.
  induction 1 as [x H1 H2|x w y D P IH]; intros D' Hz.
  - eapply path_step; [exact D'|]. apply path_here; apply Hz.
  - eapply path_step; [exact D|]. now apply IH.
Qed.
Lemma path_last x z : path x z -> x = z \/ exists y, path x y /\ drains y z.
Proof.
  induction 1 as [x H1 H2|x w z D P IH]; [now left|]. right. destruct IH as [->|[y [Py D']]].
  - exists x. split; [apply path_here; apply D|exact D].
  - exists y. split; [|exact D']. eapply path_step; eassumption.
Qed.
Lemma drains_det x y z : drains x y -> drains x z -> y = z.
Proof. intros [_ [_ [-> _]]] [_ [_ [-> _]]]. reflexivity. Qed.
Lemma path_linear x y z : path x y -> path x z -> path y z \/ path z y.
Proof.
  induction 1 as [x H1 H2|x w y D P IH]; intros Pz; [now left|]. inversion Pz as [? Z1 Z2|? w' ? D' P']; subst.
  - right. eapply path_step; eassumption.
  - rewrite <- (drains_det _ _ _ D D') in P'. now apply IH.
Qed.
Lemma catchments_disjoint x y y' z : drains y x -> drains y' x -> path z y -> path z y' -> y = y'.
Proof.
  assert (H : forall y y', drains y x -> drains y' x -> path y y' -> y = y').
  { intros u u' D D' P. inversion P as [|? w ? Dw Pw]; subst; [reflexivity|]. exfalso. rewrite (drains_det _ _ _ Dw D) in Pw. exact (AC _ _ D' Pw). }
  intros D D' P P'. destruct (path_linear _ _ _ P P') as [Q|Q]; [now apply H|symmetry; now apply H].
Qed.

(** The cells whose water passes x *)
Definition catch_fuel : nat -> cell -> list cell := value_fuel a0 a1 nd f (fun x L => x :: L) (@app cell) (fun L => L) [] (fun x => x).
Definition catchment (x : cell) : list cell := value a0 a1 nd f (fun x L => x :: L) (@app cell) (fun L => L) [] (fun x => x) x.

Lemma fold_app {T} (k : T -> list cell) l : forall init, fold_left (@app cell) (map k l) init = init ++ flat_map k l.
Proof. induction l as [|x l IH]; intros init; cbn; [now rewrite app_nil_r|]. rewrite IH. now rewrite <- app_assoc. Qed.
Lemma catchment_eq x : valid x -> catchment x = x :: flat_map catchment (up x).
Proof.
  intros Hx. unfold catchment at 1. rewrite (value_eq a0 a1 nd f AC V _ _ _ _ _ x Hx). now rewrite fold_app.
Qed.
Lemma catchment_lists x : valid x -> lists (fun y => path y x) (catchment x).
Proof.
  revert x. apply (upstream_ind a0 a1 nd f AC V). intros x Hx IH. rewrite catchment_eq by exact Hx.
  assert (IU : forall z, In z (flat_map catchment (up x)) <-> exists y, drains y x /\ path z y).
  { intros z. rewrite in_flat_map. split; intros [y [Hy Hz]]; exists y.
    - apply in_upstream in Hy. split; [exact Hy|]. now apply (IH y Hy).
    - split; [now apply in_upstream|]. now apply (IH y Hy). }
  split.
  - constructor.
    + rewrite IU. intros [y [D P]]. exact (AC _ _ D P).
    + apply flat_map_NoDup; [apply upstream_NoDup| |].
      * intros y Hy. apply in_upstream in Hy. apply (IH y Hy).
      * intros y y' z Hy Hy' Hz Hz'. apply in_upstream in Hy, Hy'. apply (catchments_disjoint x y y' z Hy Hy'); [now apply (IH y Hy)|now apply (IH y' Hy')].
  - intros z. cbn [In]. rewrite IU. split.
    + intros [<-|[y [D P]]]; [apply path_here; apply Hx|]. now apply (path_snoc z y x).
    + intros P. apply path_last in P. destruct P as [->|[y [P D]]]; [now left|right; eauto].
Qed.

(** The balance of the whole network *)
Context (C : list cell) (HC : lists (in_network a0 a1 nd f) C) (O : list cell) (HO : lists (outlet a0 a1 nd f) O).

Lemma upstream_all : Permutation (flat_map up C) (filter (flowsb a0 a1 nd f) C).
Proof.
  destruct HC as [NC IC]. apply NoDup_Permutation.
  - apply flat_map_NoDup; [exact NC|intros; apply upstream_NoDup|]. intros x y z _ _ Hx Hy. apply in_upstream in Hx, Hy. exact (drains_det _ _ _ Hx Hy).
  - now apply NoDup_filter.
  - intros y. rewrite in_flat_map, filter_In, flowsb_spec. split.
    + intros [x [Hx Hy]]. apply IC in Hx. apply in_upstream in Hy. pose proof Hy as [D1 [D2 [D3 D4]]]. split; [apply IC; now split|]. rewrite <- D3. split; [exact Hy|apply Hx].
    + intros [Hy [D I]]. exists (towards f y). split; [apply IC; split; [exact I|exact (V _ _ D I)]|]. now apply in_upstream.
Qed.
Lemma outlets_all : Permutation O (filter (fun x => negb (flowsb a0 a1 nd f x)) C).
Proof.
  destruct HC as [NC IC], HO as [NO IO]. apply NoDup_Permutation; [exact NO|now apply NoDup_filter|]. intros x. rewrite IO, filter_In, negb_true_iff, IC. unfold outlet. split.
  - intros [H H']. split; [exact H|]. destruct (flowsb a0 a1 nd f x) eqn:E; [|reflexivity]. apply flowsb_spec in E. exfalso. exact (H' _ (proj1 E) (proj2 E)).
  - intros [H E]. split; [exact H|]. intros y D Hy. assert (flowsb a0 a1 nd f x = true); [|congruence]. apply flowsb_spec.
    pose proof D as [_ [_ [D3 _]]]. rewrite <- D3. auto.
Qed.
Lemma balance (o s e : cell -> Qc) : (forall x, valid x -> (o x + s x = e x + sum_of o (up x))%Qc) ->
  (sum_of o O + sum_of s C = sum_of e C)%Qc.
Proof.
  intros H. assert (E : (sum_of o C + sum_of s C = sum_of e C + sum_of o (flat_map up C))%Qc).
  { rewrite sum_flat. assert (E : forall L, (forall x, In x L -> valid x) -> (sum_of o L + sum_of s L = sum_of e L + sum_each o up L)%Qc).
    { induction L as [|x L IH]; intros HL; cbn [sum_each]; [rewrite !sum_nil; ring|]. rewrite !sum_cons. specialize (IH (fun y Hy => HL y (or_intror Hy))). specialize (H x (HL x (or_introl eq_refl))).
      transitivity ((o x + s x) + (sum_of o L + sum_of s L))%Qc; [ring|]. rewrite IH, H. ring. }
    apply E. intros x Hx. now apply HC. }
  rewrite (sum_perm o _ _ upstream_all) in E. rewrite (filter_split (flowsb a0 a1 nd f) o C) in E. rewrite (sum_perm o _ _ outlets_all).
  set (w := sum_of o (filter (fun x => negb (flowsb a0 a1 nd f x)) C)) in *. set (u := sum_of o (filter (flowsb a0 a1 nd f) C)) in *.
  assert (E2 : (u + (w + sum_of s C) = u + sum_of e C)%Qc) by (transitivity (u + w + sum_of s C)%Qc; [ring|]; etransitivity; [exact E|ring]).
  transitivity ((- u) + (u + (w + sum_of s C)))%Qc; [ring|]. rewrite E2. ring.
Qed.
End Network.
