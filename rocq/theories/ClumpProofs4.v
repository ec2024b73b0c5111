(** Proofs about clump (C28): merging sets that share an element. *)
From Verif Require Import Common CommonProofs IndexModel DecompModel ArrayModel ArrayProofs GridModel GridProofs UniqueModel UniqueSpec UniqueProofs ClumpSpec ClumpModel ClumpProofs3.

Section Sets.
Context (R : Z -> Z -> Prop).
Hypothesis R_sym : forall x y, R x y -> R y x.
Hypothesis R_trans : forall x y w, R x y -> R y w -> R x w.
Context (sets0 : list (list Z)).
Local Notation n := (Z.of_nat (length sets0)).
(** The cells of one clump; two sets with cells of this clump share one *)
Context (Q : Z -> Prop).

Definition meets (s : list Z) : Prop := exists x, In x s /\ Q x.
Definition q_ok (sets : list (list Z)) : Prop := forall i j s t, nth_z i sets = Some s -> nth_z j sets = Some t -> meets s -> meets t -> exists x, In x s /\ In x t.

Definition merge_step (idx1 : Z) (acc : outcome (list (list Z) * list (Z * Z))) (idx2 : Z) : outcome (list (list Z) * list (Z * Z)) :=
  obind acc (fun '(sets, updates) =>
          obind (at_z sets idx1) (fun s1 => obind (at_z sets idx2) (fun s2 =>
          obind (share_element s1 s2) (fun share =>
          if share then
            assert (negb (existsb (fun u => fst u =? idx2) updates)) (
            match upd_z idx1 (fold_left (fun s v => set_insert v s) s2 s1) sets with
            | Some sets => match upd_z idx2 [] sets with Some sets => Ok (sets, (idx2, idx1) :: updates) | None => UB end
            | None => UB
            end)
          else Ok (sets, updates))))).

Record minv (idx1 m : Z) (sets : list (list Z)) (updates : list (Z * Z)) : Prop := {
  mi_sets : psets R sets;
  mi_length : length sets = length sets0;
  mi_from : forall i s0, nth_z i sets0 = Some s0 -> exists s, nth_z (find_update updates i) sets = Some s /\ incl s0 s;
  mi_updates : forall k t, In (k, t) updates -> nth_z k sets = Some [] /\ t <= idx1;
  mi_q : q_ok sets0 -> (forall x y, R x y -> Q x -> Q y) -> q_ok sets /\
    (forall i j s t, i < idx1 -> i < j -> nth_z i sets = Some s -> nth_z j sets = Some t -> meets s -> ~ meets t) /\
    (forall j s t, idx1 < j < m -> nth_z idx1 sets = Some s -> nth_z j sets = Some t -> meets s -> ~ meets t) }.

Lemma find_update_cases : forall u i, find_update u i = i /\ (forall t, ~ In (i, t) u) \/ In (i, find_update u i) u.
Proof.
  induction u as [|[k j] u IH]; intros i; cbn [find_update]; [left; split; [reflexivity|intros t []]|]. destruct (Z.eqb_spec k i) as [->|N].
  - right. left. reflexivity.
  - destruct (IH i) as [[E H]|H]; [left|right; right; exact H]. split; [exact E|]. intros t [X|X]; [congruence|exact (H t X)].
Qed.

Lemma merge_step_ok : forall idx1 m sets updates, 0 <= idx1 < m -> m < n -> minv idx1 m sets updates ->
  exists sets' updates', merge_step idx1 (Ok (sets, updates)) m = Ok (sets', updates') /\ minv idx1 (m + 1) sets' updates'.
Proof.
  intros idx1 m sets updates H1 Hm [MS ML MF MU MQ]. destruct (nth_z_some sets idx1) as [s1 E1]; [lia|]. destruct (nth_z_some sets m) as [s2 E2]; [lia|].
  unfold merge_step. cbn [obind]. rewrite (nth_z_at _ _ _ E1), (nth_z_at _ _ _ E2). cbn [obind].
  destruct (share_element_ok s1 s2) as [b (Eb & B1 & B2)]. rewrite Eb. cbn [obind]. destruct (MS _ _ E1) as [R1 S1]. destruct (MS _ _ E2) as [R2 S2].
  destruct b.
  - destruct (B1 eq_refl) as [x0 [X1 X2]].
    assert (Enk : existsb (fun u => fst u =? m) updates = false).
    { destruct (existsb _ updates) eqn:E; [|reflexivity]. apply existsb_exists in E. destruct E as [[k t] [I Ek]]. cbn [fst] in Ek. assert (k = m) by lia. subst k. destruct (MU m t I) as [Z0 _]. rewrite E2 in Z0. injection Z0 as ->. destruct X2. }
    rewrite Enk. cbn [negb assert].
    set (s' := fold_left (fun s v => set_insert v s) s2 s1). destruct (insert_all s2 s1 S1) as [Ss' Hs']. fold s' in Ss', Hs'.
    destruct (upd_z_ok sets idx1 s1 s' E1) as [l1 (U1 & L1 & N1 & O1)]. rewrite U1. assert (E2' : nth_z m l1 = Some s2) by (rewrite O1 by lia; exact E2).
    destruct (upd_z_ok l1 m s2 [] E2') as [l2 (U2 & L2 & N2 & O2)]. rewrite U2. exists l2, ((m, idx1) :: updates). split; [reflexivity|].
    assert (Nth : forall j t, nth_z j l2 = Some t -> j = m /\ t = [] \/ j = idx1 /\ t = s' \/ j <> m /\ j <> idx1 /\ nth_z j sets = Some t).
    { intros j t Hj. destruct (Z.eq_dec j m) as [->|Nm]; [left; rewrite N2 in Hj; injection Hj as <-; auto|]. right. rewrite O2 in Hj by assumption. destruct (Z.eq_dec j idx1) as [->|Ni]; [left; rewrite N1 in Hj; injection Hj as <-; auto|].
      right. rewrite O1 in Hj by assumption. auto. }
    constructor.
    + intros j t Hj. destruct (Nth j t Hj) as [[-> ->]|[[-> ->]|(_ & _ & Hj')]]; [split; [intros x y []|constructor]| |now apply MS with (1 := Hj')].
      split; [|exact Ss']. assert (Rx : forall x, In x s' -> R x x0). { intros x Hx. apply Hs' in Hx. destruct Hx; auto. } intros x y Hx Hy. pose proof (Rx x Hx). pose proof (Rx y Hy). eauto.
    + congruence.
    + intros i s0 Hi. destruct (MF i s0 Hi) as [s [F1 F2]]. cbn [find_update]. destruct (Z.eqb_spec m i) as [<-|Nmi].
      * exists s'. rewrite O2 by lia. split; [exact N1|]. destruct (find_update_cases updates m) as [[Ef _]|Hin].
        -- rewrite Ef in F1. rewrite E2 in F1. injection F1 as <-. intros x Hx. apply Hs'. right. apply F2. exact Hx.
        -- exfalso. assert (existsb (fun u => fst u =? m) updates = true) by (apply existsb_exists; eexists; split; [exact Hin|cbn [fst]; lia]). congruence.
      * assert (Nf : find_update updates i <> m). { destruct (find_update_cases updates i) as [[Ef _]|Hin]; [congruence|]. destruct (MU _ _ Hin) as [_ Ht]. lia. }
        destruct (Z.eq_dec (find_update updates i) idx1) as [Ef|Ni].
        -- rewrite Ef in *. exists s'. rewrite O2 by lia. split; [exact N1|]. rewrite E1 in F1. injection F1 as <-. intros x Hx. apply Hs'. left. apply F2. exact Hx.
        -- exists s. rewrite O2, O1 by assumption. auto.
    + intros k t [E|I].
      * injection E as <- <-. split; [exact N2|lia].
      * destruct (MU k t I) as [K1 K2]. split; [|exact K2]. destruct (Z.eq_dec k m) as [->|Nk]; [exact N2|]. destruct (Z.eq_dec k idx1) as [->|Ni]; [|rewrite O2, O1 by assumption; exact K1].
        rewrite E1 in K1. injection K1 as ->. destruct X1.
    + intros HQ HR. destruct (MQ HQ HR) as (Q1 & Q2 & Q3).
      assert (Hm' : meets s' -> meets s1 /\ meets s2).
      { intros [x [Hx Hq]]. assert (Rx : R x x0) by (apply Hs' in Hx; destruct Hx; auto). assert (Q x0) by (apply (HR x x0); assumption). split; exists x0; auto. }
      assert (Hnil : ~ meets []) by (intros [x [[] _]]).
      split; [|split].
      * intros i j s t Hi Hj Ms Mt. destruct (Nth i s Hi) as [[-> ->]|[[-> ->]|(A1 & A2 & A3)]]; [contradiction| |]; destruct (Nth j t Hj) as [[-> ->]|[[-> ->]|(C1 & C2 & C3)]]; try contradiction.
        -- exists x0. split; apply Hs'; left; exact X1.
        -- destruct (Hm' Ms) as [Ms1 _]. destruct (Q1 idx1 j s1 t E1 C3 Ms1 Mt) as [x [Y1 Y2]]. exists x. split; [apply Hs'; left; exact Y1|exact Y2].
        -- destruct (Hm' Mt) as [Ms1 _]. destruct (Q1 i idx1 s s1 A3 E1 Ms Ms1) as [x [Y1 Y2]]. exists x. split; [exact Y1|apply Hs'; left; exact Y2].
        -- exact (Q1 i j s t A3 C3 Ms Mt).
      * intros i j s t Hi Hij Hni Hnj Ms Mt. destruct (Nth i s Hni) as [[-> ->]|[[-> ->]|(A1 & A2 & A3)]]; [contradiction|lia|]. destruct (Nth j t Hnj) as [[-> ->]|[[-> ->]|(C1 & C2 & C3)]]; [contradiction| |exact (Q2 i j s t Hi Hij A3 C3 Ms Mt)].
        apply (Q2 i idx1 s s1 Hi ltac:(lia) A3 E1 Ms). apply Hm'. exact Mt.
      * intros j s t Hj Hs Ht Ms Mt. rewrite O2, N1 in Hs by lia. injection Hs as <-. destruct (Nth j t Ht) as [[-> ->]|[[-> ->]|(C1 & C2 & C3)]]; [contradiction|lia|]. apply (Q3 j s1 t ltac:(lia) E1 C3); [apply Hm'; exact Ms|exact Mt].
  - exists sets, updates. split; [reflexivity|]. constructor; auto. intros HQ HR. destruct (MQ HQ HR) as (Q1 & Q2 & Q3). split; [exact Q1|]. split; [exact Q2|].
    intros j s t Hj Hs Ht Ms Mt. destruct (Z.eq_dec j m) as [->|Nm]; [|apply (Q3 j s t ltac:(lia) Hs Ht Ms Mt)].
    destruct (Q1 idx1 m s t Hs Ht Ms Mt) as [x [Y1 Y2]]. rewrite E1 in Hs. injection Hs as <-. rewrite E2 in Ht. injection Ht as <-. exact (B2 S1 S2 eq_refl x Y1 Y2).
Qed.

Lemma merge_inner_ok : forall k idx1 m sets updates, 0 <= idx1 < m -> m + Z.of_nat k = n -> minv idx1 m sets updates ->
  exists sets' updates', fold_left (merge_step idx1) (zseq m (Z.of_nat k)) (Ok (sets, updates)) = Ok (sets', updates') /\ minv idx1 n sets' updates'.
Proof.
  induction k as [|k IH]; intros idx1 m sets updates H1 Hm M.
  - exists sets, updates. split; [reflexivity|]. replace n with m by lia. exact M.
  - rewrite zseq_cons by lia. cbn [fold_left]. destruct (merge_step_ok idx1 m sets updates H1 ltac:(lia) M) as [s1 [u1 [E M1]]]. rewrite E.
    replace (Z.of_nat (S k) - 1) with (Z.of_nat k) by lia. apply IH; [lia|lia|exact M1].
Qed.

Lemma merge_outer_ok : forall k idx1 sets updates, 0 <= idx1 -> idx1 + Z.of_nat k = n -> minv idx1 (idx1 + 1) sets updates ->
  exists sets' updates', fold_left (fun acc idx1 => fold_left (merge_step idx1) (zseq (idx1 + 1) (n - (idx1 + 1))) acc) (zseq idx1 (Z.of_nat k)) (Ok (sets, updates)) = Ok (sets', updates') /\ minv n (n + 1) sets' updates'.
Proof.
  induction k as [|k IH]; intros idx1 sets updates H1 Hm M.
  - exists sets, updates. split; [reflexivity|]. replace n with idx1 by lia. exact M.
  - rewrite zseq_cons by lia. cbn [fold_left]. replace (n - (idx1 + 1)) with (Z.of_nat k) by lia.
    destruct (merge_inner_ok k idx1 (idx1 + 1) sets updates ltac:(lia) ltac:(lia) M) as [s1 [u1 [E M1]]]. rewrite E.
    replace (Z.of_nat (S k) - 1) with (Z.of_nat k) by lia. apply IH; [lia|lia|]. destruct M1 as [MS ML MF MU MQ]. constructor; auto.
    + intros k' t I. destruct (MU k' t I). split; [assumption|lia].
    + intros HQ HR. destruct (MQ HQ HR) as (Q1 & Q2 & Q3). split; [exact Q1|]. split.
      * intros i j s t Hi Hij Hs Ht. destruct (Z.eq_dec i idx1) as [->|]; [apply (Q3 j); auto; pose proof (nth_z_range _ _ _ Ht); lia|]. apply (Q2 i j); auto. lia.
      * intros j s t Hj. lia.
Qed.

Lemma merge_sets_ok : psets R sets0 -> exists sets updates, merge_sets sets0 = Ok (sets, updates) /\ psets R sets /\
  (forall i s0, nth_z i sets0 = Some s0 -> exists s, nth_z (find_update updates i) sets = Some s /\ incl s0 s) /\
  (q_ok sets0 -> (forall x y, R x y -> Q x -> Q y) -> forall i j s t, nth_z i sets = Some s -> nth_z j sets = Some t -> meets s -> meets t -> i = j).
Proof.
  intros HP. destruct (merge_outer_ok (length sets0) 0 sets0 []) as [sets [updates [E [MS ML MF MU MQ]]]]; [lia|lia| |].
  - constructor; auto.
    + intros i s0 Hi. exists s0. split; [exact Hi|apply incl_refl].
    + intros k t [].
    + intros HQ HR. split; [exact HQ|]. split; [|intros; lia]. intros i j s t Hi Hij Hs. apply nth_z_range in Hs. lia.
  - exists sets, updates. split; [exact E|]. split; [exact MS|]. split; [exact MF|]. intros HQ HR i j s t Hs Ht Ms Mt. destruct (MQ HQ HR) as (_ & Q2 & _).
    pose proof (nth_z_range _ _ _ Hs) as Ri. pose proof (nth_z_range _ _ _ Ht) as Rj. destruct (Z.lt_total i j) as [L|[L|L]]; [exfalso|exact L|exfalso].
    + apply (Q2 i j s t); auto; lia.
    + apply (Q2 j i t s); auto; lia.
Qed.
End Sets.
