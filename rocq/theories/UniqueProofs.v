(** Proofs about unique and unique_id. *)
From Coq Require Import Sorted Permutation.
From Verif Require Import Common CommonProofs CoreSpec DecompSpec ArraySpec IndexModel IndexProofs DecompModel DecompProofs DecompProofs2 DecompProofs4 ArrayModel ArrayRep ArrayProofs
  LocalProofs GridModel GridProofs AggregateModel AggregateSpec AggregateProofs UniqueModel UniqueSpec.

(** ** unique *)
Lemma set_insert_in v l x : In x (set_insert v l) <-> x = v \/ In x l.
Proof.
  induction l as [|y l IH]; cbn [set_insert]; [cbn; intuition congruence|].
  destruct (Z.ltb_spec v y); [cbn; intuition congruence|]. destruct (Z.ltb_spec y v); cbn [In].
  - rewrite IH. intuition congruence.
  - replace v with y by lia. intuition congruence.
Qed.
Lemma set_insert_sorted v l : StronglySorted Z.lt l -> StronglySorted Z.lt (set_insert v l).
Proof.
  induction 1 as [|y l Hl IH Hy]; cbn [set_insert]; [repeat constructor|].
  destruct (Z.ltb_spec v y).
  - constructor; [now constructor|]. constructor; [assumption|]. eapply Forall_impl; [|exact Hy]. cbn. intros; lia.
  - destruct (Z.ltb_spec y v); [|now constructor].
    constructor; [assumption|]. apply Forall_forall. intros x Hx. apply set_insert_in in Hx. destruct Hx as [->|Hx]; [assumption|]. rewrite Forall_forall in Hy. auto.
Qed.
Lemma insert_all l s : StronglySorted Z.lt s -> set_of (fun v => In v s \/ In v l) (fold_left (fun acc v => set_insert v acc) l s).
Proof.
  revert s. induction l as [|v l IH]; intros s Hs; cbn [fold_left].
  - split; [assumption|]. cbn. tauto.
  - destruct (IH (set_insert v s) (set_insert_sorted v s Hs)) as [A B]. split; [assumption|]. intros x. rewrite B, set_insert_in. cbn [In]. intuition congruence.
Qed.
Lemma insert_sets ls s : StronglySorted Z.lt s ->
  set_of (fun v => In v s \/ exists l, In l ls /\ In v l) (fold_left (fun acc l => fold_left (fun acc v => set_insert v acc) l acc) ls s).
Proof.
  revert s. induction ls as [|l ls IH]; intros s Hs; cbn [fold_left].
  - split; [assumption|]. intros v. split; [tauto|]. intros [H|[l [[] _]]]; assumption.
  - destruct (insert_all l s Hs) as [A B]. destruct (IH _ A) as [A' B']. split; [assumption|]. intros v. rewrite B', B. cbn [In]. split.
    + intros [[H|H]|[l' [H1 H2]]]; [tauto|right; exists l; tauto|right; exists l'; tauto].
    + intros [H|[l' [[->|H1] H2]]]; [tauto|tauto|right; exists l'; tauto].
Qed.

Lemma unique_partition_ok nd q : Z.of_nat (length (pl_data q)) = nr_elements (pl_shape q) ->
  exists s, unique_partition nd q = Ok s /\ set_of (fun v => In v (pl_data q) /\ nd v = false) s.
Proof.
  intros Hl. unfold unique_partition. rewrite <- Hl.
  assert (G : forall n, (n <= length (pl_data q))%nat -> exists s,
    fold_left (fun acc i => obind acc (fun s => obind (at_z (pl_data q) i) (fun v => Ok (if negb (nd v) then set_insert v s else s)))) (zseq 0 (Z.of_nat n)) (Ok []) = Ok s /\
    set_of (fun v => In v (firstn n (pl_data q)) /\ nd v = false) s).
  { induction n as [|n IH]; intros Hn.
    - exists []. split; [reflexivity|]. split; [constructor|]. cbn. tauto.
    - destruct IH as [s [E [S1 S2]]]; [lia|]. replace (Z.of_nat (S n)) with (Z.of_nat n + 1) by lia. rewrite zseq_snoc by lia. rewrite fold_left_app, E. cbn [fold_left obind].
      destruct (nth_error (pl_data q) n) as [v|] eqn:En; [|apply nth_error_None in En; lia].
      unfold at_z. rewrite nth_z_nat by lia. replace (Z.to_nat (0 + Z.of_nat n)) with n by lia. rewrite En. cbn [obind].
      assert (F : forall x, In x (firstn (S n) (pl_data q)) <-> In x (firstn n (pl_data q)) \/ x = v).
      { intros x. rewrite <- (firstn_skipn n (firstn (S n) (pl_data q))). rewrite firstn_firstn, Nat.min_l by lia.
        assert (E' : skipn n (firstn (S n) (pl_data q)) = [v]).
        { apply nth_error_split in En. destruct En as [l1 [l2 [El El1]]]. rewrite El, <- El1. replace (S (length l1)) with (length l1 + 1)%nat by lia. rewrite firstn_app_2. cbn.
          rewrite skipn_app, skipn_all, Nat.sub_diag. reflexivity. }
        rewrite E', in_app_iff. cbn. intuition congruence. }
      eexists. split; [reflexivity|]. destruct (nd v) eqn:Ev; cbn [negb]; split.
      + assumption.
      + intros x. rewrite S2, F. split; [tauto|]. intros [[H|H] Hx]; [tauto|congruence].
      + now apply set_insert_sorted.
      + intros x. rewrite set_insert_in, S2, F. split; [intros [->|H]; tauto|tauto]. }
  destruct (G (length (pl_data q)) (le_n _)) as [s [E S]]. exists s. rewrite firstn_all in S. auto.
Qed.

Lemma raster_values {E} a p (arr : parray E) f v : raster_of a p arr f ->
  ((exists q, In q (pa_parts arr) /\ In v (pl_data q)) <-> exists x, in_shape a x /\ f x = v).
Proof.
  intros H. assert (D := raster_datas a p arr f H). assert (Hf : partition_fits a p) by apply H. pose proof (parts_permutation a p Hf) as P. split.
  - intros [q [Hq Hv]]. apply (in_map pl_data) in Hq. rewrite D in Hq. apply in_map_iff in Hq. destruct Hq as [c [E1 Hc]]. rewrite <- E1 in Hv.
    apply in_map_iff in Hv. destruct Hv as [x [E2 Hx]]. exists x. split; [|assumption]. apply all_cells_spec. eapply Permutation_in; [exact P|]. apply in_flat_map. eauto.
  - intros [x [Hx <-]]. apply all_cells_spec in Hx. apply Permutation_sym in P. eapply Permutation_in in Hx; [|exact P]. apply in_flat_map in Hx. destruct Hx as [c [Hc Hx]].
    apply (in_map (fun c => map f (part_cells a p c))) in Hc. rewrite <- D in Hc. apply in_map_iff in Hc. destruct Hc as [q [E1 Hq]]. exists q. split; [assumption|]. rewrite E1. now apply in_map.
Qed.

Lemma raster_part_size {E} a p (arr : parray E) f q : raster_of a p arr f -> In q (pa_parts arr) -> Z.of_nat (length (pl_data q)) = nr_elements (pl_shape q) .
Proof.
  intros H Hq. apply In_nth_error in Hq. destruct Hq as [k Hk]. assert (Hf : partition_fits a p) by apply H.
  assert (Hkl : (k < length (pa_parts arr))%nat) by (apply nth_error_Some; congruence). pose proof (raster_length a p arr f H) as Hl. unfold nr_parts in Hl.
  destruct (rowmaj_surj (parts_shape a p) (Z.of_nat k) (parts_shape_pos a p Hf)) as [c [Hc Ec]]; [lia|].
  destruct (raster_part a p arr f c H Hc) as [q' [Eq [_ [Es B]]]]. rewrite Ec, Nat2Z.id, Hk in Eq. injection Eq as <-. rewrite Es.
  rewrite nr_elements_volume; [apply B|]. apply part_extent_ne; try assumption; apply H.
Qed.

Lemma unique_ok nd a p arr f : raster_of a p arr f ->
  exists s, unique nd arr = Ok s /\ set_of (fun v => nd v = false /\ exists x, in_shape a x /\ f x = v) s.
Proof.
  intros H. unfold unique.
  assert (G : forall parts, (forall q, In q parts -> Z.of_nat (length (pl_data q)) = nr_elements (pl_shape q)) ->
    exists sets, sequence (map (unique_partition nd) parts) = Ok sets /\
      forall v, (exists l, In l sets /\ In v l) <-> nd v = false /\ exists q, In q parts /\ In v (pl_data q)).
  { induction parts as [|q parts IH]; intros Hl.
    - exists []. split; [reflexivity|]. intros v. split; [intros [l [[] _]]|intros [_ [q [[] _]]]].
    - destruct IH as [sets [E1 IH]]; [intros; apply Hl; now right|]. destruct (unique_partition_ok nd q (Hl q (or_introl eq_refl))) as [s [E2 [_ S]]].
      exists (s :: sets). cbn [map sequence]. rewrite E2, E1. split; [reflexivity|]. intros v. split.
      + intros [l [[<-|Hlin] Hv]].
        * apply S in Hv. split; [tauto|]. exists q. split; [now left|tauto].
        * destruct (proj1 (IH v)) as [A [q' [B1 B2]]]; [eauto|]. split; [assumption|]. exists q'. split; [now right|assumption].
      + intros [A [q' [[<-|B1] B2]]].
        * exists s. split; [now left|]. apply S. auto.
        * destruct (proj2 (IH v)) as [l [C1 C2]]; [eauto|]. exists l. split; [now right|assumption]. }
  destruct (G (pa_parts arr)) as [sets [E1 S]]; [intros q Hq; eapply raster_part_size; eassumption|]. rewrite E1. cbn [obind]. eexists. split; [reflexivity|].
  destruct (insert_sets sets [] ltac:(constructor)) as [A B]. split; [assumption|]. intros v. rewrite B, S. rewrite (raster_values a p arr f v H). cbn. tauto.
Qed.
