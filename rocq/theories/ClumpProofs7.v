(** Proofs about clump (C28): the numbers of the clumps, and the whole operation. *)
From Verif Require Import Common CommonProofs CoreSpec DecompSpec ArraySpec ArrayRep IndexModel DecompModel ArrayModel ArrayProofs GridModel GridProofs GridRaster ZonalProofs UniqueModel UniqueSpec UniqueProofs
  ClumpSpec ClumpModel ClumpProofs ClumpProofs2 ClumpProofs3 ClumpProofs4 ClumpProofs5 ClumpProofs6.

Definition lsum (l : list local_result) : Z := fold_right (fun r s => Z.of_nat (length (lr_lut r)) + s) 0 l.
Lemma lsum_nonneg : forall l, 0 <= lsum l.
Proof. induction l as [|r l IH]; cbn [lsum fold_right]; [lia|]. fold (lsum l). lia. Qed.
Lemma lsum_app : forall l l', lsum (l ++ l') = lsum l + lsum l'.
Proof. induction l as [|r l IH]; intros l'; cbn [app lsum fold_right]; [reflexivity|]. fold (lsum l). fold (lsum (l ++ l')). rewrite IH. lia. Qed.
Lemma lsum_firstn_S : forall l k r, nth_error l k = Some r -> lsum (firstn (S k) l) = lsum (firstn k l) + Z.of_nat (length (lr_lut r)).
Proof.
  induction l as [|x l IH]; intros [|k] r H; cbn [nth_error] in H; try discriminate.
  - injection H as ->. cbn. lia.
  - specialize (IH k r H). cbn [firstn lsum fold_right] in *. fold (lsum (firstn k l)) in *. fold (lsum (firstn (S k) l)) in *. change (lsum (match l with [] => [] | a :: l0 => a :: firstn k l0 end)) with (lsum (firstn (S k) l)). lia.
Qed.
Lemma lsum_firstn_mono : forall l k k', (k <= k')%nat -> lsum (firstn k l) <= lsum (firstn k' l).
Proof.
  intros l k k' H. rewrite <- (firstn_skipn k (firstn k' l)). rewrite firstn_firstn, Nat.min_l by lia. rewrite lsum_app. pose proof (lsum_nonneg (skipn k (firstn k' l))). lia.
Qed.
Lemma lsum_firstn_le : forall l k, lsum (firstn k l) <= lsum l.
Proof. intros l k. rewrite <- (firstn_skipn k l) at 2. rewrite lsum_app. pose proof (lsum_nonneg (skipn k l)). lia. Qed.
Lemma number_length : forall l first, length (number_clumps first l) = length l.
Proof. induction l as [|r l IH]; intros first; cbn [number_clumps length]; [reflexivity|]. now rewrite IH. Qed.
Lemma nth_number : forall l first k r, nth_error l k = Some r ->
  nth_error (number_clumps first l) k = Some (LocalResult (lr_zones r) (lr_clumps r) (map (Z.add (first + lsum (firstn k l))) (lr_lut r))).
Proof.
  induction l as [|x l IH]; intros first [|k] r H; cbn [nth_error] in H; try discriminate.
  - injection H as ->. cbn. now rewrite Z.add_0_r.
  - cbn [number_clumps nth_error]. rewrite (IH _ k r H). cbn [firstn lsum fold_right]. fold (lsum (firstn k l)). do 4 f_equal. lia.
Qed.
Lemma lsum_unique : forall l k k' r r' x x', nth_error l k = Some r -> nth_error l k' = Some r' -> 0 <= x < Z.of_nat (length (lr_lut r)) -> 0 <= x' < Z.of_nat (length (lr_lut r')) ->
  lsum (firstn k l) + x = lsum (firstn k' l) + x' -> k = k' /\ x = x'.
Proof.
  intros l k k' r r' x x' H H' Hx Hx' E. pose proof (lsum_firstn_S _ _ _ H). pose proof (lsum_firstn_S _ _ _ H').
  assert (k < k' \/ k' < k \/ k = k')%nat as [L|[L|L]] by lia.
  - pose proof (lsum_firstn_mono l (S k) k' ltac:(lia)). lia.
  - pose proof (lsum_firstn_mono l (S k') k ltac:(lia)). lia.
  - subst. split; [reflexivity|lia].
Qed.

(** The extents of the partitions add up to the extents of the array. *)
Definition zsum (l : list Z) : Z := fold_right Z.add 0 l.
Lemma zsum_app : forall l l', zsum (l ++ l') = zsum l + zsum l'.
Proof. induction l as [|r l IH]; intros l'; cbn [app zsum fold_right]; [reflexivity|]. fold (zsum l). fold (zsum (l ++ l')). rewrite IH. lia. Qed.
Lemma zsum_le {A} : forall (h h' : A -> Z) l, (forall x, In x l -> h x <= h' x) -> zsum (map h l) <= zsum (map h' l).
Proof. intros h h' l. induction l as [|x l IH]; intros H; cbn; [lia|]. fold (zsum (map h l)). fold (zsum (map h' l)). pose proof (H x (or_introl eq_refl)). pose proof (IH (fun y Hy => H y (or_intror Hy))). lia. Qed.
Lemma zsum_scale {A} : forall c (h : A -> Z) l, zsum (map (fun x => c * h x) l) = c * zsum (map h l).
Proof. intros c h l. induction l as [|x l IH]; cbn; [lia|]. fold (zsum (map h l)). fold (zsum (map (fun x => c * h x) l)). lia. Qed.
Lemma zsum_cells2 : forall (e e' : Z -> Z) n0 n1, zsum (map (fun rc => e (fst rc) * e' (snd rc)) (cells2 0 n0 0 n1)) = zsum (map e (zseq 0 n0)) * zsum (map e' (zseq 0 n1)).
Proof.
  intros e e' n0 n1. unfold cells2. induction (zseq 0 n0) as [|r l IH]; cbn [flat_map map]; [reflexivity|]. rewrite map_app, zsum_app, IH. cbn [zsum fold_right]. fold (zsum (map e l)). rewrite map_map. cbn [fst snd]. rewrite zsum_scale. lia.
Qed.
Lemma zsum_prefix : forall a p m, 0 < p <= a -> (Z.of_nat m < a / p) -> zsum (map (ext1 a p) (zseq 0 (Z.of_nat m))) = Z.of_nat m * p.
Proof.
  intros a p m Hp. induction m as [|m IH]; intros Hm; [reflexivity|].
  replace (Z.of_nat (S m)) with (Z.of_nat m + 1) in * by lia. rewrite zseq_snoc by lia. rewrite map_app, zsum_app, IH by lia. cbn [map zsum fold_right]. unfold ext1. replace (0 + Z.of_nat m =? a / p - 1) with false by lia. lia.
Qed.
Lemma zsum_extents : forall a p, 0 < p <= a -> zsum (map (ext1 a p) (zseq 0 (a / p))) = a.
Proof.
  intros a p Hp. pose proof (nparts_pos a p Hp) as H. replace (a / p) with (Z.of_nat (Z.to_nat (a / p - 1)) + 1) at 1 by lia. rewrite zseq_snoc by lia. rewrite map_app, zsum_app, zsum_prefix by lia. cbn [map zsum fold_right]. unfold ext1. replace (0 + Z.of_nat (Z.to_nat (a / p - 1)) =? a / p - 1) with true by lia. lia.
Qed.
