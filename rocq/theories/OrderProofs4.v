(** Proofs for decreasing_order, continued: cells of routes. *)
From Verif Require Import Common CommonProofs CoreSpec IndexModel IndexProofs DecompSpec ArraySpec AggregateSpec DecompModel DecompProofs DecompProofs2 ArrayModel ArrayRep ArrayProofs
  LocalModel LocalProofs AggregateProofs ZonalModel ZonalProofs RasterCheck StreamProofs OrderModel OrderSpec OrderProofs OrderProofs2 OrderProofs3.

Lemma enum_in {A} (l : list A) i x : In (i, x) (combine (zseq 0 (Z.of_nat (length l))) l) -> nth_z i l = Some x.
Proof.
  intros H. destruct l as [|d l]; [destruct H|]. revert H. generalize (d :: l). clear l. intros l H. apply In_nth_error in H. destruct H as [k Hk].
  assert (k < length l)%nat as Hl.
  { assert (k < length (combine (zseq 0 (Z.of_nat (length l))) l))%nat as L by (apply nth_error_Some; congruence). rewrite combine_length in L. lia. }
  assert (nth_error (combine (zseq 0 (Z.of_nat (length l))) l) k = Some (Z.of_nat k, nth k l d)) as E.
  { erewrite nth_error_nth' with (d := (0, d)) by (rewrite combine_length, zseq_length; lia). rewrite combine_nth by (rewrite zseq_length; lia).
    f_equal. f_equal. apply nth_error_nth. rewrite nth_error_zseq by lia. now rewrite Z.add_0_l. }
  rewrite E in Hk. inversion Hk; subst. unfold nth_z. destruct (Z.ltb_spec (Z.of_nat k) 0); [lia|]. rewrite Nat2Z.id. now apply nth_error_nth'.
Qed.
Lemma enum_snd {A} (l : list A) s : map snd (combine (zseq s (Z.of_nat (length l))) l) = l.
Proof.
  revert s. induction l as [|x l IH]; intros s; [cbn; rewrite combine_nil; reflexivity|]. cbn [length]. rewrite zseq_cons by lia.
  replace (Z.of_nat (S (length l)) - 1) with (Z.of_nat (length l)) by lia. cbn [combine map snd]. now rewrite IH.
Qed.
Lemma enum_flat {A B} (l : list A) (g : Z -> list B) (h : Z -> A -> list B) : (forall q a, nth_z q l = Some a -> g q = h q a) ->
  flat_map g (zseq 0 (Z.of_nat (length l))) = flat_map (fun qa => h (fst qa) (snd qa)) (combine (zseq 0 (Z.of_nat (length l))) l).
Proof.
  intros H. rewrite <- (map_id (zseq 0 _)) at 1.
  assert (E : forall (z : list Z), length z = length l -> map fst (combine z l) = z).
  { clear. revert l. intros l z. revert l. induction z as [|x z IH]; intros [|a l] L; try discriminate; [reflexivity|]. cbn [combine map fst]. f_equal. apply IH. now inversion L. }
  rewrite map_id. rewrite <- (E (zseq 0 (Z.of_nat (length l)))) at 1 by (rewrite zseq_length; lia).
  assert (F : forall qa, In qa (combine (zseq 0 (Z.of_nat (length l))) l) -> g (fst qa) = h (fst qa) (snd qa)).
  { intros [q a] Hq. apply H. now apply enum_in. }
  revert F. generalize (combine (zseq 0 (Z.of_nat (length l))) l). intros c F. induction c as [|[q a] c IH]; [reflexivity|].
  cbn [map flat_map fst snd]. f_equal; [exact (F (q, a) (or_introl eq_refl))|]. apply IH. intros; apply F; now right.
Qed.
Lemma perm_eq {A} (l l' : list A) : l = l' -> Permutation l l'. Proof. now intros ->. Qed.
Lemma perm_flat_map {A B} (f g : A -> list B) l : (forall x, In x l -> Permutation (f x) (g x)) -> Permutation (flat_map f l) (flat_map g l).
Proof. induction l as [|x l IH]; intros H; [constructor|]. cbn. apply Permutation_app; [apply H; now left|apply IH; intros; apply H; now right]. Qed.

Section Cells.
Context {V : Type} (ltb eqb : V -> V -> bool) (min_value : V) (mx : Z) (comparable : V -> Prop) (sort : list (V * Z) -> list (V * Z)).
Context (Hord : weak_order ltb eqb comparable) (Hsort : sorts ltb comparable sort).
Context (zone_nd : Z -> bool) (value_nd : V -> bool).
Context (fz : list Z -> Z) (fv : list Z -> V).
Context (Ys : list (list (list Z))).
Context (Hcmp : forall Y x, In Y Ys -> In x Y -> valid zone_nd value_nd fz fv x = true -> comparable (fv x)).

Definition cell_of (at_ : Z * Z) : list Z :=
  match nth_z (fst at_) Ys with Some Y => match nth_z (snd at_) Y with Some x => x | None => [] end | None => [] end.
Definition selected (z : Z) (x : list Z) : bool := valid zone_nd value_nd fz fv x && (fz x =? z).

Definition tagged_cells z (q : Z) (Y : list (list Z)) : list (V * (Z * Z)) :=
  map (fun ix => (fv (snd ix), (q, fst ix))) (filter (fun ix => selected z (snd ix)) (indexed Y)).
Lemma all0_perm z : Permutation (all0 sort zone_nd value_nd fz fv Ys z) (flat_map (fun qa => tagged_cells z (fst qa) (snd qa)) (combine (zseq 0 (Z.of_nat (length Ys))) Ys)).
Proof.
  unfold all0, flat, n.
  rewrite (enum_flat Ys _ (fun q Y => map (tag q) (sort (vals (entries zone_nd value_nd fz fv Y) z)))).
  2: { intros q Y HY. unfold R0. now rewrite HY. }
  apply perm_flat_map. intros [q Y] Hq. cbn [fst snd]. apply enum_in in Hq. apply nth_z_in in Hq. destruct Hq as [HY _].
  transitivity (map (tag q) (vals (entries zone_nd value_nd fz fv Y) z)).
  - apply Permutation_map. apply Hsort. now apply (vals_comparable comparable zone_nd value_nd fz fv Ys Hcmp).
  - rewrite entries_vals, map_map. unfold tagged_cells, selected.
    apply perm_eq. rewrite (filter_ext _ (fun ix => valid zone_nd value_nd fz fv (snd ix) && (fz (snd ix) =? z))) by (intros [i x]; reflexivity).
    apply map_ext. intros [i x]. reflexivity.
Qed.
Lemma tagged_in z q Y e : nth_z q Ys = Some Y -> In e (tagged_cells z q Y) -> fst e = fv (cell_of (snd e)) /\ fst (snd e) = q /\ nth_z (snd (snd e)) Y = Some (cell_of (snd e)).
Proof.
  intros HY He. unfold tagged_cells in He. apply in_map_iff in He. destruct He as [[i x] [<- He]]. apply filter_In in He. destruct He as [He _].
  apply enum_in in He. unfold cell_of. cbn [fst snd]. rewrite HY, He. auto.
Qed.
Lemma tagged_map z q Y : nth_z q Ys = Some Y -> map (fun e => cell_of (snd e)) (tagged_cells z q Y) = filter (selected z) Y.
Proof.
  intros HY. unfold tagged_cells. rewrite map_map. cbn [snd].
  transitivity (map snd (filter (fun ix => selected z (snd ix)) (indexed Y))).
  - apply map_ext_in. intros [i x] He. apply filter_In in He. destruct He as [He _]. apply enum_in in He. unfold cell_of. cbn [fst snd]. now rewrite HY, He.
  - unfold indexed. rewrite <- (enum_snd Y 0) at 3. generalize (combine (zseq 0 (Z.of_nat (length Y))) Y). intros l. induction l as [|[i x] l IH]; [reflexivity|].
    cbn [filter map snd]. destruct (selected z x); cbn [map snd]; now rewrite IH.
Qed.
Lemma all0_in z e : In e (all0 sort zone_nd value_nd fz fv Ys z) -> fst e = fv (cell_of (snd e)) /\ exists Y, nth_z (fst (snd e)) Ys = Some Y /\ nth_z (snd (snd e)) Y = Some (cell_of (snd e)).
Proof.
  intros He. apply (Permutation_in e (all0_perm z)) in He. apply in_flat_map in He. destruct He as [[q Y] [Hq He]]. cbn [fst snd] in He. apply enum_in in Hq.
  destruct (tagged_in z q Y e Hq He) as [H1 [H2 H3]]. split; [assumption|]. exists Y. now rewrite H2.
Qed.
Lemma all0_cells z : Permutation (map (fun e => cell_of (snd e)) (all0 sort zone_nd value_nd fz fv Ys z)) (filter (selected z) (concat Ys)).
Proof.
  rewrite (Permutation_map _ (all0_perm z)). apply perm_eq. rewrite <- flat_map_map_out.
  assert (F : forall qa, In qa (combine (zseq 0 (Z.of_nat (length Ys))) Ys) -> map (fun e => cell_of (snd e)) (tagged_cells z (fst qa) (snd qa)) = filter (selected z) (snd qa)).
  { intros [q Y] Hq. apply enum_in in Hq. now apply tagged_map. }
  rewrite <- (enum_snd Ys 0) at 3. revert F. generalize (combine (zseq 0 (Z.of_nat (length Ys))) Ys). intros l F. induction l as [|x l IH]; [reflexivity|].
  cbn [flat_map map concat]. rewrite filter_app, F by now left. f_equal. apply IH. intros; apply F; now right.
Qed.

(** From the hops of a finished route to its cells *)
Lemma final_highest z start hops : NoDup (concat Ys) ->
  final ltb mx (n Ys) (all0 sort zone_nd value_nd fz fv Ys z) start hops ->
  start = next_partition hops /\ Forall (fun h => 0 <= fst h < n Ys) hops /\
  (forall at_, In at_ (hop_cells hops) -> exists Y, nth_z (fst at_) Ys = Some Y /\ nth_z (snd at_) Y = Some (cell_of at_)) /\
  highest_first ltb fv (filter (selected z) (concat Ys)) mx (map cell_of (hop_cells hops)).
Proof.
  intros ND [taken [rest [H1 [H2 [H3 [H4 [H5 [H6 H7]]]]]]]].
  assert (Hin : forall e, In e taken -> In e (all0 sort zone_nd value_nd fz fv Ys z)) by (intros e He; apply (Permutation_in _ H4); apply in_app_iff; now left).
  assert (Hin' : forall e, In e rest -> In e (all0 sort zone_nd value_nd fz fv Ys z)) by (intros e He; apply (Permutation_in _ H4); apply in_app_iff; now right).
  assert (P : Permutation (map (fun e => cell_of (snd e)) (taken ++ rest)) (filter (selected z) (concat Ys))) by (rewrite H4; apply all0_cells).
  assert (ND' : NoDup (map (fun e => cell_of (snd e)) (taken ++ rest))).
  { eapply Permutation_NoDup; [apply Permutation_sym, P|]. now apply NoDup_filter. }
  assert (Ec : map cell_of (hop_cells hops) = map (fun e => cell_of (snd e)) taken) by (rewrite H3, map_map; reflexivity).
  rewrite map_app in P, ND'.
  split; [assumption|]. split; [assumption|]. split.
  - intros at_ Hat. rewrite H3 in Hat. apply in_map_iff in Hat. destruct Hat as [e [<- He]]. apply (all0_in z e (Hin e He)).
  - rewrite Ec. unfold highest_first. repeat split.
    + revert ND'. generalize (map (fun e => cell_of (snd e)) rest). clear. intros l'. induction (map _ taken) as [|x l IH]; intros H; [constructor|].
      cbn in H. inversion H; subst. constructor; [intros Hx; apply H2; apply in_app_iff; now left|now apply IH].
    + intros x Hx. apply (Permutation_in _ P). apply in_app_iff. now left.
    + clear - H5 Hin Hcmp Hsort. induction H5 as [|e l Hs IH Hf]; [constructor|]. cbn [map]. constructor; [apply IH; intros; apply Hin; now right|].
      apply Forall_forall. intros x Hx. apply in_map_iff in Hx. destruct Hx as [e' [<- He']]. rewrite Forall_forall in Hf.
      destruct (all0_in z e (Hin e (or_introl eq_refl))) as [E1 _]. destruct (all0_in z e' (Hin e' (or_intror He'))) as [E2 _]. rewrite <- E1, <- E2. apply Hf, He'.
    + rewrite map_length, H7. f_equal. rewrite <- (Permutation_length (all0_cells z)), map_length. reflexivity.
    + intros x y Hx Hy Hny. apply in_map_iff in Hx. destruct Hx as [e [<- He]].
      apply (Permutation_in _ (Permutation_sym P)) in Hy. apply in_app_iff in Hy. destruct Hy as [Hy|Hy]; [contradiction|].
      apply in_map_iff in Hy. destruct Hy as [e' [<- He']].
      destruct (all0_in z e (Hin e He)) as [E1 _]. destruct (all0_in z e' (Hin' e' He')) as [E2 _]. rewrite <- E1, <- E2. now apply H6.
Qed.
End Cells.
