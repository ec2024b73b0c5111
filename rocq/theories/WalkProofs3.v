(** Proofs about walks along routes, continued: choice of the hops, and the array that results. *)
From Verif Require Import Common CommonProofs CoreSpec DecompSpec ArraySpec AggregateSpec IndexModel IndexProofs DecompModel DecompProofs DecompProofs2 DecompProofs4 ArrayModel ArrayRep ArrayProofs LocalProofs AggregateProofs ZonalModel ZonalProofs
  RasterCheck FlowProofs StreamProofs OrderModel OrderSpec OrderProofs OrderProofs2 OrderProofs3 OrderProofs4 OrderProofs5 WalkModel WalkSpec WalkProofs WalkProofs2.

Lemma choice_list {T} (d : T) (P : Z -> T -> Prop) (l : list Z) : (forall z, exists t, P z t) -> exists f, (forall z, In z l -> P z (f z)) /\ forall z, ~ In z l -> f z = d.
Proof.
  intros HP. induction l as [|z l [f [F1 F2]]]; [exists (fun _ => d); split; [intros ? []|auto]|].
  destruct (HP z) as [t Ht]. exists (fun z' => if z' =? z then t else f z'). split.
  - intros z' [<-|Hz]; [rewrite Z.eqb_refl; assumption|]. destruct (Z.eqb_spec z' z) as [E|E]; [subst; assumption|auto].
  - intros z' Hz. destruct (Z.eqb_spec z' z) as [E|E]; [exfalso; apply Hz; left; auto|]. apply F2. intros Hz'. apply Hz. now right.
Qed.
Lemma zfind_key {T} (m : zmap T) z : ~ In z (map fst m) -> zfind m z = None.
Proof. induction m as [|[k t] m IH]; intros Hn; [reflexivity|]. cbn [zfind map fst] in *. destruct (Z.eqb_spec k z) as [E|E]; [exfalso; apply Hn; now left|]. apply IH. intros Hz. apply Hn. now right. Qed.

Lemma visits_choice r : (forall id, exists cells, visits r id cells) ->
  exists (H : Z -> list (Z * list Z)) (C : Z -> list (list Z)), (forall z, route_hops r z (H z)) /\ (forall z, Forall2 (route_cell r) (hop_cells (H z)) (C z)) /\
    forall z, ~ In z (map fst (rt_starts r)) -> C z = [].
Proof.
  intros Hv. destruct (choice_list ([], []) (fun z t => route_hops r z (fst t) /\ Forall2 (route_cell r) (hop_cells (fst t)) (snd t)) (map fst (rt_starts r))) as [f [F1 F2]].
  { intros z. destruct (Hv z) as [cells [hops [A B]]]. exists (hops, cells). split; assumption. }
  exists (fun z => fst (f z)), (fun z => snd (f z)).
  assert (D : forall z, ~ In z (map fst (rt_starts r)) -> route_hops r z []).
  { intros z Hz. destruct (Hv z) as [cells [hops [A _]]]. assert (hops = []) as ->; [|assumption]. destruct A as [A _]. rewrite zfind_key in A by assumption. destruct hops; [reflexivity|discriminate]. }
  repeat split.
  - destruct (in_dec Z.eq_dec z (map fst (rt_starts r))) as [Hz|Hz]; [apply (F1 z Hz)|]. rewrite (F2 z Hz). apply (D z Hz).
  - destruct (in_dec Z.eq_dec z (map fst (rt_starts r))) as [Hz|Hz]; [apply (F1 z Hz)|]. rewrite (F2 z Hz). apply (D z Hz).
  - destruct (in_dec Z.eq_dec z (map fst (rt_starts r))) as [Hz|Hz]; [apply (F1 z Hz)|]. rewrite (F2 z Hz). apply (D z Hz).
  - intros z. destruct (in_dec Z.eq_dec z (map fst (rt_starts r))) as [Hz|Hz]; [apply (F1 z Hz)|]. rewrite (F2 z Hz). constructor.
  - intros z Hz. now rewrite (F2 z Hz).
Qed.

Lemma NoDup_app_both {A} (l l' : list A) : NoDup (l ++ l') -> NoDup l /\ NoDup l'.
Proof.
  induction l as [|x l IH]; intros ND; [split; [constructor|assumption]|]. cbn in ND. inversion ND as [|? ? Hn ND']; subst. destruct (IH ND'). split; [constructor; [|assumption]|assumption].
  intros Hx. apply Hn, in_app_iff. now left.
Qed.
Lemma map_map2 {A B C D} (g : C -> D) (f : A -> B -> C) l l' : map g (map2 f l l') = map2 (fun x y => g (f x y)) l l'.
Proof. revert l'. induction l as [|x l IH]; intros [|y l']; cbn; [reflexivity..|]. now rewrite IH. Qed.

Section Shape.
Context (a p : list Z) (r : serial_route) (W : well_formed_route a p r).
Let Ha : a <> [] := proj1 W.
Let Hfit : partition_fits a p := proj1 (proj2 W).

Lemma wf_part k q : nth_error (rt_parts r) k = Some q -> exists c, nth_error (all_cells (parts_shape a p)) k = Some c /\ in_shape (parts_shape a p) c /\ pl_offset q = part_offset p c /\ pl_shape q = part_extent a p c.
Proof.
  intros E. pose proof (proj1 (proj2 (proj2 (proj2 (proj2 W))))) as L. apply (f_equal (fun l => nth_error l k)) in L. rewrite !nth_error_map, E in L. cbn in L.
  destruct (nth_error (all_cells (parts_shape a p)) k) as [c|] eqn:Ec; [|discriminate]. cbn in L. inversion L. exists c. split; [reflexivity|]. split; [apply nth_error_In in Ec; now apply all_cells_spec in Ec|auto].
Qed.
Lemma wf_len : length (rt_parts r) = length (all_cells (parts_shape a p)).
Proof. pose proof (proj1 (proj2 (proj2 (proj2 (proj2 W))))) as L. apply (f_equal (@length _)) in L. now rewrite !map_length in L. Qed.
Lemma wf_shape q : In q (rt_parts r) -> 0 <= nr_elements (pl_shape q).
Proof. intros Hq. apply In_nth_error in Hq. destruct Hq as [k Hk]. destruct (wf_part k q Hk) as [c [_ [Hc [_ ->]]]]. rewrite (nr_elements_cells a p c Ha Hfit Hc). lia. Qed.
Lemma nr_elements_extent c : in_shape (parts_shape a p) c -> nr_elements (part_extent a p c) = volume (part_extent a p c).
Proof. intros Hc. apply nr_elements_volume. intros E. apply Ha. apply length_zero_iff_nil. rewrite <- (length_part_extent a p c) by assumption. now rewrite E. Qed.
Lemma route_cell_range pt i x : route_cell r (pt, i) x -> exists q, nth_z pt (rt_parts r) = Some q /\ 0 <= i < nr_elements (pl_shape q).
Proof.
  intros [q [y [E1 [E2 [E3 E4]]]]]. exists q. split; [assumption|]. rewrite <- E3. unfold nth_z in E1. destruct (pt <? 0); [discriminate|].
  destruct (wf_part _ _ E1) as [c [_ [Hc [_ Es]]]]. rewrite Es in *. rewrite (nr_elements_extent c Hc). now apply rowmaj_range.
Qed.
(** The cell at a partition and index *)
Lemma route_cell_nth pt i x : route_cell r (pt, i) x -> exists c, nth_z pt (all_cells (parts_shape a p)) = Some c /\ nth_z i (part_cells a p c) = Some x.
Proof.
  intros [q [y [E1 [E2 [E3 E4]]]]]. unfold nth_z in *. destruct (pt <? 0); [discriminate|]. destruct (wf_part _ _ E1) as [c [Ec [Hc [Eo Es]]]]. exists c. split; [assumption|].
  rewrite Es in *. assert (0 <= i) by (rewrite <- E3; now apply rowmaj_range). destruct (Z.ltb_spec i 0); [lia|]. unfold part_cells. rewrite nth_error_map.
  pose proof (shape_cells_nth _ _ E2) as E5. change (shape_cells (part_extent a p c)) with (all_cells (part_extent a p c)) in E5. rewrite <- E3, E5. cbn. now rewrite E4, Eo.
Qed.
Lemma route_cell_shape at_ x : route_cell r at_ x -> in_shape a x.
Proof.
  destruct at_ as [pt i]. intros Hc. apply route_cell_nth in Hc. destruct Hc as [c [E1 E2]]. apply nth_z_in in E1, E2.
  apply (cells_in a p (part_cells a p c)); [assumption| |apply E2]. unfold cells_lists. apply in_map, E1.
Qed.
Lemma nth_concat_inj {T} (Ys : list (list T)) k k' i i' Y Y' x : NoDup (concat Ys) -> nth_error Ys k = Some Y -> nth_error Ys k' = Some Y' ->
  nth_error Y i = Some x -> nth_error Y' i' = Some x -> k = k' /\ i = i'.
Proof.
  revert k k'. induction Ys as [|Y0 Ys IH]; intros k k' ND E E' Ei Ei'; [now destruct k|]. cbn [concat] in ND.
  destruct (NoDup_app_both _ _ ND) as [ND1 ND2].
  assert (X : forall j Z m, nth_error Ys j = Some Z -> nth_error Z m = Some x -> In x Y0 -> False).
  { intros j Z m A B C. apply nth_error_In in A, B. assert (In x (concat Ys)) as D by (apply in_concat; eauto).
    clear - ND C D. induction Y0 as [|y Y0 IH]; [destruct C|]. cbn in ND. inversion ND; subst. destruct C as [->|C]; [|auto]. apply H1. apply in_app_iff. now right. }
  destruct k as [|k], k' as [|k']; cbn [nth_error] in E, E'.
  - inversion E; inversion E'; subst. split; [reflexivity|]. eapply NoDup_nth_error; [exact ND1| |congruence]. apply nth_error_Some. congruence.
  - inversion E; subst. exfalso. eapply X; eauto. eapply nth_error_In; eauto.
  - inversion E'; subst. exfalso. eapply X; eauto. eapply nth_error_In; eauto.
  - destruct (IH k k' ND2 E E' Ei Ei') as [-> ->]. auto.
Qed.
Lemma route_cell_inj at1 at2 x : route_cell r at1 x -> route_cell r at2 x -> at1 = at2.
Proof.
  destruct at1 as [p1 i1], at2 as [p2 i2]. intros A B. apply route_cell_nth in A, B. destruct A as [c1 [A1 A2]], B as [c2 [B1 B2]]. unfold nth_z in *.
  destruct (Z.ltb_spec p1 0); [discriminate|]. destruct (Z.ltb_spec p2 0); [discriminate|]. destruct (Z.ltb_spec i1 0); [discriminate|]. destruct (Z.ltb_spec i2 0); [discriminate|].
  destruct (nth_concat_inj (cells_lists a p) (Z.to_nat p1) (Z.to_nat p2) (Z.to_nat i1) (Z.to_nat i2) (part_cells a p c1) (part_cells a p c2) x) as [E1 E2]; try assumption.
  - now apply cells_nodup.
  - unfold cells_lists. now rewrite nth_error_map, A1.
  - unfold cells_lists. now rewrite nth_error_map, B1.
  - f_equal; lia.
Qed.
Lemma forall2_firstn {A B} (R : A -> B -> Prop) l l' n : Forall2 R l l' -> Forall2 R (firstn n l) (firstn n l').
Proof. intros F. revert n. induction F; intros [|n]; cbn [firstn]; constructor; auto. Qed.
Lemma forall2_in_l {A B} (R : A -> B -> Prop) l l' x : Forall2 R l l' -> In x l -> exists y, In y l' /\ R x y.
Proof. intros F. induction F as [|u v l l' H F IH]; intros Hx; [destruct Hx|]. destruct Hx as [<-|Hx]; [exists v; split; [now left|assumption]|]. destruct (IH Hx) as [y [Hy Hr]]. exists y. split; [now right|assumption]. Qed.
Lemma forall2_in_r {A B} (R : A -> B -> Prop) l l' y : Forall2 R l l' -> In y l' -> exists x, In x l /\ R x y.
Proof. intros F. induction F as [|u v l l' H F IH]; intros Hx; [destruct Hx|]. destruct Hx as [<-|Hx]; [exists u; split; [now left|assumption]|]. destruct (IH Hx) as [z [Hy Hr]]. exists z. split; [now right|assumption]. Qed.

Context (no_data n : Z) (H : Z -> list (Z * list Z)) (C : Z -> list (list Z)).
Context (Hr : forall z, route_hops r z (H z)) (HC : forall z, Forall2 (route_cell r) (hop_cells (H z)) (C z)).
Context (HC0 : forall z, ~ In z (map fst (rt_starts r)) -> C z = []).

Definition first_b (x : list Z) : bool := existsb (fun e => if in_dec (list_eq_dec Z.eq_dec) x (firstn (Z.to_nat n) (C (fst e))) then true else false) (rt_starts r).
Lemma first_b_spec x : first_b x = true <-> exists z, In x (firstn (Z.to_nat n) (C z)).
Proof.
  unfold first_b. rewrite existsb_exists. split.
  - intros [[z q] [_ E]]. cbn [fst] in E. destruct (in_dec _ x _) as [Hin|]; [|discriminate]. eauto.
  - intros [z Hz]. destruct (in_dec Z.eq_dec z (map fst (rt_starts r))) as [Hk|Hk]; [|rewrite (HC0 z Hk), firstn_nil in Hz; destruct Hz].
    apply in_map_iff in Hk. destruct Hk as [e [<- He]]. exists e. split; [assumption|]. destruct (in_dec _ x _); [reflexivity|contradiction].
Qed.
Lemma first_among x : (exists z, In x (firstn (Z.to_nat n) (C z))) <-> among_first r n x.
Proof.
  split.
  - intros [z Hz]. exists z, (C z). split; [|assumption]. exists (H z). split; [apply Hr|apply HC].
  - intros [z [cells [V Hx]]]. exists z. rewrite (visits_unique r z (C z) cells); [assumption| |assumption]. exists (H z). split; [apply Hr|apply HC].
Qed.

Lemma result_raster K st : winv no_data n r H K st -> (forall z, K z = length (H z)) ->
  exists f, raster_of a p (first_n_result r st) f /\ forall x, (among_first r n x /\ f x = 1) \/ (~ among_first r n x /\ f x = no_data).
Proof.
  intros I HK. exists (fun x => if first_b x then 1 else no_data). split.
  - apply raster_of_listed; try assumption.
    + apply W.
    + apply W.
    + cbn [first_n_result pa_parts]. rewrite map_map2. unfold listed_parts. apply map2_ext_nth.
      * apply wf_len.
      * pose proof (wi_len _ _ _ _ _ _ I). pose proof wf_len. lia.
      * intros k q w c Eq Ew Ec. destruct (wf_part _ _ Eq) as [c' [Ec' [Hc [Eo Es]]]]. rewrite Ec in Ec'. inversion Ec'; subst c'. cbn [pl_offset pl_shape pl_data]. rewrite Eo, Es. f_equal.
        assert (Zq : nth_z (Z.of_nat k) (rt_parts r) = Some q) by (unfold nth_z; destruct (Z.ltb_spec (Z.of_nat k) 0); [lia|]; now rewrite Nat2Z.id).
        assert (Zw : nth_z (Z.of_nat k) (ws_walkers st) = Some w) by (unfold nth_z; destruct (Z.ltb_spec (Z.of_nat k) 0); [lia|]; now rewrite Nat2Z.id).
        destruct (wi_out _ _ _ _ _ _ I _ q w Zq Zw) as [Lo Ho]. rewrite Es in Lo, Ho.
        rewrite <- (map_map (vadd (part_offset p c)) (fun x => if first_b x then 1 else no_data)). fold (part_cells a p c).
        pose proof (nr_elements_cells a p c Ha Hfit Hc) as Ln. rewrite Ln in Lo, Ho.
        apply nth_error_ext. intros i. rewrite nth_error_map. destruct (nth_error (part_cells a p c) i) as [x|] eqn:Ex; cbn [option_map].
        -- assert (Hi : (i < length (part_cells a p c))%nat) by (apply nth_error_Some; congruence).
           assert (Hcell : route_cell r (Z.of_nat k, Z.of_nat i) x).
           { destruct (part_cells_nth a p c (Z.of_nat i) x) as [y [Y1 [Y2 Y3]]]; [unfold nth_z; destruct (Z.ltb_spec (Z.of_nat i) 0); [lia|]; now rewrite Nat2Z.id|].
             exists q, y. rewrite Es, Eo. auto. }
           assert (Hm : marked n H K (Z.of_nat k) (Z.of_nat i) <-> first_b x = true).
           { rewrite first_b_spec. unfold marked, walked. split.
             - intros [z Hz]. rewrite HK, firstn_all in Hz. exists z. destruct (forall2_in_l _ _ _ _ (forall2_firstn _ _ _ (Z.to_nat n) (HC z)) Hz) as [x' [Hx' Hc']].
               assert (x' = x) as ->; [|assumption]. destruct Hcell as [q1 [y1 [A1 [A2 [A3 A4]]]]], Hc' as [q2 [y2 [B1 [B2 [B3 B4]]]]]. rewrite A1 in B1. inversion B1; subst q2.
               rewrite A4, B4. f_equal. apply (rowmaj_inj (pl_shape q1)); congruence.
             - intros [z Hz]. exists z. rewrite HK, firstn_all. destruct (forall2_in_r _ _ _ _ (forall2_firstn _ _ _ (Z.to_nat n) (HC z)) Hz) as [at_ [Hat Hc']].
               rewrite (route_cell_inj _ _ _ Hcell Hc'). assumption. }
           assert (En : nth_z (Z.of_nat i) (wk_output w) = nth_error (wk_output w) i) by (unfold nth_z; destruct (Z.ltb_spec (Z.of_nat i) 0); [lia|]; now rewrite Nat2Z.id).
           destruct (Ho (Z.of_nat i) ltac:(lia)) as [[M E]|[M E]]; rewrite En in E; rewrite E; destruct (first_b x); try reflexivity; [apply Hm in M; discriminate|exfalso; apply M; now apply Hm].
        -- apply nth_error_None. apply nth_error_None in Ex. lia.
  - intros x. destruct (first_b x) eqn:E; [left|right]; (split; [|reflexivity]).
    + apply first_among, first_b_spec, E.
    + intros A. apply first_among, first_b_spec in A. congruence.
Qed.
End Shape.
