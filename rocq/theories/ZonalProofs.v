From Verif Require Import Common CommonProofs CoreSpec DecompSpec ArraySpec IndexModel IndexProofs
  DecompModel DecompProofs DecompProofs2 DecompProofs4 ArrayModel ArrayRep ArrayProofs LocalModel LocalSpec LocalProofs
  LocalProofs2 AggregateModel AggregateSpec AggregateProofs ZonalModel ZonalSpec.
Open Scope Z_scope.

(** Maps *)
Lemma zfind_set {S} (m : zmap S) k s z : zfind (zset_map m k s) z = if k =? z then Some s else zfind m z.
Proof.
  induction m as [|[k' s'] m IH]; cbn; [reflexivity|].
  destruct (Z.eqb_spec k' k) as [->|N]; cbn; [destruct (Z.eqb_spec k z); reflexivity|].
  destruct (Z.eqb_spec k' z) as [->|]; [|apply IH].
  destruct (Z.eqb_spec k z) as [->|]; [contradiction|reflexivity].
Qed.
Lemma zset_keys {S} (m : zmap S) k s : forall z, In z (map fst (zset_map m k s)) <-> z = k \/ In z (map fst m).
Proof.
  induction m as [|[k' s'] m IH]; cbn; intros z; [intuition congruence|].
  destruct (Z.eqb_spec k' k) as [->|N]; cbn; [intuition congruence|]. rewrite IH. intuition congruence.
Qed.
Lemma zset_nodup {S} (m : zmap S) k s : NoDup (map fst m) -> NoDup (map fst (zset_map m k s)).
Proof.
  induction m as [|[k' s'] m IH]; cbn; intros H; [repeat constructor; intros []|].
  inversion H as [|? ? Hn Hd]; subst. destruct (Z.eqb_spec k' k) as [->|N]; cbn; [constructor; assumption|].
  constructor; [|auto]. rewrite zset_keys. intros [C|C]; congruence.
Qed.
Lemma zfind_in {S} (m : zmap S) z s : NoDup (map fst m) -> (zfind m z = Some s <-> In (z, s) m).
Proof.
  induction m as [|[k' s'] m IH]; cbn; intros H; [split; [discriminate|contradiction]|].
  inversion H as [|? ? Hn Hd]; subst. destruct (Z.eqb_spec k' z) as [->|N].
  - split; [intros E; left; congruence|]. intros [E|E]; [congruence|]. exfalso. apply Hn. apply in_map_iff. exists (z, s). auto.
  - rewrite IH by assumption. split; [auto|]. intros [E|E]; [congruence|assumption].
Qed.
Lemma zfind_none {S} (m : zmap S) z : zfind m z = None <-> ~ In z (map fst m).
Proof.
  induction m as [|[k' s'] m IH]; cbn; [tauto|]. destruct (Z.eqb_spec k' z) as [->|N]; [intuition discriminate|].
  rewrite IH. intuition congruence.
Qed.
Lemma zfind_perm {S} (m m' : zmap S) z : NoDup (map fst m) -> Permutation m' m -> zfind m' z = zfind m z.
Proof.
  intros H HP. assert (H' : NoDup (map fst m')) by (eapply Permutation_NoDup; [apply Permutation_map; symmetry; exact HP|assumption]).
  destruct (zfind m' z) as [s|] eqn:E.
  - symmetry. apply zfind_in; [assumption|]. eapply Permutation_in; [exact HP|]. now apply zfind_in.
  - symmetry. apply zfind_none. apply zfind_none in E. intros C. apply E. eapply Permutation_in; [|exact C].
    apply Permutation_map. now symmetry.
Qed.

(** The values of a zone in a list of (zone, value) pairs *)
Definition vals {I} (l : list (Z * I)) (z : Z) : list I := map snd (filter (fun e => fst e =? z) l).
Lemma vals_app {I} (l l' : list (Z * I)) z : vals (l ++ l') z = vals l z ++ vals l' z.
Proof. unfold vals. now rewrite filter_app, map_app. Qed.
Lemma vals_perm {I} (l l' : list (Z * I)) z : Permutation l l' -> Permutation (vals l z) (vals l' z).
Proof. intros. unfold vals. now apply Permutation_map, filter_perm. Qed.

Lemma firstn_S_snoc' {A} (l : list A) k x : nth_error l k = Some x -> firstn (S k) l = firstn k l ++ [x].
Proof.
  revert k. induction l as [|a l IH]; intros [|k] E; cbn in *; try discriminate; [congruence|]. f_equal. auto.
Qed.

Lemma fold_at2 {A B M} (g : M -> A -> B -> M) (d1 : list A) (d2 : list B) m0 :
  length d1 = length d2 ->
  fold_left (fun acc i => obind acc (fun m => obind (at_z d1 i) (fun a => obind (at_z d2 i) (fun b => Ok (g m a b)))))
    (zseq 0 (Z.of_nat (length d2))) (Ok m0) =
  Ok (fold_left (fun m ab => g m (fst ab) (snd ab)) (combine d1 d2) m0).
Proof.
  intros HL.
  assert (G : forall k, (k <= length d2)%nat ->
    fold_left (fun acc i => obind acc (fun m => obind (at_z d1 i) (fun a => obind (at_z d2 i) (fun b => Ok (g m a b)))))
      (zseq 0 (Z.of_nat k)) (Ok m0) = Ok (fold_left (fun m ab => g m (fst ab) (snd ab)) (firstn k (combine d1 d2)) m0)).
  { induction k as [|k IH]; intros Hk; [reflexivity|].
    replace (Z.of_nat (S k)) with (Z.of_nat k + 1) by lia. rewrite zseq_snoc, fold_left_app, IH by lia. cbn [fold_left obind].
    unfold at_z. rewrite !nth_z_nonneg by lia. rewrite Z.add_0_l, Nat2Z.id.
    destruct (nth_error d1 k) as [x|] eqn:E1; [|apply nth_error_None in E1; lia].
    destruct (nth_error d2 k) as [y|] eqn:E2; [|apply nth_error_None in E2; lia].
    cbn [obind].
    assert (E : nth_error (combine d1 d2) k = Some (x, y)).
    { clear - E1 E2. revert d2 k E1 E2. induction d1 as [|a d1 IH]; intros [|b d2] [|k] E1 E2; cbn in *; try discriminate; [congruence|auto]. }
    rewrite (firstn_S_snoc' _ _ _ E), fold_left_app. reflexivity. }
  rewrite (G (length d2)) by lia. do 2 f_equal. apply firstn_all2. rewrite combine_length. lia.
Qed.

Section Zonal.
Context {I S O : Type} (iter : zmap S -> zmap S) (ag : aggregator I S O).
Context (Hiter : forall m, Permutation (iter m) m).
Context (P : list I -> S -> Prop) (ok : I -> bool).
Context (A1 : forall v, ok v = true -> P [v] (za_add ag None v)).
Context (A2 : forall l s v, l <> [] -> P l s -> ok v = true -> P (l ++ [v]) (za_add ag (Some s) v)).
Context (M1 : forall l s, l <> [] -> P l s -> P l (za_merge ag None s)).
Context (M2 : forall l s l' s', l <> [] -> l' <> [] -> P l s -> P l' s' -> P (l ++ l') (za_merge ag (Some s) s')).
Context (Pperm : forall l l' s, Permutation l l' -> P l s -> P l' s).

Definition holds (m : zmap S) (l : list (Z * I)) : Prop :=
  NoDup (map fst m) /\
  forall z, match zfind m z with None => vals l z = [] | Some s => vals l z <> [] /\ P (vals l z) s end.

Lemma holds_nil : holds [] [].
Proof. split; [constructor|]. reflexivity. Qed.

Lemma holds_add m l z v : holds m l -> ok v = true -> holds (agg_add ag m z v) (l ++ [(z, v)]).
Proof.
  intros [Hd H] Hv. unfold agg_add. split; [now apply zset_nodup|]. intros z'. rewrite zfind_set, vals_app.
  unfold vals at 2 4 6. cbn. destruct (Z.eqb_spec z z') as [->|N]; cbn.
  - specialize (H z'). split; [destruct (vals l z'); discriminate|]. destruct (zfind m z') as [s|].
    + destruct H. now apply A2.
    + rewrite H. now apply A1.
  - rewrite app_nil_r. apply H.
Qed.

Lemma holds_fold (pol_ok : I * Z -> bool) l : (forall e, In e l -> pol_ok e = true -> ok (fst e) = true) -> forall m seen,
  holds m seen ->
  holds (fold_left (fun m e => if pol_ok e then agg_add ag m (snd e) (fst e) else m) l m)
    (seen ++ map (fun e => (snd e, fst e)) (filter pol_ok l)).
Proof.
  induction l as [|e l IH]; intros Hok m seen H; cbn; [now rewrite app_nil_r|].
  destruct (pol_ok e) eqn:E; cbn.
  - change ((snd e, fst e) :: ?x) with ([(snd e, fst e)] ++ x). rewrite app_assoc. apply IH; [intros; apply Hok; cbn; auto|].
    apply holds_add; [assumption|]. apply Hok; cbn; auto.
  - apply IH; [intros; apply Hok; cbn; auto|assumption].
Qed.

Lemma fold_merge e m : NoDup (map fst e) -> NoDup (map fst m) ->
  let r := fold_left (fun m '(zone, s) => zset_map m zone (za_merge ag (zfind m zone) s)) e m in
  NoDup (map fst r) /\
  forall z, zfind r z = match zfind e z with None => zfind m z | Some s => Some (za_merge ag (zfind m z) s) end.
Proof.
  revert m. induction e as [|[k s] e IH]; intros m He Hm; cbn; [auto|].
  inversion He as [|? ? Hn He']; subst.
  destruct (IH (zset_map m k (za_merge ag (zfind m k) s)) He' (zset_nodup _ _ _ Hm)) as [R1 R2]. split; [exact R1|].
  intros z. rewrite R2, !zfind_set. destruct (Z.eqb_spec k z) as [->|N]; [|reflexivity].
  apply zfind_none in Hn. now rewrite Hn.
Qed.

Lemma holds_merge m l m' l' : holds m l -> holds m' l' -> holds (agg_merge iter ag m m') (l ++ l').
Proof.
  intros [Hd H] [Hd' H']. unfold agg_merge.
  assert (Hd2 : NoDup (map fst (iter m'))) by (eapply Permutation_NoDup; [apply Permutation_map; symmetry; apply Hiter|assumption]).
  destruct (fold_merge (iter m') m Hd2 Hd) as [R1 R2]. split; [exact R1|]. intros z. rewrite R2.
  rewrite (zfind_perm m' (iter m') z Hd' (Hiter m')). rewrite vals_app. specialize (H z). specialize (H' z).
  destruct (zfind m' z) as [s'|].
  - destruct H' as [N' H']. split; [destruct (vals l z); [assumption|discriminate]|].
    destruct (zfind m z) as [s|]; [destruct H; now apply M2|]. rewrite H. cbn. now apply M1.
  - rewrite H', app_nil_r. exact H.
Qed.

Lemma holds_merge_all ms ls : Forall2 holds ms ls -> holds (merge_all iter ag ms) (concat ls).
Proof.
  intros H. unfold merge_all.
  assert (G : forall m l, holds m l -> holds (fold_left (agg_merge iter ag) ms m) (l ++ concat ls)).
  { induction H as [|m' l' ms ls H1 H IH]; intros m l Hm; cbn; [now rewrite app_nil_r|].
    rewrite app_assoc. apply IH. now apply holds_merge. }
  apply (G [] []). apply holds_nil.
Qed.

Lemma holds_perm m l l' : Permutation l l' -> holds m l -> holds m l'.
Proof.
  intros HP [Hd H]. split; [assumption|]. intros z. specialize (H z). pose proof (vals_perm l l' z HP) as HV.
  destruct (zfind m z).
  - destruct H as [N H]. split; [|eapply Pperm; eassumption]. intros E. rewrite E in HV. apply Permutation_sym, Permutation_nil in HV. contradiction.
  - rewrite H in HV. now apply Permutation_nil.
Qed.

Context (no_data1 : I -> bool) (no_data2 : Z -> bool) (nd : O).
Context (Hok : forall v, no_data1 v = false -> ok v = true).
Let pol : zonal_policies I O := ZonalPolicies no_data1 no_data2 (fun _ _ => true) (fun _ => nd).

Definition entry_ok (e : I * Z) : bool := negb (no_data1 (fst e)) && negb (no_data2 (snd e)).

Lemma zonal_partition_ok (q1 : placed (list I)) (q2 : placed (list Z)) n :
  n <> [] -> pl_shape q1 = n -> pl_shape q2 = n -> length (pl_data q1) = length (pl_data q2) -> Z.of_nat (length (pl_data q2)) = volume n ->
  exists m, zonal_partition pol ag q1 q2 = Ok m /\
    holds m (map (fun e => (snd e, fst e)) (filter entry_ok (combine (pl_data q1) (pl_data q2)))).
Proof.
  intros Hn E1 E2 L1 L2. unfold zonal_partition. rewrite E1, E2, Z.eqb_refl, nr_elements_volume, <- L2 by assumption.
  eexists. split; [apply fold_at2; exact L1|].
  pose proof (holds_fold entry_ok (combine (pl_data q1) (pl_data q2))) as HF. cbn [app] in HF.
  specialize (HF ltac:(intros e _ He; apply Hok; unfold entry_ok in He; destruct (no_data1 (fst e)); [discriminate|reflexivity]) [] [] holds_nil).
  cbn [app] in HF. refine (eq_rect _ (fun m => holds m _) HF _ _). 
  assert (G : forall l m, fold_left (fun (m : zmap S) (e : I * Z) => if entry_ok e then agg_add ag m (snd e) (fst e) else m) l m =
    fold_left (fun (m : zmap S) (ab : I * Z) => if negb (z_no_data1 pol (fst ab)) && negb (z_no_data2 pol (snd ab)) then
                if z_domain pol (snd ab) (fst ab) then agg_add ag m (snd ab) (fst ab) else m else m) l m).
  { induction l as [|e l IH]; intros m; cbn; [reflexivity|]. now rewrite IH. }
  apply G.
Qed.

Definition zone_result (m : zmap S) (z : Z) : O := match zfind m z with None => nd | Some s => za_result ag s end.

Lemma zonal_reclass_ok m junk a p zones fz : raster_of a p zones fz ->
  exists parts, sequence (map (zonal_reclass pol ag m junk) (pa_parts zones)) = Ok parts /\
    raster_of a p (PArray (pa_shape zones) (pa_sip zones) parts) (fun c => zone_result m (fz c)).
Proof.
  intros Hz.
  destruct (cellwise_ok (fun z old => match zfind m z with None => z_mark pol old | Some s => za_result ag s end) (zone_result m) junk) with (a := a) (p := p) (arr := zones) (f := fz) as [parts [E R]].
  - intros i old. unfold zone_result. reflexivity.
  - exact Hz.
  - exists parts. split; [exact E|]. destruct Hz as [_ [_ [-> [-> _]]]]. exact R.
Qed.

Lemma combine_map {A B C} (f : A -> B) (g : A -> C) l : combine (map f l) (map g l) = map (fun x => (f x, g x)) l.
Proof. induction l; cbn; congruence. Qed.

Lemma zonal_result_spec m a fv fz c : in_shape a c ->
  holds m (map (fun e => (snd e, fst e)) (filter entry_ok (map (fun c => (fv c, fz c)) (all_cells a)))) ->
  let l := zone_values (fun v => negb (no_data1 v)) a fz fv (fz c) in
  (no_data2 (fz c) = false -> l <> [] -> exists s, P l s /\ zone_result m (fz c) = za_result ag s) /\
  (no_data2 (fz c) = true \/ l = [] -> zone_result m (fz c) = nd).
Proof.
  intros Hc [_ H] l. specialize (H (fz c)). unfold zone_result.
  assert (EV : vals (map (fun e => (snd e, fst e)) (filter entry_ok (map (fun c => (fv c, fz c)) (all_cells a)))) (fz c) =
     if no_data2 (fz c) then [] else l).
  { unfold l, zone_values, vals. clear. generalize (fz c) as z. intros z. induction (all_cells a) as [|x cs IH]; cbn; [now destruct (no_data2 z)|].
    unfold entry_ok at 1. cbn. destruct (no_data1 (fv x)) eqn:E1; cbn.
    - rewrite andb_false_r. exact IH.
    - destruct (no_data2 (fz x)) eqn:E2; cbn.
      + destruct (Z.eqb_spec (fz x) z) as [<-|N]; cbn; [|exact IH]. rewrite E2 in IH |- *. exact IH.
      + destruct (Z.eqb_spec (fz x) z) as [<-|N]; cbn; [|exact IH]. rewrite E2 in IH |- *. now rewrite IH. }
  rewrite EV in H. split.
  - intros E N. rewrite E in H. destruct (zfind m (fz c)) as [s|]; [|contradiction]. destruct H. eauto.
  - intros Hor. assert (E : (if no_data2 (fz c) then [] else l) = []) by (destruct (no_data2 (fz c)); destruct Hor; congruence).
    rewrite E in H. destruct (zfind m (fz c)); [destruct H; contradiction|reflexivity].
Qed.

Lemma zonal_ok junk a p values zones fv fz :
  raster_of a p values fv -> raster_of a p zones fz ->
  exists out g, zonal_operation iter pol ag junk values zones = Ok out /\ raster_of a p out g /\
    forall c, in_shape a c ->
      let l := zone_values (fun v => negb (no_data1 v)) a fz fv (fz c) in
      (no_data2 (fz c) = false -> l <> [] -> exists s, P l s /\ g c = za_result ag s) /\
      (no_data2 (fz c) = true \/ l = [] -> g c = nd).
Proof.
  intros Hv Hz. unfold zonal_operation. rewrite (verify_ok a p values zones fv fz Hv Hz). cbn [obind].
  pose proof (raster_datas a p values fv Hv) as D1. pose proof (raster_datas a p zones fz Hz) as D2.
  assert (HL : forall c, in_shape (parts_shape a p) c -> exists q1 q2 m,
     nth_error (pa_parts values) (Z.to_nat (rowmaj (parts_shape a p) c)) = Some q1 /\
     nth_error (pa_parts zones) (Z.to_nat (rowmaj (parts_shape a p) c)) = Some q2 /\
     zonal_partition pol ag q1 q2 = Ok m /\
     holds m (map (fun e => (snd e, fst e)) (filter entry_ok (map (fun c => (fv c, fz c)) (part_cells a p c))))).
  { intros c Hc. destruct (raster_part a p values fv c Hv Hc) as [q1 [E1 [Eo1 [Es1 B1]]]].
    destruct (raster_part a p zones fz c Hz Hc) as [q2 [E2 [Eo2 [Es2 B2]]]].
    destruct (zonal_partition_ok q1 q2 (part_extent a p c)) as [m [E3 H3]]; try assumption.
    - apply part_extent_ne; [apply Hv|apply Hv|assumption].
    - destruct B1 as [L1 _], B2 as [L2 _]. lia.
    - apply B2.
    - exists q1, q2, m. repeat (split; [assumption|]).
      assert (Hp : pos_shape (part_extent a p c)) by (apply part_extent_pos; [apply Hv|assumption]).
      rewrite (block_list _ _ _ Hp B1), (block_list _ _ _ Hp B2), combine_map in H3.
      unfold part_cells. rewrite map_map. exact H3. }
  assert (Hfit : partition_fits a p) by apply Hv.
  pose proof (parts_shape_pos a p Hfit) as Hpos.
  pose proof (raster_length _ _ _ _ Hv) as L1. pose proof (raster_length _ _ _ _ Hz) as L2.
  assert (HS : exists ms, sequence (map2 (zonal_partition pol ag) (pa_parts values) (pa_parts zones)) = Ok ms /\
     Forall2 holds ms (map (fun c => map (fun e => (snd e, fst e)) (filter entry_ok (map (fun c => (fv c, fz c)) (part_cells a p c)))) (all_cells (parts_shape a p)))).
  { destruct (sequence_ok (map2 (zonal_partition pol ag) (pa_parts values) (pa_parts zones))) as [ms [E1 E2]].
    - intros k Hk. rewrite map2_length in Hk by lia.
      destruct (rowmaj_surj (parts_shape a p) (Z.of_nat k) Hpos) as [c [Hc Ec]]; [unfold nr_parts in L1; lia|].
      destruct (HL c Hc) as [q1 [q2 [m [G1 [G2 [G3 _]]]]]]. rewrite Ec, Nat2Z.id in *.
      exists m. rewrite (map2_nth _ _ _ _ _ _ G1 G2). now rewrite G3.
    - exists ms. split; [exact E1|].
      assert (LM : length ms = length (all_cells (parts_shape a p))).
      { rewrite <- (map_length Ok ms), <- E2, map2_length by lia. apply (f_equal (@length _)) in D1. rewrite !map_length in D1. exact D1. }
      assert (G : forall k m c, nth_error ms k = Some m -> nth_error (all_cells (parts_shape a p)) k = Some c ->
        holds m (map (fun e => (snd e, fst e)) (filter entry_ok (map (fun c => (fv c, fz c)) (part_cells a p c))))).
      { intros k m c Em Ec. pose proof (nth_error_In _ _ Ec) as Hc. apply all_cells_spec in Hc.
        destruct (HL c Hc) as [q1 [q2 [m' [G1 [G2 [G3 G4]]]]]].
        assert (Ek : k = Z.to_nat (rowmaj (parts_shape a p) c)).
        { pose proof (shape_cells_nth _ _ Hc) as E3. rewrite <- all_cells_shape in E3.
          eapply (proj1 (NoDup_nth_error _)); [apply all_cells_spec|apply nth_error_Some; rewrite Ec; discriminate|congruence]. }
        rewrite <- Ek in *. assert (E4 : nth_error (map2 (zonal_partition pol ag) (pa_parts values) (pa_parts zones)) k = Some (Ok m)).
        { rewrite E2, nth_error_map, Em. reflexivity. }
        rewrite (map2_nth _ _ _ _ _ _ G1 G2), G3 in E4. injection E4 as ->. exact G4. }
      clear - LM G. revert LM G. generalize (all_cells (parts_shape a p)) as cs. induction ms as [|m ms IH]; intros [|c cs] LM G; try discriminate; cbn; constructor.
      + apply (G 0%nat); reflexivity.
      + apply IH; [cbn in LM; lia|]. intros k. apply (G (Datatypes.S k)). }
  destruct HS as [ms [Ems HH]]. rewrite Ems. cbn [obind].
  destruct (zonal_reclass_ok (merge_all iter ag ms) junk a p zones fz Hz) as [parts [Ep R]]. rewrite Ep. cbn [obind].
  eexists. eexists. split; [reflexivity|]. split; [exact R|]. intros c Hc. apply zonal_result_spec; [assumption|].
  apply holds_merge_all in HH. eapply holds_perm; [|exact HH].
  rewrite concat_map_flat, flat_map_map_out. apply Permutation_map.
  assert (EF : forall cs, flat_map (fun x => filter entry_ok (map (fun c => (fv c, fz c)) (part_cells a p x))) cs =
     filter entry_ok (map (fun c => (fv c, fz c)) (flat_map (part_cells a p) cs))).
  { induction cs; cbn; [reflexivity|]. now rewrite map_app, filter_app, IHcs. }
  rewrite EF. apply filter_perm, Permutation_map, parts_permutation, Hfit.
Qed.

Lemma zonal_scalar_eq junk v zones : no_data1 v = false ->
  zonal_operation_scalar iter pol ag junk v zones =
  obind (sequence (map2 (zonal_partition pol ag) (map (fun q => Placed (pl_locality q) (pl_offset q) (pl_shape q) (map (fun _ => v) (pl_data q))) (pa_parts zones)) (pa_parts zones))) (fun maps =>
  let m := merge_all iter ag maps in
  obind (sequence (map (zonal_reclass pol ag m junk) (pa_parts zones))) (fun parts =>
  Ok (PArray (pa_shape zones) (pa_sip zones) parts))).
Proof.
  intros Hv. unfold zonal_operation_scalar. f_equal. f_equal. induction (pa_parts zones) as [|q l IH]; cbn; [reflexivity|]. f_equal; [|exact IH].
  unfold zonal_partition_scalar, zonal_partition. cbn. rewrite Hv, Z.eqb_refl. cbn.
  assert (G : forall is acc,
    fold_left (fun acc i => obind acc (fun result => obind (at_z (pl_data q) i) (fun z =>
       Ok (if negb (no_data2 z) then agg_add ag result z v else result)))) is acc =
    fold_left (fun acc i => obind acc (fun result => obind (at_z (map (fun _ => v) (pl_data q)) i) (fun v0 => obind (at_z (pl_data q) i) (fun z =>
       Ok (if negb (no_data1 v0) && negb (no_data2 z) then agg_add ag result z v0 else result))))) is acc).
  { induction is as [|i is IH']; intros acc; cbn; [reflexivity|]. rewrite IH'. f_equal. destruct acc as [r| |]; cbn; try reflexivity.
    unfold at_z, nth_z. destruct (i <? 0); [reflexivity|]. rewrite nth_error_map. destruct (nth_error (pl_data q) (Z.to_nat i)); cbn; [|reflexivity].
    now rewrite Hv. }
  apply G.
Qed.

Lemma const_raster a p zones (fz : list Z -> Z) (v : I) : raster_of a p zones fz ->
  raster_of a p (PArray a (parts_shape a p) (map (fun q => Placed (pl_locality q) (pl_offset q) (pl_shape q) (map (fun _ => v) (pl_data q))) (pa_parts zones))) (fun _ => v).
Proof.
  intros H. split; [apply H|]. split; [apply H|]. split; [reflexivity|]. split; [reflexivity|]. cbn.
  rewrite map_map. cbn. destruct H as [_ [_ [_ [_ [HL H]]]]]. rewrite map_length in HL. split; [now rewrite map_length|].
  intros c Hc. destruct (H c Hc) as [d [Ed [LB B]]]. rewrite nth_error_map in Ed |- *.
  destruct (nth_error (pa_parts zones) _) as [q|]; cbn in *; [|discriminate]. injection Ed as E1 E2 E3.
  exists (map (fun _ => v) d). rewrite E1, E2, E3. split; [reflexivity|]. split; [now rewrite map_length|].
  intros x Hx. rewrite nth_error_map, (B x Hx). reflexivity.
Qed.

Lemma zonal_scalar_ok junk a p v zones fz : no_data1 v = false ->
  raster_of a p zones fz ->
  exists out g, zonal_operation_scalar iter pol ag junk v zones = Ok out /\ raster_of a p out g /\
    forall c, in_shape a c ->
      let l := zone_values (fun v => negb (no_data1 v)) a fz (fun _ => v) (fz c) in
      (no_data2 (fz c) = false -> l <> [] -> exists s, P l s /\ g c = za_result ag s) /\
      (no_data2 (fz c) = true \/ l = [] -> g c = nd).
Proof.
  intros Hv Hz. pose proof (const_raster a p zones fz v Hz) as Hc.
  destruct (zonal_ok junk a p _ zones (fun _ => v) fz Hc Hz) as [out [g [E R]]]. exists out, g. split; [|exact R].
  rewrite zonal_scalar_eq by assumption. unfold zonal_operation in E. rewrite (verify_ok a p _ zones _ fz Hc Hz) in E. exact E.
Qed.
End Zonal.

(** Instances *)
Lemma wrap_wrap t x : int_type t -> forall y, wrap t (wrap t x + y) = wrap t (x + y).
Proof.
  intros Ht y. unfold wrap. f_equal. set (b := 2 ^ bits t).
  replace ((x - imin t) mod b + imin t + y - imin t) with ((x - imin t) mod b + y) by lia.
  rewrite Zplus_mod_idemp_l. f_equal. lia.
Qed.

Lemma c16_sum :
  forall (t : itype) iter no_data1 no_data2 nd junk a p values zones fv fz,
  int_type t -> (forall m, Permutation (iter m) m) ->
  raster_of a p values fv -> raster_of a p zones fz ->
  (forall c, in_shape a c -> representable t (fv c)) ->
  let pol := ZonalPolicies no_data1 no_data2 (fun _ _ => true) (fun _ => nd) in
  exists out g, zonal_operation iter pol (zonal_sum_aggregator t) junk values zones = Ok out /\ raster_of a p out g /\
    forall c, in_shape a c ->
      let l := zone_values (fun v => negb (no_data1 v)) a fz fv (fz c) in
      (no_data2 (fz c) = false -> l <> [] -> g c = wrap t (sumZ l)) /\
      (no_data2 (fz c) = true \/ l = [] -> g c = nd).
Proof.
  intros t iter no_data1 no_data2 nd junk a p values zones fv fz Ht Hiter Hv Hz Hr pol.
  set (P := fun (l : list Z) (s : Z) => (forall v, In v l -> representable t v) -> s = wrap t (sumZ l)).
  assert (S1 : forall v, sumZ [v] = v) by (intros; unfold sumZ; cbn [fold_right]; lia).
  assert (R : forall l l', (forall v, In v (l ++ l') -> representable t v) -> (forall v, In v l -> representable t v) /\ (forall v, In v l' -> representable t v)).
  { intros l l' H. split; intros v Hin; apply H, in_app_iff; auto. }
  destruct (zonal_ok iter (zonal_sum_aggregator t) Hiter P (fun _ => true)) with (no_data1 := no_data1) (no_data2 := no_data2) (nd := nd)
    (junk := junk) (a := a) (p := p) (values := values) (zones := zones) (fv := fv) (fz := fz) as [out [g [E [Ro H]]]].
  - intros v _ Hin. cbn [za_add za_merge za_result zonal_sum_aggregator zonal_sum_add]. rewrite S1, wrap_id; [reflexivity|assumption|]. apply Hin. now left.
  - intros l s v _ HP _ Hin. apply R in Hin. destruct Hin as [H1 H2]. cbn [za_add za_merge za_result zonal_sum_aggregator zonal_sum_add]. rewrite (HP H1), wrap_wrap by assumption.
    now rewrite sumZ_app, S1.
  - intros l s _ HP. exact HP.
  - intros l s l' s' _ _ HP HP' Hin. apply R in Hin. destruct Hin as [H1 H2]. cbn [za_add za_merge za_result zonal_sum_aggregator zonal_sum_add]. rewrite (HP H1), (HP' H2).
    rewrite wrap_wrap, Z.add_comm, wrap_wrap, sumZ_app by assumption. f_equal. lia.
  - intros l l' s HP1 HP Hin. rewrite <- (sumZ_perm _ _ HP1). apply HP. intros v Hv'. apply Hin. eapply Permutation_in; eassumption.
  - reflexivity.
  - exact Hv.
  - exact Hz.
  - exists out, g. split; [exact E|]. split; [exact Ro|]. intros c Hc. destruct (H c Hc) as [H1 H2]. split; [|exact H2].
    intros E1 N. destruct (H1 E1 N) as [s [HP Es]]. rewrite Es. cbn [za_add za_merge za_result zonal_sum_aggregator zonal_sum_add]. apply HP. intros v Hin. unfold zone_values in Hin.
    apply in_map_iff in Hin. destruct Hin as [c' [<- Hc']]. apply filter_In in Hc'. apply Hr. apply all_cells_spec. apply Hc'.
Qed.

Section Best.
Context {E : Type} (worse : E -> E -> bool).
Context (Hasym : forall u v, worse u v = true -> worse v u = false).
Context (Htr : forall u v w, worse u w = true -> worse u v = true \/ worse v w = true).
Definition best_of (l : list E) (r : E) : Prop := In r l /\ forall v, In v l -> worse r v = false.
Lemma best_single v : best_of [v] v.
Proof.
  split; [now left|]. intros u [<-|[]]. destruct (worse v v) eqn:C; [|reflexivity]. rewrite <- C. now apply Hasym.
Qed.
Lemma best_trans u v w : worse u v = false -> worse v w = false -> worse u w = false.
Proof. intros A B. destruct (worse u w) eqn:C; [|reflexivity]. destruct (Htr u v w C); congruence. Qed.
Lemma best_merge l u l' v : best_of l u -> best_of l' v -> best_of (l ++ l') (if worse u v then v else u).
Proof.
  intros [A1 A2] [B1 B2]. split.
  - rewrite in_app_iff. destruct (worse u v); auto.
  - intros z Hz. apply in_app_iff in Hz. destruct (worse u v) eqn:C.
    + destruct Hz as [Hz|Hz]; [|auto]. apply best_trans with u; [|auto]. now apply Hasym.
    + destruct Hz as [Hz|Hz]; [auto|]. apply best_trans with v; auto.
Qed.
Lemma best_perm l l' r : Permutation l l' -> best_of l r -> best_of l' r.
Proof.
  intros HP [A B]. split; [eapply Permutation_in; eassumption|]. intros v Hv. apply B. eapply Permutation_in; [symmetry; eassumption|assumption].
Qed.
Lemma best_zonal (ag : aggregator E E E) (Hadd : forall s v, za_add ag (Some s) v = if worse s v then v else s)
  (Hadd0 : forall v, za_add ag None v = v) (Hmerge : forall o v, za_merge ag o v = za_add ag o v) (Hres : forall s, za_result ag s = s)
  iter (Hiter : forall m, Permutation (iter m) m) no_data1 no_data2 nd junk a p values zones fv fz :
  raster_of a p values fv -> raster_of a p zones fz ->
  let pol := ZonalPolicies no_data1 no_data2 (fun _ _ => true) (fun _ => nd) in
  exists out g, zonal_operation iter pol ag junk values zones = Ok out /\ raster_of a p out g /\
    forall c, in_shape a c ->
      let l := zone_values (fun v => negb (no_data1 v)) a fz fv (fz c) in
      (no_data2 (fz c) = false -> l <> [] -> best_of l (g c)) /\
      (no_data2 (fz c) = true \/ l = [] -> g c = nd).
Proof.
  intros Hv Hz pol.
  destruct (zonal_ok iter ag Hiter best_of (fun _ => true)) with (no_data1 := no_data1) (no_data2 := no_data2) (nd := nd)
    (junk := junk) (a := a) (p := p) (values := values) (zones := zones) (fv := fv) (fz := fz) as [out [g [E1 [Ro H]]]].
  - intros v _. rewrite Hadd0. apply best_single.
  - intros l s v _ HP _. rewrite Hadd. apply best_merge; [assumption|apply best_single].
  - intros l s _ HP. now rewrite Hmerge, Hadd0.
  - intros l s l' s' _ _ HP HP'. rewrite Hmerge, Hadd. now apply best_merge.
  - apply best_perm.
  - reflexivity.
  - exact Hv.
  - exact Hz.
  - exists out, g. split; [exact E1|]. split; [exact Ro|]. intros c Hc. destruct (H c Hc) as [H1 H2]. split; [|exact H2].
    intros E2 N. destruct (H1 E2 N) as [s [HP Es]]. now rewrite Es, Hres.
Qed.
End Best.

Lemma c16_min :
  forall (E : Type) (ltb : E -> E -> bool) iter no_data1 no_data2 (nd : E) junk a p values zones fv fz,
  (forall u v, ltb u v = true -> ltb v u = false) ->
  (forall u v w, ltb u w = true -> ltb u v = true \/ ltb v w = true) ->
  (forall m, Permutation (iter m) m) ->
  raster_of a p values fv -> raster_of a p zones fz ->
  let pol := ZonalPolicies no_data1 no_data2 (fun _ _ => true) (fun _ => nd) in
  exists out g, zonal_operation iter pol (zonal_minimum_aggregator ltb) junk values zones = Ok out /\ raster_of a p out g /\
    forall c, in_shape a c ->
      let l := zone_values (fun v => negb (no_data1 v)) a fz fv (fz c) in
      (no_data2 (fz c) = false -> l <> [] -> least_of ltb l (g c)) /\
      (no_data2 (fz c) = true \/ l = [] -> g c = nd).
Proof.
  intros E ltb iter no_data1 no_data2 nd junk a p values zones fv fz Hasym Htr Hiter Hv Hz pol.
  apply (best_zonal (fun u v => ltb v u)); try assumption; try reflexivity.
  - intros u v. apply Hasym.
  - intros u v w H. destruct (Htr w v u H); auto.
  - intros v. cbn. unfold zonal_min_add, std_min. destruct (ltb v v); reflexivity.
Qed.
Lemma c16_max :
  forall (E : Type) (ltb : E -> E -> bool) iter no_data1 no_data2 (nd : E) junk a p values zones fv fz,
  (forall u v, ltb u v = true -> ltb v u = false) ->
  (forall u v w, ltb u w = true -> ltb u v = true \/ ltb v w = true) ->
  (forall m, Permutation (iter m) m) ->
  raster_of a p values fv -> raster_of a p zones fz ->
  let pol := ZonalPolicies no_data1 no_data2 (fun _ _ => true) (fun _ => nd) in
  exists out g, zonal_operation iter pol (zonal_maximum_aggregator ltb) junk values zones = Ok out /\ raster_of a p out g /\
    forall c, in_shape a c ->
      let l := zone_values (fun v => negb (no_data1 v)) a fz fv (fz c) in
      (no_data2 (fz c) = false -> l <> [] -> largest_of ltb l (g c)) /\
      (no_data2 (fz c) = true \/ l = [] -> g c = nd).
Proof.
  intros E ltb iter no_data1 no_data2 nd junk a p values zones fv fz Hasym Htr Hiter Hv Hz pol.
  apply (best_zonal ltb); try assumption; try reflexivity.
  intros v. cbn. unfold zonal_max_add, std_max. destruct (ltb v v); reflexivity.
Qed.

Lemma c16_mean :
  forall (E : Type) (zero : E) (plus : E -> E -> E) (divide : E -> Z -> E) iter no_data1 no_data2 (nd : E) junk a p values zones fv fz,
  (forall u, plus u zero = u) -> (forall u v, plus u v = plus v u) -> (forall u v w, plus u (plus v w) = plus (plus u v) w) ->
  (forall m, Permutation (iter m) m) ->
  raster_of a p values fv -> raster_of a p zones fz ->
  let pol := ZonalPolicies no_data1 no_data2 (fun _ _ => true) (fun _ => nd) in
  exists out g, zonal_operation iter pol (zonal_mean_aggregator plus divide) junk values zones = Ok out /\ raster_of a p out g /\
    forall c, in_shape a c ->
      let l := zone_values (fun v => negb (no_data1 v)) a fz fv (fz c) in
      (no_data2 (fz c) = false -> l <> [] -> g c = divide (fold_right plus zero l) (Z.of_nat (length l))) /\
      (no_data2 (fz c) = true \/ l = [] -> g c = nd).
Proof.
  intros E zero plus divide iter no_data1 no_data2 nd junk a p values zones fv fz Hz0 Hcomm Hassoc Hiter Hv Hz pol.
  set (P := fun (l : list E) (s : E * Z) => s = (fold_right plus zero l, Z.of_nat (length l))).
  assert (FA : forall l l', fold_right plus zero (l ++ l') = plus (fold_right plus zero l) (fold_right plus zero l')).
  { induction l as [|x l IH]; intros l'; cbn; [now rewrite Hcomm, Hz0|]. now rewrite IH, Hassoc. }
  destruct (zonal_ok iter (zonal_mean_aggregator plus divide) Hiter P (fun _ => true)) with (no_data1 := no_data1) (no_data2 := no_data2) (nd := nd)
    (junk := junk) (a := a) (p := p) (values := values) (zones := zones) (fv := fv) (fz := fz) as [out [g [E1 [Ro H]]]].
  - intros v _. unfold P. cbn. now rewrite Hz0.
  - intros l s v _ -> _. unfold P. cbn. rewrite FA, app_length, Nat2Z.inj_add. cbn. now rewrite Hz0.
  - intros l s _ HP. exact HP.
  - intros l s l' s' _ _ -> ->. unfold P. cbn. now rewrite FA, app_length, Nat2Z.inj_add.
  - intros l l' s HP ->. unfold P. f_equal; [|f_equal; now apply Permutation_length].
    clear - HP Hcomm Hassoc. induction HP; cbn; congruence.
  - reflexivity.
  - exact Hv.
  - exact Hz.
  - exists out, g. split; [exact E1|]. split; [exact Ro|]. intros c Hc. destruct (H c Hc) as [H1 H2]. split; [|exact H2].
    intros E2 N. destruct (H1 E2 N) as [s [-> Es]]. exact Es.
Qed.

Lemma set_insert_spec v s : NoDup s -> NoDup (set_insert v s) /\ forall u, In u (set_insert v s) <-> u = v \/ In u s.
Proof.
  intros H. unfold set_insert. destruct (existsb (Z.eqb v) s) eqn:E.
  - apply existsb_exists in E. destruct E as [x [Hx Ex]]. apply Z.eqb_eq in Ex. subst x. split; [assumption|].
    intros u. split; [auto|]. intros [->|]; assumption.
  - split.
    + constructor; [|assumption]. intros C. assert (existsb (Z.eqb v) s = true); [|congruence].
      apply existsb_exists. exists v. split; [assumption|apply Z.eqb_refl].
    + intros u. cbn. intuition congruence.
Qed.

Lemma set_fold_spec l : forall s, NoDup s ->
  let r := fold_left (fun s v => set_insert v s) l s in NoDup r /\ forall u, In u r <-> In u s \/ In u l.
Proof.
  induction l as [|v l IH]; intros s H; cbn; [split; [assumption|tauto]|].
  destruct (set_insert_spec v s H) as [H1 H2]. destruct (IH (set_insert v s) H1) as [H3 H4]. split; [exact H3|].
  intros u. rewrite H4, H2. intuition congruence.
Qed.

Lemma c16_diversity :
  forall iter no_data1 no_data2 nd junk a p values zones fv fz,
  (forall m, Permutation (iter m) m) ->
  raster_of a p values fv -> raster_of a p zones fz ->
  let pol := ZonalPolicies no_data1 no_data2 (fun _ _ => true) (fun _ => nd) in
  exists out g, zonal_operation iter pol zonal_diversity_aggregator junk values zones = Ok out /\ raster_of a p out g /\
    forall c, in_shape a c ->
      let l := zone_values (fun v => negb (no_data1 v)) a fz fv (fz c) in
      (no_data2 (fz c) = false -> l <> [] -> g c = Z.of_nat (length (nodup Z.eq_dec l))) /\
      (no_data2 (fz c) = true \/ l = [] -> g c = nd).
Proof.
  intros iter no_data1 no_data2 nd junk a p values zones fv fz Hiter Hv Hz pol.
  set (P := fun (l : list Z) (s : list Z) => NoDup s /\ forall v, In v s <-> In v l).
  destruct (zonal_ok iter zonal_diversity_aggregator Hiter P (fun _ => true)) with (no_data1 := no_data1) (no_data2 := no_data2) (nd := nd)
    (junk := junk) (a := a) (p := p) (values := values) (zones := zones) (fv := fv) (fz := fz) as [out [g [E1 [Ro H]]]].
  - intros v _. unfold P. cbn. split; [repeat constructor; intros []|tauto].
  - intros l s v _ [D1 D2] _. cbn. destruct (set_insert_spec v s D1) as [D3 D4]. split; [assumption|].
    intros u. rewrite D4, in_app_iff, D2. cbn. intuition congruence.
  - intros l s _ HP. exact HP.
  - intros l s l' s' _ _ [D1 D2] [D3 D4]. cbn. destruct (set_fold_spec s' s D1) as [D5 D6]. split; [assumption|].
    intros u. rewrite D6, in_app_iff, D2, D4. tauto.
  - intros l l' s HP [D1 D2]. split; [assumption|]. intros v. rewrite D2. split; apply Permutation_in; [assumption|now symmetry].
  - reflexivity.
  - exact Hv.
  - exact Hz.
  - exists out, g. split; [exact E1|]. split; [exact Ro|]. intros c Hc. destruct (H c Hc) as [H1 H2]. split; [|exact H2].
    intros E2 N. destruct (H1 E2 N) as [s [[D1 D2] Es]]. rewrite Es. cbn. f_equal. apply Permutation_length.
    apply NoDup_Permutation; [assumption|apply NoDup_nodup|]. intros v. rewrite D2. symmetry. apply nodup_In.
Qed.

Lemma c16_area :
  forall (t : itype) iter no_data1 no_data2 nd junk a p zones fz,
  int_type t -> (forall m, Permutation (iter m) m) ->
  raster_of a p zones fz -> no_data1 1 = false ->
  let pol := ZonalPolicies no_data1 no_data2 (fun _ _ => true) (fun _ => nd) in
  exists out g, zonal_area iter t pol junk zones = Ok out /\ raster_of a p out g /\
    forall c, in_shape a c ->
      (no_data2 (fz c) = false -> g c = wrap t (Z.of_nat (length (filter (fun c' => fz c' =? fz c) (all_cells a))))) /\
      (no_data2 (fz c) = true -> g c = nd).
Proof.
  intros t iter no_data1 no_data2 nd junk a p zones fz Ht Hiter Hz H1 pol.
  set (P := fun (l : list Z) (s : Z) => (forall v, In v l -> representable t v) -> s = wrap t (sumZ l)).
  assert (S1 : forall v, sumZ [v] = v) by (intros; unfold sumZ; cbn [fold_right]; lia).
  assert (R : forall l l', (forall v, In v (l ++ l') -> representable t v) -> (forall v, In v l -> representable t v) /\ (forall v, In v l' -> representable t v)).
  { intros l l' H. split; intros v Hin; apply H, in_app_iff; auto. }
  destruct (zonal_scalar_ok iter (zonal_sum_aggregator t) Hiter P (fun _ => true)) with (no_data1 := no_data1) (no_data2 := no_data2) (nd := nd)
    (junk := junk) (a := a) (p := p) (v := 1) (zones := zones) (fz := fz) as [out [g [E [Ro H]]]].
  - intros v _ Hin. cbn [za_add za_merge za_result zonal_sum_aggregator zonal_sum_add]. rewrite S1, wrap_id; [reflexivity|assumption|]. apply Hin. now left.
  - intros l s v _ HP _ Hin. apply R in Hin. destruct Hin as [Hi1 Hi2]. cbn [za_add za_merge za_result zonal_sum_aggregator zonal_sum_add]. rewrite (HP Hi1), wrap_wrap by assumption.
    now rewrite sumZ_app, S1.
  - intros l s _ HP. exact HP.
  - intros l s l' s' _ _ HP HP' Hin. apply R in Hin. destruct Hin as [Hi1 Hi2]. cbn [za_add za_merge za_result zonal_sum_aggregator zonal_sum_add]. rewrite (HP Hi1), (HP' Hi2).
    rewrite wrap_wrap, Z.add_comm, wrap_wrap, sumZ_app by assumption. f_equal. lia.
  - intros l l' s HP1 HP Hin. rewrite <- (sumZ_perm _ _ HP1). apply HP. intros v Hv'. apply Hin. eapply Permutation_in; eassumption.
  - reflexivity.
  - exact H1.
  - exact Hz.
  - exists out, g. split; [exact E|]. split; [exact Ro|]. intros c Hc. destruct (H c Hc) as [G1 G2]. split; [|auto].
    intros E1. destruct (G1 E1) as [s [HP Es]].
    + intros C. unfold zone_values in C. apply map_eq_nil in C.
      assert (In c (filter (fun c0 => (fz c0 =? fz c) && negb (no_data1 1)) (all_cells a))) as Hin.
      { apply filter_In. split; [now apply all_cells_spec|]. rewrite Z.eqb_refl, H1. reflexivity. }
      rewrite C in Hin. contradiction.
    + rewrite Es. cbn [za_add za_merge za_result zonal_sum_aggregator zonal_sum_add]. rewrite HP.
      * f_equal. unfold zone_values. rewrite H1. cbn.
        rewrite (filter_ext (fun c0 => (fz c0 =? fz c) && true) (fun c' => fz c' =? fz c)) by (intros; apply andb_true_r).
        induction (filter (fun c' => fz c' =? fz c) (all_cells a)) as [|x l IH]; [reflexivity|].
        unfold sumZ in *. cbn [map fold_right length]. rewrite IH. lia.
      * intros v Hin. unfold zone_values in Hin. apply in_map_iff in Hin. destruct Hin as [? [<- _]].
        destruct (pow_split t Ht) as [E2 Hp]. unfold representable, imin, imax, int_type in *.
        assert (2 ^ 1 <= 2 ^ (bits t - 1)) by (apply Z.pow_le_mono_r; lia). destruct (signed t); lia.
Qed.

(** Majority *)
Definition freq_holds (l : list Z) (m : zmap Z) : Prop :=
  NoDup (map fst m) /\ forall v, zfind m v = if in_dec Z.eq_dec v l then Some (Z.of_nat (occurrences l v)) else None.

Lemma occ_app l l' v : occurrences (l ++ l') v = (occurrences l v + occurrences l' v)%nat.
Proof. unfold occurrences. induction l as [|x l IH]; cbn; [reflexivity|]. destruct (Z.eq_dec x v); lia. Qed.
Lemma occ_notin l v : ~ In v l -> occurrences l v = 0%nat.
Proof. apply count_occ_not_In. Qed.
Lemma occ_in l v : In v l -> (0 < occurrences l v)%nat.
Proof. intros H. apply (proj1 (count_occ_In Z.eq_dec l v)) in H. unfold occurrences. lia. Qed.

Lemma fold_freq e : forall m, NoDup (map fst e) -> NoDup (map fst m) ->
  let r := fold_left (fun m '(v, n) => zset_map m v (match zfind m v with None => n | Some n' => n' + n end)) e m in
  NoDup (map fst r) /\
  forall z, zfind r z = match zfind e z with None => zfind m z
                        | Some n => Some (match zfind m z with None => n | Some n' => n' + n end) end.
Proof.
  induction e as [|[k s] e IH]; intros m He Hm; cbn; [auto|].
  inversion He as [|? ? Hn He']; subst.
  destruct (IH (zset_map m k (match zfind m k with None => s | Some n' => n' + s end)) He' (zset_nodup _ _ _ Hm)) as [R1 R2]. split; [exact R1|].
  intros z. rewrite R2, !zfind_set. destruct (Z.eqb_spec k z) as [->|N]; [|reflexivity].
  apply zfind_none in Hn. now rewrite Hn.
Qed.

Lemma pick_spec es : forall v0 n0,
  let '(v, n) := fold_left majority_pick es (v0, n0) in
  ((v, n) = (v0, n0) \/ In (v, n) es) /\
  (n0 <= n /\ (n0 = n -> v0 <= v)) /\
  forall v' n', In (v', n') es -> n' <= n /\ (n' = n -> v' <= v).
Proof.
  induction es as [|[k f] es IH]; intros v0 n0; cbn [fold_left]; [split; [auto|split; [lia|contradiction]]|].
  assert (exists v1 n1, majority_pick (v0, n0) (k, f) = (v1, n1) /\ ((v1, n1) = (v0, n0) \/ (v1, n1) = (k, f)) /\
     (n0 <= n1 /\ (n0 = n1 -> v0 <= v1)) /\ (f <= n1 /\ (f = n1 -> k <= v1))) as [v1 [n1 [E1 [H1 [H2 H3]]]]].
  { unfold majority_pick. destruct (Z.ltb_spec n0 f); [exists k, f; repeat split; auto; lia|].
    destruct (Z.eqb_spec f n0); [destruct (Z.ltb_spec v0 k)|].
    - exists k, n0. subst n0. repeat split; auto; lia.
    - exists v0, n0. repeat split; auto; lia.
    - exists v0, n0. repeat split; auto; lia. }
  rewrite E1. specialize (IH v1 n1). destruct (fold_left majority_pick es (v1, n1)) as [v n].
  destruct IH as [I1 [I2 I3]]. split; [|split].
  - destruct I1 as [I1|I1]; [|right; now right]. rewrite I1. destruct H1 as [H1|H1]; [left; assumption|right; left; congruence].
  - lia.
  - intros v' n' [E2|Hin]; [|auto]. injection E2 as -> ->. lia.
Qed.

Lemma c17 :
  forall iter iter' no_data1 no_data2 nd junk a p values zones fv fz,
  (forall m, Permutation (iter m) m) -> (forall m, Permutation (iter' m) m) ->
  raster_of a p values fv -> raster_of a p zones fz ->
  let pol := ZonalPolicies no_data1 no_data2 (fun _ _ => true) (fun _ => nd) in
  exists out g, zonal_operation iter pol (zonal_majority_aggregator iter') junk values zones = Ok out /\ raster_of a p out g /\
    forall c, in_shape a c ->
      let l := zone_values (fun v => negb (no_data1 v)) a fz fv (fz c) in
      (no_data2 (fz c) = false -> l <> [] -> majority_of l (g c)) /\
      (no_data2 (fz c) = true \/ l = [] -> g c = nd).
Proof.
  intros iter iter' no_data1 no_data2 nd junk a p values zones fv fz Hiter Hiter' Hv Hz pol.
  assert (ADD : forall l m v, freq_holds l m -> freq_holds (l ++ [v]) (zset_map m v ((match zfind m v with None => 0 | Some n => n end) + 1))).
  { intros l m v [D1 D2]. split; [now apply zset_nodup|]. intros u. rewrite zfind_set, occ_app, D2.
    destruct (Z.eqb_spec v u) as [->|N].
    - destruct (in_dec Z.eq_dec u (l ++ [u])) as [_|C]; [|exfalso; apply C, in_app_iff; cbn; auto].
      assert (occurrences [u] u = 1%nat) as -> by (unfold occurrences; cbn; destruct (Z.eq_dec u u); congruence).
      destruct (in_dec Z.eq_dec u l) as [Hi|Hi]; [f_equal; lia|]. rewrite (occ_notin l u Hi). reflexivity.
    - rewrite D2. assert (occurrences [v] u = 0%nat) as -> by (unfold occurrences; cbn; destruct (Z.eq_dec v u); congruence).
      destruct (in_dec Z.eq_dec u l) as [Hi|Hi], (in_dec Z.eq_dec u (l ++ [v])) as [Hj|Hj].
      + f_equal. lia.
      + exfalso. apply Hj, in_app_iff. auto.
      + exfalso. apply in_app_iff in Hj. cbn in Hj. intuition congruence.
      + reflexivity. }
  destruct (zonal_ok iter (zonal_majority_aggregator iter') Hiter freq_holds (fun _ => true)) with (no_data1 := no_data1) (no_data2 := no_data2) (nd := nd)
    (junk := junk) (a := a) (p := p) (values := values) (zones := zones) (fv := fv) (fz := fz) as [out [g [E1 [Ro H]]]].
  - intros v _. apply (ADD [] [] v). split; [constructor|]. reflexivity.
  - intros l s v _ HP _. apply ADD. exact HP.
  - intros l s _ HP. exact HP.
  - intros l s l' s' _ _ [D1 D2] [D3 D4]. cbn.
    assert (Hd2 : NoDup (map fst (iter' s'))) by (eapply Permutation_NoDup; [apply Permutation_map; symmetry; apply Hiter'|assumption]).
    destruct (fold_freq (iter' s') s Hd2 D1) as [R1 R2]. split; [exact R1|]. intros u. rewrite R2.
    rewrite (zfind_perm s' (iter' s') u D3 (Hiter' s')). rewrite D2, D4, occ_app.
    destruct (in_dec Z.eq_dec u l') as [Hi|Hi], (in_dec Z.eq_dec u l) as [Hj|Hj], (in_dec Z.eq_dec u (l ++ l')) as [Hk|Hk];
      try (exfalso; rewrite in_app_iff in Hk; tauto).
    + f_equal. lia.
    + rewrite (occ_notin l u Hj). reflexivity.
    + rewrite (occ_notin l' u Hi). f_equal. lia.
    + reflexivity.
  - intros l l' s HP [D1 D2]. split; [assumption|]. intros v. rewrite D2.
    assert (occurrences l v = occurrences l' v) as ->.
    { unfold occurrences. apply (proj1 (Permutation_count_occ Z.eq_dec l l') HP). }
    destruct (in_dec Z.eq_dec v l) as [Hi|Hi], (in_dec Z.eq_dec v l') as [Hj|Hj]; try reflexivity.
    + exfalso. apply Hj. eapply Permutation_in; eassumption.
    + exfalso. apply Hi. eapply Permutation_in; [symmetry; exact HP|assumption].
  - reflexivity.
  - exact Hv.
  - exact Hz.
  - exists out, g. split; [exact E1|]. split; [exact Ro|]. intros c Hc. destruct (H c Hc) as [H1 H2]. split; [|exact H2].
    intros E2 N. destruct (H1 E2 N) as [s [[D1 D2] Es]]. rewrite Es. cbn.
    set (l := zone_values (fun v => negb (no_data1 v)) a fz fv (fz c)) in *.
    pose proof (pick_spec (iter' s) 0 0) as HP. destruct (fold_left majority_pick (iter' s) (0, 0)) as [r n]. cbn.
    destruct HP as [I1 [I2 I3]].
    assert (Hin : forall v n', In (v, n') (iter' s) <-> In v l /\ n' = Z.of_nat (occurrences l v)).
    { intros v n'. split.
      - intros Hi. apply (Permutation_in _ (Hiter' s)) in Hi. apply (zfind_in s v n' D1) in Hi. rewrite D2 in Hi.
        destruct (in_dec Z.eq_dec v l); [split; [assumption|congruence]|discriminate].
      - intros [Hi ->]. apply (Permutation_in _ (Permutation_sym (Hiter' s))). apply (zfind_in s v _ D1). rewrite D2.
        destruct (in_dec Z.eq_dec v l); [reflexivity|contradiction]. }
    assert (Hr : In r l /\ n = Z.of_nat (occurrences l r)).
    { destruct I1 as [I1|I1]; [|now apply Hin]. exfalso. injection I1 as -> ->.
      destruct l as [|x l']; [contradiction|]. assert (Hx : In x (x :: l')) by now left.
      pose proof (I3 x _ (proj2 (Hin x _) (conj Hx eq_refl))). pose proof (occ_in _ _ Hx). lia. }
    destruct Hr as [Hr ->]. split; [assumption|]. intros v. split.
    + destruct (in_dec Z.eq_dec v l) as [Hi|Hi]; [|rewrite (occ_notin l v Hi); lia].
      pose proof (I3 v _ (proj2 (Hin v _) (conj Hi eq_refl))). lia.
    + intros Hi Eo. pose proof (I3 v _ (proj2 (Hin v _) (conj Hi eq_refl))) as [_ G]. apply G. now rewrite Eo.
Qed.
