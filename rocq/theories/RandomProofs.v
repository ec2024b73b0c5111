(** Proofs about random values: the arrays. *)
From Coq Require Import Sorted.
From Verif Require Import Common CommonProofs CoreSpec DecompSpec ArraySpec IndexModel IndexProofs DecompModel DecompProofs DecompProofs2 DecompProofs3 DecompProofs4
  ArrayModel ArrayRep ArrayProofs LocalModel LocalSpec LocalProofs LocalProofs2 LocalTheorems UniqueModel UniqueSpec UniqueTheorems PcrProofs RandomModel RandomSpec.

(** The partition and the position in the partition of a cell *)
Fixpoint part_index (a p y : list Z) : list Z :=
  match a, p, y with
  | a :: a', p :: p', i :: y' => Z.min (i / p) (a / p - 1) :: part_index a' p' y'
  | _, _, _ => []
  end.
Fixpoint vsub (a b : list Z) : list Z :=
  match a, b with x :: a', y :: b' => x - y :: vsub a' b' | _, _ => [] end.

Lemma part_index_ok a p c x : partition_fits a p -> in_shape (parts_shape a p) c -> in_shape (part_extent a p c) x ->
  part_index a p (vadd (part_offset p c) x) = c /\ vsub (vadd (part_offset p c) x) (part_offset p c) = x.
Proof.
  intros H. revert c x. induction H as [|a1 p1 a p [P1 P2] H IH]; intros [|c1 c] x Hc Hx; cbn in Hc; try tauto; [destruct x; cbn in *; tauto|].
  destruct x as [|i x]; cbn in Hx; [tauto|]. destruct Hc as [Hc1 Hc], Hx as [Hi Hx]. destruct (IH c x Hc Hx) as [E1 E2]. cbn [part_offset vadd part_index vsub]. rewrite E1, E2. split; f_equal; [|lia].
  assert (Da : a1 / p1 * p1 <= a1) by (rewrite Z.mul_comm; apply Z.mul_div_le; lia).
  assert (D1 : (c1 * p1 + i) / p1 = c1 + i / p1) by (rewrite Z.add_comm, Z.div_add by lia; lia). rewrite D1.
  destruct (Z.eqb_spec c1 (a1 / p1 - 1)) as [->|N].
  - pose proof (Z.div_pos i p1 ltac:(lia) ltac:(lia)). lia.
  - rewrite Z.div_small by lia. lia.
Qed.

Lemma sorted_nodup s : StronglySorted Z.lt s -> NoDup s.
Proof. induction 1 as [|x s S IH F]; constructor; [|assumption]. rewrite Forall_forall in F. intros Hi. specialize (F _ Hi). lia. Qed.
Lemma sorted_firstn s k v : StronglySorted Z.lt s -> nth_error s k = Some v -> forall w, In w (firstn k s) <-> In w s /\ w < v.
Proof.
  intros S. revert k. induction S as [|x s S IH F]; intros [|k] Hk w; cbn [nth_error firstn] in *; try discriminate.
  - injection Hk as ->. rewrite Forall_forall in F. split; [intros []|]. intros [[->|Hw] L]; [lia|]. specialize (F _ Hw). lia.
  - rewrite Forall_forall in F. cbn [In]. rewrite IH by eassumption. split; [|tauto]. intros [->|[? ?]]; [|tauto]. split; [now left|]. apply F. eapply nth_error_In; exact Hk.
Qed.
Lemma nodup_front {A} (l1 l2 : list A) : NoDup (l1 ++ l2) -> NoDup l1.
Proof. induction l1 as [|x l1 IH]; intros H; [constructor|]. inversion H as [|y l N D]; subst. constructor; [rewrite in_app_iff in N; tauto|auto]. Qed.
Lemma rank_position znd a f s k z : set_of (fun v => znd v = false /\ exists x, in_shape a x /\ f x = v) s -> nth_error s k = Some z ->
  zone_rank a f (fun v => znd v = false) z k.
Proof.
  intros [S M] Hk. exists (firstn k s). assert ((k < length s)%nat) by (apply nth_error_Some; congruence). split; [|split].
  - apply sorted_nodup in S. rewrite <- (firstn_skipn k s) in S. now apply nodup_front in S.
  - rewrite firstn_length. lia.
  - intros w. rewrite (sorted_firstn s k z S Hk), M. tauto.
Qed.
Lemma rank_unique a f use z k1 k2 : zone_rank a f use z k1 -> zone_rank a f use z k2 -> k1 = k2.
Proof.
  intros [s1 [N1 [<- M1]]] [s2 [N2 [<- M2]]]. apply Nat.le_antisymm; apply NoDup_incl_length; try assumption; intros w Hw; [apply M2, M1, Hw|apply M1, M2, Hw].
Qed.


Section Generic.
Context {G V : Type} (dist : distribution G V).

Lemma generate_length lo hi n g : length (generate dist lo hi n g) = n.
Proof. revert g. induction n as [|n IH]; intros g; cbn [generate]; [reflexivity|]. destruct (d_draw dist lo hi g). cbn. now rewrite IH. Qed.
Lemma generate_nth lo hi n g k : (k < n)%nat -> nth_error (generate dist lo hi n g) k = Some (nth_draw (d_draw dist lo hi) k g).
Proof.
  revert g k. induction n as [|n IH]; intros g k Hk; [lia|]. cbn [generate]. destruct (d_draw dist lo hi g) as [v g'] eqn:Ed.
  destruct k as [|k]; cbn [nth_error]; [unfold nth_draw; cbn [engine_after]; now rewrite Ed|]. rewrite IH by lia. unfold nth_draw. cbn [engine_after]. now rewrite Ed.
Qed.

Context (seeded : list Z -> G).

(** What the cells hold: the values that the partition's engine results in, in row-major order *)
Definition drawn (a p : list Z) (lo hi : V) (y : list Z) : V :=
  let c := part_index a p y in
  nth_draw (d_draw dist lo hi) (Z.to_nat (rowmaj (part_extent a p c) (vsub y (part_offset p c)))) (seeded (part_offset p c)).
Lemma drawn_at a p lo hi c x : partition_fits a p -> in_shape (parts_shape a p) c -> in_shape (part_extent a p c) x ->
  drawn a p lo hi (vadd (part_offset p c) x) = nth_draw (d_draw dist lo hi) (Z.to_nat (rowmaj (part_extent a p c) x)) (seeded (part_offset p c)).
Proof. intros Hf Hc Hx. unfold drawn. destruct (part_index_ok a p c x Hf Hc Hx) as [-> ->]. reflexivity. Qed.

Lemma generate_holds a p lo hi c : a <> [] -> partition_fits a p -> in_shape (parts_shape a p) c ->
  block_holds (part_extent a p c) (generate dist lo hi (Z.to_nat (nr_elements (part_extent a p c))) (seeded (part_offset p c))) (fun x => drawn a p lo hi (vadd (part_offset p c) x)).
Proof.
  intros Ha Hf Hc. pose proof (part_extent_pos a p c Hf Hc) as Pe. assert (Hep : part_extent a p c <> []) by (apply part_extent_ne; assumption).
  rewrite nr_elements_volume by assumption. pose proof (volume_pos _ Pe) as Vp. split.
  - rewrite generate_length. lia.
  - intros x Hx. rewrite (drawn_at a p lo hi c x Hf Hc Hx). apply rowmaj_range in Hx. apply generate_nth. lia.
Qed.

Lemma random_array_ok L a p lo hi : supported L a p -> partition_fits a p -> L <= nr_parts a p -> d_accepts dist lo hi = true ->
  exists out, random_array dist seeded L a p lo hi = Ok out /\ raster_of a p out (drawn a p lo hi).
Proof.
  intros Sup Hf HL Ac. assert (Hacc : accepted L a p) by (now apply to_accepted). assert (Hne : a <> []) by apply Sup.
  unfold random_array. rewrite partition_shapes_ok by (split; assumption). cbn [obind]. rewrite <- parts_shape_map2.
  set (create := fun (_ : Z) (offset shape : list Z) => if d_accepts dist lo hi then Ok (generate dist lo hi (Z.to_nat (nr_elements shape)) (seeded offset)) else UB).
  destruct (instantiate_individually_ok L create a p Hacc) as [visits [parts [Ev [Er [Hlen Hh]]]]].
  destruct (accepted_visits L a p Hacc) as [w [Hv [_ [_ Hin]]]]. rewrite Ev in Hv. assert (w = visits) by congruence. subst w.
  rewrite Er. cbn [obind].
  destruct (assemble a p (map (fun q => obind (pl_data q) (fun data => Ok (Placed (pl_locality q) (pl_offset q) (pl_shape q) data))) parts) (drawn a p lo hi) Hne Hf) as [l [E1 R]].
  - rewrite map_length, nr_parts_prodZ. assumption.
  - intros c Hc. assert (Hc' := Hc). rewrite parts_shape_map2 in Hc'. apply Hin in Hc'. apply in_map_iff in Hc'.
    destruct Hc' as [[k c'] [Ek Hvv]]. cbn in Ek. subst c'. specialize (Hh _ Hvv). cbn [snd expected] in Hh.
    assert (Epx : part_extent a p c = exts a p c) by now apply part_extent_exts.
    assert (Eo : part_offset p c = map2 Z.mul c p) by (apply part_offset_map2).
    eexists. split; [|split; [|split]].
    + rewrite rowmaj_linear' by assumption. rewrite parts_shape_map2, nth_error_map, Hh. cbn [option_map pl_data obind pl_locality pl_offset pl_shape]. unfold create. rewrite Ac. cbn [obind]. reflexivity.
    + cbn [pl_offset]. congruence.
    + cbn [pl_shape]. congruence.
    + cbn [pl_data]. rewrite <- Epx, <- Eo. now apply generate_holds.
  - rewrite E1. cbn [obind]. eauto.
Qed.

Lemma random_array_ub L a p lo hi : supported L a p -> partition_fits a p -> L <= nr_parts a p -> d_accepts dist lo hi = false ->
  random_array dist seeded L a p lo hi = UB.
Proof.
  intros Sup Hf HL Ac. assert (Hacc : accepted L a p) by (now apply to_accepted). assert (Hne : a <> []) by apply Sup.
  unfold random_array. rewrite partition_shapes_ok by (split; assumption). cbn [obind].
  set (create := fun (_ : Z) (offset shape : list Z) => if d_accepts dist lo hi then Ok (generate dist lo hi (Z.to_nat (nr_elements shape)) (seeded offset)) else UB).
  destruct (instantiate_individually_ok L create a p Hacc) as [visits [parts [Ev [Er [Hlen Hh]]]]].
  destruct (accepted_visits L a p Hacc) as [w [Hv [_ [_ Hin]]]]. rewrite Ev in Hv. assert (w = visits) by congruence. subst w.
  rewrite Er. cbn [obind]. assert (0 < nr_parts a p) by (destruct Sup as [_ [_ [? _]]]; lia).
  destruct parts as [|q parts]; [rewrite nr_parts_prodZ in H; cbn in Hlen; lia|].
  assert (D : pl_data q = UB).
  { destruct (rowmaj_surj (parts_shape a p) 0 (parts_shape_pos a p Hf)) as [c [Hc Ec]]; [unfold nr_parts in H; lia|].
    assert (Hc' := Hc). rewrite parts_shape_map2 in Hc'. apply Hin in Hc'. apply in_map_iff in Hc'. destruct Hc' as [[k c'] [Ek Hvv]]. cbn in Ek. subst c'. specialize (Hh _ Hvv). cbn [snd expected] in Hh.
    rewrite <- parts_shape_map2, <- rowmaj_linear' in Hh by assumption. rewrite Ec in Hh. cbn in Hh. injection Hh as ->. cbn [pl_data]. unfold create. now rewrite Ac. }
  cbn [map sequence]. rewrite D. reflexivity.
Qed.

(** ** Zones *)
Lemma map_keys lo hi zones g : map fst (zone_value_map dist lo hi zones g) = zones.
Proof. revert g. induction zones as [|z zones IH]; intros g; cbn [zone_value_map]; [reflexivity|]. destruct (d_draw dist lo hi g). cbn. now rewrite IH. Qed.
Lemma map_entry lo hi zones g k z : nth_error zones k = Some z -> In (z, nth_draw (d_draw dist lo hi) k g) (zone_value_map dist lo hi zones g).
Proof.
  revert g k. induction zones as [|y zones IH]; intros g [|k] Hk; cbn [nth_error] in Hk; try discriminate; cbn [zone_value_map]; destruct (d_draw dist lo hi g) as [v g'] eqn:Ed.
  - injection Hk as ->. left. unfold nth_draw. cbn [engine_after]. now rewrite Ed.
  - right. specialize (IH g' k Hk). unfold nth_draw in *. cbn [engine_after]. rewrite Ed. exact IH.
Qed.
End Generic.

Section Likes.
Context {G V : Type} (dist : distribution G V) (no_data : V -> bool) (within_domain : V -> V -> bool) (mark : V -> V) (junk : Z -> V) (seeded : list Z -> G).
Notation drawn := (drawn dist seeded).
Lemma random_like_ok {I} a p (arr : parray I) f lo hi : raster_of a p arr f -> no_data lo = false -> no_data hi = false -> within_domain lo hi = true -> d_accepts dist lo hi = true ->
  exists out, random_like dist no_data within_domain mark junk seeded arr lo hi = Ok out /\ raster_of a p out (drawn a p lo hi).
Proof.
  intros H N1 N2 Wd Ac. unfold random_like. destruct (map_parts a p arr f (random_partition dist no_data within_domain mark junk seeded lo hi) (drawn a p lo hi) H) as [parts' [E' R']].
  - intros q c Hc Hin Eo Es B. unfold random_partition. rewrite N1, N2, Wd, Ac, Es, Eo. cbn [orb negb obind]. eexists. split; [reflexivity|]. cbn [pl_offset pl_shape pl_data].
    split; [reflexivity|]. split; [reflexivity|]. apply generate_holds; [apply H|apply H|assumption].
  - rewrite E'. cbn [obind]. destruct H as [_ [_ [-> [-> _]]]]. eauto.
Qed.
Context (nd : V) (Hmark : forall v, mark v = nd).
Lemma random_like_marked {I} a p (arr : parray I) f lo hi : raster_of a p arr f -> no_data lo = true \/ no_data hi = true \/ within_domain lo hi = false ->
  exists out, random_like dist no_data within_domain mark junk seeded arr lo hi = Ok out /\ raster_of a p out (fun _ => nd).
Proof.
  intros H N. unfold random_like. destruct (map_parts a p arr f (random_partition dist no_data within_domain mark junk seeded lo hi) (fun _ => nd) H) as [parts' [E' R']].
  - intros q c Hc Hin Eo Es B. unfold random_partition. rewrite Es.
    destruct (for_block (part_extent a p c) (fun _ old => Ok (mark old)) (fun _ => nd) junk) as [out [E1 B1]].
    + apply part_extent_ne; try assumption; apply H.
    + apply part_extent_pos; [apply H|assumption].
    + intros. now rewrite Hmark.
    + replace (if no_data lo || no_data hi then _ else _) with (Ok out); [cbn [obind]; eexists; split; [reflexivity|]; cbn; auto|].
      destruct (no_data lo || no_data hi) eqn:O; [now rewrite E1|]. apply orb_false_iff in O. destruct O, N as [?|[?| ->]]; try congruence. cbn [negb]. now rewrite E1.
  - rewrite E'. cbn [obind]. destruct H as [_ [_ [-> [-> _]]]]. eauto.
Qed.

Lemma zonal_ok znd a p zones f lo hi : raster_of a p zones f -> d_accepts dist lo hi = true ->
  exists out g, zonal_random dist mark junk seeded znd lo hi zones = Ok out /\ raster_of a p out g /\
    forall x, in_shape a x -> (znd (f x) = true -> g x = nd) /\
      (znd (f x) = false -> exists k, zone_rank a f (fun v => znd v = false) (f x) k /\ g x = nth_draw (d_draw dist lo hi) k (seeded [])).
Proof.
  intros H Ac. unfold zonal_random. destruct (C31_unique znd a p zones f H) as [s [Es Hs]]. rewrite Es. cbn [obind]. rewrite Ac.
  destruct (C30_reclassify_maps_by_table V znd mark nd junk (zone_value_map dist lo hi s (seeded [])) a p zones f Hmark) as [out [g [E [R M]]]]; [rewrite map_keys; apply sorted_nodup, Hs|assumption|].
  exists out, g. split; [assumption|]. split; [assumption|]. intros x Hx. destruct (M x Hx) as [M1 M2]. split; [auto|]. intros N.
  assert (In (f x) s) as Hi by (apply Hs; eauto). apply In_nth_error in Hi. destruct Hi as [k Hk]. exists k. split; [eapply rank_position; eassumption|].
  apply M1; [assumption|]. now apply map_entry.
Qed.
End Likes.
