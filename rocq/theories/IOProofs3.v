From Coq Require Import Permutation.
From Verif Require Import Common CommonProofs CoreSpec DecompSpec ArraySpec IndexModel IndexProofs DecompModel DecompProofs ArrayModel ArrayRep ArrayProofs
  LocalProofs AggregateProofs GridRaster DecompProofs4 DecompProofs2 IOModel IOSpec IOProofs IOProofs2.

Section Reading.
Context {E : Type}.

Definition read_or (ts : option Z) (s : list Z) (d : dataset E) (q : placed (list E)) : placed (list E) :=
  match read_partition ts s d q with Ok q' => q' | _ => q end.

Lemma sequence_map_ok {A B} (h : A -> outcome B) (r : A -> B) l : (forall x, In x l -> h x = Ok (r x)) -> sequence (map h l) = Ok (map r l).
Proof.
  induction l as [|x l IH]; intros H; cbn [map sequence]; [reflexivity|]. rewrite H by now left. cbn [obind]. rewrite IH by (intros y Hy; apply H; now right). reflexivity.
Qed.

Lemma NoDup_app_parts {A} (l l' : list A) : NoDup (l ++ l') -> NoDup l /\ NoDup l' /\ (forall x, In x l -> In x l' -> False).
Proof.
  induction l as [|x l IH]; cbn; intros H; [repeat split; auto; constructor|]. inversion H as [|? ? H1 H2]; subst. destruct (IH H2) as [A1 [A2 A3]].
  split; [constructor; [intros Hin; apply H1, in_or_app; now left|assumption]|]. split; [assumption|]. intros y [<-|Hy] Hy'; [apply H1, in_or_app; now right|eauto].
Qed.

Lemma Forall2_len {A B} (R : A -> B -> Prop) l l' : Forall2 R l l' -> length l = length l'.
Proof. induction 1; cbn; congruence. Qed.

Lemma combine_map_r {A B C} (r : B -> C) : forall (l : list A) (l' : list B), combine l (map r l') = map (fun '(x, y) => (x, r y)) (combine l l').
Proof. induction l as [|x l IH]; intros [|y l']; cbn; try reflexivity. now rewrite IH. Qed.

Lemma read_groups ts s d (a : parray E) : (forall q, In q (pa_parts a) -> read_partition ts s d q = Ok (read_or ts s d q)) -> forall g parts,
  NoDup (flat_map snd g) -> (forall i, In i (flat_map snd g) -> 0 <= i < Z.of_nat (length (pa_parts a))) -> length parts = length (pa_parts a) ->
  exists parts', fold_left (fun acc '((_, idxs) : Z * list Z) => obind acc (fun parts => obind (selected_partitions a idxs) (fun l =>
      obind (sequence (map (read_partition ts s d) l)) (fun l' => put_partitions parts idxs l')))) g (Ok parts) = Ok parts' /\
    length parts' = length parts /\
    (forall i q, In i (flat_map snd g) -> nth_error (pa_parts a) (Z.to_nat i) = Some q -> nth_error parts' (Z.to_nat i) = Some (read_or ts s d q)) /\
    (forall k, ~ In (Z.of_nat k) (flat_map snd g) -> nth_error parts' k = nth_error parts k).
Proof.
  intros Hread. induction g as [|[m idxs] g IH]; intros parts N R L.
  - exists parts. cbn. repeat split; auto. tauto.
  - cbn [flat_map snd] in N, R. apply NoDup_app_parts in N. destruct N as [N1 [N2 N3]].
    destruct (selected_ok a idxs) as [l [E1 F1]]; [intros i Hi; apply R, in_or_app; now left|].
    cbn [fold_left obind]. rewrite E1. cbn [obind]. rewrite (sequence_map_ok _ (read_or ts s d)).
    2: { intros q Hq. destruct (Forall2_in_r _ _ _ _ F1 Hq) as [i [_ Hi]]. apply Hread. eapply nth_error_In; exact Hi. }
    cbn [obind]. destruct (scatter_ok (combine idxs (map (read_or ts s d) l)) parts) as [p1 [E2 [L2 [A2 B2]]]].
    + rewrite map_fst_combine; [assumption|]. rewrite map_length. apply (Forall2_len _ _ _ F1).
    + intros i q Hin. apply in_combine_l in Hin. rewrite L. apply R, in_or_app. now left.
    + unfold scatter in E2. unfold put_partitions. rewrite E2.
      destruct (IH p1 N2) as [p2 [E3 [L3 [A3 B3]]]]; [intros i Hi; apply R, in_or_app; now right|congruence|].
      exists p2. split; [assumption|]. split; [congruence|]. cbn [flat_map snd]. rewrite map_fst_combine in B2 by (rewrite map_length; apply (Forall2_len _ _ _ F1)). split.
      * intros i q Hi Hq. apply in_app_or in Hi. destruct Hi as [Hi|Hi]; [|auto]. assert (Hr := R i (in_or_app _ _ _ (or_introl Hi))). rewrite B3.
        -- apply A2. rewrite combine_map_r. apply in_map_iff. exists (i, q). split; [reflexivity|].
           revert Hi Hq F1. clear. intros Hi Hq F1. revert Hi. induction F1 as [|x y l l' Hxy F1 IH]; cbn; [tauto|]. intros [<-|Hi]; [left; congruence|auto].
        -- rewrite Z2Nat.id by lia. intros Hin. apply (N3 i Hi Hin).
      * intros k Hk. rewrite B3 by (intros Hin; apply Hk, in_or_app; now right). apply B2. intros Hin. apply Hk, in_or_app. now left.
Qed.

Lemma from_lue_into_ok ts s a p d n F (arr : parray E) : a <> [] -> partition_fits a p -> pa_shape arr = a -> pa_sip arr = parts_shape a p ->
  Z.of_nat (length (pa_parts arr)) = nr_parts a p ->
  (forall c, in_shape (parts_shape a p) c -> exists q, nth_error (pa_parts arr) (Z.to_nat (rowmaj (parts_shape a p) c)) = Some q /\ pl_offset q = part_offset p c /\
    pl_shape q = part_extent a p c /\ Z.of_nat (length (pl_data q)) = volume (pl_shape q)) ->
  file_holds d n F -> room_for ts s a n ->
  exists arr', from_lue_into ts s d arr = Ok arr' /\ raster_of a p arr' (fun x => F (stored_at ts (vadd s x))).
Proof.
  intros Hne Hf Esh Esip HL Hparts Hd Hr.
  assert (Hok : forall c q, in_shape (parts_shape a p) c -> nth_error (pa_parts arr) (Z.to_nat (rowmaj (parts_shape a p) c)) = Some q ->
    exists q', read_partition ts s d q = Ok q' /\ pl_offset q' = part_offset p c /\ pl_shape q' = part_extent a p c /\
      block_holds (part_extent a p c) (pl_data q') (fun x => F (stored_at ts (vadd s (vadd (part_offset p c) x))))).
  { intros c q Hc Hq. destruct (Hparts c Hc) as [q' [Eq [Eo [Es El]]]]. assert (q' = q) by congruence. subst q'.
    pose proof (length_part_offset a p c Hf Hc) as Lo. pose proof (room_length _ _ _ _ Hr) as Ls.
    destruct (read_partition_ok ts s q n d F) as [q' [E1 [_ [E2 [E3 B]]]]].
    - rewrite Es. now apply part_extent_ne.
    - rewrite Es. now apply part_extent_pos.
    - rewrite Eo. congruence.
    - rewrite Eo, Es. eapply room_add; [exact Hr|]. now apply part_box.
    - assumption.
    - assumption.
    - exists q'. split; [assumption|]. split; [congruence|]. split; [congruence|]. rewrite Es, Eo in B. destruct B as [B1 B2]. split; [assumption|].
      intros x Hx. rewrite B2 by assumption. rewrite vadd_assoc; [reflexivity|congruence|]. rewrite <- (in_shape_length _ _ Hx). rewrite (length_part_extent a p c Hf Hc). congruence. }
  assert (Hread : forall q, In q (pa_parts arr) -> read_partition ts s d q = Ok (read_or ts s d q)).
  { intros q Hq. apply In_nth_error in Hq. destruct Hq as [k Hk]. assert (Hlt : (k < length (pa_parts arr))%nat) by (apply nth_error_Some; congruence).
    destruct (rowmaj_surj (parts_shape a p) (Z.of_nat k) (parts_shape_pos a p Hf)) as [c [Hc Ec]]; [unfold nr_parts in HL; lia|].
    destruct (Hok c q Hc) as [q' [E1 _]]; [rewrite Ec, Nat2Z.id; assumption|]. unfold read_or. now rewrite E1. }
  pose proof (by_locality_perm arr) as P.
  destruct (read_groups ts s d arr Hread (partition_idxs_by_locality arr) (pa_parts arr)) as [parts [E1 [L1 [A1 _]]]].
  - eapply Permutation_NoDup; [apply Permutation_sym; exact P|]. apply zseq_NoDup.
  - intros i Hi. apply (Permutation_in _ P) in Hi. apply in_zseq in Hi. lia.
  - reflexivity.
  - unfold from_lue_into. rewrite E1. cbn [obind]. eexists. split; [reflexivity|]. rewrite Esh, Esip. split; [assumption|]. split; [assumption|]. split; [reflexivity|]. split; [reflexivity|].
    split; [cbn [pa_parts]; rewrite map_length, L1; assumption|]. cbn [pa_parts]. intros c Hc. destruct (Hparts c Hc) as [q [Eq _]]. destruct (Hok c q Hc Eq) as [q' [E2 [Eo [Es B]]]].
    exists (pl_data q'). split; [|exact B]. rewrite nth_error_map. pose proof (rowmaj_range _ _ Hc) as Hrr. rewrite (A1 (rowmaj (parts_shape a p) c) q).
    + unfold read_or. rewrite E2. cbn [option_map]. now rewrite Eo, Es.
    + apply (Permutation_in _ (Permutation_sym P)). apply in_zseq. unfold nr_parts in HL. lia.
    + assumption.
Qed.

Theorem from_lue_ok (junk : Z -> E) L ts d n F start count p : supported L count p -> partition_fits count p -> L <= nr_parts count p ->
  file_holds d n F -> room_for ts start count n ->
  exists arr, from_lue junk L ts d (hyperslab_of start count) p = Ok arr /\ raster_of count p arr (fun x => F (stored_at ts (vadd start x))).
Proof.
  intros Hs Hf HL Hd Hr. assert (Hne : count <> []) by apply Hs. unfold from_lue, hyperslab_of. cbn [hs_start hs_stride hs_count].
  assert (E0 : forallb (Z.eqb 1) (map (fun _ => 1) start) = true) by (clear; induction start; cbn; auto). rewrite E0, (proj2 (Nat.eqb_eq _ _)) by exact (Forall2_len _ _ _ Hf). cbn [andb].
  rewrite partition_shapes_ok by (split; assumption). cbn [obind]. rewrite <- parts_shape_map2.
  pose proof (to_accepted L count p Hs Hf HL) as Hacc.
  destruct (instantiate_individually_ok L (fun _ _ shape => fresh junk (nr_elements shape)) count p Hacc) as [visits [r [Ev [Er [Hl Hh]]]]].
  destruct (accepted_visits L count p Hacc) as [v [Hv [Hfst [Hnd Hin]]]]. rewrite Ev in Hv. assert (v = visits) by congruence. subst v. rewrite Er. cbn [obind].
  apply (from_lue_into_ok ts start count p d n F); try assumption; try reflexivity.
  - cbn [pa_parts]. rewrite nr_parts_prodZ. assumption.
  - intros c Hc. cbn [pa_parts]. assert (Hc' := Hc). rewrite parts_shape_map2 in Hc'. apply Hin in Hc'. apply in_map_iff in Hc'.
    destruct Hc' as [[k c'] [E1 Hvv]]. cbn in E1. subst c'. specialize (Hh _ Hvv). cbn [snd expected] in Hh.
    eexists. rewrite rowmaj_linear' by assumption. rewrite parts_shape_map2. split; [exact Hh|]. cbn [pl_offset pl_shape pl_data].
    rewrite part_extent_exts, part_offset_map2 by assumption. split; [reflexivity|]. split; [reflexivity|]. unfold fresh. rewrite map_length, zseq_length.
    rewrite <- part_extent_exts by assumption. rewrite nr_elements_volume by now apply part_extent_ne. pose proof (volume_pos _ (part_extent_pos count p c Hf Hc)). lia.
Qed.

(** ** No room *)
Lemma part_exceeds a p s n : partition_fits a p -> length s = length a -> length n = length a -> ~ box_within s a n ->
  exists c, in_shape (parts_shape a p) c /\ ~ box_within (vadd s (part_offset p c)) (part_extent a p c) n.
Proof.
  intros H. revert s n. induction H as [|x y a p Hxy H IH]; intros [|z s] [|m n] Hs Hn Hb; cbn in Hs, Hn; try discriminate.
  - exfalso. apply Hb. exact I.
  - assert (Hd : 0 < x / y) by (apply Z.div_str_pos; lia).
    assert (Hz : exists c, in_shape (parts_shape a p) c).
    { exists (map (fun _ => 0) (parts_shape a p)). pose proof (parts_shape_pos a p H) as P. clear -P. induction P; cbn; [exact I|]. split; [lia|assumption]. }
    destruct Hz as [c0 Hc0].
    destruct (Z_lt_dec z 0) as [L|L]; [|destruct (Z_lt_dec m (z + x)) as [L'|L']].
    + exists (0 :: c0). cbn. split; [split; [lia|assumption]|]. intros [A _]. lia.
    + exists (x / y - 1 :: c0). cbn. split; [split; [lia|assumption]|]. rewrite Z.eqb_refl. intros [_ [A _]]. lia.
    + destruct (IH s n) as [c [Hc Hn']]; [congruence|congruence|intros B; apply Hb; cbn; split; [lia|]; split; [lia|assumption]|].
      exists (0 :: c). cbn. split; [split; [lia|assumption]|]. tauto.
Qed.

Definition ranks_agree (ts : option Z) (a n : list Z) : Prop := length n = (length a + match ts with None => 0 | Some _ => 2 end)%nat.

Lemma part_no_room ts a p s n : partition_fits a p -> length s = length a -> ranks_agree ts a n -> ~ room_for ts s a n ->
  exists c, in_shape (parts_shape a p) c /\ selectable (slab_start ts (vadd s (part_offset p c))) (slab_count ts (part_extent a p c)) n = false.
Proof.
  intros Hf Hs Hn Hr. unfold ranks_agree in Hn. destruct ts as [t|]; cbn [room_for slab_start slab_count] in *.
  - destruct n as [|n0 [|n1 n]]; cbn in Hn; [lia|lia|].
    assert (Hz : exists c, in_shape (parts_shape a p) c).
    { exists (map (fun _ => 0) (parts_shape a p)). pose proof (parts_shape_pos a p Hf) as P. clear -P. induction P; cbn; [exact I|]. split; [lia|assumption]. }
    destruct Hz as [c0 Hc0]. cbn [selectable].
    destruct (Z_lt_dec 0 n0) as [L0|L0]; [|exists c0; split; [assumption|]; destruct (Z.leb_spec (0 + 1) n0); [lia|]; rewrite !Bool.andb_false_r; reflexivity].
    destruct (Z_le_dec 0 t) as [L1|L1]; [|exists c0; split; [assumption|]; destruct (Z.leb_spec 0 t); [lia|]; cbn [andb]; rewrite ?Bool.andb_false_r; reflexivity].
    destruct (Z_lt_dec t n1) as [L2|L2]; [|exists c0; split; [assumption|]; destruct (Z.leb_spec (t + 1) n1); [lia|]; rewrite ?Bool.andb_false_r; cbn [andb]; rewrite ?Bool.andb_false_r; reflexivity].
    destruct (part_exceeds a p s n Hf Hs) as [c [Hc Hb]]; [lia|intros B; apply Hr; exists n0, n1, n; auto|].
    exists c. split; [assumption|]. destruct (selectable (vadd s (part_offset p c)) (part_extent a p c) n) eqn:E1; [apply selectable_box in E1; tauto|].
    rewrite !Bool.andb_false_r. reflexivity.
  - destruct (part_exceeds a p s n Hf Hs) as [c [Hc Hb]]; [lia|assumption|]. exists c. split; [assumption|].
    destruct (selectable (vadd s (part_offset p c)) (part_extent a p c) n) eqn:E1; [apply selectable_box in E1; tauto|reflexivity].
Qed.

Lemma pos_selectable_or ts a p s n q (f : list Z -> E) : a <> [] -> partition_fits a p -> length s = length a -> part_of a p f q ->
  forall d F, file_holds d n F ->
  write_partition ts s d q = Throw \/ exists d' F', write_partition ts s d q = Ok d' /\ file_holds d' n F'.
Proof.
  intros Hne Hf Hs [c [Hc [Eo [Es B]]]] d F Hd. pose proof (length_part_offset a p c Hf Hc) as Lo. unfold write_partition. rewrite partition_hyperslab_ok by congruence. cbn [obind].
  destruct (selectable (slab_start ts (vadd s (pl_offset q))) (slab_count ts (pl_shape q)) n) eqn:E1.
  - right. apply selectable_box in E1. destruct (write_box (slab_start ts (vadd s (pl_offset q))) (slab_count ts (pl_shape q)) n (pl_data q) (fun x => f (vadd (part_offset p c) (slab_cell ts x))) d F) as [d' [F' [E2 [H2 _]]]]; [| |exact E1| | |].
    + apply slab_ne. rewrite Es. now apply part_extent_ne.
    + apply slab_pos. rewrite Es. now apply part_extent_pos.
    + rewrite Es. apply (slab_block ts _ _ (fun x => f (vadd (part_offset p c) x))). assumption.
    + assumption.
    + eauto.
  - left. unfold write_hyperslab. cbn [hyperslab_of hs_start hs_count]. destruct Hd as [Ed _]. rewrite Ed, E1. reflexivity.
Qed.

Theorem to_lue_throws order ts a p (arr : parray E) f n d F : (forall l, Permutation (order l) l) -> raster_of a p arr f -> file_holds d n F ->
  ranks_agree ts a n -> ~ room_for ts (origin a) a n -> to_lue order ts arr d = Throw.
Proof.
  intros Ho H Hd Hn Hr. assert (Hx := H). destruct Hx as [Hne [Hf [Es _]]]. destruct (groups_all arr) as [groups [E1 G]].
  unfold to_lue. rewrite E1. cbn [obind]. unfold hyperslab_of_shape, hyperslab_of. cbn [hs_start]. rewrite Es. fold (origin a).
  assert (Lo : length (origin a) = length a) by (unfold origin; apply map_length).
  destruct (part_no_room ts a p (origin a) n Hf Lo Hn Hr) as [c [Hc Hsel]]. destruct (raster_part a p arr f c H Hc) as [q [Eq [Eo [Eh _]]]].
  assert (Hq : In q (order (concat groups))) by (eapply Permutation_in; [apply Permutation_sym, Ho|]; apply G; eapply nth_error_In; exact Eq).
  assert (Hall : forall q, In q (order (concat groups)) -> part_of a p f q).
  { intros q' Hq'. apply (raster_part_of a p arr); [assumption|]. apply G. eapply Permutation_in; [apply Ho|assumption]. }
  revert Hq Hall d F Hd. generalize (order (concat groups)). clear groups E1 G. induction l as [|q' l IH]; intros Hq Hall d F Hd; [destruct Hq|].
  assert (Hthrow : forall l', fold_left (fun acc q => obind acc (fun d => write_partition ts (origin a) d q)) l' (@Throw (dataset E)) = Throw) by (induction l'; cbn; auto).
  cbn [fold_left obind]. destruct (pos_selectable_or ts a p (origin a) n q' f Hne Hf Lo (Hall q' (or_introl eq_refl)) d F Hd) as [Et|[d' [F' [Et Hd']]]]; rewrite Et; [apply Hthrow|].
  destruct Hq as [->|Hq].
  - exfalso. unfold write_partition in Et. rewrite partition_hyperslab_ok in Et by (rewrite Eo, Lo; symmetry; eapply length_part_offset; eassumption). cbn [obind] in Et.
    unfold write_hyperslab in Et. cbn [hyperslab_of hs_start hs_count] in Et. destruct Hd as [Ed _]. rewrite Ed, Eo, Eh, Hsel in Et. discriminate.
  - apply (IH Hq (fun x Hx => Hall x (or_intror Hx)) d' F' Hd').
Qed.
End Reading.
