(** Proofs about the allocation of crops: the data, cells. *)
From Coq Require Import Lia.
From Flocq Require Import Core BinarySingleNaN.
From Verif Require Import Common CommonProofs CoreSpec ArraySpec DecompModel ArrayModel ZonalModel ZonalProofs OrderModel OrderSpec WalkProofs IntegrateProofs Float64 AllocateModel AllocateSpec.
Open Scope Z_scope.

(** ** Data *)
Lemma fless_compare x y : fless x y = true <-> Bcompare x y = Some Lt.
Proof. unfold fless, Bltb, SpecFloat.SFltb, Bcompare. destruct (SpecFloat.SFcompare (B2SF x) (B2SF y)) as [[]|]; split; congruence. Qed.
Lemma fequal_compare x y : fequal x y = true <-> Bcompare x y = Some Eq.
Proof. unfold fequal, Beqb, SpecFloat.SFeqb, Bcompare. destruct (SpecFloat.SFcompare (B2SF x) (B2SF y)) as [[]|]; split; congruence. Qed.
Lemma fless_not_equal x y : fless x y = true -> fequal x y = false /\ fequal y x = false /\ fless y x = false.
Proof.
  intros H. apply fless_compare in H. pose proof (Bcompare_swap _ _ x y) as S. rewrite H in S. repeat split; apply Bool.not_true_is_false; intros K;
    [apply fequal_compare in K|apply fequal_compare in K|apply fless_compare in K]; cbn in S; congruence.
Qed.
Lemma vector_exceeds d p : demand_exceeds d p -> vector_less_equal d p = false.
Proof.
  intros (s & s' & x & y & r & r' & -> & -> & F & L). induction F as [|u v s s' U F IH].
  - cbn [List.app vector_less_equal]. destruct (fless_not_equal _ _ L) as (_ & -> & ->). reflexivity.
  - cbn [List.app vector_less_equal]. rewrite U. exact IH.
Qed.
Lemma vector_met d p : demand_is_met d p -> vector_less_equal d p = true.
Proof.
  intros [F|(s & s' & x & y & r & r' & -> & -> & F & L)].
  - induction F as [|u v s s' U F IH]; [reflexivity|]. cbn [vector_less_equal]. rewrite U. exact IH.
  - induction F as [|u v s s' U F IH].
    + cbn [List.app vector_less_equal]. destruct (fless_not_equal _ _ L) as (-> & _ & _). exact L.
    + cbn [List.app vector_less_equal]. rewrite U. exact IH.
Qed.
Lemma sequence_in {A B} (f : A -> outcome B) l r x : sequence (map f l) = Ok r -> In x l -> exists y, f x = Ok y /\ In y r.
Proof.
  revert r. induction l as [|a l IH]; intros r E I; [destruct I|]. cbn [map sequence] in E. destruct (f a) as [b| |] eqn:Fa; try discriminate. cbn [obind] in E.
  destruct (sequence (map f l)) as [r'| |] eqn:S; try discriminate. inversion E; subst. destruct I as [-> |I]; [exists b; split; [exact Fa|now left]|].
  destruct (IH r' eq_refl I) as [y [Y1 Y2]]. exists y. split; [exact Y1|now right].
Qed.
Lemma sequence_back {A B} (f : A -> outcome B) l r y : sequence (map f l) = Ok r -> In y r -> exists x, f x = Ok y /\ In x l.
Proof.
  revert r. induction l as [|a l IH]; intros r E I; cbn [map sequence] in E; [inversion E; subst; destruct I|]. destruct (f a) as [b| |] eqn:Fa; try discriminate. cbn [obind] in E.
  destruct (sequence (map f l)) as [r'| |] eqn:S; try discriminate. inversion E; subst. destruct I as [-> |I]; [exists a; split; [exact Fa|now left]|].
  destruct (IH r' eq_refl I) as [x [Y1 Y2]]. exists x. split; [exact Y1|now right].
Qed.
Lemma sequence_all {A B} (f : A -> outcome B) (g : A -> B) l : (forall x, In x l -> f x = Ok (g x)) -> sequence (map f l) = Ok (map g l).
Proof. intros H. induction l as [|a l IH]; [reflexivity|]. cbn [map sequence]. rewrite H by now left. cbn [obind]. rewrite IH by (intros; apply H; now right). reflexivity. Qed.
Lemma zfind_In {S} (m : zmap S) k v : zfind m k = Some v -> In (k, v) m.
Proof. induction m as [|[k' s] m IH]; cbn [zfind]; [discriminate|]. destruct (Z.eqb_spec k' k) as [->|]; [intros E; inversion E; now left|intros E; right; now apply IH]. Qed.

(** Somewhere demand exceeds production: nothing is walked *)
Lemma data_unmet demand production d zone dz pz : data_of demand production = Ok d -> zfind demand zone = Some dz -> zfind production zone = Some pz -> demand_exceeds dz pz ->
  keep_allocating d = false.
Proof.
  intros E D P X. unfold data_of in E. destruct (sequence _) as [met| |] eqn:S; try discriminate. inversion E; subst. clear E. unfold keep_allocating. cbn [ad_met].
  destruct (sequence_in _ _ _ _ S (zfind_In _ _ _ D)) as [y [Y1 Y2]]. cbn beta iota in Y1. rewrite P in Y1. destruct (Nat.eqb (length pz) (length dz)); [|discriminate]. inversion Y1; subst. clear Y1.
  apply Bool.not_true_is_false. intros K. rewrite forallb_forall in K. specialize (K _ Y2). cbn beta iota in K. rewrite (vector_exceeds _ _ X) in K.
  destruct X as (s & s' & x & z & r & r' & -> & _). rewrite forallb_forall in K. specialize (K false). cbn in K.
  assert (false = true); [|discriminate]. apply K. apply in_map_iff. exists x. split; [reflexivity|]. apply in_app_iff. right. now left.
Qed.
(** All demands are met *)
Lemma data_met demand production : NoDup (map fst demand) ->
  (forall zone dz, zfind demand zone = Some dz -> exists pz, zfind production zone = Some pz /\ length pz = length dz /\ demand_is_met dz pz) ->
  exists d, data_of demand production = Ok d /\ keep_allocating d = true /\ ad_demand d = demand /\ ad_production d = production /\
    forall zone dz, zfind demand zone = Some dz -> zfind (ad_met d) zone = Some (map (fun _ => true) dz).
Proof.
  intros ND H.
  assert (I : forall zone dz, In (zone, dz) demand -> zfind demand zone = Some dz).
  { clear H. induction demand as [|[k s] m IH]; intros zone dz I; [destruct I|]. inversion ND; subst. cbn [zfind]. destruct I as [I|I]; [inversion I; subst; now rewrite Z.eqb_refl|].
    destruct (Z.eqb_spec k zone) as [->|]; [|now apply IH]. destruct H1. apply in_map_iff. exists (zone, dz). split; [reflexivity|exact I]. }
  exists (AllocData demand production (map (fun e => (fst e, map (fun _ => true) (snd e))) demand)). split; [|split; [|split; [reflexivity|split; [reflexivity|]]]].
  - unfold data_of. erewrite sequence_all with (g := fun e => (fst e, map (fun _ => true) (snd e))); [reflexivity|]. intros [zone dz] Hin. cbn [fst snd].
    destruct (H zone dz (I _ _ Hin)) as (pz & -> & L & M). rewrite (proj2 (Nat.eqb_eq _ _) L). rewrite (vector_met _ _ M). reflexivity.
  - unfold keep_allocating. cbn [ad_met]. apply forallb_forall. intros [zone m] Hm. apply in_map_iff in Hm. destruct Hm as [[z dz] [E _]]. inversion E; subst. apply forallb_forall. intros b Hb. apply in_map_iff in Hb. destruct Hb as [? [<- _]]. reflexivity.
  - cbn [ad_met]. clear ND H I. induction demand as [|[k s] m IH]; intros zone dz; [discriminate|]. cbn [zfind map fst snd]. destruct (k =? zone); [intros E; inversion E; reflexivity|apply IH].
Qed.

(** ** Cells, when all demands are met *)
Definition nought (v : b64) : Prop := match v with B754_zero _ | B754_nan => True | _ => False end.
Lemma nought_plus x y : nought x -> nought y -> nought (fplus x y).
Proof. destruct x as [s| | |], y as [s'| | |]; try (intros []; fail); try (intros _ []; fail); intros _ _; cbn; try exact I. destruct (Bool.eqb s s'); exact I. Qed.
Lemma nought_mul x : nought (b64_mul fzero x).
Proof. destruct x; exact I. Qed.
Lemma nought_less v : nought v -> fless fzero v = false.
Proof. destruct v as [[]| | |]; try (intros []; fail); reflexivity. Qed.
Lemma zero_plus_zero s : fplus fzero (B754_zero s) = fzero.
Proof. destruct s; reflexivity. Qed.
Lemma zero_plus_fzero : fplus fzero fzero = fzero.
Proof. reflexivity. Qed.
Lemma one_plus_zero : fplus fone fzero = fone.
Proof. apply B2SF_inj. vm_compute. reflexivity. Qed.
Lemma zero_plus_one : fplus fzero fone = fone.
Proof. apply B2SF_inj. vm_compute. reflexivity. Qed.
Lemma one_minus_zero : fminus fone fzero = fone.
Proof. apply B2SF_inj. vm_compute. reflexivity. Qed.
Lemma zero_less_one : fless fzero fone = true.
Proof. vm_compute. reflexivity. Qed.
Lemma one_less_one : fless fone fone = false.
Proof. vm_compute. reflexivity. Qed.
Global Opaque fone.

Lemma sum_zeros {A} (f : A -> b64) l : Forall (fun c => f c = fzero) l -> fold_left (fun s c => fplus s (f c)) l fzero = fzero.
Proof. induction 1 as [|c l H F IH]; [reflexivity|]. cbn [fold_left]. rewrite H, zero_plus_fzero. exact IH. Qed.
Lemma one_zeros {A} (f : A -> b64) l : Forall (fun c => f c = fzero) l -> fold_left (fun s c => fplus s (f c)) l fone = fone.
Proof. induction 1 as [|c l H F IH]; [reflexivity|]. cbn [fold_left]. rewrite H, one_plus_zero. exact IH. Qed.
Lemma sum_noughts {A} (f : A -> b64) l s : (forall c, In c l -> nought (f c)) -> nought s -> nought (fold_left (fun s c => fplus s (f c)) l s).
Proof. revert s. induction l as [|c l IH]; intros s H S; [exact S|]. cbn [fold_left]. apply IH; [intros; apply H; now right|]. apply nought_plus; [exact S|apply H; now left]. Qed.

Lemma Forall_map' {A B} (P : B -> Prop) (f : A -> B) l : Forall (fun x => P (f x)) l -> Forall P (map f l).
Proof. induction 1; constructor; assumption. Qed.
Lemma others_spec f (P Q : crop -> Prop) l : Forall P l -> (forall c, P c -> Q (f c)) -> (forall c, P c -> Q c) -> Forall Q (others f l).
Proof. intros H A B. destruct H as [|c l H F]; [constructor|]. cbn [others]. constructor; [now apply B|]. apply Forall_map'. eapply Forall_impl; [|exact F]. intros; now apply A. Qed.
Lemma adjust_met c x : cr_met c = true -> adjust c x = fzero.
Proof. intros H. unfold adjust. now rewrite H. Qed.

Lemma met_cell irrigated crops : crops <> [] -> Forall (fun c => cr_met c = true) crops ->
  exists crops', allocate_cell irrigated crops = Ok crops' /\ length crops' = length crops /\ Forall (fun c => cr_fraction c = fzero) crops' /\ Forall (fun c => cr_extra c = fzero) (tl crops') /\
    (is_zero irrigated -> (cr_extra (hd (Crop fzero fzero fzero fzero fzero true fzero) crops) = fzero \/ cr_extra (hd (Crop fzero fzero fzero fzero fzero true fzero) crops) = fone) ->
     cr_extra (hd (Crop fzero fzero fzero fzero fzero true fzero) crops') = fone).
Proof.
  intros N M. destruct crops as [|g cs]; [congruence|]. inversion M as [|? ? Mg Mcs]; subst. unfold allocate_cell. cbv zeta.
  set (c1 := map (fun c => with_fraction (adjust c (cr_fraction c)) c) (g :: cs)).
  set (c2 := map (fun c => with_production (fplus (cr_production c) (b64_mul (cr_fraction c) (cr_yield c))) c) c1).
  assert (F2 : Forall (fun c => cr_fraction c = fzero /\ cr_met c = true) c2).
  { unfold c2, c1. apply Forall_map', Forall_map'. eapply Forall_impl; [|exact M]. intros c Hc. cbn. split; [now apply adjust_met|exact Hc]. }
  rewrite (sum_zeros cr_fraction c2) by (eapply Forall_impl; [|exact F2]; intros c [H _]; exact H).
  rewrite (nought_less (fold_left _ c2 fzero)).
  2:{ apply (sum_noughts (fun c => b64_mul (remaining c) (cr_sdp c))); [|exact I]. intros c Hc. rewrite Forall_forall in F2. destruct (F2 c Hc) as [_ Hm]. unfold remaining. rewrite Hm. apply nought_mul. }
  set (c4 := others (fun c => with_extra (adjust c (cr_extra c)) c) c2).
  set (c5 := map (fun c => with_production (fplus (cr_production c) (b64_mul (cr_extra c) (cr_yield c))) c) c4).
  assert (F4 : Forall (fun c => cr_fraction c = fzero) c4) by (unfold c4; eapply others_spec; [exact F2|intros c [H _]; exact H|intros c [H _]; exact H]).
  assert (F5 : Forall (fun c => cr_fraction c = fzero) c5) by (unfold c5; apply Forall_map'; exact F4).
  assert (X5 : Forall (fun c => cr_extra c = fzero) (tl c5)).
  { unfold c5, c4, c2, c1. cbn [map others tl]. apply Forall_map'. cbn. apply Forall_map', Forall_map', Forall_map'. eapply Forall_impl; [|exact Mcs]. intros c Hc. cbn. now apply adjust_met. }
  assert (L5 : length c5 = S (length cs)) by (unfold c5, c4, c2, c1; cbn; rewrite !map_length; reflexivity).
  assert (H5 : cr_extra (hd (Crop fzero fzero fzero fzero fzero true fzero) c5) = cr_extra g) by reflexivity.
  clearbody c5. clear c1 c2 F2 c4 F4.
  destruct c5 as [|g5 cs5]; [discriminate|]. cbn [tl hd] in *.
  destruct (fless (fold_left (fun s c => fplus s (cr_extra c)) (g5 :: cs5) (fplus fzero irrigated)) fone) eqn:Fl.
  - eexists. split; [reflexivity|]. split; [cbn in *; lia|]. split; [inversion F5; constructor; assumption|]. split; [exact X5|]. intros Z G. cbn [cr_extra with_extra hd].
    assert (Zi : fplus fzero irrigated = fzero) by (destruct Z as [-> | ->]; apply zero_plus_zero). rewrite Zi in *. cbn [fold_left] in *. rewrite H5 in *. destruct G as [G|G]; rewrite G in *.
    + rewrite zero_plus_fzero in *. rewrite (sum_zeros cr_extra cs5 X5) in *. apply one_minus_zero.
    + rewrite zero_plus_one in *. rewrite (one_zeros cr_extra cs5 X5) in *. rewrite one_less_one in Fl. discriminate.
  - eexists. split; [reflexivity|]. split; [exact L5|]. split; [exact F5|]. split; [exact X5|]. intros Z G. cbn [hd].
    assert (Zi : fplus fzero irrigated = fzero) by (destruct Z as [-> | ->]; apply zero_plus_zero). rewrite Zi in *. cbn [fold_left] in *. rewrite H5 in *. destruct G as [G|G]; rewrite G in *; [|reflexivity].
    rewrite zero_plus_fzero in *. rewrite (sum_zeros cr_extra cs5 X5) in *. rewrite zero_less_one in Fl. discriminate.
Qed.
