(** Property theorems: allocating crops along routes. *)
From Coq Require Import Lia.
From Flocq Require Import Core BinarySingleNaN.
From Verif Require Import Common CommonProofs CoreSpec DecompSpec ArraySpec AggregateSpec IndexModel DecompModel ArrayModel ArrayRep ZonalModel
  RasterCheck OrderModel OrderSpec WalkModel WalkSpec WalkTheorems Float64 AllocateModel AllocateSpec AllocateProofs AllocateProofs2 AllocateProofs3 AllocateProofs4.
Open Scope Z_scope.

(** C77.  Full claim: whatever the order in which the tasks run, integrate_and_allocate walks along the routes until the demand of the crops is met;
    in the cells that are visited the fractions of the crops, grass being the first, and the irrigated fraction are not negative and add up to 1; and
    the productions that are returned are those of the fractions that are returned.
    Proved: if in each of the zones the numbers say that demand is met, inputs are valid and nothing is irrigated, then all cells of the
    routes are visited, and they have grass only.  Missing: everything else.  If in a zone demand is not met, then nothing is
    allocated anywhere (C77_unmet_nothing_allocated); fractions do not add up to 1 (C77_fractions_refuted); cells are not visited
    (C77_no_data_refuted); and the productions returned are always zero (C77_productions_zero). *)
Theorem C77_met_partial :
  forall a p route (sdp yield current : list (parray b64)) (irrigated : parray b64) (fsdp fyield fcurrent : list (list Z -> b64)) (firrigated : list Z -> b64) demand production,
  well_formed_route a p route ->
  Forall2 (raster_of a p) sdp fsdp -> Forall2 (raster_of a p) yield fyield -> Forall2 (raster_of a p) current fcurrent -> raster_of a p irrigated firrigated ->
  length sdp = length current -> length yield = length current -> current <> [] ->
  NoDup (map fst demand) ->
  (forall zone dz, zfind demand zone = Some dz -> exists pz, zfind production zone = Some pz /\ length pz = length dz /\ demand_is_met dz pz) ->
  (forall zone q, zfind (rt_starts route) zone = Some q -> exists dz, zfind demand zone = Some dz /\ length dz = length current) ->
  (forall x, on_route route x -> is_zero (firrigated x) /\ Forall (fun f => is_nan (f x) = false) (fsdp ++ fyield ++ fcurrent)) ->
  exists st, integrate_and_allocate route sdp yield current demand production = Ok st /\
  exists bound, forall ks st', alloc_run route sdp yield current irrigated st ks st' ->
    (length ks <= bound)%nat /\
    (forall k o, alloc_step route sdp yield current irrigated k st' = Some o -> (exists st'', o = Ok st'') \/
      (o = Throw /\ exists q w, nth_error (as_tasks st') k = Some (AskResults q) /\ nth_z q (as_allocators st') = Some w /\ al_ready w = 1)) /\
    (as_tasks st' = [] -> (forall w, In w (as_allocators st') -> al_ready w = 1) /\
      forall k, (k < length current)%nat -> exists f, raster_of a p (fractions_result route k st') f /\
        forall x, (on_route route x /\ f x = if Nat.eqb k 0 then fone else fzero) \/ (~ on_route route x /\ f x = fnan)).
Proof. exact met_ok. Qed.
Print Assumptions C77_met_partial.

(** If in one of the zones the production is too low, then nothing is allocated, in none of the zones. *)
Theorem C77_unmet_nothing_allocated :
  forall a p route (sdp yield current : list (parray b64)) (irrigated : parray b64) (fsdp fyield fcurrent : list (list Z -> b64)) (firrigated : list Z -> b64) demand production zone dz pz st,
  well_formed_route a p route ->
  Forall2 (raster_of a p) sdp fsdp -> Forall2 (raster_of a p) yield fyield -> Forall2 (raster_of a p) current fcurrent -> raster_of a p irrigated firrigated ->
  integrate_and_allocate route sdp yield current demand production = Ok st ->
  zfind demand zone = Some dz -> zfind production zone = Some pz -> demand_exceeds dz pz ->
  exists bound, forall ks st', alloc_run route sdp yield current irrigated st ks st' ->
    (length ks <= bound)%nat /\
    (forall k o, alloc_step route sdp yield current irrigated k st' = Some o -> (exists st'', o = Ok st'') \/
      (o = Throw /\ exists q w, nth_error (as_tasks st') k = Some (AskResults q) /\ nth_z q (as_allocators st') = Some w /\ al_ready w = 1)) /\
    (as_tasks st' = [] -> (forall w, In w (as_allocators st') -> al_ready w = 1) /\
      forall k, (k < length current)%nat -> raster_of a p (fractions_result route k st') (fun _ => fnan)).
Proof. exact unmet_ok. Qed.
Print Assumptions C77_unmet_nothing_allocated.

(** The productions that are returned are zero, whatever the inputs are and whatever has been allocated. *)
Theorem C77_productions_zero :
  forall route sdp yield current irrigated demand production st ks st' zone l,
  integrate_and_allocate route sdp yield current demand production = Ok st -> alloc_run route sdp yield current irrigated st ks st' ->
  zfind (productions_result st') zone = Some l -> Forall (fun v => v = fzero) l.
Proof. exact productions_zero. Qed.
Print Assumptions C77_productions_zero.

Definition crops4 : list (parray b64) := map array4 [ones4; ones4].
Definition none4 : list (parray b64) := map array4 [zeros4; zeros4].
Lemma crops4_rasters : Forall2 (raster_of [4] [2]) crops4 (map fun4 [ones4; ones4]).
Proof. apply arrays4_rasters. repeat constructor. Qed.
Lemma none4_rasters : Forall2 (raster_of [4] [2]) none4 (map fun4 [zeros4; zeros4]).
Proof. apply arrays4_rasters. repeat constructor. Qed.

(** A crop is wanted, and could grow in all cells of the route, none of which is in use.  It is not allocated. *)
Theorem C77_allocated_refuted :
  ~ forall a p route (sdp yield current : list (parray b64)) (irrigated : parray b64) (fsdp fyield fcurrent : list (list Z -> b64)) (firrigated : list Z -> b64) demand production dz pz st ks st' zone k,
    well_formed_route a p route ->
    Forall2 (raster_of a p) sdp fsdp -> Forall2 (raster_of a p) yield fyield -> Forall2 (raster_of a p) current fcurrent -> raster_of a p irrigated firrigated ->
    (forall x, on_route route x -> firrigated x = fzero /\ Forall (fun f => f x = fzero) fcurrent /\ Forall (fun f => f x = fone) (fsdp ++ fyield)) ->
    zfind demand zone = Some dz -> zfind production zone = Some pz -> fless (nth k pz fzero) (nth k dz fzero) = true -> (exists id, zfind (rt_starts route) zone = Some id) ->
    integrate_and_allocate route sdp yield current demand production = Ok st -> alloc_run route sdp yield current irrigated st ks st' -> as_tasks st' = [] ->
    forall f, raster_of a p (fractions_result route k st') f -> exists x, on_route route x /\ fless fzero (f x) = true.
Proof.
  intros A. destruct (observed_alloc _ _ _ _ _ _ _ _ _ observe_unmet) as (st & st' & E & R & T & _).
  assert (X : demand_exceeds [b64_of_Z 1; b64_of_Z 5] [b64_of_Z 1; b64_of_Z 0]).
  { exists [b64_of_Z 1], [b64_of_Z 1], (b64_of_Z 5), (b64_of_Z 0), [], []. split; [reflexivity|]. split; [reflexivity|]. split; [constructor; [vm_compute; reflexivity|constructor]|vm_compute; reflexivity]. }
  destruct (C77_unmet_nothing_allocated [4] [2] route3 crops4 crops4 none4 (array4 zeros4) _ _ _ (fun4 zeros4) (two_of 1 5) (two_of 1 0) 7 _ _ st route3_well_formed crops4_rasters crops4_rasters none4_rasters
    (array4_raster zeros4 eq_refl) E eq_refl eq_refl X) as [bound B].
  destruct (B _ _ R) as [_ [_ B']]. destruct (B' T) as [_ F]. specialize (F 1%nat ltac:(cbn; lia)).
  destruct (A [4] [2] route3 crops4 crops4 none4 (array4 zeros4) _ _ _ (fun4 zeros4) (two_of 1 5) (two_of 1 0) [b64_of_Z 1; b64_of_Z 5] [b64_of_Z 1; b64_of_Z 0] st schedule st' 7 1%nat route3_well_formed crops4_rasters crops4_rasters none4_rasters
    (array4_raster zeros4 eq_refl)) with (f := fun _ : list Z => fnan) as [x [_ Hx]]; try assumption; try reflexivity.
  - intros x Hx. apply route3_off in Hx. destruct Hx as [<-|[<-|[<-|[]]]]; (split; [reflexivity|]; split; repeat constructor).
  - exists 1. reflexivity.
  - discriminate Hx.
Qed.
Print Assumptions C77_allocated_refuted.

(** Two crops of which the demand is met.  The grass of the previous cell is still counted: of two cells, 1/2 and 3/4 of which are irrigated, the second is
    used for 5/4; and if 1/2 and 1/4 are irrigated, the second is used for 1/2. *)
Theorem C77_fractions_refuted :
  (~ forall a p route (sdp yield current : list (parray b64)) (irrigated : parray b64) (fsdp fyield fcurrent : list (list Z -> b64)) (firrigated : list Z -> b64) demand production st ks st',
    well_formed_route a p route ->
    Forall2 (raster_of a p) sdp fsdp -> Forall2 (raster_of a p) yield fyield -> Forall2 (raster_of a p) current fcurrent -> raster_of a p irrigated firrigated -> length current = 2%nat ->
    (forall x, on_route route x -> fless_equal fzero (firrigated x) = true /\ fless_equal (firrigated x) fone = true /\ Forall (fun f => f x = fzero) fcurrent) ->
    integrate_and_allocate route sdp yield current demand production = Ok st -> alloc_run route sdp yield current irrigated st ks st' -> as_tasks st' = [] ->
    exists f g, raster_of a p (fractions_result route 0 st') f /\ raster_of a p (fractions_result route 1 st') g /\
      forall x, on_route route x -> fless fone (fplus (fplus (firrigated x) (f x)) (g x)) = false) /\
  (~ forall a p route (sdp yield current : list (parray b64)) (irrigated : parray b64) (fsdp fyield fcurrent : list (list Z -> b64)) (firrigated : list Z -> b64) demand production st ks st',
    well_formed_route a p route ->
    Forall2 (raster_of a p) sdp fsdp -> Forall2 (raster_of a p) yield fyield -> Forall2 (raster_of a p) current fcurrent -> raster_of a p irrigated firrigated -> length current = 2%nat ->
    (forall x, on_route route x -> fless_equal fzero (firrigated x) = true /\ fless_equal (firrigated x) fone = true /\ Forall (fun f => f x = fzero) fcurrent) ->
    integrate_and_allocate route sdp yield current demand production = Ok st -> alloc_run route sdp yield current irrigated st ks st' -> as_tasks st' = [] ->
    exists f g, raster_of a p (fractions_result route 0 st') f /\ raster_of a p (fractions_result route 1 st') g /\
      forall x, on_route route x -> fless (fplus (fplus (firrigated x) (f x)) (g x)) (fraction 3 4) = false).
Proof.
  split; intros A.
  - destruct (observed_alloc _ _ _ _ _ _ _ _ _ observe_wet) as (st & st' & E & R & T & O). change (seq 0 (length [array4 zeros4; array4 zeros4])) with [0%nat; 1%nat] in O. set (o0 := fractions_result route3 0 st') in *. set (o1 := fractions_result route3 1 st') in *. cbn [map] in O. injection O as O1 O2.
    destruct (A [4] [2] route3 crops4 crops4 none4 (array4 wet4) _ _ _ (fun4 wet4) [(7, [fone; fone])] [(7, [fone; fone])] st schedule st' route3_well_formed crops4_rasters crops4_rasters none4_rasters (array4_raster wet4 eq_refl) eq_refl) as (f & g & Rf & Rg & S); try assumption.
    { intros x Hx. apply route3_off in Hx. destruct Hx as [<-|[<-|[<-|[]]]]; (split; [vm_compute; reflexivity|]; split; [vm_compute; reflexivity|repeat constructor]). }
    destruct (array4_values _ f _ _ _ _ _ Rf O1 eq_refl) as (_ & F & _). destruct (array4_values _ g _ _ _ _ _ Rg O2 eq_refl) as (_ & G & _). change (SpecFloat.S754_zero false) with (B2SF fzero) in G. apply B2SF_inj in F, G.
    specialize (S [1] (route3_on [1] ltac:(cbn; auto))). rewrite F, G in S. vm_compute in S. discriminate S.
  - destruct (observed_alloc _ _ _ _ _ _ _ _ _ observe_moist) as (st & st' & E & R & T & O). change (seq 0 (length [array4 zeros4; array4 zeros4])) with [0%nat; 1%nat] in O. set (o0 := fractions_result route3 0 st') in *. set (o1 := fractions_result route3 1 st') in *. cbn [map] in O. injection O as O1 O2.
    destruct (A [4] [2] route3 crops4 crops4 none4 (array4 moist4) _ _ _ (fun4 moist4) [(7, [fone; fone])] [(7, [fone; fone])] st schedule st' route3_well_formed crops4_rasters crops4_rasters none4_rasters (array4_raster moist4 eq_refl) eq_refl) as (f & g & Rf & Rg & S); try assumption.
    { intros x Hx. apply route3_off in Hx. destruct Hx as [<-|[<-|[<-|[]]]]; (split; [vm_compute; reflexivity|]; split; [vm_compute; reflexivity|repeat constructor]). }
    destruct (array4_values _ f _ _ _ _ _ Rf O1 eq_refl) as (_ & F & _). destruct (array4_values _ g _ _ _ _ _ Rg O2 eq_refl) as (_ & G & _). change (SpecFloat.S754_zero false) with (B2SF fzero) in G. apply B2SF_inj in F, G.
    specialize (S [1] (route3_on [1] ltac:(cbn; auto))). rewrite F, G in S. vm_compute in S. discriminate S.
Qed.
Print Assumptions C77_fractions_refuted.

(** A cell for which one of the inputs has no value ends the fragment: cells after it, in the same partition, remain without value. *)
Theorem C77_no_data_refuted :
  ~ forall a p route (sdp yield current : list (parray b64)) (irrigated : parray b64) (fsdp fyield fcurrent : list (list Z -> b64)) (firrigated : list Z -> b64) demand production st ks st',
    well_formed_route a p route ->
    Forall2 (raster_of a p) sdp fsdp -> Forall2 (raster_of a p) yield fyield -> Forall2 (raster_of a p) current fcurrent -> raster_of a p irrigated firrigated -> current <> [] ->
    (forall zone dz, zfind demand zone = Some dz -> exists pz, zfind production zone = Some pz /\ length pz = length dz /\ demand_is_met dz pz) ->
    integrate_and_allocate route sdp yield current demand production = Ok st -> alloc_run route sdp yield current irrigated st ks st' -> as_tasks st' = [] ->
    exists f, raster_of a p (fractions_result route 0 st') f /\
      forall x, on_route route x -> is_nan (firrigated x) = false -> Forall (fun f => is_nan (f x) = false) (fsdp ++ fyield ++ fcurrent) -> is_nan (f x) = false.
Proof.
  intros A. destruct (observed_alloc _ _ _ _ _ _ _ _ _ observe_hole) as (st & st' & E & R & T & O). change (seq 0 (length [array4 zeros4; array4 zeros4])) with [0%nat; 1%nat] in O. set (o0 := fractions_result route3 0 st') in *. set (o1 := fractions_result route3 1 st') in *. cbn [map] in O. injection O as O1 O2.
  assert (Rh : Forall2 (raster_of [4] [2]) (map array4 [ones4; hole4]) (map fun4 [ones4; hole4])) by (apply arrays4_rasters; repeat constructor).
  assert (M : forall zone dz, zfind [(7, [fone; fone])] zone = Some dz -> exists pz, zfind [(7, [fone; fone])] zone = Some pz /\ length pz = length dz /\ demand_is_met dz pz).
  { intros zone dz Hd. exists dz. assert (dz = [fone; fone]) as -> by (cbn [zfind] in Hd; destruct (7 =? zone); congruence). split; [exact Hd|]. split; [reflexivity|]. left. repeat constructor; vm_compute; reflexivity. }
  destruct (A [4] [2] route3 _ _ _ (array4 zeros4) _ _ _ (fun4 zeros4) [(7, [fone; fone])] [(7, [fone; fone])] st schedule st' route3_well_formed Rh crops4_rasters none4_rasters (array4_raster zeros4 eq_refl) ltac:(discriminate) M E R T) as (f & Rf & S).
  destruct (array4_values _ f _ _ _ _ _ Rf O1 eq_refl) as (_ & F & _). apply B2SF_inj in F.
  specialize (S [1] (route3_on [1] ltac:(cbn; auto)) ltac:(vm_compute; reflexivity) ltac:(repeat constructor; vm_compute; reflexivity)). rewrite F in S. discriminate S.
Qed.
Print Assumptions C77_no_data_refuted.

(** The hypotheses of C77_met_partial can be met, also although the demand of the second crop is not; and those of C77_unmet_nothing_allocated. *)
Example C77_ex :
  well_formed_route [4] [2] route3 /\ demand_is_met [b64_of_Z 1; b64_of_Z 5] [b64_of_Z 2; b64_of_Z 0] /\ fless (b64_of_Z 0) (b64_of_Z 5) = true /\
  demand_exceeds [b64_of_Z 1; b64_of_Z 5] [b64_of_Z 1; b64_of_Z 0] /\
  (forall x, on_route route3 x -> is_zero (fun4 zeros4 x) /\ Forall (fun f => is_nan (f x) = false) (map fun4 [ones4; ones4] ++ map fun4 [ones4; ones4] ++ map fun4 [zeros4; zeros4])) /\
  Forall2 (raster_of [4] [2]) crops4 (map fun4 [ones4; ones4]) /\
  observe_alloc route3 crops4 crops4 none4 (array4 zeros4) (two_of 1 5) (two_of 2 0) schedule =
    Some (true, [[[sf_1; sf_1]; [sf_1; sf_none]]; [[B2SF fzero; B2SF fzero]; [B2SF fzero; sf_none]]]).
Proof.
  split; [exact route3_well_formed|]. split; [|split; [vm_compute; reflexivity|split]].
  - right. exists [], [], (b64_of_Z 1), (b64_of_Z 2), [b64_of_Z 5], [b64_of_Z 0]. split; [reflexivity|]. split; [reflexivity|]. split; [constructor|vm_compute; reflexivity].
  - exists [b64_of_Z 1], [b64_of_Z 1], (b64_of_Z 5), (b64_of_Z 0), [], []. split; [reflexivity|]. split; [reflexivity|]. split; [constructor; [vm_compute; reflexivity|constructor]|vm_compute; reflexivity].
  - split; [|split; [exact crops4_rasters|exact observe_hidden]]. intros x Hx. apply route3_off in Hx. destruct Hx as [<-|[<-|[<-|[]]]]; (split; [left; reflexivity|]; repeat constructor; vm_compute; reflexivity).
Qed.
