(** Concrete allocations of crops. *)
From Coq Require Import Lia.
From Flocq Require Import Core BinarySingleNaN.
From Verif Require Import Common CommonProofs CoreSpec DecompSpec ArraySpec AggregateSpec IndexModel DecompModel ArrayModel ArrayRep ZonalModel
  RasterCheck StreamProofs OrderModel OrderSpec WalkModel WalkSpec WalkTheorems IntegrateTheorems Float64 AllocateModel AllocateSpec AllocateProofs AllocateProofs2 AllocateProofs3.
Open Scope Z_scope.

Section Drive.
Context (route : serial_route) (sdp yield current : list (parray b64)) (irrigated : parray b64).
Fixpoint drive_alloc (ks : list nat) (st : alloc_state) : option alloc_state :=
  match ks with
  | [] => Some st
  | k :: ks' => match alloc_step route sdp yield current irrigated k st with Some (Ok st') => drive_alloc ks' st' | _ => None end
  end.
Lemma drive_run ks : forall st st', drive_alloc ks st = Some st' -> alloc_run route sdp yield current irrigated st ks st'.
Proof.
  induction ks as [|k ks IH]; intros st st' E; cbn [drive_alloc] in E; [inversion E; constructor|]. destruct (alloc_step _ _ _ _ _ k st) as [[st1| |]|] eqn:E1; try discriminate. econstructor; [exact E1|now apply IH].
Qed.
(** What can be seen of the end of a run: are there tasks left, and the fractions per partition and crop *)
Definition observe_alloc (demand production : zmap (list b64)) (ks : list nat) : option (bool * list (list (list SpecFloat.spec_float))) :=
  match integrate_and_allocate route sdp yield current demand production with
  | Ok st => match drive_alloc ks st with
             | Some st' => Some (match as_tasks st' with [] => true | _ => false end, map (fun k => map (fun q => map B2SF (pl_data q)) (pa_parts (fractions_result route k st'))) (seq 0 (length current)))
             | None => None
             end
  | _ => None
  end.
Lemma observed_alloc demand production ks l : observe_alloc demand production ks = Some (true, l) ->
  exists st st', integrate_and_allocate route sdp yield current demand production = Ok st /\ alloc_run route sdp yield current irrigated st ks st' /\ as_tasks st' = [] /\
    map (fun k => map (fun q => map B2SF (pl_data q)) (pa_parts (fractions_result route k st'))) (seq 0 (length current)) = l.
Proof.
  unfold observe_alloc. destruct (integrate_and_allocate _ _ _ _ _ _) as [st| |] eqn:E0; try discriminate. destruct (drive_alloc ks st) as [st'|] eqn:E1; [|discriminate].
  intros E. injection E as T E. exists st, st'. split; [reflexivity|]. split; [now apply drive_run|]. split; [destruct (as_tasks st'); [reflexivity|discriminate]|exact E].
Qed.
End Drive.

(** An array with 4 cells in 2 partitions *)
Definition fraction (n d : Z) : b64 := b64_div (b64_of_Z n) (b64_of_Z d).
Definition array4 (v : list b64) : parray b64 := PArray [4] [2] [Placed 0 [0] [2] (firstn 2 v); Placed 0 [2] [2] (firstn 2 (skipn 2 v))].
Definition fun4 (v : list b64) (x : list Z) : b64 := nth (Z.to_nat (hd 0 x)) v fzero.
Lemma array4_raster v : length v = 4%nat -> raster_of [4] [2] (array4 v) (fun4 v).
Proof.
  intros L. destruct v as [|v0 [|v1 [|v2 [|v3 [|]]]]]; try discriminate. apply raster_of_listed; [discriminate|repeat constructor; lia|reflexivity|reflexivity|]. reflexivity.
Qed.
Definition zeros4 : list b64 := [fzero; fzero; fzero; fzero].
Definition ones4 : list b64 := [fone; fone; fone; fone].
Definition schedule : list nat := [0; 0; 0; 0]%nat.
Lemma arrays4_rasters vs : Forall (fun v => length v = 4%nat) vs -> Forall2 (raster_of [4] [2]) (map array4 vs) (map fun4 vs).
Proof. induction 1; constructor; [now apply array4_raster|assumption]. Qed.

(** The values of a raster *)
Lemma array4_values (arr : parray b64) (f : list Z -> b64) (l : list (list SpecFloat.spec_float)) a0 a1 a2 a3 : raster_of [4] [2] arr f -> map (fun q => map B2SF (pl_data q)) (pa_parts arr) = l -> l = [[a0; a1]; [a2; a3]] ->
  B2SF (f [0]) = a0 /\ B2SF (f [1]) = a1 /\ B2SF (f [2]) = a2 /\ B2SF (f [3]) = a3.
Proof.
  intros R E El. pose proof (raster_listed _ _ _ _ R) as RL. apply (f_equal (map (fun x => map B2SF (snd x)))) in RL. rewrite map_map in RL. 
  assert (RL' : l = map (map (fun x => B2SF (f x))) [[[0]; [1]]; [[2]; [3]]]) by (rewrite <- E; exact RL). rewrite El in RL'. cbn [map] in RL'. injection RL' as X0 X1 X2 X3. auto.
Qed.
Lemma route3_cells : visits route3 7 [[2]; [0]; [1]].
Proof. destruct (route3_visits 7) as [cells V]. destruct (route3_hops_cells 7 cells V) as [[_ ->]|[N _]]; [exact V|congruence]. Qed.
Lemma route3_on x : In x [[2]; [0]; [1]] -> on_route route3 x.
Proof. intros I. exists 7, [[2]; [0]; [1]]. split; [exact route3_cells|exact I]. Qed.
Lemma route3_off x : on_route route3 x -> In x [[2]; [0]; [1]].
Proof. intros [id [cells [V I]]]. destruct (route3_hops_cells id cells V) as [[_ ->]|[_ ->]]; [exact I|destruct I]. Qed.

(** Two crops of which the demand is met; irrigated fractions 1/2 and 3/4 in the second and third cell of the route *)
Definition wet4 : list b64 := [fraction 1 2; fraction 3 4; fzero; fzero].
Definition sf_1 := B2SF fone.
Definition sf_half := B2SF (fraction 1 2).
Definition sf_quarter := B2SF (fraction 1 4).
Definition sf_none := B2SF fnan.
Lemma observe_wet : observe_alloc route3 [array4 ones4; array4 ones4] [array4 ones4; array4 ones4] [array4 zeros4; array4 zeros4] (array4 wet4) [(7, [fone; fone])] [(7, [fone; fone])] schedule =
  Some (true, [[[sf_half; sf_half]; [sf_1; sf_none]]; [[B2SF fzero; B2SF fzero]; [B2SF fzero; sf_none]]]).
Proof. vm_compute. reflexivity. Qed.
(** Less in the third cell: 1/2 and 1/4 *)
Definition moist4 : list b64 := [fraction 1 2; fraction 1 4; fzero; fzero].
Lemma observe_moist : observe_alloc route3 [array4 ones4; array4 ones4] [array4 ones4; array4 ones4] [array4 zeros4; array4 zeros4] (array4 moist4) [(7, [fone; fone])] [(7, [fone; fone])] schedule =
  Some (true, [[[sf_half; sf_quarter]; [sf_1; sf_none]]; [[B2SF fzero; B2SF fzero]; [B2SF fzero; sf_none]]]).
Proof. vm_compute. reflexivity. Qed.
(** No value in the second cell of the route *)
Definition hole4 : list b64 := [fnan; fone; fone; fone].
Lemma observe_hole : observe_alloc route3 [array4 ones4; array4 hole4] [array4 ones4; array4 ones4] [array4 zeros4; array4 zeros4] (array4 zeros4) [(7, [fone; fone])] [(7, [fone; fone])] schedule =
  Some (true, [[[sf_none; sf_none]; [sf_1; sf_none]]; [[sf_none; sf_none]; [B2SF fzero; sf_none]]]).
Proof. vm_compute. reflexivity. Qed.
(** The demand of the second crop is not met *)
Definition two_of (x y : Z) : zmap (list b64) := [(7, [b64_of_Z x; b64_of_Z y])].
Lemma observe_unmet : observe_alloc route3 [array4 ones4; array4 ones4] [array4 ones4; array4 ones4] [array4 zeros4; array4 zeros4] (array4 zeros4) (two_of 1 5) (two_of 1 0) schedule =
  Some (true, [[[sf_none; sf_none]; [sf_none; sf_none]]; [[sf_none; sf_none]; [sf_none; sf_none]]]).
Proof. vm_compute. reflexivity. Qed.
(** Neither is it here, but there is a surplus of the first crop. *)
Lemma observe_hidden : observe_alloc route3 [array4 ones4; array4 ones4] [array4 ones4; array4 ones4] [array4 zeros4; array4 zeros4] (array4 zeros4) (two_of 1 5) (two_of 2 0) schedule =
  Some (true, [[[sf_1; sf_1]; [sf_1; sf_none]]; [[B2SF fzero; B2SF fzero]; [B2SF fzero; sf_none]]]).
Proof. vm_compute. reflexivity. Qed.
