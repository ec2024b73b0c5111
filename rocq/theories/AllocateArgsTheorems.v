(** Property theorems: the arguments of integrate_and_allocate (C77). *)
From Coq Require Import Lia.
From Flocq Require Import Core BinarySingleNaN.
From Verif Require Import Common CommonProofs CoreSpec IndexModel ArrayModel ZonalModel ZonalProofs OrderModel Float64 AllocateModel AllocateProofs.
Open Scope Z_scope.

(** C77: the walks start exactly if for each crop there is an array with suitabilities and one with yields, and each zone with a demand has
    a production; otherwise there is no result, but an error.  Productions have as many numbers as the demands of the same zone. *)
Theorem C77_arguments :
  forall route (sdp yield current : list (parray b64)) demand production, NoDup (map fst demand) ->
  (forall zone dz pz, zfind demand zone = Some dz -> zfind production zone = Some pz -> length pz = length dz) ->
  let accepted := length sdp = length current /\ length yield = length current /\ forall zone dz, zfind demand zone = Some dz -> exists pz, zfind production zone = Some pz in
  (accepted -> exists st, integrate_and_allocate route sdp yield current demand production = Ok st) /\
  (~ accepted -> integrate_and_allocate route sdp yield current demand production = Throw).
Proof.
  intros route sdp yield current demand production ND HL accepted. unfold integrate_and_allocate, nr_crops, data_of.
  set (f := fun e : Z * list b64 => let '(zone, d) := e in match zfind production zone with None => Throw | Some p => if Nat.eqb (length p) (length d) then Ok (zone, map (fun _ : b64 => vector_less_equal d p) d) else UB end).
  assert (F : forall zone d, In (zone, d) demand -> match zfind production zone with None => f (zone, d) = Throw | Some p => exists r, f (zone, d) = Ok r end).
  { intros zone d Hin. apply zfind_in in Hin; [|exact ND]. unfold f. destruct (zfind production zone) as [p|] eqn:E; [|reflexivity].
    rewrite (HL _ _ _ Hin E), Nat.eqb_refl. eauto. }
  assert (HM : forall z d, In (z, d) demand -> zfind demand z = Some d) by (intros; now apply zfind_in).
  assert (SOK : forall l, (forall z d, In (z, d) l -> exists r, f (z, d) = Ok r) -> exists r, sequence (map f l) = Ok r).
  { induction l as [|[z d] l IH]; intros H; [exists []; reflexivity|]. destruct (H z d (or_introl eq_refl)) as [r E]. destruct IH as [rs E']; [intros; apply H; now right|].
    exists (r :: rs). cbn [map sequence]. rewrite E, E'. reflexivity. }
  assert (STH : forall l, (forall z d, In (z, d) l -> (exists r, f (z, d) = Ok r) \/ f (z, d) = Throw) -> (exists z d, In (z, d) l /\ f (z, d) = Throw) -> sequence (map f l) = Throw).
  { induction l as [|[z d] l IH]; intros H [z' [d' [Hin E]]]; [destruct Hin|]. cbn [map sequence]. destruct (H z d (or_introl eq_refl)) as [[r E']|E']; rewrite E'; [|reflexivity].
    destruct Hin as [[= -> ->]|Hin]; [congruence|]. cbn [obind]. rewrite IH; [reflexivity|intros; apply H; now right|eauto]. }
  split.
  - intros [L1 [L2 HA]]. rewrite L1, L2, Nat.eqb_refl. cbn [andb]. destruct (SOK demand) as [r ->]; [|cbn [obind]; eauto].
    intros z d Hin. pose proof (F z d Hin) as HF. destruct (HA z d (HM z d Hin)) as [pz E]. now rewrite E in HF.
  - intros NA. destruct (Nat.eqb_spec (length sdp) (length current)) as [L1|]; [|reflexivity]. destruct (Nat.eqb_spec (length yield) (length current)) as [L2|]; [|reflexivity]. cbn [andb].
    rewrite STH; [reflexivity| |].
    + intros z d Hin. pose proof (F z d Hin) as HF. destruct (zfind production z); auto.
    + assert (D : (exists z d, In (z, d) demand /\ zfind production z = None) \/ forall z d, In (z, d) demand -> zfind production z <> None).
      { clear. induction demand as [|[z d] l IH]; [right; intros z d []|]. destruct (zfind production z) as [p|] eqn:E.
        - destruct IH as [[z' [d' [H1 H2]]]|H]; [left; exists z', d'; split; [now right|exact H2]|]. right. intros z' d' [[= <- <-]|Hin]; [congruence|eauto].
        - left. exists z, d. split; [now left|exact E]. }
      destruct D as [[z [d [Hin E]]]|D].
      * exists z, d. split; [exact Hin|]. pose proof (F z d Hin) as HF. now rewrite E in HF.
      * exfalso. apply NA. split; [exact L1|]. split; [exact L2|]. intros zone dz Hd. apply zfind_in in Hd; [|exact ND]. specialize (D _ _ Hd). destruct (zfind production zone); [eauto|congruence].
Qed.
Print Assumptions C77_arguments.
Definition args_route : serial_route := SerialRoute [1] [1] [] [].
Definition args_array : parray b64 := PArray [1] [1] [].
Example C77_arguments_ex :
  NoDup (map fst [(7, [fone])]) /\
  integrate_and_allocate args_route [args_array] [args_array] [args_array] [(7, [fone])] [(7, [fzero])] = Ok (AllocState [] []) /\
  integrate_and_allocate args_route [args_array] [args_array] [args_array] [(7, [fone])] [(8, [fzero])] = Throw /\
  integrate_and_allocate args_route [args_array] [] [args_array] [(7, [fone])] [(7, [fzero])] = Throw.
Proof. split; [repeat constructor; intros []|]. vm_compute. auto. Qed.
