(** Chunks fit for at most four dimensions; counterexamples. *)
From Coq Require Import Reals Lra.
From Flocq Require Import Core BinarySingleNaN.
From Verif Require Import Common CommonProofs CoreSpec IndexProofs Float64 Float64Proofs ResampleProofs NumpyModel ChunkModel ChunkSpec ChunkProofs ChunkProofs2 ChunkProofs3.
Local Open Scope R_scope.

Lemma exponent_3 : / 4 <= B2R (b64_div (b64_of_Z 1) (b64_of_Z 3)) <= / 2.
Proof.
  destruct (b64_of_Z_correct 1) as [E1 F1]; [cbn; lia|]. destruct (b64_of_Z_correct 3) as [E2 F2]; [cbn; lia|].
  destruct (b64_div_correct (b64_of_Z 1) (b64_of_Z 3) 1) as [Ed _]; [rewrite E2; lra|cbn; lia|rewrite E1, E2, Rabs_pos_eq; lra|].
  rewrite Ed, E1, E2. assert (B : / 4 = bpow radix2 (-2)) by (cbn; lra). assert (B' : / 2 = bpow radix2 (-1)) by (cbn; lra).
  assert (R : forall e, (-1000 < e)%Z -> rd (bpow radix2 e) = bpow radix2 e).
  { intros e He. apply round_generic; [typeclasses eauto|]. apply generic_format_bpow. unfold FLT_exp. lia. }
  split; [rewrite B, <- (R (-2)%Z), <- B by lia|rewrite B', <- (R (-1)%Z), <- B' by lia]; apply rd_le; lra.
Qed.
Lemma exponent_4 : B2R (b64_div (b64_of_Z 1) (b64_of_Z 4)) = / 4.
Proof.
  destruct (b64_of_Z_correct 1) as [E1 F1]; [cbn; lia|]. destruct (b64_of_Z_correct 4) as [E2 F2]; [cbn; lia|].
  destruct (b64_div_correct (b64_of_Z 1) (b64_of_Z 4) 1) as [Ed _]; [rewrite E2; lra|cbn; lia|rewrite E1, E2, Rabs_pos_eq; lra|].
  rewrite Ed, E1, E2. replace (1 / 4) with (/ 4) by lra. apply round_generic; [typeclasses eauto|]. change (/ 4) with (bpow radix2 (-2)). apply generic_format_bpow. unfold FLT_exp. cbn. lia.
Qed.

(** The bound of the number of elements per dimension *)
Definition bound (rank : nat) : Z := match rank with 4%nat => 96 | 3%nat => 4096 | 2%nat => 4096 | _ => 4194304 end.
Lemma power_bounds pow x rank : accurate pow -> is_finite x = true -> 524288 <= B2R x <= 2097152 -> (1 <= rank <= 4)%nat ->
  let p := pow x (b64_div (b64_of_Z 1) (b64_of_Z (Z.of_nat rank))) in is_finite p = true /\ 16 <= B2R p <= IZR (bound rank).
Proof.
  intros A F X Hr p. set (y := b64_div (b64_of_Z 1) (b64_of_Z (Z.of_nat rank))) in p.
  assert (Y : (/ 4 <= B2R y <= 1 /\ Rpower (B2R x) (B2R y) <= IZR (bound rank) / 2)).
  { assert (C : (rank = 1 \/ rank = 2 \/ rank = 3 \/ rank = 4)%nat) by lia.
    assert (SQ : Rpower (B2R x) (/ 2) <= 2048).
    { rewrite Rpower_sqrt by lra. rewrite <- (sqrt_square 2048) by lra. apply sqrt_le_1_alt. lra. }
    destruct C as [-> | [-> | [-> | ->]]]; cbn [bound].
    - assert (E : B2R y = 1) by (unfold y; change (Z.of_nat 1) with 1%Z; rewrite one_over by lia; lra). rewrite E, Rpower_1 by lra. lra.
    - assert (E : B2R y = / 2) by (unfold y; change (Z.of_nat 2) with 2%Z; rewrite one_over by lia; lra). rewrite E. lra.
    - assert (E : / 4 <= B2R y <= / 2) by (exact exponent_3). split; [lra|]. apply Rle_trans with (Rpower (B2R x) (/ 2)); [apply Rle_Rpower; lra|lra].
    - assert (E : B2R y = / 4) by (exact exponent_4). rewrite E. split; [lra|]. apply Rle_trans with 40; [apply (root_4 _ 26 40); lra|lra]. }
  destruct Y as [Y1 Y2].
  assert (L : 26 <= Rpower (B2R x) (B2R y)).
  { apply Rle_trans with (Rpower (B2R x) (/ 4)); [apply (root_4 _ 26 100); lra|]. apply Rle_Rpower; lra. }
  destruct (A x y F ltac:(lra) ltac:(lra)) as [Fp Ap]. split; [exact Fp|]. fold p in Fp, Ap. apply Rabs_le_inv in Ap. set (r := Rpower _ _) in *.
  assert (B : bpow radix2 (-50) <= / 4) by (change (/ 4) with (bpow radix2 (-2)); apply bpow_le; lia). assert (r * bpow radix2 (-50) <= r * / 4) by (apply Rmult_le_compat_l; lra). lra.
Qed.

Lemma nth_error_combine_some {A B} : forall (l : list A) (l' : list B) k a b, nth_error l k = Some a -> nth_error l' k = Some b -> nth_error (combine l l') k = Some (a, b).
Proof.
  induction l as [|x l IH]; intros [|y l'] [|k] a b H1 H2; cbn in *; try discriminate; [congruence|auto].
Qed.
Lemma order_props order shape : in_order_of_extents order shape -> Forall (fun e => 0 < e)%Z shape ->
  length order = length shape /\ NoDup (map snd order) /\ Forall (fun t => 1 <= fst t /\ 0 <= snd t < Z.of_nat (length shape))%Z order /\
  (forall k e, nth_error shape k = Some e -> In (e, Z.of_nat k) order).
Proof.
  intros [HP _] HF. set (l := combine shape (zseq 0 (Z.of_nat (length shape)))) in *.
  assert (LZ : length (zseq 0 (Z.of_nat (length shape))) = length shape) by (rewrite zseq_length; lia).
  assert (E2 : map snd l = zseq 0 (Z.of_nat (length shape))) by (unfold l; apply map_snd_combine; lia).
  split; [rewrite (Permutation_length HP); unfold l; rewrite combine_length; lia|]. split.
  - eapply Permutation_NoDup; [apply Permutation_map, Permutation_sym, HP|]. rewrite E2. apply zseq_NoDup.
  - split.
    + apply Forall_forall. intros [e i] HI. apply (Permutation_in _ HP) in HI. pose proof (in_combine_l _ _ _ _ HI) as I1. pose proof (in_combine_r _ _ _ _ HI) as I2. apply in_zseq in I2. rewrite Forall_forall in HF. specialize (HF _ I1). cbn. lia.
    + intros k e E. apply (Permutation_in _ (Permutation_sym HP)). apply nth_error_In with k. unfold l. apply nth_error_combine_some; [exact E|].
      rewrite nth_error_zseq; [reflexivity|]. apply nth_error_Some in E || idtac. assert (k < length shape)%nat by (apply nth_error_Some; congruence). lia.
Qed.

Lemma Forall2_nth {A B} (P : A -> B -> Prop) : forall l l', length l = length l' -> (forall k b, nth_error l' k = Some b -> exists a, nth_error l k = Some a /\ P a b) -> Forall2 P l l'.
Proof.
  induction l as [|a l IH]; intros [|b l'] HL H; try discriminate HL; [constructor|]. constructor.
  - destruct (H O b eq_refl) as [a' [E Q]]. cbn in E. congruence.
  - apply IH; [now injection HL|]. intros k c E. apply (H (S k) c E).
Qed.

Lemma large_fits pow order shape size : accurate pow -> in_order_of_extents order shape -> (1 <= length shape <= 4)%nat -> (0 < size <= 16)%Z -> Forall (fun e => 0 < e)%Z shape ->
  (upper_limit < size * volume shape < 2 ^ 53)%Z ->
  exists part, chunk_shape pow order shape size = Ok (1%Z :: part) /\ Forall2 (fun c e => 1 <= c <= e)%Z part shape.
Proof.
  intros A HO HL Hs HF HE. unfold chunk_shape. rewrite size_of_shape_ok; [|lia|exact HF|lia]. cbv zeta.
  destruct (large_values (size * volume shape)%Z HE) as [-> [F N]]. set (x := b64_mul _ _) in *. change (IZR upper_limit) with 1048576 in N.
  assert (X : 524288 <= B2R x <= 2097152) by (destruct N as [N1 N2]; rewrite u_value in N1, N2; lra).
  destruct (power_bounds pow x (length shape) A F X HL) as [Fp Bp]. set (p := pow x _) in *.
  destruct (b64_of_Z_correct size) as [Es Fs]; [lia|]. assert (S0 : 1 <= IZR size <= 16) by (split; apply IZR_le; lia).
  set (N0 := bound (length shape)) in *. assert (HN0 : (1 <= N0 <= 4194304)%Z).
  { unfold N0. assert (C : (length shape = 1 \/ length shape = 2 \/ length shape = 3 \/ length shape = 4)%nat) by lia. destruct C as [-> | [-> | [-> | ->]]]; cbn; lia. }
  assert (Q : 1 <= B2R p / IZR size <= IZR N0).
  { split; apply Rmult_le_reg_r with (IZR size); try lra; replace (B2R p / IZR size * IZR size) with (B2R p) by (field; lra); [lra|].
    apply Rle_trans with (IZR N0 * 1); [lra|]. apply Rmult_le_compat_l; [|lra]. apply (IZR_le 0). lia. }
  destruct (b64_div_correct p (b64_of_Z size) N0) as [Ed Fd]; [rewrite Es; lra|lia|rewrite Es, Rabs_pos_eq by lra; lra|]. rewrite Es in Ed. set (c := b64_div p (b64_of_Z size)) in *.
  assert (C : 1 <= B2R c <= IZR N0).
  { rewrite Ed. split; [rewrite <- (rd_Z 1) by (cbn; lia)|rewrite <- (rd_Z N0) by lia]; apply rd_le; lra. }
  destruct (order_props order shape HO HF) as [L [ND [FA IN]]].
  destruct order as [|t l]; [cbn in L; lia|].
  destruct (loop_fits l t c N0 (map (fun _ => 0%Z) shape)) as [r [E [Lr [P _]]]].
  - rewrite Fd. exact Fp.
  - exact C.
  - lia.
  - cbn in L. assert (EL : length l = Nat.pred (length shape)) by (rewrite <- L; reflexivity). rewrite EL. unfold N0. assert (D : (length shape = 1 \/ length shape = 2 \/ length shape = 3 \/ length shape = 4)%nat) by lia.
    destruct D as [-> | [-> | [-> | ->]]]; apply Z.leb_le; vm_compute; reflexivity.
  - exact ND.
  - rewrite map_length. exact FA.
  - rewrite E. cbn [obind]. exists r. split; [reflexivity|]. rewrite map_length in Lr. apply Forall2_nth; [exact Lr|]. intros k e Ek. destruct (P e (Z.of_nat k) (IN k e Ek)) as [m [Em Hm]]. rewrite Nat2Z.id in Em. eauto.
Qed.
