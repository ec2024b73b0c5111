(** Proofs about the data of array partitions: move-assignment to an instance that shares its elements. *)
From Verif Require Import Common IndexModel PartDataModel PartDataSpec PartDataProofs PartDataProofs2.

Section Proofs.
Context {E : Type} (rank : nat).

Lemma exec_app (ops ops' : list (op E)) st : exec rank (ops ++ ops') st = obind (exec rank ops st) (exec rank ops').
Proof. revert st. induction ops as [|o ops IH]; intros st; cbn; [reflexivity|]. destruct (step rank o st); cbn; auto. Qed.

Lemma move_to_shared (ops : list (op E)) (v u x : Z) (shape shape' shape'' : list Z) (r r' i : Z) :
  all_allowed rank ops no_data_yet ->
  let w := expected_all rank ops no_data_yet in
  vw_vars w v = Some (shape, r) -> vw_vars w u = Some (shape', r) -> vw_vars w x = Some (shape'', r') ->
  v <> u -> v <> x -> r' <> r -> 0 <= i < nr_elements shape' ->
  exists st d, exec rank (ops ++ [MoveAssign v x]) start = Ok st /\ st_vars st u = Some d /\ d_shape d = shape' /\
    read_span (st_heap st) d i = UB /\ read_linear (st_heap st) d i = UB.
Proof.
  intros Hal w Pv Pu Px Nu Nx Nr Hi.
  destruct (exec_ok rank ops _ _ inv_start Hal) as (st & Ex & I). fold w in I.
  destruct (defined_get st w v I) as (a & b & dv & [Pv' Qv] & Kv); [unfold defined; congruence|].
  rewrite Pv in Pv'. injection Pv' as <- <-.
  destruct (defined_get st w u I) as (a & b & du & [Pu' Qu] & Ku); [unfold defined; congruence|].
  rewrite Pu in Pu'. injection Pu' as <- <-.
  destruct (defined_get st w x I) as (a & b & dx & [Px' Qx] & Kx); [unfold defined; congruence|].
  rewrite Px in Px'. injection Px' as <- <-.
  assert (S : d_ptr du = d_ptr dv) by (eapply (i_s1 _ _ I u v); split; eauto).
  assert (Ne : vw_cells w r <> []) by (intros Y; pose proof (ok_nr _ _ _ _ _ Ku) as Z; rewrite Y in Z; cbn in Z; lia).
  assert (T : d_ptr dx <> d_ptr dv).
  { intros Y. apply Nr. symmetry. eapply (i_s2 _ _ I v x); try (split; eassumption); [symmetry; exact Y|exact Ne]. }
  assert (T' : d_handle dx <> d_handle dv).
  { intros Y. apply T. symmetry. eapply (i_s3 _ _ I v x); try (split; eassumption); [symmetry; exact Y|exact Ne]. }
  set (h := clear (st_heap st) (d_ptr dv)).
  assert (Hz : h_arrays h (d_ptr dv) = Array 0 null) by (cbn; apply put_eq).
  assert (Hx : h_arrays h (d_ptr dx) = h_arrays (st_heap st) (d_ptr dx)) by (cbn; now apply put_ne).
  assert (Wx : with_span h (d_shape dx) (d_ptr dx) = dx).
  { unfold with_span. rewrite Hx. apply (with_span_same _ _ _ _ _ Kx). }
  assert (Ax : assert_invariants h dx = Ok tt).
  { unfold assert_invariants. rewrite Hx. apply (invariants_hold _ _ _ _ _ Kx). }
  exists (State h (put (put (st_vars st) v (Some dx)) x (Some (with_span h (zeros rank) (d_ptr dv))))), du.
  assert (Nux : u <> x) by congruence.
  rewrite exec_app, Ex. cbn [obind exec step]. unfold get. rewrite Qv, Qx. cbn [obind].
  replace (v =? x) with false by (symmetry; now apply Z.eqb_neq).
  unfold move_assign. fold h. rewrite Wx, Hz. cbn [ar_size]. unfold assertion at 1. cbn [Z.eqb obind].
  unfold assert_invariants at 1. cbn [with_span d_shape d_ptr d_span d_handle]. rewrite Hz. unfold zeros, assertion.
  rewrite nr_zeros. cbn [ar_size ar_block]. rewrite Z.eqb_refl. cbn [Z.eqb andb obind]. rewrite Ax. cbn [obind].
  split; [reflexivity|]. split; [cbn; rewrite !put_ne by congruence; exact Qu|]. split; [apply (ok_shape _ _ _ _ _ Ku)|].
  cbn [st_heap]. unfold read_span, read_linear. split.
  - rewrite (ok_handle _ _ _ _ _ Ku), S. unfold at_. cbn [h clear h_blocks]. now rewrite put_eq.
  - rewrite S, Hz. cbn [ar_size]. unfold assertion. replace (i <? 0) with false by lia. reflexivity.
Qed.

Lemma move_from_shared (ops : list (op E)) (v x : Z) (shape shape' : list Z) (r : Z) :
  all_allowed rank ops no_data_yet ->
  let w := expected_all rank ops no_data_yet in
  vw_vars w v = Some (shape, r) -> vw_vars w x = Some (shape', r) -> v <> x -> vw_cells w r <> [] ->
  exec rank (ops ++ [MoveAssign v x]) start = UB.
Proof.
  intros Hal w Pv Px Nx Ne.
  destruct (exec_ok rank ops _ _ inv_start Hal) as (st & Ex & I). fold w in I.
  destruct (defined_get st w v I) as (a & b & dv & [Pv' Qv] & Kv); [unfold defined; congruence|].
  rewrite Pv in Pv'. injection Pv' as <- <-.
  destruct (defined_get st w x I) as (a & b & dx & [Px' Qx] & Kx); [unfold defined; congruence|].
  rewrite Px in Px'. injection Px' as <- <-.
  assert (S : d_ptr dx = d_ptr dv) by (eapply (i_s1 _ _ I x v); split; eauto).
  set (h := clear (st_heap st) (d_ptr dv)).
  assert (Hz : h_arrays h (d_ptr dv) = Array 0 null) by (cbn; apply put_eq).
  rewrite exec_app, Ex. cbn [obind exec step]. unfold get. rewrite Qv, Qx. cbn [obind].
  replace (v =? x) with false by (symmetry; now apply Z.eqb_neq).
  unfold move_assign. fold h. rewrite Hz. cbn [ar_size]. unfold assertion at 1. cbn [Z.eqb obind].
  unfold assert_invariants at 1. cbn [with_span d_shape d_ptr d_span d_handle]. rewrite Hz. unfold zeros, assertion.
  rewrite nr_zeros. cbn [ar_size ar_block]. rewrite Z.eqb_refl. cbn [Z.eqb andb obind].
  unfold assert_invariants. cbn [with_span d_shape d_ptr d_span d_handle]. rewrite S, Hz. cbn [ar_size].
  replace (nr_elements (d_shape dx) =? 0) with false; [reflexivity|].
  symmetry. apply Z.eqb_neq. rewrite (ok_shape _ _ _ _ _ Kx), (ok_nr _ _ _ _ _ Kx).
  destruct (vw_cells w r); [congruence|]. cbn [length]. lia.
Qed.
End Proofs.
