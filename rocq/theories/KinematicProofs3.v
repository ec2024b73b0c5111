(** Balance, examples and the case that fails *)
From Coq Require Import Reals Lra Permutation.
From Verif Require Import Common CommonProofs CoreSpec DecompSpec ArraySpec DecompModel ArrayModel ArrayProofs ArrayRep RasterCheck FlowSpec AccuSpec FlowModel RouterModel RouterSpec FlowCheck
  FlowProofs4 RouterProofs RouterProofs2 AccuProofs AccuProofs3 KinematicModel KinematicSpec KinematicSolver KinematicProofs KinematicProofs2.
Local Open Scope R_scope.

Lemma equation_ok m up old lat alpha beta dt dx : 0 < m -> 0 <= up -> 0 <= old -> 0 <= lat -> 0 < alpha -> 0 < beta -> 0 < dt -> 0 < dx -> 0 < up + old + lat ->
  exists w, make_wave up old lat alpha beta dt dx = Ok w /\ (exists g, guess m w = Ok g /\ 0 < g) /\
    (exists F F', forall q, 0 < q -> fq w q = Ok (F q) /\ dfq w q = Ok (F' q) /\ derivable_pt_lim F q (F' q) /\ 0 < F' q) /\
    exists q, 0 < q /\ fq w q = Ok 0 /\ wave_equation up old lat alpha beta dt dx q /\ Rmin old (up + dx * lat) <= q <= Rmax old (up + dx * lat) /\
      forall q', 0 <= q' -> wave_equation up old lat alpha beta dt dx q' -> q' = q.
Proof.
  intros Hm Hup Hold Hlat Ha Hb Ht Hx P. exists (the_wave up old lat alpha beta dt dx). split; [now apply make_wave_ok|]. split; [now apply guess_ok|]. split.
  - exists (Fq (dt / dx) alpha beta (known up old lat alpha beta dt dx)), (Fd (dt / dx) alpha beta). intros q Hq. split; [now apply fq_ok|]. split; [now apply dfq_ok|]. split; [now apply F_deriv|]. apply Fd_pos; try assumption. now apply c_pos.
  - destruct (solution up old lat alpha beta dt dx Hup Hlat Ha Hb Ht Hx P) as [q [Hq [Ef We]]]. exists q. repeat (split; [assumption|]). split.
    + apply (equation_bounds up old lat alpha beta dt dx Hold Hlat Ha Hb Ht Hx q); [lra|exact We].
    + intros q' Hq' We'. apply (equation_unique up old lat alpha beta dt dx Ha Hb Ht Hx q' q Hq'); [lra|assumption|assumption].
Qed.

Section Network.
Context (a0 a1 : Z) (nd : Z -> bool) (f : cell -> Z) (cur inf alp bet dur len g : cell -> option R).
Context (V : valid_network a0 a1 nd f) (AC : acyclic a0 a1 nd f).
Context (U : forall x, in_network a0 a1 nd f x -> cell_usable cur inf alp bet dur len x).

Lemma all_usable eps : kinematic_spec a0 a1 nd f cur inf alp bet dur len eps g -> forall x, in_network a0 a1 nd f x -> g x <> None.
Proof.
  intros [_ S]. apply (upstream_ind a0 a1 nd f AC V). intros x Hx IH. destruct (S x Hx) as [S1 _]. destruct S1 as [q [e [E _]]]; [|rewrite E; discriminate]. split; [now apply U|exact IH].
Qed.
Lemma balance_ok t C O : kinematic_spec a0 a1 nd f cur inf alp bet dur len 0 g -> (forall x, in_network a0 a1 nd f x -> dur x = Some t) ->
  lists (in_network a0 a1 nd f) C -> lists (outlet a0 a1 nd f) O ->
  rsum (fun x => volume alp bet len x (rvalue (g x))) C + t * rsum (fun x => rvalue (g x)) O = rsum (fun x => volume alp bet len x (rvalue (cur x))) C + rsum (added inf dur len) C.
Proof.
  intros S T HC HO.
  assert (N := all_usable 0 S).
  assert (L1 : forall h L, rsum (fun x => t * h x) L = t * rsum h L) by (intros h L; induction L as [|x L IH]; [cbn; lra|rewrite !rsum_cons, IH; lra]).
  assert (L2 : forall h h' L, rsum (fun x => h x - h' x) L = rsum h L - rsum h' L) by (intros h h' L; induction L as [|x L IH]; [cbn; lra|rewrite !rsum_cons, IH; lra]).
  pose proof (rbalance a0 a1 nd f V C HC O HO (fun x => t * rvalue (g x)) (fun x => volume alp bet len x (rvalue (g x)) - volume alp bet len x (rvalue (cur x))) (added inf dur len)) as B.
  rewrite L1, L2 in B. rewrite <- B; [lra|]. clear B. intros x Hx. rewrite L1. destruct S as [_ S]. destruct (S x Hx) as [S1 _]. destruct S1 as [q [e [E [Hq [He [W WE]]]]]].
  - split; [now apply U|]. intros y D. apply N. destruct D as [D1 [D2 _]]. now split.
  - assert (QE : q = e). { unfold within in W. rewrite Rmult_0_l in W. assert (q - e = 0); [|lra]. destruct (Req_dec (q - e) 0) as [Z|Z]; [exact Z|]. apply Rabs_pos_lt in Z. lra. }
    subst e. rewrite E. cbn [rvalue]. unfold wave_equation in WE. destruct (U x Hx) as [old [lat [al [be [t' [l [E1 [E2 [E3 [E4 [E5 [E6 [Ho [Hl Hx']]]]]]]]]]]]]].
    pose proof (T x Hx) as Tx. rewrite E5 in Tx. injection Tx as ->. unfold volume, added. rewrite E1, E2, E3, E4, E5, E6 in *. cbn [rvalue] in *.
    set (up := rsum _ _) in *. replace (t * up) with (l * (t / l * up)) by (field; lra). replace (t * q) with (l * (t / l * q)) by (field; lra).
    transitivity (l * (t / l * q + (al * power q be - al * power old be))); [ring|]. rewrite WE. ring.
Qed.
End Network.

(** A root finder *)
Definition exact_solve (w : wave) (g : R) : R :=
  match Rlt_dec 0 (w_duration_over_length w), Rlt_dec 0 (w_alpha w), Rlt_dec 0 (w_beta w), Rlt_dec 0 (w_known w) with
  | left Hc, left Ha, left Hb, left HK => proj1_sig (root_exists (w_duration_over_length w) (w_alpha w) (w_beta w) (w_known w) Hc Ha Hb HK)
  | _, _, _, _ => 0
  end.
Lemma exact_solves : solves 0 exact_solve.
Proof.
  intros up old lat alpha beta dt dx w g root MW Hg Hr E. unfold make_wave in MW.
  destruct (r_le 0 up) eqn:B1; [|discriminate MW]. destruct (r_le 0 old) eqn:B2; [|discriminate MW]. destruct (r_lt 0 (up + old + lat)) eqn:B3; [|discriminate MW].
  destruct (r_lt 0 alpha) eqn:B4; [|discriminate MW]. destruct (r_lt 0 beta) eqn:B5; [|discriminate MW]. destruct (r_lt 0 dt) eqn:B6; [|discriminate MW]. destruct (r_lt 0 dx) eqn:B7; [|discriminate MW].
  cbn [r_assert obind] in MW. destruct (c_pow old beta) as [pw| |]; try discriminate MW. cbn [obind] in MW. injection MW as <-.
  apply r_le_iff in B1, B2. apply r_lt_iff in B3, B4, B5, B6, B7. pose proof (c_pos dt dx B6 B7) as C.
  unfold fq in E. rewrite r_lt_true in E by exact Hr. cbn [r_assert obind w_beta w_alpha w_known w_duration_over_length] in E. rewrite c_pow_pos in E by exact Hr. cbn [obind] in E.
  set (K := dt / dx * up + alpha * pw + dt * lat) in *. assert (EK : dt / dx * root + alpha * Rpower root beta - K = 0) by (now injection E).
  assert (KP : 0 < K). { assert (0 < dt / dx * root) by (now apply Rmult_lt_0_compat). assert (0 < alpha * Rpower root beta) by (apply Rmult_lt_0_compat; [lra|apply Rpower_pos]). lra. }
  unfold exact_solve. cbn [w_beta w_alpha w_known w_duration_over_length]. destruct (Rlt_dec 0 (dt / dx)) as [Hc|]; [|contradiction]. destruct (Rlt_dec 0 alpha) as [Ha|]; [|contradiction].
  destruct (Rlt_dec 0 beta) as [Hb|]; [|contradiction]. destruct (Rlt_dec 0 K) as [HK|]; [|contradiction]. destruct (root_exists _ _ _ _ _ _ _ _) as [q [Hq Eq]]. cbn [proj1_sig].
  assert (q = root) as ->.
  { apply (lhs_inj (dt / dx) alpha beta Hc Ha Hb q root); [lra|lra|]. rewrite F_lhs in Eq by exact Hq. assert (ER : Fq (dt / dx) alpha beta K root = 0) by exact EK. rewrite F_lhs in ER by exact Hr. lra. }
  unfold within. replace (root - root) with 0 by lra. rewrite Rabs_R0. lra.
Qed.

(** Parameters the code does not check: an assertion fails *)
Definition pits (x : list Z) : Z := 5.
Lemma fails_at_once {A X M} (ac : accumulator A X M) a : ac_enter_cell ac a (ac_initial ac) = UB ->
  exists st0, router_start ac ex_no_data (raster_array [2; 2] [2; 2] pits)%Z (raster_array [2; 2] [2; 2] (fun _ => a))%Z = Ok st0 /\
    exists l, step ac ex_no_data 1 1 l st0 = Some UB.
Proof.
  destruct ac as [i0 mk ec lc ei of]. cbn [ac_enter_cell ac_initial]. intros H. destruct (router_start _ ex_no_data (raster_array [2; 2] [2; 2] pits)%Z (raster_array [2; 2] [2; 2] (fun _ => a))%Z) as [st0| |] eqn:E.
  2,3: exfalso; vm_compute in E; discriminate E.
  exists st0. split; [reflexivity|]. vm_compute in E. injection E as <-. exists (Intra 0 0)%Z. vm_compute. rewrite H. reflexivity.
Qed.

(** A duration of zero, or a positive amount of water and alpha zero *)
Definition zero_alpha : cell_args := CellArgs (Some 1) (Some 0) (Some 0) (Some 1) (Some 1) (Some 1).
Lemma zero_alpha_fails m solve : kw_enter_cell m solve value_domain zero_alpha (Some 0) = UB.
Proof.
  unfold kw_enter_cell, zero_alpha. cbn [ka_current ka_inflow ka_alpha ka_beta ka_duration ka_length]. unfold value_domain. rewrite !r_le_true by lra. rewrite r_lt_true by lra. cbn [andb negb r_assert obind].
  unfold iterate_to_new_discharge. rewrite !r_le_true by lra. rewrite !(r_lt_true 0 1) by lra. cbn [r_assert obind]. rewrite (r_lt_true 0 (0 + 1)) by lra. cbn [orb].
  unfold make_wave. rewrite !r_le_true by lra. rewrite (r_lt_true 0 (0 + 1 + 0)) by lra. rewrite (r_lt_false 0 0) by lra. reflexivity.
Qed.
Lemma negative_inflow_fails m solve : kw_enter_cell m solve any_domain (CellArgs (Some 1) (Some (-1)) (Some 1) (Some 1) (Some 1) (Some 1)) (Some 0) = UB.
Proof. unfold kw_enter_cell. cbn [ka_current ka_inflow ka_alpha ka_beta ka_duration ka_length any_domain negb]. rewrite (r_le_true 0 0) by lra. rewrite (r_le_false 0 (-1)) by lra. reflexivity. Qed.
Lemma pits_network : valid_network 2 2 ex_no_data (by_cell pits) /\ acyclic 2 2 ex_no_data (by_cell pits).
Proof. apply (network_check_ok 2 2 ex_no_data (by_cell pits) (fun _ => 0%Z)). reflexivity. Qed.

Definition ex_args (x : list Z) : cell_args := CellArgs (Some (IZR (nth 1 x 0%Z))) (Some 1) (Some 2) (Some (3 / 5)) (Some 15) (Some 10).
Lemma ex_args_positive x : args_positive (ex_args x).
Proof. repeat split; intros v E; injection E as <-; lra. Qed.
Lemma ex_args_usable x : inside 4 6 x -> args_usable (by_cell ex_args x).
Proof. intros [_ H]. exists (IZR (snd x)), 1, 2, (3 / 5), 15, 10. repeat (split; [reflexivity|]). split; [apply IZR_le; lia|]. lra. Qed.
