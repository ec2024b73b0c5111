From Coq Require Import Lia.
From Verif Require Import Common CommonProofs ArrayModel SimulateModel SimulateSpec SimulateProofs SimulateTheorems RunnerModel RunnerSpec RunnerProofs.

Lemma pcr_run_app e1 : forall e2 s, pcr_run (e1 ++ e2) s = match pcr_run e1 s with Some s => pcr_run e2 s | None => None end.
Proof. induction e1 as [|e e1 IH]; intros e2 s; [reflexivity|]. cbn [app pcr_run]. destruct (pcr_step e s); auto. Qed.

Lemma pcr_run_cons e es s s' : pcr_step e s = Some s' -> pcr_run (e :: es) s = pcr_run es s'.
Proof. intros E. cbn [pcr_run]. now rewrite E. Qed.

Lemma is_in_false t l : ~ In t l -> is_in t l = false.
Proof. intros H. unfold is_in. destruct (existsb (Z.eqb t) l) eqn:E; [|reflexivity]. apply existsb_exists in E. destruct E as [x [Hx E]]. apply Z.eqb_eq in E. subst. contradiction. Qed.
Lemma is_in_snoc t l : is_in t (l ++ [t]) = true.
Proof. unfold is_in. rewrite existsb_app. cbn. rewrite Z.eqb_refl. now rewrite orb_true_r. Qed.

(** A time step is started, its state is ready at once, and nothing waits for its work. *)
Lemma pcr_one t d l rest log started fin work : 0 <= d -> ~ In t fin ->
  exists l' log', pcr_run [PcrMain; PcrSignal; PcrMain; PcrMain]
    (PcrState (SimState (StartTimeStep t :: WaitSemaphore t :: Call (SimulateProgressor t) :: rest) log (Some (d, l)) started fin (length started) false) work) =
  Some (PcrState (SimState rest log' (Some (d, l')) (started ++ [t]) (t :: fin) (length (started ++ [t])) false) (t :: work)).
Proof.
  intros Hd N. exists (Z.max t l), ((log ++ [SimulateModel t]) ++ [SimulateProgressor t]).
  rewrite (pcr_run_cons PcrMain _ _ (PcrState (SimState (WaitSemaphore t :: Call (SimulateProgressor t) :: rest) (log ++ [SimulateModel t]) (Some (d, l)) (started ++ [t]) (t :: fin) (length started) false) (t :: work))).
  2:{ unfold pcr_step, sim_step, step_main. cbn [pw_sim pw_work ss_todo ss_log ss_semaphore ss_started ss_finished ss_signalled ss_dangling]. rewrite is_in_snoc, (is_in_false t fin N). reflexivity. }
  rewrite (pcr_run_cons PcrSignal _ _ (PcrState (SimState (WaitSemaphore t :: Call (SimulateProgressor t) :: rest) (log ++ [SimulateModel t]) (Some (d, Z.max t l)) (started ++ [t]) (t :: fin) (Datatypes.S (length started)) false) (t :: work))).
  2:{ cbn [pcr_step pw_sim pw_work sim_step step_signal ss_todo ss_log ss_semaphore ss_started ss_finished ss_signalled ss_dangling]. unfold step_signal.
      cbn [ss_todo ss_log ss_semaphore ss_started ss_finished ss_signalled ss_dangling].
      rewrite nth_error_app2, Nat.sub_diag by lia. cbn [nth_error]. unfold is_in. cbn [existsb]. rewrite Z.eqb_refl. reflexivity. }
  rewrite (pcr_run_cons PcrMain _ _ (PcrState (SimState (Call (SimulateProgressor t) :: rest) (log ++ [SimulateModel t]) (Some (d, Z.max t l)) (started ++ [t]) (t :: fin) (Datatypes.S (length started)) false) (t :: work))).
  2:{ unfold pcr_step, sim_step, step_main. cbn [pw_sim pw_work ss_todo ss_log ss_semaphore ss_started ss_finished ss_signalled ss_dangling].
      destruct (Z.ltb_spec (Z.max t l) (t - d)); [lia|]. reflexivity. }
  rewrite app_length. cbn [length]. rewrite Nat.add_1_r. reflexivity.
Qed.

Lemma pcr_many n d ts : 0 <= d -> (forall t, In t ts -> t <> n) -> NoDup ts -> forall l rest log started fin work, (forall t, In t ts -> ~ In t fin) ->
  exists es l' log', pcr_run es (PcrState (SimState (flat_map (time_step_commands n) ts ++ rest) log (Some (d, l)) started fin (length started) false) work) =
  Some (PcrState (SimState rest log' (Some (d, l')) (started ++ ts) (rev ts ++ fin) (length (started ++ ts)) false) (rev ts ++ work)).
Proof.
  intros Hd. induction ts as [|t ts IH]; intros Nn ND l rest log started fin work NF.
  - exists [], l, log. cbn. rewrite app_nil_r. reflexivity.
  - cbn [flat_map]. unfold time_step_commands at 1. destruct (Z.eqb_spec t n); [exfalso; apply (Nn t); [now left|assumption]|].
    rewrite app_nil_r. cbn [app]. inversion ND as [|? ? Nt ND']; subst.
    destruct (pcr_one t d l (flat_map (time_step_commands n) ts ++ rest) log started fin work Hd (NF t (or_introl eq_refl))) as [l1 [log1 E1]].
    destruct (IH (fun u Hu => Nn u (or_intror Hu)) ND' l1 rest log1 (started ++ [t]) (t :: fin) (t :: work)) as [es [l2 [log2 E2]]].
    { intros u Hu [<-|Hf]; [contradiction|exact (NF u (or_intror Hu) Hf)]. }
    exists ([PcrMain; PcrSignal; PcrMain; PcrMain] ++ es), l2, log2. rewrite pcr_run_app, E1, E2. cbn [rev]. rewrite <- !app_assoc. reflexivity.
Qed.

Lemma zseq_snoc f n : 0 < n -> zseq f n = zseq f (n - 1) ++ [f + n - 1].
Proof.
  intros H. unfold zseq. replace (Z.to_nat n) with (Datatypes.S (Z.to_nat (n - 1))) by lia. rewrite seq_S, map_app. cbn [map]. do 2 f_equal. lia.
Qed.
Lemma zseq_nodup f n : NoDup (zseq f n).
Proof. unfold zseq. apply FinFun.Injective_map_NoDup; [intros i j; lia|apply seq_NoDup]. Qed.

Theorem all_at_once n r prog : 1 <= n -> 0 <= r -> run_dynamic 1 n r = Ok prog ->
  exists es st, pcr_run es (PcrState (sim_init prog) []) = Some st /\ Z.of_nat (length (pw_work st)) = n /\ NoDup (pw_work st).
Proof.
  intros Hn Hr E. unfold run_dynamic in E. rewrite Z.eqb_refl in E. destruct (Z.leb_spec 1 n); [|lia]. cbn [negb andb orb Z.leb] in E.
  destruct (Z.ltb_spec r 0); [lia|]. change (1 <=? 1) with true in E. cbn [negb andb orb] in E. unfold run_deterministic in E. destruct (Z.ltb_spec 0 n); [|lia]. unfold simulate in E.
  destruct (Z.ltb_spec r 0); [lia|]. destruct (Z.ltb_spec n 1); [lia|]. cbn [orb obind] in E. injection E as <-.
  replace (n - 1 + 1) with n by lia. set (d := (if 0 <? r then r else n) - 1).
  assert (Hd : 0 <= d) by (unfold d; destruct (Z.ltb_spec 0 r); lia).
  rewrite (zseq_snoc 1 n) by lia. replace (1 + n - 1) with n by lia. rewrite flat_map_app. cbn [app flat_map]. rewrite app_nil_r.
  set (tail := [Call FinalizeModel; Call FinalizeProgressor]).
  destruct (pcr_many n d (zseq 1 (n - 1)) Hd) with (l := 1) (rest := time_step_commands n n ++ [DropSemaphore] ++ tail) (log := [InitializeProgressor; InitializeModel])
    (started := @nil Z) (fin := @nil Z) (work := @nil Z) as [es [l' [log' R]]].
  - intros t Ht. apply in_zseq in Ht. lia.
  - apply zseq_nodup.
  - intros t _ [].
  - exists ([PcrMain; PcrMain; PcrMain] ++ es ++ [PcrMain]). eexists. rewrite pcr_run_app.
    assert (I : pcr_run [PcrMain; PcrMain; PcrMain] (PcrState (sim_init (Call InitializeProgressor :: Call InitializeModel :: MakeSemaphore d 1 ::
        ((flat_map (time_step_commands n) (zseq 1 (n - 1)) ++ time_step_commands n n) ++ [DropSemaphore]) ++ tail)) []) =
      Some (PcrState (SimState (flat_map (time_step_commands n) (zseq 1 (n - 1)) ++ time_step_commands n n ++ [DropSemaphore] ++ tail) [InitializeProgressor; InitializeModel] (Some (d, 1)) [] [] 0 false) [])).
    { rewrite <- !app_assoc. reflexivity. }
    rewrite I. cbv beta iota. cbn [length] in R. rewrite pcr_run_app, R. clear I R. cbv beta iota.
    assert (NI : ~ In n (rev (zseq 1 (n - 1)) ++ [])).
    { rewrite app_nil_r. rewrite <- in_rev. intros Hi. apply in_zseq in Hi. lia. }
    unfold time_step_commands. unfold pcr_run, pcr_step, sim_step, step_main. cbn [app pw_sim pw_work ss_todo ss_log ss_semaphore ss_started ss_finished ss_signalled ss_dangling].
    rewrite is_in_snoc, (is_in_false _ _ NI). cbn [negb andb]. split; [reflexivity|]. cbn [pw_work]. rewrite app_nil_r. split.
    + cbn [length]. rewrite rev_length. unfold zseq. rewrite map_length, seq_length. lia.
    + constructor; [rewrite app_nil_r in NI; exact NI|]. apply NoDup_rev, zseq_nodup.
Qed.
