From Coq Require Import Lia.
From Verif Require Import Common CommonProofs ArrayModel SimulateModel SimulateSpec SimulateProofs SimulateTheorems RunnerModel RunnerSpec.

Section Perform.
Context {S : Type} (user : user_method -> attributes -> S -> outcome S).

Lemma perform_app kind c1 : forall c2 m s, perform user kind (c1 ++ c2) m s = obind (perform user kind c1 m s) (fun '(m, s) => perform user kind c2 m s).
Proof.
  induction c1 as [|c c1 IH]; intros c2 m s; [reflexivity|]. cbn [app perform]. destruct (dispatch user kind c m s) as [[m' s']| |]; cbn [obind]; auto.
Qed.
Lemma effect_app c1 : forall c2 s, effect user (c1 ++ c2) s = obind (effect user c1 s) (effect user c2).
Proof.
  induction c1 as [|c c1 IH]; intros c2 s; [reflexivity|]. cbn [app effect]. destruct (user _ _ s) as [s'| |]; cbn [obind]; auto.
Qed.

Definition steps_of (l : list Z) : list call := flat_map (fun t => [SimulateModel t; SimulateProgressor t]) l.
Lemma perform_steps kind l : kind <> StaticKind -> forall m s,
  perform user kind (steps_of l) m s =
  obind (effect user (map (fun t => UserCall Dynamic t (current_sample m)) l) s) (fun s => Ok (Attributes (last l (current_time_step m)) (current_sample m), s)).
Proof.
  intros K. induction l as [|t l IH]; intros m s; [destruct m; reflexivity|].
  change (steps_of (t :: l)) with ([SimulateModel t; SimulateProgressor t] ++ steps_of l). rewrite perform_app.
  assert (E : perform user kind [SimulateModel t; SimulateProgressor t] m s =
    obind (user Dynamic (Attributes t (current_sample m)) s) (fun s => Ok (Attributes t (current_sample m), s))).
  { destruct kind; [congruence|..]; cbn [perform dispatch]; destruct (user Dynamic _ s); reflexivity. }
  rewrite E. cbn [map effect uc_method uc_time_step uc_sample]. destruct (user Dynamic _ s) as [s'| |]; cbn [obind]; [|reflexivity..].
  rewrite IH. cbn [current_sample current_time_step]. do 2 f_equal. destruct l; [reflexivity|]. change (last (t :: z :: l) (current_time_step m)) with (last (z :: l) (current_time_step m)).
  clear. revert z. induction l as [|y l IH]; intros z; [reflexivity|]. change (last (z :: y :: l) t) with (last (y :: l) t).
  change (last (z :: y :: l) (current_time_step m)) with (last (y :: l) (current_time_step m)). apply IH.
Qed.

Lemma last_zseq f n d : 0 < n -> last (zseq f n) d = f + n - 1.
Proof.
  intros H. unfold zseq. destruct (Z.to_nat n) as [|k] eqn:E; [lia|]. rewrite seq_S, map_app. cbn [map]. rewrite last_last. lia.
Qed.
Lemma perform_deterministic kind n m s : kind <> StaticKind -> 0 < n ->
  perform user kind (expected_deterministic n) m s =
  obind (effect user (simulation (current_time_step m) (current_sample m) n) s) (fun s => Ok (Attributes n (current_sample m), s)).
Proof.
  intros K H. unfold expected_deterministic. rewrite perform_app.
  assert (E : perform user kind [InitializeProgressor; InitializeModel] m s = obind (user Initial m s) (fun s => Ok (m, s))).
  { destruct kind; cbn [perform dispatch obind]; destruct (user Initial m s); reflexivity. }
  rewrite E. unfold simulation. cbn [effect uc_method uc_time_step uc_sample]. destruct m as [t0 k0]. cbn [current_time_step current_sample] in *.
  destruct (user Initial _ s) as [s'| |]; cbn [obind]; [|reflexivity..].
  change (expected_steps n) with (steps_of (zseq 1 n)). rewrite perform_app, perform_steps by assumption. cbn [current_sample current_time_step].
  destruct (effect user _ s') as [s''| |]; cbn [obind]; [|reflexivity..]. rewrite last_zseq by assumption.
  replace (1 + n - 1) with n by lia. destruct kind; reflexivity.
Qed.
Lemma perform_static m s : perform user StaticKind (expected_deterministic 0) m s = obind (user Initial m s) (fun s => Ok (m, s)).
Proof. cbn. destruct (user Initial m s); reflexivity. Qed.

Definition stochastic_of (samples : list Z) (n : Z) : list call :=
  flat_map (fun s => [PreprocessProgressor s; PreprocessModel s] ++ expected_deterministic n ++ [PostprocessModel; PostprocessProgressor]) samples.
Lemma perform_sample n k m s : 0 < n ->
  perform user StochasticKind ([PreprocessProgressor k; PreprocessModel k] ++ expected_deterministic n ++ [PostprocessModel; PostprocessProgressor]) m s =
  obind (effect user (sample_calls (current_time_step m) k n PreLoop PreLoop) s) (fun s => Ok (Attributes n k, s)).
Proof.
  intros H. rewrite perform_app.
  assert (E : perform user StochasticKind [PreprocessProgressor k; PreprocessModel k] m s =
    obind (user PreLoop (Attributes (current_time_step m) k) s) (fun s => Ok (Attributes (current_time_step m) k, s))).
  { cbn [perform dispatch obind]. destruct (user PreLoop _ s); reflexivity. }
  rewrite E. unfold sample_calls. cbn [effect uc_method uc_time_step uc_sample]. destruct (user PreLoop _ s) as [s'| |]; cbn [obind]; [|reflexivity..].
  rewrite perform_app, perform_deterministic, effect_app by (congruence || assumption). cbn [current_time_step current_sample].
  destruct (effect user _ s') as [s''| |]; cbn [obind]; [|reflexivity..]. cbn [perform dispatch effect uc_method uc_time_step uc_sample].
  destruct (user PreLoop _ s''); reflexivity.
Qed.
Lemma perform_later n l : 0 < n -> forall m s, current_time_step m = n ->
  exists m', perform user StochasticKind (stochastic_of l n) m s = obind (effect user (flat_map (fun k => sample_calls n k n PreLoop PreLoop) l) s) (fun s => Ok (m', s)).
Proof.
  intros H. induction l as [|k l IH]; intros m s T; [exists m; reflexivity|].
  destruct (IH (Attributes n k) s eq_refl) as [m1 _].
  assert (Q : exists m', forall s, perform user StochasticKind (stochastic_of l n) (Attributes n k) s = obind (effect user (flat_map (fun k => sample_calls n k n PreLoop PreLoop) l) s) (fun s => Ok (m', s))).
  { clear - H. revert k. induction l as [|j l IH]; intros k; [exists (Attributes n k); reflexivity|]. destruct (IH j) as [m' E]. exists m'. intros s.
    change (stochastic_of (j :: l) n) with (([PreprocessProgressor j; PreprocessModel j] ++ expected_deterministic n ++ [PostprocessModel; PostprocessProgressor]) ++ stochastic_of l n).
    rewrite perform_app, perform_sample by assumption. cbn [flat_map current_time_step]. rewrite effect_app.
    destruct (effect user (sample_calls n j n PreLoop PreLoop) s) as [s'| |]; cbn [obind]; auto. }
  destruct Q as [m' E]. exists m'.
  change (stochastic_of (k :: l) n) with (([PreprocessProgressor k; PreprocessModel k] ++ expected_deterministic n ++ [PostprocessModel; PostprocessProgressor]) ++ stochastic_of l n).
  rewrite perform_app, perform_sample by assumption. cbn [flat_map]. rewrite effect_app, T.
  destruct (effect user (sample_calls n k n PreLoop PreLoop) s) as [s'| |]; cbn [obind]; auto.
Qed.

Lemma zseq_later f n : 1 < n -> zseq f n = f :: zseq (f + 1) (n - 1).
Proof.
  intros H. unfold zseq. replace (Z.to_nat n) with (Datatypes.S (Z.to_nat (n - 1))) by lia. cbn [seq map]. f_equal; [lia|].
  rewrite <- seq_shift, map_map. apply map_ext. intros. lia.
Qed.
Lemma in_zseq f n x : In x (zseq f n) -> f <= x < f + n.
Proof. unfold zseq. intros H. apply in_map_iff in H. destruct H as [i [<- H]]. apply in_seq in H. lia. Qed.

Lemma perform_stochastic samples n s : 0 < n ->
  outcome_of (perform user StochasticKind (expected_stochastic samples n) (prepared_for_samples new_model) s) =
  effect user (flat_map (fun k => sample_calls (if k =? 1 then 0 else n) k n PreLoop PreLoop) (zseq 1 samples)) s.
Proof.
  intros H. change (expected_stochastic samples n) with (stochastic_of (zseq 1 samples) n).
  assert (C : samples <= 0 \/ 1 <= samples) by lia. destruct C as [C|C].
  { unfold zseq. replace (Z.to_nat samples) with O by lia. reflexivity. }
  assert (Z1 : zseq 1 samples = 1 :: (if 1 <? samples then zseq 2 (samples - 1) else [])).
  { destruct (Z.ltb_spec 1 samples); [apply (zseq_later 1); assumption|]. replace samples with 1 by lia. reflexivity. }
  rewrite Z1. set (l := if 1 <? samples then _ else _).
  assert (L : forall x, In x l -> x <> 1).
  { intros x Hx. unfold l in Hx. destruct (1 <? samples); [apply in_zseq in Hx; lia|destruct Hx]. }
  change (stochastic_of (1 :: l) n) with (([PreprocessProgressor 1; PreprocessModel 1] ++ expected_deterministic n ++ [PostprocessModel; PostprocessProgressor]) ++ stochastic_of l n).
  rewrite perform_app, perform_sample by assumption. cbn [flat_map]. rewrite effect_app. change (1 =? 1) with true. cbv iota.
  change (current_time_step (prepared_for_samples new_model)) with 0.
  assert (F : flat_map (fun k => sample_calls (if k =? 1 then 0 else n) k n PreLoop PreLoop) l = flat_map (fun k => sample_calls n k n PreLoop PreLoop) l).
  { clear - L. induction l as [|x l IH]; [reflexivity|]. cbn [flat_map]. rewrite IH by (intros; apply L; now right).
    destruct (Z.eqb_spec x 1); [exfalso; apply (L x); [now left|assumption]|reflexivity]. }
  rewrite F. destruct (effect user (sample_calls 0 1 n PreLoop PreLoop) s) as [s'| |]; cbn [obind outcome_of]; [|reflexivity..].
  destruct (perform_later n l H (Attributes n 1) s' eq_refl) as [m' E]. rewrite E.
  unfold outcome_of. destruct (effect user _ s'); reflexivity.
Qed.
End Perform.

(** Directories *)
Lemma make_directories_ok {C : Type} remove samples : forall (names : Z -> entry C), NoDup samples -> (forall n, In n samples -> names n <> AFile) ->
  exists names', make_directories remove samples names = Ok names' /\
    (forall n, In n samples -> names' n = if remove then ADirectory [] else match names n with ADirectory c => ADirectory c | _ => ADirectory [] end) /\
    (forall n, ~ In n samples -> names' n = names n).
Proof.
  induction samples as [|k samples IH]; intros names ND N; cbn [make_directories].
  - exists names. split; [reflexivity|]. split; [intros n []|auto].
  - inversion ND as [|? ? Nk ND']; subst.
    assert (Q : exists e, make_directory remove (names k) = Ok e /\ e = if remove then ADirectory [] else match names k with ADirectory c => ADirectory c | _ => ADirectory [] end).
    { specialize (N k (or_introl eq_refl)). destruct (names k); [|congruence|]; cbn; destruct remove; eauto. }
    destruct Q as [e [E V]]. rewrite E. cbn [obind].
    destruct (IH (fun m => if m =? k then e else names m) ND') as [names' [E' [A B]]].
    { intros n Hn. destruct (Z.eqb_spec n k); [subst; contradiction|]. apply N. now right. }
    exists names'. split; [exact E'|]. split.
    + intros n [<-|Hn].
      * rewrite (B k Nk), Z.eqb_refl. exact V.
      * rewrite (A n Hn). destruct (Z.eqb_spec n k); [subst; contradiction|reflexivity].
    + intros n Hn. rewrite B by (intros ?; apply Hn; now right). destruct (Z.eqb_spec n k); [subst; exfalso; apply Hn; now left|reflexivity].
Qed.
