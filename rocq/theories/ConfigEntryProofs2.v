(** Proofs about configuration entries: lists, shapes and entries. *)
From Coq Require Import Ascii String.
From Verif Require Import Common FileNameModel ConfigEntryModel ConfigEntrySpec ConfigEntryProofs.
Local Open Scope Z_scope.

Lemma white_no_comma w : white w -> ~ In comma w.
Proof. intros H I. apply white_iff in H. rewrite Forall_forall in H. apply H in I. discriminate. Qed.
Lemma run_no_comma d : digit_run d -> ~ In comma d.
Proof. intros [_ H] I. rewrite Forall_forall in H. apply H in I. discriminate. Qed.
Lemma wdw_no_comma w d w' : white w -> digit_run d -> white w' -> ~ In comma (w ++ d ++ w').
Proof. intros A B C I. rewrite !in_app_iff in I. destruct I as [I|[I|I]]; [exact (white_no_comma w A I)|exact (run_no_comma d B I)|exact (white_no_comma w' C I)]. Qed.

Lemma unique_split (p q r s : text) : ~ In comma p -> ~ In comma q -> p ++ comma :: r = q ++ comma :: s -> p = q /\ r = s.
Proof.
  revert q. induction p as [|x p IH]; intros [|y q] Hp Hq H; cbn in *.
  - split; congruence.
  - injection H as H0 _. destruct Hq. auto.
  - injection H as H0 _. destruct Hp. auto.
  - injection H as -> H. apply IH in H; [|tauto|tauto]. destruct H as [-> ->]. auto.
Qed.

(** What is found in the first part of a text, [q], does not depend on what follows, [rest] *)
Definition part_end (rest : text) : Prop := rest = [] \/ exists r, rest = comma :: r.
Lemma match_here_part q rest : ~ In comma q -> part_end rest ->
  match_here (q ++ rest) = match match_here q with Some (d, _) => Some (d, tl rest) | None => None end.
Proof.
  intros Hq Hr. destruct (match_here q) as [[d e]|] eqn:E.
  - apply match_here_some in E. destruct E as [w [w' [W [D [W' H]]]]]. apply match_here_some. exists w, w'. repeat (split; [assumption|]).
    destruct H as [[-> _]| ->].
    + destruct Hr as [-> |[r ->]]; [left; rewrite app_nil_r; auto|right]. rewrite <- !app_assoc. reflexivity.
    + destruct Hq. rewrite !in_app_iff. cbn. auto.
  - destruct (match_here (q ++ rest)) as [[d e]|] eqn:F; [|reflexivity]. exfalso.
    apply match_here_some in F. destruct F as [w [w' [W [D [W' H]]]]].
    assert (match_here q = Some (d, [])) as K; [|congruence]. apply match_here_some. exists w, w'. repeat (split; [assumption|]). left. split; [|reflexivity].
    destruct Hr as [-> |[r ->]].
    + rewrite app_nil_r in H. destruct H as [[-> _]| ->]; [reflexivity|]. destruct Hq. rewrite !in_app_iff. cbn. auto.
    + destruct H as [[H _]|H].
      * exfalso. apply (wdw_no_comma w d w' W D W'). rewrite <- H, in_app_iff. cbn. auto.
      * rewrite !app_assoc in H. rewrite <- (app_assoc w) in H. apply unique_split in H; [|exact Hq|apply wdw_no_comma; assumption]. apply H.
Qed.
Lemma match_here_comma r : match_here (comma :: r) = None.
Proof.
  destruct (match_here (comma :: r)) as [[d e]|] eqn:F; [|reflexivity]. exfalso. apply match_here_some in F.
  destruct F as [w [w' [W [[Dn D] [_ H]]]]]. apply white_iff in W.
  destruct w as [|x w]; [destruct d as [|x d]; [congruence|]|]; (inversion W || idtac); try (inversion D; subst);
    destruct H as [[H _]|H]; injection H as <- _; subst; discriminate.
Qed.
Lemma match_here_nil : match_here [] = None.
Proof. reflexivity. Qed.

Lemma regex_search_eq s : regex_search s = match match_here s with Some m => Some m | None => match s with [] => None | _ :: r => regex_search r end end.
Proof. destruct s; reflexivity. Qed.
Lemma regex_search_part q rest : ~ In comma q -> part_end rest ->
  regex_search (q ++ rest) = match regex_search q with Some (d, _) => Some (d, tl rest) | None => regex_search (tl rest) end.
Proof.
  intros Hq Hr. induction q as [|x q IH].
  - cbn [app]. rewrite (regex_search_eq []), match_here_nil. destruct Hr as [-> |[r ->]]; [reflexivity|].
    rewrite regex_search_eq, match_here_comma. reflexivity.
  - rewrite (regex_search_eq (x :: q)), (regex_search_eq ((x :: q) ++ rest)), match_here_part by assumption.
    destruct (match_here (x :: q)) as [[d e]|]; [reflexivity|]. cbn [app]. apply IH. intros I. apply Hq. right. exact I.
Qed.

(** The series of digits at the end of a text *)
Definition ends_in_run (q d : text) : Prop :=
  exists a b, q = a ++ d ++ b /\ digit_run d /\ white b /\ forall a' c, is_digit c = true -> a <> a' ++ [c].
Lemma ends_iff q n : ends_in_number q n <-> exists d, ends_in_run q d /\ decimal d n.
Proof.
  split.
  - intros [a [d [b [H1 [H2 [H3 H4]]]]]]. exists d. split; [|exact H2]. exists a, b. split; [exact H1|]. split; [eapply decimal_run, H2|]. split; [exact H3|].
    intros a' c Hc. apply is_digit_iff in Hc. destruct Hc as [x [Hx ->]]. apply H4, Hx.
  - intros [d [[a [b [H1 [H2 [H3 H4]]]]] H5]]. exists a, d, b. repeat (split; [assumption|]). intros a' x Hx. apply H4. apply is_digit_iff. eauto.
Qed.
Lemma ends_functional q d d' : ends_in_run q d -> ends_in_run q d' -> d = d'.
Proof.
  assert (forall q d, ends_in_run q d -> exists b a, span is_space (rev q) = (b, rev d ++ a) /\ span is_digit (rev d ++ a) = (rev d, a)) as K.
  { clear. intros q d [a [b [-> [[Dn D] [W H]]]]]. exists (rev b), (rev a). rewrite !rev_app_distr, <- app_assoc. split.
    - apply span_eq; [apply Forall_rev, white_iff, W|]. intros c r E. destruct (rev d) as [|x l] eqn:F.
      + destruct Dn. rewrite <- (rev_involutive d), F. reflexivity.
      + cbn in E. injection E as <- _. apply Forall_rev in D. rewrite F in D. inversion D; subst. destruct (is_space x) eqn:Ex; [|reflexivity].
        rewrite (space_not_digit x Ex) in H2. discriminate.
    - apply span_eq; [apply Forall_rev, D|]. intros c r E. destruct (is_digit c) eqn:Ec; [|reflexivity]. exfalso. apply (H (rev r) c Ec).
      rewrite <- (rev_involutive a), E. reflexivity. }
  intros H1 H2. apply K in H1, H2. destruct H1 as [b [a [H1 H1']]], H2 as [b' [a' [H2 H2']]]. rewrite H1 in H2. injection H2 as <- H2.
  rewrite <- H2, H1' in H2'. injection H2' as H2' _. rewrite <- (rev_involutive d), H2', rev_involutive. reflexivity.
Qed.
Lemma white_end w a' c : white w -> is_digit c = true -> w <> a' ++ [c].
Proof.
  intros W Hc ->. apply white_iff in W. apply Forall_app in W. destruct W as [_ W]. inversion W; subst. rewrite (space_not_digit c H1) in Hc. discriminate.
Qed.

Lemma regex_search_ends q d e : ~ In comma q -> regex_search q = Some (d, e) -> ends_in_run q d.
Proof.
  induction q as [|x q IH]; intros Hq H; rewrite regex_search_eq in H.
  - discriminate.
  - destruct (match_here (x :: q)) as [m|] eqn:E.
    + injection H as ->. apply match_here_some in E. destruct E as [w [w' [W [D [W' [[H _]|H]]]]]].
      * exists w, w'. split; [exact H|]. split; [exact D|]. split; [exact W'|]. intros a' c Hc. apply white_end; assumption.
      * destruct Hq. rewrite H, !in_app_iff. cbn. auto.
    + destruct (IH ltac:(intros I; apply Hq; right; exact I) H) as [a [b [-> [D [W N]]]]]. exists (x :: a), b. split; [reflexivity|]. split; [exact D|]. split; [exact W|].
      intros a' c Hc F. destruct a as [|y a].
      * destruct a' as [|z a']; [|destruct a'; discriminate]. injection F as ->.
        assert (match_here (c :: d ++ b) = Some (c :: d, [])) as K.
        { apply match_here_some. exists [], b. split; [constructor|]. split; [split; [discriminate|constructor; [exact Hc|apply D]]|]. split; [exact W|]. left. auto. }
        cbn in E, K. rewrite K in E. discriminate.
      * destruct a' as [|z a']; [discriminate|]. cbn in F. injection F as -> F. exact (N a' c Hc F).
Qed.
Lemma ends_regex_search q d : ~ In comma q -> ends_in_run q d -> exists e, regex_search q = Some (d, e).
Proof.
  intros Hq H. pose proof H as [a [b [-> [D [W N]]]]]. revert H N Hq. induction a as [|x a IH]; intros H N Hq; rewrite regex_search_eq.
  - assert (match_here ([] ++ d ++ b) = Some (d, [])) as ->; [|eauto]. apply match_here_some. exists [], b. split; [constructor|]. auto.
  - destruct (match_here ((x :: a) ++ d ++ b)) as [[d' e]|] eqn:E.
    + exists e. f_equal. f_equal. apply match_here_some in E. destruct E as [w [w' [W1 [D' [W2 [[F _]|F]]]]]].
      * eapply ends_functional; [|exact H]. exists w, w'. split; [exact F|]. split; [exact D'|]. split; [exact W2|]. intros a' c Hc. apply white_end; assumption.
      * destruct Hq. rewrite F, !in_app_iff. cbn. auto.
    + cbn [app]. apply IH.
      * exists a, b. split; [reflexivity|]. split; [exact D|]. split; [exact W|]. intros a' c Hc F. apply (N (x :: a') c Hc). rewrite F. reflexivity.
      * intros a' c Hc F. apply (N (x :: a') c Hc). rewrite F. reflexivity.
      * intros I. apply Hq. right. exact I.
Qed.

Lemma search_of q : ~ In comma q -> (exists d e n, regex_search q = Some (d, e) /\ ends_in_run q d /\ decimal d n /\ ends_in_number q n) \/ (regex_search q = None /\ forall n, ~ ends_in_number q n).
Proof.
  intros Hq. destruct (regex_search q) as [[d e]|] eqn:E.
  - left. apply regex_search_ends in E as K; [|exact Hq]. pose proof K as [a [b [_ [D _]]]]. destruct (run_decimal d D) as [n Hn]. exists d, e, n. rewrite ends_iff. eauto 6.
  - right. split; [reflexivity|]. intros n H. apply ends_iff in H. destruct H as [d [H _]]. apply ends_regex_search in H; [|exact Hq]. destruct H as [e H]. congruence.
Qed.
Lemma ends_number_functional q n m : ends_in_number q n -> ends_in_number q m -> n = m.
Proof.
  intros H K. apply ends_iff in H, K. destruct H as [d [H H1]], K as [d' [K K1]]. rewrite (ends_functional q d' d K H) in K1. eapply decimal_functional; eauto.
Qed.

(** The parts of a text *)
Definition no_commas (ps : list text) : Prop := Forall (fun p => ~ In comma p) ps.
Lemma separated_cons (p : text) ps : ps <> [] -> separated (p :: ps) = p ++ comma :: separated ps.
Proof. destruct ps; [congruence|reflexivity]. Qed.
Lemma parts_exist s : exists ps, ps <> [] /\ no_commas ps /\ s = separated ps.
Proof.
  induction s as [|c s [ps [Hn [H ->]]]].
  - exists [[]]. split; [discriminate|]. split; [repeat constructor; intros []|reflexivity].
  - destruct (ascii_dec c comma) as [->|Hc].
    + exists ([] :: ps). split; [discriminate|]. split; [constructor; [intros []|exact H]|]. rewrite separated_cons by exact Hn. reflexivity.
    + destruct ps as [|p ps]; [congruence|]. inversion H; subst. exists ((c :: p) :: ps). split; [discriminate|]. split.
      * constructor; [|assumption]. intros [I|I]; [exact (Hc I)|exact (H2 I)].
      * destruct ps; reflexivity.
Qed.
Lemma separated_snoc ps : ps <> [] -> separated (ps ++ [[]]) = separated ps ++ [comma].
Proof.
  induction ps as [|p ps IH]; intros H; [congruence|]. destruct ps as [|q ps]; [reflexivity|].
  transitivity (p ++ comma :: separated ((q :: ps) ++ [[]])); [apply (separated_cons p ((q :: ps) ++ [[]])); discriminate|].
  rewrite IH by discriminate. transitivity ((p ++ comma :: separated (q :: ps)) ++ [comma]); [rewrite <- app_assoc; reflexivity|reflexivity].
Qed.

Definition rest_of (ps : list text) : text := match ps with [] => [] | _ => comma :: separated ps end.
Lemma separated_rest (p : text) ps : separated (p :: ps) = p ++ rest_of ps.
Proof. destruct ps; [cbn; rewrite app_nil_r; reflexivity|reflexivity]. Qed.
Lemma rest_end ps : part_end (rest_of ps).
Proof. destruct ps; [left; reflexivity|right; eexists; reflexivity]. Qed.
Lemma rest_tl ps : tl (rest_of ps) = separated ps.
Proof. destruct ps; reflexivity. Qed.

Lemma search_separated (p : text) (ps : list text) : ~ In comma p ->
  regex_search (separated (p :: ps)) = match regex_search p with Some (d, _) => Some (d, separated ps) | None => regex_search (separated ps) end.
Proof. intros H. rewrite separated_rest, regex_search_part, rest_tl by auto using rest_end. reflexivity. Qed.

Lemma separated_length (p : text) ps : (List.length (separated ps) <= List.length (separated (p :: ps)))%nat.
Proof. rewrite separated_rest, app_length. destruct ps as [|q ps]; [cbn; lia|]. unfold rest_of. cbn [List.length]. lia. Qed.
Lemma separated_shorter (p : text) ps : p <> [] -> (List.length (separated ps) < List.length (separated (p :: ps)))%nat.
Proof. intros H. rewrite separated_rest, app_length. destruct p as [|x p]; [congruence|]. destruct ps as [|q ps]; [cbn; lia|]. unfold rest_of. cbn [List.length]. lia. Qed.

Section Cast.
Context (t : integer_type).

Lemma cast_matches_eq fuel s : cast_matches (S fuel) t s =
  match regex_search s with
  | Some (m, suffix) => obind (cast_integer t m) (fun v => obind (cast_matches fuel t suffix) (fun vs => Ok (v :: vs)))
  | None => match s with [] => Ok [] | _ => Throw end
  end.
Proof. reflexivity. Qed.

(** Reading the parts *)
Lemma cast_number fuel (p : text) n (ps : list text) : ~ In comma p -> ends_in_number p n ->
  cast_matches (S fuel) t (separated (p :: ps)) =
    if n <=? highest t then obind (cast_matches fuel t (separated ps)) (fun vs => Ok (n :: vs)) else Throw.
Proof.
  intros Hp H. rewrite cast_matches_eq, search_separated by exact Hp.
  destruct (search_of p Hp) as [[d [e [m [E [_ [D K]]]]]]|[_ N]]; [|destruct (N n H)].
  rewrite E. rewrite (ends_number_functional p n m H K). unfold cast_integer. rewrite (lexical_digits t d m D). destruct (m <=? highest t); reflexivity.
Qed.
Lemma cast_other fuel (p : text) (ps : list text) : ~ In comma p -> (forall n, ~ ends_in_number p n) -> 
  cast_matches (S fuel) t (separated (p :: ps)) =
    match regex_search (separated ps) with
    | Some _ => cast_matches (S fuel) t (separated ps)
    | None => match p, ps with [], [] => Ok [] | _, _ => Throw end
    end.
Proof.
  intros Hp H. rewrite !cast_matches_eq, search_separated by exact Hp.
  destruct (search_of p Hp) as [[d [e [m [E [_ [D K]]]]]]|[E N]]; [destruct (H m K)|]. rewrite E.
  destruct (regex_search (separated ps)) as [[m suffix]|]; [reflexivity|]. rewrite separated_rest. destruct p, ps; reflexivity.
Qed.

Lemma nil_no_number n : ~ ends_in_number [] n.
Proof. intros [a [d [b [E [D _]]]]]. apply decimal_run in D. destruct D as [D _]. destruct a, d; cbn in E; congruence. Qed.

Definition accepted (ps : list text) (ns : list Z) : Prop :=
  ((ps = [] \/ ps = [[]]) /\ ns = []) \/
  exists qs p, (ps = qs ++ [p] \/ ps = qs ++ [p; []]) /\ (exists n, ends_in_number p n) /\ picks (qs ++ [p]) ns /\ Forall (fun n => n <= highest t) ns.

Lemma picks_nonempty qs p ns n : ends_in_number p n -> picks (qs ++ [p]) ns -> ns <> [].
Proof.
  intros H. revert ns. induction qs as [|q qs IH]; intros ns K; inversion K; subst; try discriminate; eauto.
  - destruct (H2 n H).
Qed.
Lemma cast_ok_nonempty fuel s ns : cast_matches fuel t s = Ok ns -> (regex_search s = None <-> ns = []).
Proof.
  destruct fuel as [|fuel]; [discriminate|]. rewrite cast_matches_eq. destruct (regex_search s) as [[m r]|].
  - intros H. split; [discriminate|]. intros ->. destruct (cast_integer t m); [|discriminate..]. destruct (cast_matches fuel t r); discriminate.
  - destruct s; [|discriminate]. intros H. injection H as <-. split; reflexivity.
Qed.

Lemma cast_accepted ps : forall fuel ns, no_commas ps -> (List.length (separated ps) < fuel)%nat -> cast_matches fuel t (separated ps) = Ok ns -> accepted ps ns.
Proof.
  induction ps as [|p ps IH]; intros fuel ns HC Hf H.
  - destruct fuel as [|fuel]; [lia|]. cbn in H. injection H as <-. left. auto.
  - inversion HC as [|? ? Hp HC']; subst. destruct fuel as [|fuel]; [lia|].
    destruct (search_of p Hp) as [[d [e [n [E [_ [D K]]]]]]|[E N]].
    + rewrite (cast_number fuel p n ps Hp K) in H. destruct (Z.leb_spec n (highest t)); [|discriminate].
      destruct (cast_matches fuel t (separated ps)) as [vs| |] eqn:F; [|discriminate..]. injection H as <-.
      assert (p <> []) as Hn by (intros ->; apply (nil_no_number n), K).
      pose proof (separated_shorter p ps Hn). specialize (IH fuel vs HC' ltac:(lia) F).
      destruct IH as [[[-> | ->] ->]|[qs [q [Hq [Hl [Hk Hr]]]]]].
      * right. exists [], p. split; [left; reflexivity|]. split; [eauto|]. split; [apply picks_number; [exact K|constructor]|]. repeat constructor. assumption.
      * right. exists [], p. split; [right; reflexivity|]. split; [eauto|]. split; [apply picks_number; [exact K|constructor]|]. repeat constructor. assumption.
      * right. exists (p :: qs), q. split; [destruct Hq as [-> | ->]; auto|]. split; [exact Hl|]. split; [apply picks_number; assumption|]. constructor; assumption.
    + rewrite (cast_other fuel p ps Hp N) in H. destruct (regex_search (separated ps)) as [m|] eqn:F.
      * pose proof (separated_length p ps). apply IH in H as I; [|assumption|lia].
        pose proof (cast_ok_nonempty _ _ _ H) as Z0. destruct I as [[_ ->]|[qs [q [Hq [Hl [Hk Hr]]]]]].
        { rewrite F in Z0. destruct Z0 as [_ Z0]. discriminate (Z0 eq_refl). }
        right. exists (p :: qs), q. split; [destruct Hq as [-> | ->]; auto|]. split; [exact Hl|]. split; [apply picks_other; assumption|]. assumption.
      * destruct p; [|discriminate]. destruct ps; [|discriminate]. injection H as <-. left. auto.
Qed.

Lemma cast_of_accepted qs : forall p ns n fuel tail, tail = [] \/ tail = [[]] -> no_commas (qs ++ [p]) -> ends_in_number p n -> picks (qs ++ [p]) ns ->
  Forall (fun n => n <= highest t) ns -> (List.length (separated (qs ++ p :: tail)) < fuel)%nat -> cast_matches fuel t (separated (qs ++ p :: tail)) = Ok ns.
Proof.
  induction qs as [|q qs IH]; intros p ns n fuel tail Ht HC HE HK HR Hf; cbn [app] in *.
  - destruct fuel as [|fuel]; [lia|]. inversion HC; subst. rewrite (cast_number fuel p n tail) by assumption.
    assert (ns = [n]) as ->. { inversion HK; subst. - inversion H5; subst. f_equal. eapply ends_number_functional; eauto. - destruct (H3 n HE). }
    inversion HR; subst. replace (n <=? highest t) with true by lia. destruct fuel as [|fuel].
    { assert (p <> []) as Hn by (intros ->; apply (nil_no_number n), HE). pose proof (separated_shorter p tail Hn). lia. }
    destruct Ht as [-> | ->]; reflexivity.
  - inversion HC as [|? ? Hq HC']; subst. destruct fuel as [|fuel]; [lia|]. inversion HK as [|? m ? ms HM HK'|? ? ? HN HK']; subst.
    + inversion HR; subst. rewrite (cast_number fuel q m) by assumption. replace (m <=? highest t) with true by lia.
      assert (q <> []) as Hn by (intros ->; apply (nil_no_number m), HM). pose proof (separated_shorter q (qs ++ p :: tail) Hn).
      rewrite (IH p ms n fuel tail); auto; lia.
    + rewrite (cast_other fuel q) by assumption. pose proof (separated_length q (qs ++ p :: tail)).
      assert (cast_matches (S fuel) t (separated (qs ++ p :: tail)) = Ok ns) as F by (apply (IH p ns n); auto; lia).
      pose proof (cast_ok_nonempty _ _ _ F) as Z0. pose proof (picks_nonempty qs p ns n HE HK').
      destruct (regex_search (separated (qs ++ p :: tail))); [exact F|]. destruct Z0 as [Z0 _]. destruct H0. auto.
Qed.

Lemma trim_ok s body : trim_vector s = Ok body <-> s = text_of "[" ++ body ++ text_of "]" /\ ~ In close_bracket body.
Proof.
  unfold trim_vector. split.
  - destruct s as [|c r]; [discriminate|]. destruct (Ascii.eqb_spec c open_bracket) as [->|]; [|discriminate].
    pose proof (span_ok (fun c => negb (Ascii.eqb c close_bracket)) r) as H. destruct (span _ r) as [a b]. destruct H as [-> [H1 H2]].
    destruct b as [|x [|y b]]; [discriminate| |discriminate]. intros E. injection E as ->. specialize (H2 x [] eq_refl).
    destruct (Ascii.eqb_spec x close_bracket) as [->|]; [|discriminate]. split; [reflexivity|]. intros I. rewrite Forall_forall in H1. apply H1 in I. discriminate.
  - intros [-> H]. change (text_of "[" ++ body ++ text_of "]") with (open_bracket :: body ++ [close_bracket]). cbv iota beta. change (Ascii.eqb open_bracket open_bracket) with true. cbv iota.
    rewrite span_eq.
    + reflexivity.
    + apply Forall_forall. intros c I. destruct (Ascii.eqb_spec c close_bracket) as [->|]; [destruct (H I)|reflexivity].
    + intros c r E. injection E as <- _. reflexivity.
Qed.

Lemma list_iff s ns : cast_list t s = Ok ns <->
  exists body, s = text_of "[" ++ body ++ text_of "]" /\ ~ In "]"%char body /\
    (body = [] /\ ns = [] \/
     exists parts number, Forall (fun p => ~ In ","%char p) (parts ++ [number]) /\ (exists n, ends_in_number number n) /\
       (body = separated (parts ++ [number]) \/ body = separated (parts ++ [number]) ++ text_of ",") /\
       picks (parts ++ [number]) ns /\ Forall (fun n => n <= highest t) ns).
Proof.
  unfold cast_list. split.
  - intros H. destruct (trim_vector s) as [body| |] eqn:E; [|discriminate..]. cbn [obind] in H. apply trim_ok in E. exists body. split; [apply E|]. split; [apply E|].
    destruct (parts_exist body) as [ps [Hn [HC ->]]]. apply cast_accepted in H; [|exact HC|lia].
    destruct H as [[[-> | ->] ->]|[qs [p [[-> | ->] [H1 [H2 H3]]]]]]; [left; auto|left; auto| |]; right; exists qs, p.
    + split; [exact HC|]. split; [exact H1|]. split; [auto|]. split; assumption.
    + assert (qs ++ [p; []] = (qs ++ [p]) ++ [[]]) as F by (rewrite <- app_assoc; reflexivity).
      split; [rewrite F in HC; apply Forall_app in HC; apply HC|]. split; [exact H1|]. split; [right|split; assumption]. rewrite F, separated_snoc; [reflexivity|destruct qs; discriminate].
  - intros [body [-> [Hb H]]]. rewrite (proj2 (trim_ok _ body) (conj eq_refl Hb)). cbn [obind].
    destruct H as [[-> ->]|[qs [p [HC [[n HE] [HB [HK HR]]]]]]]; [reflexivity|].
    destruct HB as [-> | ->].
    + apply (cast_of_accepted qs p ns n _ []); auto.
    + change (text_of ",") with [comma]. rewrite <- separated_snoc by (destruct qs; discriminate). rewrite <- app_assoc. apply (cast_of_accepted qs p ns n _ [[]]); auto.
Qed.
End Cast.
