(** Proofs about configuration entries: lists in the documented notation, shapes and the entries of a program. *)
From Coq Require Import Ascii String.
From Verif Require Import Common FileNameModel ConfigEntryModel ConfigEntrySpec ConfigEntryProofs ConfigEntryProofs2.
Local Open Scope Z_scope.

Lemma item_ends n p : item n p -> ends_in_number p n.
Proof.
  intros [w [d [w' [W [D [W' ->]]]]]]. exists w, d, w'. split; [reflexivity|]. split; [exact D|]. split; [exact W'|].
  intros a x Hx. apply white_end; [exact W|]. apply is_digit_iff. eauto.
Qed.
Lemma item_chars n p c : item n p -> In c p -> is_space c = true \/ is_digit c = true.
Proof.
  intros [w [d [w' [W [D [W' ->]]]]]] I. apply white_iff in W, W'. apply decimal_run in D. destruct D as [_ D]. rewrite Forall_forall in W, W', D.
  rewrite !in_app_iff in I. destruct I as [I|[I|I]]; auto.
Qed.
Lemma items_no_commas ns ps : Forall2 item ns ps -> no_commas ps.
Proof.
  induction 1 as [|n p ns ps H _ IH]; constructor; [|exact IH]. intros I. apply (item_chars n p comma H) in I. destruct I as [I|I]; discriminate.
Qed.
Lemma separated_in c ps : In c (separated ps) -> c = comma \/ exists p, In p ps /\ In c p.
Proof.
  induction ps as [|p ps IH]; [intros []|]. rewrite separated_rest, in_app_iff. intros [I|I]; [right; exists p; cbn; auto|].
  destruct ps as [|q ps]; [destruct I|]. destruct I as [<- |I]; [auto|]. destruct (IH I) as [E|[x [Hx I']]]; [auto|]. right. exists x. cbn in *. auto.
Qed.
Lemma items_no_bracket ns ps : Forall2 item ns ps -> ~ In close_bracket (separated ps).
Proof.
  intros H I. apply separated_in in I. destruct I as [I|[p [Hp I]]]; [discriminate|].
  assert (exists n, item n p) as [n Hn].
  { clear I. induction H as [|n q ns ps H _ IH]; [destruct Hp|]. destruct Hp as [-> |Hp]; eauto. }
  apply (item_chars n p _ Hn) in I. destruct I as [I|I]; discriminate.
Qed.

Lemma cast_items t ns : forall ps fuel, Forall2 item ns ps -> (List.length (separated ps) < fuel)%nat ->
  cast_matches fuel t (separated ps) = if forallb (fun n => n <=? highest t) ns then Ok ns else Throw.
Proof.
  induction ns as [|n ns IH]; intros ps fuel H Hf; inversion H as [|? p ? ps' H1 H2]; subst.
  - destruct fuel; [lia|]. reflexivity.
  - destruct fuel as [|fuel]; [lia|]. pose proof (items_no_commas _ _ H) as HC. inversion HC; subst. pose proof (item_ends n p H1) as HE.
    rewrite (cast_number t fuel p n ps') by assumption. cbn [forallb].
    assert (p <> []) as Hn by (intros ->; apply (nil_no_number n), HE). pose proof (separated_shorter p ps' Hn).
    rewrite (IH ps' fuel) by (auto; lia). destruct (n <=? highest t); [|reflexivity]. cbn. destruct (forallb _ ns); reflexivity.
Qed.
Lemma lists_read t ns s : list_notation ns s -> cast_list t s = if forallb (fun n => n <=? highest t) ns then Ok ns else Throw.
Proof.
  intros [ps [H ->]]. unfold cast_list. rewrite (proj2 (trim_ok _ (separated ps))); [|split; [reflexivity|eapply items_no_bracket, H]].
  cbn [obind]. apply cast_items; [exact H|lia].
Qed.
Lemma lists_read_ok t ns s : list_notation ns s ->
  (Forall (fun n => n <= highest t) ns -> cast_list t s = Ok ns) /\ (~ Forall (fun n => n <= highest t) ns -> cast_list t s = Throw).
Proof.
  intros H. rewrite (lists_read t ns s H). destruct (forallb (fun n => n <=? highest t) ns) eqn:E.
  - split; [reflexivity|]. intros N. destruct N. apply Forall_forall. rewrite forallb_forall in E. intros n I. specialize (E n I). lia.
  - split; [|reflexivity]. intros F. exfalso. rewrite Forall_forall in F. assert (forallb (fun n => n <=? highest t) ns = true) as K; [|congruence].
    apply forallb_forall. intros n I. specialize (F n I). lia.
Qed.

Lemma search_shorter s m r : regex_search s = Some (m, r) -> (List.length r < List.length s)%nat.
Proof.
  induction s as [|c s IH]; intros H; rewrite regex_search_eq in H; [discriminate|].
  destruct (match_here (c :: s)) as [x|] eqn:E.
  - injection H as ->. apply match_here_some in E. destruct E as [w [w' [_ [[Dn _] [_ H]]]]]. destruct m; [congruence|].
    destruct H as [[-> ->]| ->]; rewrite !app_length; cbn [List.length]; lia.
  - apply IH in H. cbn. lia.
Qed.
Lemma matches_defined t : forall fuel s, (List.length s < fuel)%nat -> cast_matches fuel t s <> UB.
Proof.
  induction fuel as [|fuel IH]; intros s H; [lia|]. rewrite cast_matches_eq. destruct (regex_search s) as [[m r]|] eqn:E.
  - apply search_shorter in E. pose proof (number_total t m). destruct (cast_integer t m); [|discriminate|congruence]. cbn [obind].
    specialize (IH r ltac:(lia)). destruct (cast_matches fuel t r); [discriminate|discriminate|congruence].
  - destruct s; discriminate.
Qed.
Lemma list_defined t s : cast_list t s <> UB.
Proof.
  unfold cast_list. destruct (trim_vector s) as [b| |] eqn:E; cbn [obind]; [apply matches_defined; lia|discriminate|].
  unfold trim_vector in E. destruct s as [|c r]; [discriminate|]. destruct (Ascii.eqb c open_bracket); [|discriminate]. destruct (span _ r) as [a [|x [|y b]]]; discriminate.
Qed.
Lemma shape_defined t s : cast_shape t s <> UB.
Proof.
  unfold cast_shape. pose proof (list_defined t s). destruct (cast_list t s) as [v| |]; cbn [obind]; [|discriminate|congruence]. destruct (Nat.eqb _ 2); discriminate.
Qed.
Lemma shape_iff t s v : cast_shape t s = Ok v <-> cast_list t s = Ok v /\ exists a b, v = [a; b].
Proof.
  unfold cast_shape. destruct (cast_list t s) as [w| |]; cbn [obind].
  - destruct w as [|a [|b [|c w]]]; cbn [List.length Nat.eqb].
    + split; [discriminate|]. intros [E [x [y F]]]. congruence.
    + split; [discriminate|]. intros [E [x [y F]]]. congruence.
    + split; [intros E; injection E as <-; eauto|intros [E _]; exact E].
    + split; [discriminate|]. intros [E [x [y F]]]. congruence.
  - split; [discriminate|intros [E _]; discriminate].
  - split; [discriminate|intros [E _]; discriminate].
Qed.

Lemma required_iff (T : Type) (cast : text -> outcome T) config section key v :
  required_configuration_entry cast config section key = Ok v <->
  exists value, config (section ++ text_of "." ++ key) = Some value /\ value <> [] /\ cast value = Ok v.
Proof.
  unfold required_configuration_entry, configuration_entry, get_config_entry. destruct (config _) as [value|].
  - destruct value as [|c value].
    + split; [discriminate|]. intros [x [E [N _]]]. injection E as <-. congruence.
    + split; [intros H; eexists; split; [reflexivity|]; split; [discriminate|exact H]|]. intros [x [E [_ H]]]. injection E as <-. exact H.
  - split; [discriminate|]. intros [x [E _]]. discriminate.
Qed.
Lemma optional_ok (T : Type) (cast : text -> outcome T) config section key default :
  ((config (section ++ text_of "." ++ key) = None \/ config (section ++ text_of "." ++ key) = Some []) ->
     optional_configuration_entry cast config section key default = Ok default) /\
  (forall value, config (section ++ text_of "." ++ key) = Some value -> value <> [] ->
     optional_configuration_entry cast config section key default = cast value).
Proof.
  unfold optional_configuration_entry, configuration_entry, get_config_entry. split.
  - intros [-> | ->]; reflexivity.
  - intros value -> N. destruct value; [congruence|reflexivity].
Qed.

Lemma split_no_slash s : ~ In slash s -> split s = [s].
Proof.
  induction s as [|c s IH]; intros H; [reflexivity|]. cbn. destruct (Ascii.eqb_spec c slash) as [->|]; [destruct H; left; reflexivity|].
  rewrite IH; [reflexivity|]. intros I. apply H. right. exact I.
Qed.
Lemma split_slash a b : exists l, split (a ++ slash :: b) = l ++ split b /\ l <> [].
Proof.
  induction a as [|c a [l [IH Hl]]].
  - exists [[]]. cbn. split; [reflexivity|discriminate].
  - cbn. destruct (Ascii.eqb c slash).
    + exists ([] :: l). rewrite IH. split; [reflexivity|discriminate].
    + rewrite IH. destruct l as [|p l]; [congruence|]. exists ((c :: p) :: l). split; [reflexivity|discriminate].
Qed.
Lemma filename_last dir name : ~ In slash name -> filename (dir ++ slash :: name) = name /\ filename name = name.
Proof.
  intros H. unfold filename. split.
  - destruct (split_slash dir name) as [l [-> _]]. rewrite (split_no_slash name H). apply last_last.
  - rewrite (split_no_slash name H). reflexivity.
Qed.
Lemma application config dir name : ~ In slash name ->
  (config (text_of "hpx.program_name") = Some name \/ config (text_of "hpx.program_name") = Some (dir ++ slash :: name)) ->
  application_section config = text_of "application." ++ name.
Proof. intros H K. unfold application_section, get_config_entry. destruct (filename_last dir name H) as [A B]. destruct K as [-> | ->]; [rewrite B|rewrite A]; reflexivity. Qed.

(** Lists in which the first number has a minus sign *)
Lemma minus_dropped t a b n m : decimal a n -> decimal b m -> n <= highest t -> m <= highest t ->
  cast_list t (text_of "[-" ++ a ++ text_of ", " ++ b ++ text_of "]") = Ok [n; m].
Proof.
  intros A B Hn Hm. apply list_iff. exists (text_of "-" ++ a ++ text_of ", " ++ b).
  assert (forall c s k, decimal s k -> In c s -> is_digit c = true) as HD.
  { intros c s k D I. apply decimal_run in D. destruct D as [_ D]. rewrite Forall_forall in D. auto. }
  split; [cbn [text_of list_ascii_of_string app]; rewrite <- !app_assoc; cbn [app]; rewrite <- ?app_assoc; reflexivity|].
  split.
  { intros I. rewrite !in_app_iff in I. cbn in I. destruct I as [[I|[]]|[I|[[I|[I|[]]]|I]]]; try discriminate; eapply HD in I; try eassumption; discriminate. }
  right. exists [text_of "-" ++ a], (text_of " " ++ b).
  assert (ends_in_number (text_of "-" ++ a) n) as E1.
  { exists (text_of "-"), a, []. split; [rewrite app_nil_r; reflexivity|]. split; [exact A|]. split; [constructor|].
    intros p d Hd F. destruct p as [|x [|]]; try discriminate. injection F as F. assert (code "-"%char = code (digit d)) as G by congruence. rewrite digits_nodup in G by exact Hd. change (code "-"%char) with 45 in G. lia. }
  assert (ends_in_number (text_of " " ++ b) m) as E2.
  { apply item_ends. exists (text_of " "), b, []. split; [repeat constructor; cbn; tauto|]. split; [exact B|]. split; [constructor|]. rewrite app_nil_r. reflexivity. }
  split.
  { constructor; [|constructor; [|constructor]]; intros I; rewrite in_app_iff in I; cbn in I; destruct I as [[I|[]]|I]; try discriminate; eapply HD in I; try eassumption; discriminate. }
  split; [eauto|]. split; [left; cbn [app separated]; rewrite <- !app_assoc; reflexivity|].
  split; [apply picks_number; [exact E1|]; apply picks_number; [exact E2|constructor]|]. repeat constructor; assumption.
Qed.
