From Coq Require Import Lia Ascii String DecimalString DecimalZ DecimalFacts Decimal.
From Verif Require Import Common FileNameModel FileNameSpec.
Open Scope Z_scope.
Open Scope list_scope.

(** ** Splitting and joining *)
Lemma split_ne s : split s <> [].
Proof. destruct s as [|c s]; [discriminate|]. cbn [split]. destruct (Ascii.eqb c slash); [discriminate|]. destruct (split s); discriminate. Qed.

Lemma split_part s : ~ In slash s -> split s = [s].
Proof.
  induction s as [|c s IH]; intros N; [reflexivity|]. cbn [split]. destruct (Ascii.eqb_spec c slash) as [->|Hc]; [exfalso; apply N; now left|].
  rewrite IH by (intros H; apply N; now right). reflexivity.
Qed.
Lemma split_slash a b : split (a ++ slash :: b) = split a ++ split b.
Proof.
  induction a as [|c a IH]; [reflexivity|]. cbn [app split]. rewrite IH. destruct (Ascii.eqb c slash); [reflexivity|].
  destruct (split a) as [|p ps] eqn:E; [exfalso; exact (split_ne a E)|]. reflexivity.
Qed.
Lemma split_parts s : Forall (fun p => ~ In slash p) (split s).
Proof.
  induction s as [|c s IH]; [repeat constructor; intros []|]. cbn [split]. destruct (Ascii.eqb_spec c slash) as [->|Hc]; [constructor; [intros []|exact IH]|].
  destruct (split s) as [|p ps] eqn:E; [repeat constructor; intros [H|[]]; congruence|]. inversion IH; subst. constructor; [|assumption].
  intros [H|H]; [congruence|contradiction].
Qed.

Definition good_part (p : text) : Prop := is_part p = true /\ ~ In slash p.
Lemma good_ne p : good_part p -> exists c r, p = c :: r /\ c <> slash.
Proof. intros [I N]. destruct p as [|c r]; [discriminate|]. exists c, r. split; [reflexivity|]. intros ->. apply N. now left. Qed.
Lemma parse_good s : Forall good_part (p_parts (parse s)).
Proof.
  cbn [parse p_parts]. apply Forall_forall. intros p H. apply filter_In in H. destruct H as [H I]. split; [exact I|].
  pose proof (split_parts s) as F. rewrite Forall_forall in F. now apply F.
Qed.
Lemma filter_good parts : Forall good_part parts -> filter is_part parts = parts.
Proof. induction 1 as [|p parts [I _] _ IH]; [reflexivity|]. cbn [filter]. rewrite I, IH. reflexivity. Qed.
Lemma split_join parts : parts <> [] -> Forall good_part parts -> split (join parts) = parts.
Proof.
  induction parts as [|p parts IH]; intros N F; [congruence|]. inversion F as [|? ? G F']; subst. destruct parts as [|q parts].
  - cbn [join]. apply split_part. apply G.
  - change (join (p :: q :: parts)) with (p ++ slash :: join (q :: parts)). rewrite split_slash, IH by (discriminate || assumption).
    rewrite split_part by apply G. reflexivity.
Qed.
Lemma join_start parts : parts <> [] -> Forall good_part parts -> exists c r, join parts = c :: r /\ c <> slash.
Proof.
  destruct parts as [|p parts]; intros N F; [congruence|]. inversion F as [|? ? G F']; subst. destruct (good_ne p G) as [c [r [-> Hc]]].
  destruct parts; [exists c, r; now split|]. exists c. eexists. split; [reflexivity|assumption].
Qed.

Definition good_root (r : text) : Prop := r = [] \/ r = [slash] \/ r = [slash; slash].
Lemma root_good s : good_root (root_of s).
Proof.
  unfold good_root, root_of. destruct s as [|a [|b [|c s]]]; auto; destruct (Ascii.eqb a slash); auto; try destruct (Ascii.eqb b slash); auto; destruct (Ascii.eqb c slash); auto.
Qed.
Lemma root_start c r : c <> slash -> root_of (c :: r) = [].
Proof. intros H. assert (E : Ascii.eqb c slash = false) by now apply Ascii.eqb_neq. destruct r as [|b [|d r]]; cbn [root_of]; now rewrite E. Qed.
Lemma root_one c r : c <> slash -> root_of (slash :: c :: r) = [slash].
Proof. intros H. assert (E : Ascii.eqb c slash = false) by now apply Ascii.eqb_neq. destruct r as [|d r]; cbn [root_of]; rewrite Ascii.eqb_refl, E; reflexivity. Qed.
Lemma root_two c r : c <> slash -> root_of (slash :: slash :: c :: r) = [slash; slash].
Proof. intros H. assert (E : Ascii.eqb c slash = false) by now apply Ascii.eqb_neq. cbn [root_of]. rewrite !Ascii.eqb_refl, E. reflexivity. Qed.

Lemma parse_to_text p : good_root (p_root p) -> Forall good_part (p_parts p) -> parse (to_text p) = p.
Proof.
  intros R F. destruct p as [r parts]. cbn [p_root p_parts] in *. destruct parts as [|q parts].
  - destruct R as [->|[->| ->]]; reflexivity.
  - set (l := q :: parts) in *. assert (N : l <> []) by discriminate. destruct (join_start l N F) as [c [s [E Hc]]].
    assert (T : to_text (Path r l) = r ++ join l) by (unfold to_text, l; cbn [p_root p_parts]; destruct r; reflexivity).
    rewrite T. unfold parse. destruct R as [->|[->| ->]]; cbn [app].
    + rewrite split_join, filter_good by assumption. rewrite E, root_start by assumption. reflexivity.
    + change (slash :: join l) with ([] ++ slash :: join l). rewrite split_slash, split_join by assumption. cbn [split app filter is_part].
      rewrite filter_good by assumption. rewrite E, root_one by assumption. reflexivity.
    + change (slash :: slash :: join l) with ([] ++ slash :: [] ++ slash :: join l). rewrite !split_slash, split_join by assumption. cbn [split app filter is_part].
      rewrite filter_good by assumption. rewrite E, root_two by assumption. reflexivity.
Qed.

(** ** Numbers *)
Definition digit_chars : list ascii := ["0"; "1"; "2"; "3"; "4"; "5"; "6"; "7"; "8"; "9"; "-"]%char.
Lemma digits_uint d : Forall (fun c => In c digit_chars) (text_of (NilEmpty.string_of_uint d)).
Proof. induction d; cbn [NilEmpty.string_of_uint text_of list_ascii_of_string]; constructor; try exact IHd; cbn; tauto. Qed.
Lemma digits_zero d : Forall (fun c => In c digit_chars) (text_of (NilZero.string_of_uint d)).
Proof. destruct d; [repeat constructor; cbn; tauto|..]; apply (digits_uint (_ d)). Qed.
Lemma digits_chars n : Forall (fun c => In c digit_chars) (digits n).
Proof.
  unfold digits. destruct (Z.to_int n) as [d|d]; cbn [NilZero.string_of_int]; [apply digits_zero|].
  cbn [text_of list_ascii_of_string]. constructor; [cbn; tauto|apply digits_zero].
Qed.
Lemma digits_without c n : ~ In c digit_chars -> ~ In c (digits n).
Proof. intros N H. apply N. pose proof (digits_chars n) as F. rewrite Forall_forall in F. auto. Qed.
Lemma digits_inj n m : digits n = digits m -> n = m.
Proof.
  unfold digits, text_of. intros H. apply (f_equal string_of_list_ascii) in H. rewrite !string_of_list_ascii_of_string in H.
  assert (NN : forall k, Z.to_int k <> Pos Nil /\ Z.to_int k <> Neg Nil).
  { intros k. destruct k; cbn; split; try discriminate; intros E; injection E as E; pose proof (DecimalPos.Unsigned.to_uint_nonnil p); congruence. }
  apply (f_equal NilZero.int_of_string) in H. destruct (NN n), (NN m). rewrite !NilZero.isi in H by assumption. injection H as H.
  rewrite <- (DecimalZ.of_to n), <- (DecimalZ.of_to m), H. reflexivity.
Qed.
Lemma digits_ne n : digits n <> [].
Proof.
  unfold digits. destruct (Z.to_int n) as [d|d]; cbn [NilZero.string_of_int]; [destruct d; discriminate|discriminate].
Qed.

Lemma last_mark (c : ascii) a1 a2 b1 b2 : ~ In c b1 -> ~ In c b2 -> a1 ++ c :: b1 = a2 ++ c :: b2 -> a1 = a2 /\ b1 = b2.
Proof.
  revert a2. induction a1 as [|x a1 IH]; intros a2 N1 N2 E; destruct a2 as [|y a2]; cbn [app] in E.
  - injection E as E. now split.
  - injection E as E1 E2. exfalso. apply N1. rewrite E2. apply in_or_app. right. now left.
  - injection E as E1 E2. exfalso. apply N2. rewrite <- E2. apply in_or_app. right. now left.
  - injection E as E1 E2. subst. destruct (IH a2 N1 N2 E2) as [-> ->]. now split.
Qed.

(** ** The names *)
Definition file_name (nm : text) (t : Z) : text := nm ++ text_of "_" ++ digits t ++ text_of ".tif".
Lemma file_name_inj n1 n2 t1 t2 : file_name n1 t1 = file_name n2 t2 -> n1 = n2 /\ t1 = t2.
Proof.
  unfold file_name. rewrite !app_assoc. intros H. apply app_inv_tail in H. rewrite <- !app_assoc in H. change (text_of "_") with ["_"%char] in H. cbn [app] in H.
  destruct (last_mark "_"%char n1 n2 (digits t1) (digits t2)) as [-> E]; try assumption.
  - apply digits_without. cbn. intuition discriminate.
  - apply digits_without. cbn. intuition discriminate.
  - split; [reflexivity|]. now apply digits_inj.
Qed.
Lemma file_name_good nm t : ~ In slash nm -> good_part (file_name nm t).
Proof.
  intros N. unfold file_name. split.
  - destruct nm as [|a [|b nm]]; try reflexivity. cbn. now destruct (digits t).
  - intros H. apply in_app_or in H. destruct H as [H|H]; [contradiction|]. apply in_app_or in H. destruct H as [H|H]; [cbn in H; intuition discriminate|].
    apply in_app_or in H. destruct H as [H|H]; [|cbn in H; intuition discriminate]. revert H. apply digits_without. cbn. intuition discriminate.
Qed.
Lemma file_name_not_up nm t : file_name nm t <> up.
Proof.
  unfold file_name. intros H. apply (f_equal (@length ascii)) in H. rewrite !app_length in H. cbn in H. lia.
Qed.

Lemma last_good parts : Forall good_part parts -> ~ In slash (last parts []).
Proof.
  intros F H. destruct parts as [|p parts] using rev_ind; [destruct H|]. rewrite last_last in H. apply Forall_app in F. destruct F as [_ F]. inversion F as [|? ? G _]; subst. apply G. exact H.
Qed.
Lemma removelast_good parts : Forall good_part parts -> Forall good_part (removelast parts).
Proof.
  intros F. destruct parts as [|p parts] using rev_ind; [constructor|]. rewrite removelast_last. apply Forall_app in F. apply F.
Qed.

Lemma generate_t nm t f : generate_name_t nm t = Ok f ->
  parse f = Path (p_root (parse nm)) (removelast (p_parts (parse nm)) ++ [file_name (last (p_parts (parse nm)) []) t]) /\ f = to_text (parse f).
Proof.
  unfold generate_name_t. destruct nm as [|c nm]; [discriminate|]. set (p := parse (c :: nm)). destruct (t <? 1); [discriminate|].
  destruct (suffix p); [|discriminate]. intros E. injection E as <-. unfold name. fold (file_name (last (p_parts p) []) t).
  pose proof (parse_good (c :: nm)) as G. fold p in G. pose proof (file_name_good _ t (last_good _ G)) as Gf. set (fn := file_name (last (p_parts p) []) t) in *.
  assert (J : join_path (parent p) fn = Path (p_root p) (removelast (p_parts p) ++ [fn])).
  { unfold join_path. destruct (good_ne fn Gf) as [d [r [E Hd]]]. assert (P : parse fn = Path [] [fn]).
    { unfold parse. rewrite split_part by apply Gf. cbn [filter]. rewrite (proj1 Gf). rewrite E, root_start by assumption. reflexivity. }
    rewrite P. reflexivity. }
  match goal with |- context [join_path (parent p) ?x] => change x with fn end.
  rewrite J. rewrite parse_to_text; [split; reflexivity| |].
  - apply root_good.
  - cbn [p_parts]. apply Forall_app. split; [now apply removelast_good|constructor; [exact Gf|constructor]].
Qed.

Lemma parts_eq parts parts' t t' : Forall good_part parts -> Forall good_part parts' ->
  removelast parts ++ [file_name (last parts []) t] = removelast parts' ++ [file_name (last parts' []) t'] -> parts = parts' /\ t = t'.
Proof.
  intros F F' E. apply app_inj_tail in E. destruct E as [E1 E2]. apply file_name_inj in E2. destruct E2 as [E2 ->]. split; [|reflexivity].
  destruct parts as [|p parts _] using rev_ind; destruct parts' as [|p' parts' _] using rev_ind; [reflexivity|..].
  - rewrite last_last in E2. cbn in E2. subst. apply Forall_app in F'. destruct F' as [_ F']. inversion F' as [|? ? [G _] _]. discriminate.
  - rewrite last_last in E2. cbn in E2. subst. apply Forall_app in F. destruct F as [_ F]. inversion F as [|? ? [G _] _]. discriminate.
  - rewrite !last_last in E2. rewrite !removelast_last in E1. congruence.
Qed.

Theorem time_steps_inj n1 t1 n2 t2 f1 f2 : generate_name_t n1 t1 = Ok f1 -> generate_name_t n2 t2 = Ok f2 -> parse f1 = parse f2 -> t1 = t2 /\ parse n1 = parse n2.
Proof.
  intros E1 E2 E. apply generate_t in E1, E2. destruct E1 as [E1 _], E2 as [E2 _]. rewrite E1, E2 in E. injection E as R P.
  apply parts_eq in P; try apply parse_good. destruct P as [P ->]. split; [reflexivity|]. unfold parse in *. cbn [p_root p_parts] in *. congruence.
Qed.

(** Samples *)
Lemma absolute_root s : absolute s <-> root_of s <> [].
Proof.
  split.
  - intros [r ->]. destruct r as [|b [|c r]]; cbn [root_of]; rewrite Ascii.eqb_refl; try discriminate; destruct (Ascii.eqb b slash); try discriminate; destruct (Ascii.eqb c slash); discriminate.
  - intros N. destruct s as [|a s]; [now cbn in N|]. destruct (ascii_dec a slash) as [->|H]; [now exists s|]. now rewrite root_start in N.
Qed.
Lemma digits_good n : good_part (digits n).
Proof.
  split.
  - pose proof (digits_ne n). pose proof (digits_chars n) as F. destruct (digits n) as [|a [|b r]]; [congruence| |reflexivity].
    inversion F as [|? ? I _]; subst. cbn. destruct (Ascii.eqb_spec a dot) as [->|]; [|reflexivity]. exfalso. cbn in I. intuition discriminate.
  - apply digits_without. cbn. intuition discriminate.
Qed.
Lemma digits_not_up n : digits n <> up.
Proof. intros E. assert (H : In dot (digits n)) by (rewrite E; now left). revert H. apply digits_without. cbn. intuition discriminate. Qed.

Lemma generate_relative nm s t f : ~ absolute nm -> generate_name_st nm s t = Ok f ->
  exists g, generate_name_t nm t = Ok g /\ parse f = Path [] (digits s :: p_parts (parse g)) /\ p_root (parse g) = [].
Proof.
  intros A. unfold generate_name_st. destruct (generate_name_t nm t) as [g| |] eqn:E; try discriminate. cbn [obind]. intros H. injection H as <-.
  exists g. split; [reflexivity|]. destruct (generate_t nm t g E) as [P T].
  assert (R : p_root (parse nm) = []).
  { cbn [parse p_root]. destruct (root_of nm) eqn:Q; [reflexivity|]. exfalso. apply A. apply absolute_root. congruence. }
  rewrite R in P. assert (G : Forall good_part (p_parts (parse g))) by apply parse_good.
  assert (N : p_parts (parse g) <> []) by (rewrite P; cbn [p_parts]; intros H; now apply app_eq_nil in H).
  destruct (join_start _ N G) as [c [r [J Hc]]].
  assert (Tg : g = c :: r).
  { rewrite T, P. unfold to_text. cbn [p_root p_parts]. rewrite P in J. cbn [p_parts] in J. destruct (removelast (p_parts (parse nm)) ++ _) eqn:Q; [now rewrite P in N|exact J]. }
  split; [|rewrite P; reflexivity]. unfold generate_name_s, os_join. rewrite Tg. destruct (Ascii.eqb_spec c slash); [congruence|]. rewrite <- Tg.
  unfold parse. rewrite split_slash, split_part by apply digits_good. cbn [app filter]. rewrite (proj1 (digits_good s)).
  destruct (good_ne _ (digits_good s)) as [d [q [Ed Hd]]]. rewrite Ed at 1. cbn [app]. rewrite root_start by assumption. reflexivity.
Qed.

Lemma resolve_none rooted parts : ~ In up parts -> forall above, resolve_parts rooted above parts = rev above ++ parts.
Proof.
  induction parts as [|p parts IH]; intros N above; cbn [resolve_parts]; [now rewrite app_nil_r|].
  destruct (list_eq_dec ascii_dec p up) as [->|_]; [exfalso; apply N; now left|]. rewrite IH by (intros H; apply N; now right). cbn [rev]. now rewrite <- app_assoc.
Qed.
Lemma resolve_self p : ~ In up (p_parts p) -> resolve p = p.
Proof. intros N. unfold resolve. rewrite resolve_none by assumption. destruct p. reflexivity. Qed.

Lemma generate_not_up nm t g : ~ goes_up nm -> generate_name_t nm t = Ok g -> ~ In up (p_parts (parse g)).
Proof.
  intros U E. destruct (generate_t nm t g E) as [P _]. rewrite P. cbn [p_parts]. intros H. apply in_app_or in H. destruct H as [H|[H|[]]].
  - apply U. unfold goes_up. destruct (p_parts (parse nm)) as [|q l] using rev_ind; [destruct H|]. rewrite removelast_last in H. apply in_or_app. now left.
  - exact (file_name_not_up _ _ H).
Qed.

Theorem samples_inj n1 s1 t1 n2 s2 t2 f1 f2 : ~ absolute n1 -> ~ absolute n2 -> ~ goes_up n1 -> ~ goes_up n2 ->
  generate_name_st n1 s1 t1 = Ok f1 -> generate_name_st n2 s2 t2 = Ok f2 -> file f1 = file f2 -> s1 = s2 /\ t1 = t2 /\ parse n1 = parse n2.
Proof.
  intros A1 A2 U1 U2 E1 E2 E. destruct (generate_relative _ _ _ _ A1 E1) as [g1 [G1 [P1 R1]]]. destruct (generate_relative _ _ _ _ A2 E2) as [g2 [G2 [P2 R2]]].
  unfold file in E. rewrite !resolve_self in E.
  - rewrite P1, P2 in E. injection E as D P. apply digits_inj in D. assert (Q : parse g1 = parse g2).
    { change (p_parts (parse g1) = p_parts (parse g2)) in P. clear - P R1 R2. destruct (parse g1) as [x1 y1], (parse g2) as [x2 y2]. cbn [p_root p_parts] in *. congruence. }
    destruct (time_steps_inj _ _ _ _ _ _ G1 G2 Q). auto.
  - rewrite P2. cbn [p_parts]. intros [H|H]; [exact (digits_not_up _ H)|exact (generate_not_up _ _ _ U2 G2 H)].
  - rewrite P1. cbn [p_parts]. intros [H|H]; [exact (digits_not_up _ H)|exact (generate_not_up _ _ _ U1 G1 H)].
Qed.

Theorem absolute_same nm t s1 s2 : absolute nm -> generate_name_st nm s1 t = generate_name_st nm s2 t.
Proof.
  intros A. unfold generate_name_st. destruct (generate_name_t nm t) as [g| |] eqn:E; try reflexivity. cbn [obind]. f_equal.
  destruct (generate_t nm t g E) as [P T]. assert (R : p_root (parse nm) <> []) by (now apply absolute_root).
  pose proof (root_good nm) as G. cbn [parse p_root] in R. rewrite T, P. unfold to_text. cbn [p_root p_parts parse]. destruct G as [G|[G|G]]; rewrite G in *; [congruence|..];
    unfold generate_name_s, os_join; reflexivity.
Qed.

(** ** Which names are accepted *)
Lemma last_dot_spec s : forall i, match last_dot i s with
  | Some j => exists before after, s = before ++ dot :: after /\ ~ In dot after /\ j = (i + length before)%nat
  | None => ~ In dot s
  end.
Proof.
  induction s as [|c s IH]; intros i; cbn [last_dot]; [intros []|]. specialize (IH (S i)). destruct (last_dot (S i) s) as [j|].
  - destruct IH as [b [a [-> [N ->]]]]. exists (c :: b), a. split; [reflexivity|]. split; [exact N|]. cbn [length]. lia.
  - destruct (Ascii.eqb_spec c dot) as [->|H].
    + exists [], s. split; [reflexivity|]. split; [exact IH|]. cbn. lia.
    + intros [E|E]; [congruence|contradiction].
Qed.
Lemma suffix_spec s : suffix (parse s) <> [] <-> has_extension s.
Proof.
  unfold suffix, has_extension, name. set (n := last (p_parts (parse s)) []). pose proof (last_dot_spec n 0) as D. destruct (last_dot 0 n) as [i|].
  - destruct D as [b [a [E [N ->]]]]. cbn [Nat.add]. split.
    + destruct (Nat.ltb_spec 0 (length b)); [|cbn [andb]; congruence]. destruct (Nat.ltb_spec (length b) (length n - 1)) as [L|L]; [|cbn [andb]; congruence].
      intros _. exists b, a. split; [destruct b; [cbn in *; lia|discriminate]|]. split; [|now split]. intros ->. rewrite E, app_length in L. cbn in L. lia.
    + intros [b' [a' [Nb [Na [Nd E']]]]]. rewrite E in E'. destruct (last_mark dot b b' a a' N Nd E') as [-> ->].
      rewrite E, app_length. cbn [length]. destruct b' as [|x b']; [congruence|]. destruct a' as [|y a']; [congruence|]. cbn [length].
      destruct (Nat.ltb_spec 0 (S (length b'))); [|lia]. destruct (Nat.ltb_spec (S (length b')) (S (length b') + S (S (length a')) - 1)); [|lia]. cbn [andb].
      change (S (length b')) with (length (x :: b')). rewrite skipn_app, skipn_all, Nat.sub_diag. discriminate.
  - split; [congruence|]. intros [b [a [_ [_ [_ E]]]]]. exfalso. apply D. rewrite E. apply in_or_app. right. now left.
Qed.
Lemma accepted nm t : (exists f, generate_name_t nm t = Ok f) <-> nm <> [] /\ 1 <= t /\ ~ has_extension nm.
Proof.
  rewrite <- suffix_spec. unfold generate_name_t. destruct nm as [|c nm].
  - split; [intros [f H]; discriminate|intros [H _]; congruence].
  - destruct (Z.ltb_spec t 1); [split; [intros [f H']; discriminate|lia]|]. destruct (suffix (parse (c :: nm))).
    + split; [intros _; repeat split; [discriminate|assumption|congruence]|eauto].
    + split; [intros [f H']; discriminate|]. intros [_ [_ N]]. exfalso. apply N. discriminate.
Qed.
