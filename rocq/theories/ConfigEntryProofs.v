(** Proofs about configuration entries. *)
From Coq Require Import Ascii String.
From Verif Require Import Common FileNameModel ConfigEntryModel ConfigEntrySpec.
Local Open Scope Z_scope.

Lemma digits_nodup d : 0 <= d <= 9 -> code (digit d) = 48 + d.
Proof.
  intros H. assert (d = 0 \/ d = 1 \/ d = 2 \/ d = 3 \/ d = 4 \/ d = 5 \/ d = 6 \/ d = 7 \/ d = 8 \/ d = 9) as E by lia.
  repeat (destruct E as [->|E]); try subst; reflexivity.
Qed.
Lemma code_inj a b : code a = code b -> a = b.
Proof. unfold code. intros H. apply Nat2Z.inj in H. rewrite <- (ascii_nat_embedding a), <- (ascii_nat_embedding b), H. reflexivity. Qed.
Lemma is_digit_iff c : is_digit c = true <-> exists d, 0 <= d <= 9 /\ c = digit d.
Proof.
  unfold is_digit. split.
  - intros H. exists (code c - 48). split; [lia|]. apply code_inj. rewrite digits_nodup; lia.
  - intros [d [H ->]]. rewrite digits_nodup; lia.
Qed.
Lemma is_space_iff c : is_space c = true <-> In (nat_of_ascii c) [9; 10; 11; 12; 13; 32]%nat.
Proof. unfold is_space, code. cbn [In]. lia. Qed.
Lemma space_not_digit c : is_space c = true -> is_digit c = false.
Proof. unfold is_space, is_digit. lia. Qed.
Lemma white_iff s : white s <-> Forall (fun c => is_space c = true) s.
Proof. unfold white. split; intros H; (eapply Forall_impl; [|exact H]); intros c; apply is_space_iff. Qed.
Lemma comma_not c : is_space c = true \/ is_digit c = true -> c <> comma.
Proof. intros H ->. destruct H as [H|H]; vm_compute in H; discriminate. Qed.

(** A series of digits *)
Definition digit_run (s : text) : Prop := s <> [] /\ Forall (fun c => is_digit c = true) s.

Lemma digits_value_app s acc c v : digits_value acc s = Some v -> is_digit c = true -> digits_value acc (s ++ [c]) = Some (v * 10 + (code c - 48)).
Proof.
  revert acc. induction s as [|x s IH]; intros acc H Hc; cbn in *.
  - injection H as <-. rewrite Hc. reflexivity.
  - destruct (is_digit x); [|discriminate]. apply IH; assumption.
Qed.
Lemma digits_value_digits s acc v : digits_value acc s = Some v -> Forall (fun c => is_digit c = true) s.
Proof. revert acc. induction s as [|x s IH]; intros acc H; cbn in *; [constructor|]. destruct (is_digit x) eqn:E; [|discriminate]. constructor; eauto. Qed.
Lemma digits_value_total s acc : Forall (fun c => is_digit c = true) s -> exists v, digits_value acc s = Some v.
Proof. revert acc. induction s as [|x s IH]; intros acc H; cbn; [eauto|]. inversion H; subst. rewrite H2. apply IH, H3. Qed.

Lemma decimal_value s n : decimal s n -> unsigned_value s = Some n.
Proof.
  induction 1 as [d Hd|s n d _ IH Hd].
  - unfold unsigned_value; cbn [digits_value]. replace (is_digit (digit d)) with true by (symmetry; apply is_digit_iff; eauto). rewrite digits_nodup by assumption. f_equal. lia.
  - unfold unsigned_value in *. destruct s as [|c s]; [discriminate|]. change ((c :: s) ++ [digit d]) with (c :: (s ++ [digit d])); cbv iota; change (c :: (s ++ [digit d])) with ((c :: s) ++ [digit d]). rewrite (digits_value_app (c :: s) 0 (digit d) n).
    + rewrite digits_nodup by assumption. f_equal. lia.
    + exact IH.
    + apply is_digit_iff. eauto.
Qed.
Lemma value_decimal s n : unsigned_value s = Some n -> decimal s n.
Proof.
  revert n. induction s as [|c s IH] using rev_ind; intros n H; [discriminate|].
  assert (Forall (fun c => is_digit c = true) (s ++ [c])) as HD.
  { unfold unsigned_value in H. destruct (s ++ [c]) eqn:E; [discriminate|]. eapply digits_value_digits, H. }
  apply Forall_app in HD. destruct HD as [HD Hc]. inversion Hc as [|? ? Hc' _]; subst.
  destruct (digits_value_total s 0 HD) as [v Hv].
  assert (n = v * 10 + (code c - 48)) as ->.
  { unfold unsigned_value in H. destruct (s ++ [c]) as [|x l] eqn:E; [discriminate|]. rewrite <- E in H.
    rewrite (digits_value_app s 0 c v Hv Hc') in H. injection H as <-. reflexivity. }
  apply is_digit_iff in Hc'. destruct Hc' as [d [Hd ->]]. rewrite digits_nodup by assumption.
  destruct s as [|y s].
  - cbn in Hv. injection Hv as <-. replace (0 * 10 + (48 + d - 48)) with d by lia. apply decimal_one, Hd.
  - replace (v * 10 + (48 + d - 48)) with (10 * v + d) by lia. apply decimal_more; [|exact Hd]. apply IH. exact Hv.
Qed.
Lemma decimal_run s n : decimal s n -> digit_run s.
Proof.
  intros H. apply decimal_value in H. unfold unsigned_value in H. destruct s; [discriminate|]. split; [discriminate|]. eapply digits_value_digits, H.
Qed.
Lemma run_decimal s : digit_run s -> exists n, decimal s n.
Proof.
  intros [Hn H]. destruct (digits_value_total s 0 H) as [v Hv]. exists v. apply value_decimal. unfold unsigned_value. destruct s; [congruence|exact Hv].
Qed.
Lemma decimal_functional s n m : decimal s n -> decimal s m -> n = m.
Proof. intros H K. apply decimal_value in H, K. congruence. Qed.
Lemma decimal_nonneg s n : decimal s n -> 0 <= n.
Proof. induction 1; lia. Qed.

Lemma max_highest t : max_value t = highest t.
Proof. destruct t; reflexivity. Qed.

Lemma decimal_head s n : decimal s n -> exists c r, s = c :: r /\ is_digit c = true.
Proof. intros H. apply decimal_run in H. destruct H as [Hn H]. destruct s as [|c r]; [congruence|]. inversion H; subst. eauto. Qed.
Lemma lexical_digits t s n : decimal s n -> lexical_cast t s = if n <=? highest t then Some n else None.
Proof.
  intros H. destruct (decimal_head _ _ H) as [c [r [-> Hc]]]. unfold lexical_cast.
  unfold is_digit in Hc. replace (code c =? 45) with false by lia. replace (code c =? 43) with false by lia.
  rewrite (decimal_value _ _ H), max_highest. destruct (is_signed t); reflexivity.
Qed.
Lemma cast_digits t s v : digit_run s -> (cast_integer t s = Ok v <-> decimal s v /\ v <= highest t).
Proof.
  intros H. destruct (run_decimal s H) as [n Hn]. unfold cast_integer. rewrite (lexical_digits t s n Hn).
  destruct (Z.leb_spec n (highest t)); split.
  - intros E. injection E as <-. auto.
  - intros [K _]. rewrite (decimal_functional s v n); auto.
  - discriminate.
  - intros [K L]. assert (v = n) by (eapply decimal_functional; eauto). lia.
Qed.

(** A single number *)
Lemma lex_minus t s : lexical_cast t (text_of "-" ++ s) =
  match unsigned_value s with
  | None => None
  | Some v => if is_signed t then if v <=? highest t + 1 then Some (- v) else None
              else if v <=? highest t then Some ((2 ^ bits t - v) mod 2 ^ bits t) else None
  end.
Proof.
  unfold lexical_cast. rewrite max_highest. change (text_of "-" ++ s) with ("-"%char :: s). cbv iota beta. change (code "-"%char =? 45) with true. cbv iota beta.
  destruct (unsigned_value s); [|reflexivity]. destruct (is_signed t); reflexivity.
Qed.
Lemma lex_plus t s : lexical_cast t (text_of "+" ++ s) =
  match unsigned_value s with None => None | Some v => if v <=? highest t then Some v else None end.
Proof.
  unfold lexical_cast. rewrite max_highest. change (text_of "+" ++ s) with ("+"%char :: s). cbv iota beta. change (code "+"%char =? 45) with false.
  change (code "+"%char =? 43) with true. cbv iota beta.
  destruct (unsigned_value s); [|reflexivity]. destruct (is_signed t); reflexivity.
Qed.

Lemma code_char c x : code c = code x -> c = x.
Proof. apply code_inj. Qed.

Lemma number t s v : is_signed t = true \/ (forall r, s <> text_of "-" ++ r) ->
  (cast_integer t s = Ok v <-> spells s v /\ lowest t <= v <= highest t).
Proof.
  intros Hs. unfold cast_integer. split.
  - intros H. destruct (lexical_cast t s) as [w|] eqn:E; [|discriminate]. injection H as ->.
    destruct s as [|c r]; [discriminate|].
    destruct (Z.eqb_spec (code c) 45) as [Hc|Hc].
    { assert (c = "-"%char) as -> by (apply code_inj; exact Hc). change ("-"%char :: r) with (text_of "-" ++ r) in *.
      rewrite lex_minus in E. destruct Hs as [Hs|Hs]; [|destruct (Hs r eq_refl)]. rewrite Hs in E.
      destruct (unsigned_value r) as [n|] eqn:En; [|discriminate]. destruct (Z.leb_spec n (highest t + 1)); [|discriminate]. injection E as <-.
      apply value_decimal in En. split; [apply spells_minus, En|]. pose proof (decimal_nonneg _ _ En). destruct t; try discriminate; cbn in *; lia. }
    destruct (Z.eqb_spec (code c) 43) as [Hp|Hp].
    { assert (c = "+"%char) as -> by (apply code_inj; exact Hp). change ("+"%char :: r) with (text_of "+" ++ r) in *.
      rewrite lex_plus in E. destruct (unsigned_value r) as [n|] eqn:En; [|discriminate]. destruct (Z.leb_spec n (highest t)); [|discriminate]. injection E as <-.
      apply value_decimal in En. split; [apply spells_plus, En|]. pose proof (decimal_nonneg _ _ En). destruct t; cbn in *; lia. }
    unfold lexical_cast in E. replace (code c =? 45) with false in E by lia. replace (code c =? 43) with false in E by lia.
    destruct (unsigned_value (c :: r)) as [n|] eqn:En; [|discriminate]. apply value_decimal in En.
    assert (E' : (if n <=? highest t then Some n else None) = Some v) by (rewrite max_highest in E; destruct (is_signed t); exact E).
    destruct (Z.leb_spec n (highest t)); [|discriminate]. injection E' as <-.
    split; [apply spells_plain, En|]. pose proof (decimal_nonneg _ _ En). destruct t; cbn in *; lia.
  - intros [H B]. destruct H as [s n H|s n H|s n H].
    + rewrite (lexical_digits t s n H). replace (n <=? highest t) with true by lia. reflexivity.
    + rewrite lex_plus, (decimal_value _ _ H). replace (n <=? highest t) with true by lia. reflexivity.
    + rewrite lex_minus, (decimal_value _ _ H). destruct Hs as [Hs|Hs]; [|destruct (Hs s eq_refl)]. rewrite Hs.
      replace (n <=? highest t + 1) with true; [reflexivity|]. destruct t; try discriminate; cbn in *; lia.
Qed.
Lemma number_total t s : cast_integer t s <> UB.
Proof. unfold cast_integer. destruct (lexical_cast t s); discriminate. Qed.
Lemma number_minus t s n : is_signed t = false -> decimal s n -> 1 <= n <= highest t -> cast_integer t (text_of "-" ++ s) = Ok (highest t + 1 - n).
Proof.
  intros Ht H B. unfold cast_integer. rewrite lex_minus, (decimal_value _ _ H), Ht. replace (n <=? highest t) with true by lia.
  assert (2 ^ bits t = highest t + 1) as -> by (destruct t; try discriminate; reflexivity). rewrite Z.mod_small by lia. reflexivity.
Qed.

(** Spans *)
Lemma span_ok p s : let (a, b) := span p s in s = a ++ b /\ Forall (fun c => p c = true) a /\ (forall c r, b = c :: r -> p c = false).
Proof.
  induction s as [|c s IH]; cbn.
  - split; [reflexivity|]. split; [constructor|discriminate].
  - destruct (p c) eqn:E.
    + destruct (span p s) as [a b]. destruct IH as [-> [IH1 IH2]]. split; [reflexivity|]. split; [constructor; assumption|exact IH2].
    + split; [reflexivity|]. split; [constructor|]. intros c' r H. injection H as <- <-. exact E.
Qed.
Lemma span_eq p a b : Forall (fun c => p c = true) a -> (forall c r, b = c :: r -> p c = false) -> span p (a ++ b) = (a, b).
Proof.
  intros Ha Hb. induction a as [|c a IH]; cbn.
  - destruct b as [|c r]; [reflexivity|]. cbn. rewrite (Hb c r eq_refl). reflexivity.
  - inversion Ha; subst. rewrite H1, IH by assumption. reflexivity.
Qed.

Lemma match_here_some s d r : match_here s = Some (d, r) <->
  exists w w', white w /\ digit_run d /\ white w' /\ (s = w ++ d ++ w' /\ r = [] \/ s = w ++ d ++ w' ++ comma :: r).
Proof.
  unfold match_here. split.
  - pose proof (span_ok is_space s) as H1. destruct (span is_space s) as [w s1]. destruct H1 as [-> [W1 _]].
    pose proof (span_ok is_digit s1) as H2. destruct (span is_digit s1) as [dd s2]. destruct H2 as [-> [D _]].
    pose proof (span_ok is_space s2) as H3. destruct (span is_space s2) as [w' s3]. destruct H3 as [-> [W2 _]].
    intros H. destruct dd as [|x dd]; [discriminate|]. exists w, w'. split; [apply white_iff, W1|].
    assert (d = x :: dd) as -> by (destruct s3 as [|y s3]; [|destruct (Ascii.eqb y comma)]; congruence).
    split; [split; [discriminate|exact D]|]. split; [apply white_iff, W2|].
    destruct s3 as [|y s3].
    + left. injection H as <-. rewrite app_nil_r. auto.
    + right. destruct (Ascii.eqb_spec y comma) as [->|]; [|discriminate]. injection H as <-. reflexivity.
  - intros [w [w' [W [[Dn D] [W' H]]]]]. apply white_iff in W, W'.
    assert (exists s3, s = w ++ d ++ w' ++ s3 /\ (s3 = [] /\ r = [] \/ s3 = comma :: r)) as [s3 [-> H3]].
    { destruct H as [[-> ->]| ->]; [exists []; rewrite app_nil_r|exists (comma :: r)]; auto. }
    clear H. destruct d as [|x d]; [congruence|].
    rewrite (span_eq is_space w); [|exact W|].
    2: { intros c q E. cbn in E. injection E as <- _. destruct (is_space x) eqn:Ex; [|reflexivity]. inversion D; subst. rewrite (space_not_digit x Ex) in H1. discriminate. }
    rewrite (span_eq is_digit (x :: d)); [|exact D|].
    2: { intros c q E. destruct w' as [|y w'].
         - cbn in E. destruct H3 as [[-> _]| ->]; [discriminate|]. injection E as <- _. reflexivity.
         - cbn in E. injection E as <- _. inversion W'; subst. apply space_not_digit. assumption. }
    rewrite (span_eq is_space w'); [|exact W'|].
    2: { intros c q ->. destruct H3 as [[? _]|H3]; [discriminate|]. injection H3 as -> _. reflexivity. }
    destruct H3 as [[-> ->]| ->]; reflexivity.
Qed.
