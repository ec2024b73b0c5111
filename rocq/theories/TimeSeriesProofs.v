(** Proofs about time series *)
From Coq Require Import Ascii String DecimalString DecimalZ Lia.
From Verif Require Import Common CoreSpec DecompSpec ArraySpec ArrayRep LocalModel ArrayModel FileNameModel FileNameProofs TimeSeriesModel TimeSeriesSpec LocalTheorems.
Open Scope Z_scope.

Lemma space_iff c : is_space c = true <-> space c.
Proof.
  unfold is_space, space. rewrite Bool.orb_true_iff, !Bool.andb_true_iff, !Z.leb_le. lia.
Qed.
Lemma not_space c : is_space c = false <-> ~ space c.
Proof. rewrite <- space_iff. destruct (is_space c); split; intros; congruence. Qed.

(** Lines *)
Lemma lines_of_app l s : ~ In lf l -> ~ In cr l -> lines_of (l ++ s) = match lines_of s with k :: ks => (l ++ k) :: ks | [] => [l] end.
Proof.
  induction l as [|c l IH]; intros A B.
  - cbn [List.app]. destruct (lines_of s) eqn:E; [|reflexivity]. exfalso. clear - E. destruct s as [|c s]; [discriminate|]. cbn [lines_of] in E.
    destruct (Ascii.eqb c lf); [discriminate|]. destruct (Ascii.eqb c cr); [destruct s as [|d s]; [discriminate|destruct (Ascii.eqb d lf); discriminate]|]. destruct (lines_of s); discriminate.
  - cbn [List.app lines_of]. destruct (Ascii.eqb_spec c lf) as [->|_]; [destruct A; left; reflexivity|]. destruct (Ascii.eqb_spec c cr) as [->|_]; [destruct B; left; reflexivity|].
    rewrite IH; [|intros K; apply A; right; exact K|intros K; apply B; right; exact K]. destruct (lines_of s); reflexivity.
Qed.
Lemma lines_of_ok lines s : text_with_lines lines s -> lines_of s = lines.
Proof.
  induction 1 as [l A B|l e ls s A B E H IH].
  - rewrite <- (app_nil_r l) at 1. rewrite lines_of_app by assumption. cbn. rewrite app_nil_r. reflexivity.
  - rewrite lines_of_app by assumption. destruct E as [-> | ->]; cbn [line_feed carriage_return List.app].
    + change (lines_of (ascii_of_nat 10 :: s)) with ([] :: lines_of s). rewrite IH, app_nil_r. reflexivity.
    + change (lines_of (ascii_of_nat 13 :: ascii_of_nat 10 :: s)) with ([] :: lines_of s). rewrite IH, app_nil_r. reflexivity.
Qed.

(** Blank lines *)
Lemma rstrip_blank l : rstrip l = [] <-> blank l.
Proof.
  unfold blank. induction l as [|c l IH]; [split; intros; [constructor|reflexivity]|]. cbn [rstrip]. destruct (rstrip l) as [|d r] eqn:E.
  - destruct (is_space c) eqn:S; split; intros H; try discriminate; try reflexivity.
    + constructor; [apply space_iff; exact S|apply IH; reflexivity].
    + inversion H; subst. apply space_iff in H2. congruence.
  - split; intros H; [discriminate|]. inversion H; subst. apply IH in H3. discriminate.
Qed.
Lemma kept_ok lines kept : without_blank_lines lines kept -> filter not_empty (map rstrip lines) = map rstrip kept.
Proof.
  induction 1 as [|l ls ks B H IH|l ls ks B H IH]; [reflexivity| |]; cbn [map filter].
  - replace (rstrip l) with (@nil ascii) by (symmetry; apply rstrip_blank; exact B). exact IH.
  - destruct (rstrip l) as [|c r] eqn:E; [destruct B; apply rstrip_blank; exact E|]. cbn [not_empty]. rewrite IH. reflexivity.
Qed.

(** Words *)
Lemma words_blank b s : blank b -> words (b ++ s) = words s.
Proof. induction 1 as [|c b S H IH]; [reflexivity|]. cbn [List.app words]. rewrite (proj2 (space_iff c) S). exact IH. Qed.
Lemma words_word w r : w <> [] -> Forall (fun c => ~ space c) w -> r = [] \/ (exists c r', r = c :: r' /\ space c) -> words (w ++ r) = w :: words r.
Proof.
  intros N H R. induction H as [|c w S H IH]; [congruence|]. destruct w as [|d w].
  - cbn [List.app words]. rewrite (proj2 (not_space c) S). destruct R as [-> |(e & r' & -> & Se)]; [reflexivity|]. rewrite (proj2 (space_iff e) Se). reflexivity.
  - specialize (IH ltac:(discriminate)). inversion H; subst. cbn [List.app] in *.
    change (words (c :: d :: w ++ r)) with (if is_space c then words (d :: w ++ r) else if is_space d then [c] :: words (d :: w ++ r) else match words (d :: w ++ r) with w :: ws => (c :: w) :: ws | [] => [[c]] end).
    rewrite (proj2 (not_space c) S), (proj2 (not_space d) H2), IH. reflexivity.
Qed.
Lemma words_ok ws s : spaced ws s -> words s = ws.
Proof.
  induction 1 as [b B|b w ws r B N W R H IH].
  - rewrite <- (app_nil_r b). rewrite words_blank by exact B. reflexivity.
  - rewrite words_blank by exact B. rewrite words_word by assumption. rewrite IH. reflexivity.
Qed.
Lemma rstrip_split s : exists b, blank b /\ s = rstrip s ++ b.
Proof.
  induction s as [|c s (b & B & E)]; [exists []; split; [constructor|reflexivity]|]. cbn [rstrip]. destruct (rstrip s) as [|d r] eqn:R.
  - destruct (is_space c) eqn:S.
    + exists (c :: s). split; [|reflexivity]. constructor; [apply space_iff; exact S|]. cbn in E. subst s. exact B.
    + exists b. split; [exact B|]. cbn in *. congruence.
  - exists b. split; [exact B|]. cbn [List.app] in *. congruence.
Qed.
Lemma words_trailing s b : blank b -> words (s ++ b) = words s.
Proof.
  intros B. induction s as [|c s IH].
  - cbn [List.app]. rewrite <- (app_nil_r b). apply words_blank. exact B.
  - cbn [List.app words]. destruct (is_space c); [exact IH|]. destruct s as [|d s].
    + cbn [List.app]. destruct B as [|e b S B]; [reflexivity|]. rewrite (proj2 (space_iff e) S). f_equal. rewrite <- (app_nil_r b). cbn [words]. rewrite (proj2 (space_iff e) S). apply (words_blank b [] B).
    + cbn [List.app] in *. destruct (is_space d); rewrite IH; reflexivity.
Qed.
Lemma words_rstrip s : words (rstrip s) = words s.
Proof. destruct (rstrip_split s) as (b & B & E). rewrite E at 2. symmetry. apply words_trailing. exact B. Qed.

(** Numbers *)
Lemma lstrip_blank b s : blank b -> lstrip (b ++ s) = lstrip s.
Proof. induction 1 as [|c b S H IH]; [reflexivity|]. cbn [List.app lstrip]. rewrite (proj2 (space_iff c) S). exact IH. Qed.
Lemma rstrip_word w b : Forall (fun c => ~ space c) w -> blank b -> rstrip (w ++ b) = w.
Proof.
  intros W B. induction W as [|c w S W IH]; [apply rstrip_blank; exact B|]. cbn [List.app rstrip]. rewrite IH. destruct w; [rewrite (proj2 (not_space c) S)|]; reflexivity.
Qed.
Lemma rstrip_rstrip s : rstrip (rstrip s) = rstrip s.
Proof.
  induction s as [|c s IH]; [reflexivity|]. cbn [rstrip]. destruct (rstrip s) as [|d r] eqn:R.
  - destruct (is_space c) eqn:S; [reflexivity|]. cbn. rewrite S. reflexivity.
  - remember (d :: r) as t. cbn [rstrip]. rewrite IH. subst t. reflexivity.
Qed.
Lemma lstrip_word w s : w <> [] -> Forall (fun c => ~ space c) w -> lstrip (w ++ s) = w ++ s.
Proof. intros N W. destruct W as [|c w S W]; [congruence|]. cbn. rewrite (proj2 (not_space c) S). reflexivity. Qed.
Lemma digits_no_space n : Forall (fun c => ~ space c) (digits n).
Proof.
  apply Forall_forall. intros c H. pose proof (digits_chars n) as F. rewrite Forall_forall in F. specialize (F c H). apply not_space.
  unfold digit_chars in F. cbn in F. repeat (destruct F as [<-|F]; [reflexivity|]). destruct F.
Qed.
Lemma int_digits n : option_map Z.of_int (NilZero.int_of_string (string_of_list_ascii (digits n))) = Some n.
Proof.
  unfold digits, text_of. rewrite string_of_list_ascii_of_string.
  assert (NN : Z.to_int n <> Decimal.Pos Decimal.Nil /\ Z.to_int n <> Decimal.Neg Decimal.Nil).
  { destruct n; cbn; split; try discriminate; intros E; injection E as E; pose proof (DecimalPos.Unsigned.to_uint_nonnil p); congruence. }
  destruct NN. rewrite NilZero.isi by assumption. cbn. rewrite DecimalZ.of_to. reflexivity.
Qed.
Lemma py_int_digits n s : spaced [digits n] s -> py_int (rstrip s) = Some n.
Proof.
  intros H. inversion H as [|b w ws r B N W R H']; subst. inversion H' as [b' B'|]; subst. unfold py_int.
  assert (S : rstrip (b ++ digits n ++ r) = b ++ digits n).
  { destruct (rstrip_split (b ++ digits n ++ r)) as (b2 & B2 & E). clear - B B' W N.
    induction B as [|c b S B IH]; [change (rstrip (digits n ++ r) = digits n); apply rstrip_word; assumption|]. cbn [List.app rstrip]. rewrite IH. destruct b; [destruct (digits n); [congruence|reflexivity]|reflexivity]. }
  rewrite S, lstrip_blank by exact B. rewrite <- (app_nil_r (digits n)). rewrite lstrip_word by assumption. rewrite rstrip_word by (try assumption; constructor). apply int_digits.
Qed.

(** Reading *)
Lemma index_0 {T} k (l : list T) : 0 <= k -> index k l = match nth_error l (Z.to_nat k) with Some x => Ok x | None => Throw end.
Proof. intros H. unfold index. destruct (Z.ltb_spec k 0); [lia|]. destruct (Z.ltb_spec k 0); [lia|]. reflexivity. Qed.
Lemma read_ok content rows : time_series content rows -> read_lines content = Ok (map rstrip rows).
Proof.
  intros (lines & kept & title & count & names & L & K & -> & C). unfold read_lines. rewrite (lines_of_ok lines content L), (kept_ok lines _ K).
  cbn [map]. rewrite index_0 by lia. change (Z.to_nat 1) with 1%nat. cbn [nth_error obind]. rewrite (py_int_digits _ _ C). unfold slice_from.
  destruct (Z.ltb_spec (Z.of_nat (length names) + 2) 0) as [H|H]; [lia|]. f_equal. replace (Z.to_nat (Z.of_nat (length names) + 2)) with (S (S (length names))) by lia.
  cbn [skipn]. rewrite map_app, <- (map_length rstrip names). rewrite skipn_app, skipn_all, Nat.sub_diag. reflexivity.
Qed.

Section Values.
Set Default Proof Using "Type".
Context {D F : Type} (to_double : text -> option D) (to_float : D -> F) (mark : F) (junk : Z -> F).
Notation table_from := (table_from to_double). Notation of_lines := (of_lines to_double to_float mark junk).
Notation look_up := (look_up to_float mark junk).
Notation run := (run to_double to_float mark junk). Notation timeinputscalar := (timeinputscalar to_double to_float mark junk).

Lemma line_ok rows e t values : values_at rows t values -> of_lines (map rstrip rows) e t = obind (table_from 1 values) (fun table => look_up table e).
Proof.
  intros (L & row & first & N & S). unfold TimeSeriesModel.of_lines. rewrite index_0 by lia. rewrite nth_error_map, N. cbn [option_map obind]. rewrite words_rstrip, (words_ok _ _ S). reflexivity.
Qed.
Lemma table_ok values xs : Forall2 (fun v x => to_double v = Some x) values xs -> forall i, table_from i values = Ok (combine (zseq i (Z.of_nat (length xs))) xs).
Proof. clear to_float mark junk F. 
  induction 1 as [|v x values xs V H IH]; intros i; [reflexivity|]. cbn [TimeSeriesModel.table_from]. rewrite V, (IH (i + 1)). cbn [obind]. f_equal.
  unfold zseq. rewrite !Nat2Z.id. cbn [length seq map combine]. f_equal; [f_equal; lia|]. f_equal. rewrite <- seq_shift, map_map. apply map_ext. intros k. lia.
Qed.
Lemma table_bad values v : In v values -> to_double v = None -> forall i, table_from i values = Throw.
Proof.
  intros I B. induction values as [|w values IH]; intros i; [destruct I|]. cbn [TimeSeriesModel.table_from]. destruct I as [->|I]; [rewrite B; reflexivity|].
  destruct (to_double w); [|reflexivity]. rewrite (IH I). reflexivity.
Qed.
Lemma in_table (xs : list D) : forall i k x, In (k, x) (combine (zseq i (Z.of_nat (length xs))) xs) <-> i <= k /\ nth_error xs (Z.to_nat (k - i)) = Some x.
Proof. clear to_double to_float mark junk F. 
  induction xs as [|y xs IH]; intros i k x.
  - cbn. split; [intros []|]. intros [_ H]. destruct (Z.to_nat (k - i)); discriminate.
  - assert (E : combine (zseq i (Z.of_nat (length (y :: xs)))) (y :: xs) = (i, y) :: combine (zseq (i + 1) (Z.of_nat (length xs))) xs).
    { unfold zseq. rewrite !Nat2Z.id. cbn [length seq map combine]. f_equal; [f_equal; lia|]. f_equal. rewrite <- seq_shift, map_map. apply map_ext. intros q. lia. }
    rewrite E. cbn [In]. rewrite IH. split.
    + intros [H|[L H]]; [inversion H; subst; rewrite Z.sub_diag; split; [lia|reflexivity]|]. split; [lia|]. replace (Z.to_nat (k - i)) with (S (Z.to_nat (k - (i + 1)))) by lia. exact H.
    + intros [L H]. destruct (Z.eq_dec k i) as [->|N]; [rewrite Z.sub_diag in H; left; cbn in H; congruence|]. right. split; [lia|].
      replace (Z.to_nat (k - i)) with (S (Z.to_nat (k - (i + 1)))) in H by lia. exact H.
Qed.
Lemma table_keys (xs : list D) i : map fst (combine (zseq i (Z.of_nat (length xs))) xs) = zseq i (Z.of_nat (length xs)).
Proof. clear to_double to_float mark junk F. 
  assert (L : length (zseq i (Z.of_nat (length xs))) = length xs) by (unfold zseq; rewrite map_length, seq_length; lia). revert L. generalize (zseq i (Z.of_nat (length xs))).
  induction xs as [|x xs IH]; intros [|k l] L; try discriminate; [reflexivity|]. cbn [combine map fst]. f_equal. apply IH. cbn in L. lia.
Qed.
Lemma zseq_nodup i n : NoDup (zseq i n).
Proof. clear to_double to_float mark junk F.  unfold zseq. apply FinFun.Injective_map_NoDup; [intros a b H; lia|apply seq_NoDup]. Qed.
Lemma lookup_table (xs : list D) k : lookup (combine (zseq 1 (Z.of_nat (length xs))) xs) k = if 1 <=? k then nth_error xs (Z.to_nat (k - 1)) else None.
Proof. clear to_double to_float mark junk F. 
  unfold lookup. destruct (find _ _) as [[k' x]|] eqn:E.
  - apply find_some in E. cbn [fst] in E. destruct E as [I E]. apply Z.eqb_eq in E. subst k'. apply in_table in I. destruct I as [L H]. cbn. destruct (Z.leb_spec 1 k); [congruence|lia].
  - cbn. destruct (Z.leb_spec 1 k) as [L|L]; [|reflexivity]. destruct (nth_error xs (Z.to_nat (k - 1))) as [x|] eqn:N; [|reflexivity]. exfalso.
    assert (I : In (k, x) (combine (zseq 1 (Z.of_nat (length xs))) xs)) by (apply in_table; split; assumption). apply (find_none _ _ E) in I. cbn in I. rewrite Z.eqb_refl in I. discriminate.
Qed.

(** The cache *)
Definition agrees (files : text -> option text) (c : cache) : Prop := forall name lines, cached name c = Some lines -> exists content, files name = Some content /\ read_lines content = Ok lines.
Lemma same_name_iff a b : same_name a b = true <-> a = b.
Proof. unfold same_name. destruct (list_eq_dec ascii_dec a b); split; intros; congruence. Qed.
Lemma call_ok files c name e t : agrees files c -> fst (timeinputscalar files c name e t) = fst (timeinputscalar files [] name e t) /\ agrees files (snd (timeinputscalar files c name e t)).
Proof.
  intros A. unfold TimeSeriesModel.timeinputscalar. destruct (cached name c) as [lines|] eqn:C.
  - destruct (A name lines C) as (content & Fc & R). cbn [cached find option_map]. rewrite Fc, R. split; [reflexivity|exact A].
  - cbn [cached find option_map]. destruct (files name) as [content|] eqn:Fc; [|split; [reflexivity|exact A]]. destruct (read_lines content) as [lines| |] eqn:R; (split; [reflexivity|]); try exact A.
    intros n l. cbn [snd]. unfold cached. cbn [find fst]. destruct (same_name name n) eqn:S; [|intros H; exact (A n l H)]. apply same_name_iff in S. subst n. cbn. intros H. inversion H; subst.
    exists content. split; assumption.
Qed.
Definition is_write (o : op) : bool := match o with WriteFile _ _ => true | _ => false end.
Lemma run_ok ops files : forall c, agrees files c -> forallb (fun o => negb (is_write o)) ops = true ->
  run ops files c = concat (map (fun o => match o with Input name e t => [fst (timeinputscalar files [] name e t)] | _ => [] end) ops).
Proof.
  induction ops as [|o ops IH]; intros c A W; [reflexivity|]. cbn [forallb] in W. apply Bool.andb_true_iff in W. destruct W as [W1 W]. destruct o as [name e t|name content|]; [|discriminate|].
  - cbn [TimeSeriesModel.run map concat]. destruct (call_ok files c name e t A) as [E A']. destruct (timeinputscalar files c name e t) as [r c']. cbn [fst snd] in *. rewrite <- E, (IH c' A' W). reflexivity.
  - cbn [TimeSeriesModel.run map concat]. apply IH; [|exact W]. intros n l H. discriminate.
Qed.
End Values.
