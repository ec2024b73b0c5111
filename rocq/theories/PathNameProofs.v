(** Proofs about array pathnames *)
From Coq Require Import Ascii String Lia.
From Verif Require Import Common FileNameModel FileNameProofs PathNameModel PathNameSpec.
Open Scope nat_scope.

Lemma eqb_slash c : Ascii.eqb c slash = true <-> c = slash.
Proof. apply Ascii.eqb_eq. Qed.
Lemma eqb_other c : c <> slash -> Ascii.eqb c slash = false.
Proof. intros H. apply Ascii.eqb_neq. exact H. Qed.

Lemma squeeze_two a b r : squeeze (a :: b :: r) = if Ascii.eqb a slash && Ascii.eqb b slash then squeeze (b :: r) else a :: squeeze (b :: r).
Proof. reflexivity. Qed.
Lemma squeeze_slash s : exists r, squeeze (slash :: s) = slash :: r.
Proof.
  induction s as [|c s [r IH]].
  - exists []. reflexivity.
  - rewrite squeeze_two. destruct (Ascii.eqb c slash) eqn:E.
    + apply eqb_slash in E. subst c. exists r. exact IH.
    + exists (squeeze (c :: s)). reflexivity.
Qed.
Lemma squeeze_head c s : c <> slash -> squeeze (c :: s) = c :: squeeze s.
Proof. intros H. destruct s as [|b s]; [reflexivity|]. rewrite squeeze_two, (eqb_other c H). reflexivity. Qed.
Lemma squeeze_app p r : ~ In slash p -> squeeze (p ++ r) = p ++ squeeze r.
Proof.
  induction p as [|c p IH]; intros H; [reflexivity|]. cbn [List.app]. rewrite squeeze_head by (intros ->; apply H; left; reflexivity).
  f_equal. apply IH. intros K. apply H. right. exact K.
Qed.
Lemma squeeze_start c p r : ~ In slash (c :: p) -> squeeze (slash :: (c :: p) ++ r) = slash :: (c :: p) ++ squeeze r.
Proof.
  intros H. cbn [List.app]. rewrite squeeze_two. rewrite (eqb_other c) by (intros ->; apply H; left; reflexivity). rewrite Bool.andb_false_r.
  f_equal. exact (squeeze_app (c :: p) r H).
Qed.

Lemma not_absolute p : ~ In slash p -> is_absolute p = false.
Proof. destruct p as [|c p]; [reflexivity|]. intros H. apply eqb_other. intros ->. apply H. left. reflexivity. Qed.
Lemma append_part p q : ~ In slash q -> append p q = if has_filename p then p ++ slash :: q else p ++ q.
Proof. intros H. unfold append. rewrite not_absolute by exact H. reflexivity. Qed.
Lemma last_in (c d : ascii) p : In (last (c :: p) d) (c :: p).
Proof.
  revert c. induction p as [|b p IH]; intros c; [left; reflexivity|]. right. exact (IH b).
Qed.
Lemma filename_app p c q : ~ In slash (c :: q) -> has_filename (p ++ c :: q) = true.
Proof.
  intros H. unfold has_filename. replace (last (p ++ c :: q) slash) with (last (c :: q) slash).
  - destruct p as [|b p]; cbn [List.app]; rewrite eqb_other; try reflexivity; intros K; apply H; rewrite <- K; apply last_in.
  - induction p as [|b p IH]; [reflexivity|]. cbn [List.app]. rewrite IH. destruct (p ++ c :: q) eqn:E; [destruct p; discriminate|reflexivity].
Qed.
Lemma filename_slash p : has_filename (p ++ [slash]) = false.
Proof. unfold has_filename. rewrite last_last. cbn. destruct (p ++ [slash]); reflexivity. Qed.

(** Texts are a single part, or a part, a slash, and a text *)
Lemma text_ind_parts (P : text -> Prop) : (forall p, ~ In slash p -> P p) -> (forall p s, ~ In slash p -> P s -> P (p ++ slash :: s)) -> forall s, P s.
Proof.
  intros H1 H2. assert (K : forall n s, length s <= n -> P s).
  { induction n as [|n IH]; intros s L.
    - destruct s; [apply H1; intros []|cbn in L; lia].
    - destruct (in_dec ascii_dec slash s) as [I|I]; [|apply H1; exact I].
      assert (D : exists p r, s = p ++ slash :: r /\ ~ In slash p).
      { clear - I. induction s as [|c s IHs]; [destruct I|]. destruct (ascii_dec c slash) as [->|N].
        - exists [], s. split; [reflexivity|intros []].
        - destruct I as [I|I]; [congruence|]. destruct (IHs I) as (p & r & -> & Hp). exists (c :: p), r. split; [reflexivity|].
          intros [K|K]; [congruence|exact (Hp K)]. }
      destruct D as (p & r & -> & Hp). apply H2; [exact Hp|]. apply IH. rewrite app_length in L. cbn in L. lia. }
  intros s. exact (K (length s) s (le_n _)).
Qed.

Definition rest (s : text) : text := tl (squeeze (slash :: s)).
Lemma rest_spec s : squeeze (slash :: s) = slash :: rest s.
Proof. unfold rest. destruct (squeeze_slash s) as [r ->]. reflexivity. Qed.
Lemma rest_part p : ~ In slash p -> rest p = p.
Proof.
  intros H. unfold rest. destruct p as [|c p]; [reflexivity|]. rewrite <- (app_nil_r (c :: p)) at 1. rewrite squeeze_start by exact H. cbn. rewrite app_nil_r. reflexivity.
Qed.
Lemma rest_slash s : rest (slash :: s) = rest s.
Proof. reflexivity. Qed.
Lemma rest_cons c p s : ~ In slash (c :: p) -> rest ((c :: p) ++ slash :: s) = (c :: p) ++ slash :: rest s.
Proof. intros H. unfold rest at 1. rewrite squeeze_start by exact H. cbn [tl]. rewrite rest_spec. reflexivity. Qed.

Lemma appended s : forall acc, fold_left append (split s) acc = if has_filename acc then acc ++ slash :: rest s else acc ++ rest s.
Proof.
  induction s as [p Hp|p s Hp IH] using text_ind_parts; intros acc.
  - rewrite split_part by exact Hp. cbn [fold_left]. rewrite append_part by exact Hp. rewrite rest_part by exact Hp. reflexivity.
  - rewrite split_slash, split_part by exact Hp. cbn [List.app fold_left]. rewrite append_part by exact Hp. destruct p as [|c p].
    + cbn [List.app]. rewrite rest_slash. destruct (has_filename acc) eqn:E.
      * rewrite IH, filename_slash. rewrite <- app_assoc. reflexivity.
      * rewrite app_nil_r, IH, E. reflexivity.
    + rewrite rest_cons by exact Hp. destruct (has_filename acc) eqn:E; rewrite IH.
      * replace (acc ++ slash :: c :: p) with ((acc ++ [slash]) ++ c :: p) by (rewrite <- app_assoc; reflexivity).
        rewrite filename_app by exact Hp. rewrite <- !app_assoc. reflexivity.
      * rewrite filename_app by exact Hp. rewrite <- app_assoc. reflexivity.
Qed.

Definition dataset_of (d : text) : text := match d with [] => [slash] | _ => squeeze d end.
Lemma dataset_spec d s : (if is_absolute (d ++ slash :: s) then slash :: rest d else rest d) = dataset_of d.
Proof.
  destruct d as [|c d]; [reflexivity|]. cbn [List.app is_absolute dataset_of]. destruct (Ascii.eqb c slash) eqn:E.
  - apply eqb_slash in E. subst c. rewrite rest_slash. rewrite <- rest_spec. reflexivity.
  - unfold rest. rewrite squeeze_two, E, Bool.andb_false_r. reflexivity.
Qed.

Lemma split_pathname d a b c : name_ok a -> name_ok b -> name_ok c -> split (pathname d a b c) = split d ++ [a; b; c].
Proof.
  intros A B C. unfold pathname, pathname3. cbn [List.app]. rewrite !split_slash, (split_part a A), (split_part b B), (split_part c C). reflexivity.
Qed.
Lemma split_pathname3 a b c : name_ok a -> name_ok b -> name_ok c -> split (pathname3 a b c) = [a; b; c].
Proof. intros A B C. unfold pathname3. cbn [List.app]. rewrite !split_slash, (split_part a A), (split_part b B), (split_part c C). reflexivity. Qed.

Lemma parse_pathname d a b c : name_ok a -> name_ok b -> name_ok c -> parse_array_pathname (pathname d a b c) = Ok (dataset_of d, a, b, c).
Proof.
  intros A B C. unfold parse_array_pathname. rewrite split_pathname by assumption. rewrite rev_app_distr. change (rev [a; b; c]) with [c; b; a]. cbn [List.app].
  destruct (rev (split d)) as [|l o] eqn:E.
  { apply (f_equal (@rev _)) in E. rewrite rev_involutive in E. destruct (split_ne d E). }
  replace (rev (l :: o)) with (split d) by (rewrite <- E, rev_involutive; reflexivity). clear E. destruct (split d) as [|f ts] eqn:S; [destruct (split_ne d S)|].
  assert (F : ~ In slash f). { pose proof (split_parts d) as K. rewrite S in K. inversion K; assumption. }
  replace (fold_left append ts f) with (fold_left append (split d) []).
  - rewrite (appended d). cbn [has_filename List.app]. rewrite <- (dataset_spec d (pathname3 a b c)). reflexivity.
  - rewrite S. cbn [fold_left]. rewrite append_part by exact F. reflexivity.
Qed.
Lemma parse_pathname3 a b c : name_ok a -> name_ok b -> name_ok c -> parse_array_pathname3 (pathname3 a b c) = Ok (a, b, c).
Proof. intros A B C. unfold parse_array_pathname3. rewrite split_pathname3 by assumption. reflexivity. Qed.

(** The number of tokens *)
Lemma split_count s : length (split s) = S (nr_slashes s).
Proof.
  induction s as [p Hp|p s Hp IH] using text_ind_parts.
  - rewrite split_part by exact Hp. unfold nr_slashes. rewrite (proj1 (count_occ_not_In ascii_dec p slash) Hp). reflexivity.
  - rewrite split_slash, app_length, IH, split_part by exact Hp. unfold nr_slashes. rewrite count_occ_app, (proj1 (count_occ_not_In ascii_dec p slash) Hp).
    rewrite count_occ_cons_eq by reflexivity. cbn. reflexivity.
Qed.
Lemma last_slash (s : text) : In slash s -> exists d a, s = d ++ slash :: a /\ name_ok a.
Proof.
  induction s as [p Hp|p s Hp IH] using text_ind_parts; intros I; [destruct (Hp I)|].
  destruct (in_dec ascii_dec slash s) as [J|J].
  - destruct (IH J) as (d & a & -> & A). exists (p ++ slash :: d), a. rewrite <- app_assoc. split; [reflexivity|exact A].
  - exists p, s. split; [reflexivity|exact J].
Qed.
Lemma last_slash_count s n : nr_slashes s = S n -> exists d a, s = d ++ slash :: a /\ name_ok a /\ nr_slashes d = n.
Proof.
  intros K. destruct (last_slash s) as (d & a & -> & A).
  - apply (count_occ_In ascii_dec). unfold nr_slashes in K. lia.
  - exists d, a. split; [reflexivity|split; [exact A|]]. unfold nr_slashes in *. rewrite count_occ_app, count_occ_cons_eq in K by reflexivity.
    rewrite (proj1 (count_occ_not_In ascii_dec a slash) A) in K. lia.
Qed.
Lemma decompose3 s : nr_slashes s = 2 -> exists a b c, name_ok a /\ name_ok b /\ name_ok c /\ s = pathname3 a b c.
Proof.
  intros K. destruct (last_slash_count s 1 K) as (s1 & c & -> & C & K1). destruct (last_slash_count s1 0 K1) as (a & b & -> & B & K2).
  exists a, b, c. repeat split; try assumption.
  - apply (count_occ_not_In ascii_dec). exact K2.
  - unfold pathname3. rewrite <- !app_assoc. reflexivity.
Qed.
Lemma decompose s : 3 <= nr_slashes s -> exists d a b c, name_ok a /\ name_ok b /\ name_ok c /\ s = pathname d a b c.
Proof.
  intros L. destruct (nr_slashes s) as [|[|[|n]]] eqn:K; try lia.
  destruct (last_slash_count s _ K) as (s1 & c & -> & C & K1). destruct (last_slash_count s1 _ K1) as (s2 & b & -> & B & K2). destruct (last_slash_count s2 _ K2) as (d & a & -> & A & K3).
  exists d, a, b, c. repeat split; try assumption. unfold pathname, pathname3. repeat (rewrite <- app_assoc; cbn [List.app]). reflexivity.
Qed.
Lemma refused s : nr_slashes s < 3 -> parse_array_pathname s = Throw.
Proof.
  intros L. unfold parse_array_pathname. pose proof (split_count s) as K. rewrite <- rev_length in K. destruct (rev (split s)) as [|a [|b [|c [|d r]]]]; try reflexivity. cbn in K. lia.
Qed.
Lemma refused3 s : nr_slashes s <> 2 -> parse_array_pathname3 s = Throw.
Proof.
  intros L. unfold parse_array_pathname3. pose proof (split_count s) as K. destruct (split s) as [|a [|b [|c [|d r]]]]; try reflexivity. cbn in K. lia.
Qed.
Lemma count_pathname d a b c : 3 <= nr_slashes (pathname d a b c).
Proof. unfold nr_slashes, pathname, pathname3. rewrite !count_occ_app. cbn [count_occ]. destruct (ascii_dec slash slash); [lia|congruence]. Qed.

(** squeeze *)
Lemma squeeze_id s : single_slashes s -> squeeze s = s.
Proof.
  induction s as [|a s IH]; intros H; [reflexivity|]. destruct s as [|b r]; [reflexivity|]. rewrite squeeze_two.
  assert (K : single_slashes (b :: r)). { intros x y E. apply (H (a :: x) y). rewrite E. reflexivity. }
  destruct (Ascii.eqb a slash && Ascii.eqb b slash)%bool eqn:E.
  - apply Bool.andb_true_iff in E. destruct E as [E1 E2]. apply eqb_slash in E1, E2. subst. destruct (H [] r eq_refl).
  - f_equal. exact (IH K).
Qed.
Lemma parse_squeeze_parts s : p_parts (parse (squeeze s)) = p_parts (parse s) /\ p_parts (parse (slash :: s)) = p_parts (parse s).
Proof.
  assert (Z : forall t, p_parts (parse (slash :: t)) = p_parts (parse t)) by reflexivity. split; [|apply Z].
  assert (J : forall p t, ~ In slash p -> p_parts (parse (p ++ slash :: t)) = p_parts (parse p) ++ p_parts (parse t)).
  { intros p t Hp. unfold parse. cbn [p_parts]. rewrite split_slash, filter_app. reflexivity. }
  induction s as [p Hp|p s Hp IH] using text_ind_parts.
  - rewrite <- (app_nil_r p) at 1. rewrite squeeze_app by exact Hp. cbn. rewrite app_nil_r. reflexivity.
  - rewrite squeeze_app by exact Hp. rewrite J by exact Hp. rewrite rest_spec, J by exact Hp. f_equal. rewrite <- IH.
    destruct s as [|c s]; [reflexivity|]. destruct (ascii_dec c slash) as [->|N].
    + rewrite rest_slash. rewrite (rest_spec s). symmetry. apply Z.
    + unfold rest. rewrite squeeze_two, (eqb_other c N), Bool.andb_false_r. reflexivity.
Qed.
Lemma squeeze_absolute s : is_absolute (squeeze s) = is_absolute s.
Proof.
  destruct s as [|c s]; [reflexivity|]. destruct (ascii_dec c slash) as [->|N].
  - rewrite rest_spec. reflexivity.
  - rewrite squeeze_head by exact N. reflexivity.
Qed.
