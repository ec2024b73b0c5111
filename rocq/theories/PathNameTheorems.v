(** C74: array pathnames name a dataset, a phenomenon, a property set and a property. *)
From Coq Require Import Ascii String Lia.
From Verif Require Import Common FileNameModel FileNameProofs PathNameModel PathNameSpec PathNameProofs.
Open Scope nat_scope.

(** A pathname made according to the documentation is taken apart into what it was made from; series of slashes in the dataset's pathname become one. *)
Theorem C74_taken_apart : forall dataset phenomenon property_set property : text,
  dataset <> [] -> name_ok phenomenon -> name_ok property_set -> name_ok property ->
  parse_array_pathname (pathname dataset phenomenon property_set property) = Ok (squeeze dataset, phenomenon, property_set, property) /\
  (single_slashes dataset -> parse_array_pathname (pathname dataset phenomenon property_set property) = Ok (dataset, phenomenon, property_set, property)).
Proof.
  intros d a b c D A B C. rewrite parse_pathname by assumption. destruct d as [|x d]; [congruence|]. unfold dataset_of. split; [reflexivity|].
  intros S. rewrite squeeze_id by exact S. reflexivity.
Qed.
Print Assumptions C74_taken_apart.

Example C74_taken_apart_ex :
  let d := text_of "/data/my.lue" in
  (d <> [] /\ name_ok (text_of "area") /\ name_ok (text_of "raster") /\ name_ok (text_of "elevation")) /\
  pathname d (text_of "area") (text_of "raster") (text_of "elevation") = text_of "/data/my.lue/area/raster/elevation" /\
  parse_array_pathname (text_of "/data/my.lue/area/raster/elevation") = Ok (d, text_of "area", text_of "raster", text_of "elevation") /\
  parse_array_pathname (text_of "//data///my.lue//area/raster/elevation") = Ok (text_of "/data/my.lue/", text_of "area", text_of "raster", text_of "elevation") /\
  squeeze (text_of "//data///my.lue/") = text_of "/data/my.lue/".
Proof.
  cbn zeta. split.
  - repeat split; try discriminate; intros H; cbn in H; repeat (destruct H as [H|H]; [discriminate|]); destruct H.
  - repeat split; reflexivity.
Qed.
Example C74_single_slashes_ex : single_slashes (text_of "/a/b").
Proof. intros x y H. destruct x as [|? [|? [|? [|? [|? x]]]]]; discriminate. Qed.

(** The dataset's pathname that is found refers to the same file: it is absolute if it was, and it has the same components. *)
Theorem C74_same_file : forall dataset phenomenon property_set property d a b c : text,
  dataset <> [] -> name_ok phenomenon -> name_ok property_set -> name_ok property ->
  parse_array_pathname (pathname dataset phenomenon property_set property) = Ok (d, a, b, c) ->
  ((exists r, d = slash :: r) <-> (exists r, dataset = slash :: r)) /\ p_parts (parse d) = p_parts (parse dataset).
Proof.
  intros ds x y z d a b c D X Y Z E. rewrite parse_pathname in E by assumption. destruct ds as [|k ds]; [congruence|]. unfold dataset_of in E. inversion E; subst. clear E D.
  split; [|exact (proj1 (parse_squeeze_parts (k :: ds)))]. pose proof (squeeze_absolute (k :: ds)) as H.
  assert (J : forall t, is_absolute t = true <-> exists r, t = slash :: r).
  { intros [|q t]; cbn; [split; [discriminate|intros [r K]; discriminate]|]. rewrite eqb_slash. split; [intros ->; exists t; reflexivity|intros [r K]; congruence]. }
  rewrite <- (J (k :: ds)), <- H. symmetry. exact (J (squeeze (k :: ds))).
Qed.
Print Assumptions C74_same_file.

Example C74_same_file_ex : p_parts (parse (text_of "/data/my.lue/")) = [text_of "data"; text_of "my.lue"].
Proof. reflexivity. Qed.

(** Whatever is found in a pathname, the pathname was made from it: names are names, and no part of the pathname is lost. *)
Theorem C74_put_together : forall s d phenomenon property_set property : text,
  parse_array_pathname s = Ok (d, phenomenon, property_set, property) ->
  name_ok phenomenon /\ name_ok property_set /\ name_ok property /\
  exists dataset, s = pathname dataset phenomenon property_set property /\ (dataset = [] /\ d = text_of "/" \/ dataset <> [] /\ d = squeeze dataset).
Proof.
  intros s d a b c E. destruct (le_lt_dec 3 (nr_slashes s)) as [L|L]; [|rewrite refused in E by exact L; discriminate].
  destruct (decompose s L) as (d0 & a0 & b0 & c0 & A & B & C & ->). rewrite parse_pathname in E by assumption. inversion E; subst. repeat split; try assumption.
  exists d0. split; [reflexivity|]. destruct d0 as [|x d0]; [left; split; reflexivity|right; split; [discriminate|reflexivity]].
Qed.
Print Assumptions C74_put_together.

Example C74_put_together_ex : parse_array_pathname (text_of "my.lue/area/raster/elevation") = Ok (text_of "my.lue", text_of "area", text_of "raster", text_of "elevation").
Proof. reflexivity. Qed.

(** Pathnames are refused if, and only if, they have fewer than three slashes; nothing else happens. *)
Theorem C74_refused : forall s : text,
  (nr_slashes s < 3 -> parse_array_pathname s = Throw) /\ (3 <= nr_slashes s -> exists found, parse_array_pathname s = Ok found).
Proof.
  intros s. split; [apply refused|]. intros L. destruct (decompose s L) as (d & a & b & c & A & B & C & ->). eexists. apply parse_pathname; assumption.
Qed.
Print Assumptions C74_refused.

Example C74_refused_ex : nr_slashes (text_of "area/raster/elevation") = 2 /\ nr_slashes (text_of "/area/raster/elevation") = 3.
Proof. split; reflexivity. Qed.

(** Different arrays have different pathnames. *)
Theorem C74_unambiguous : forall d a b c d' a' b' c' : text,
  name_ok a -> name_ok b -> name_ok c -> name_ok a' -> name_ok b' -> name_ok c' ->
  pathname d a b c = pathname d' a' b' c' -> d = d' /\ a = a' /\ b = b' /\ c = c'.
Proof.
  intros d a b c d' a' b' c' A B C A' B' C' E. unfold pathname, pathname3 in E. cbn [List.app] in E.
  assert (R : forall w x y z : text, w ++ slash :: x ++ slash :: y ++ slash :: z = ((w ++ slash :: x) ++ slash :: y) ++ slash :: z) by (intros; repeat (rewrite <- app_assoc; cbn [List.app]); reflexivity).
  rewrite !R in E. apply last_mark in E; try assumption. destruct E as [E E1]. apply last_mark in E; try assumption. destruct E as [E E2]. apply last_mark in E; try assumption. destruct E as [E E3].
  repeat split; assumption.
Qed.
Print Assumptions C74_unambiguous.

Example C74_unambiguous_ex : pathname (text_of "x") (text_of "a") (text_of "b") (text_of "c") <> pathname (text_of "x/a") (text_of "b") (text_of "c") (text_of "d").
Proof. discriminate. Qed.

(** Pathnames within a dataset: three names, without dataset *)
Theorem C74_within_dataset : forall s phenomenon property_set property : text,
  (parse_array_pathname3 s = Ok (phenomenon, property_set, property) <->
   name_ok phenomenon /\ name_ok property_set /\ name_ok property /\ s = pathname3 phenomenon property_set property) /\
  (parse_array_pathname3 s = Throw <-> nr_slashes s <> 2).
Proof.
  intros s a b c. destruct (Nat.eq_dec (nr_slashes s) 2) as [L|L].
  - destruct (decompose3 s L) as (x & y & z & X & Y & Z & ->). rewrite parse_pathname3 by assumption. split.
    + split.
      * intros E. inversion E; subst. repeat split; assumption.
      * intros (A & B & C & E). apply (f_equal split) in E. rewrite !split_pathname3 in E by assumption. inversion E; subst. reflexivity.
    + split; [discriminate|intros K; destruct (K L)].
  - rewrite refused3 by exact L. split.
    + split; [discriminate|]. intros (A & B & C & ->). destruct L. pose proof (split_count (pathname3 a b c)) as K. rewrite split_pathname3 in K by assumption. cbn in K. lia.
    + split; intros; [exact L|reflexivity].
Qed.
Print Assumptions C74_within_dataset.

Example C74_within_dataset_ex : parse_array_pathname3 (text_of "area/raster/elevation") = Ok (text_of "area", text_of "raster", text_of "elevation") /\ parse_array_pathname3 (text_of "my.lue/area/raster/elevation") = Throw.
Proof. split; reflexivity. Qed.

(** Refuted: a pathname without dataset, "/area/raster/elevation", is not refused, but refers to the root directory *)
Theorem C74_no_dataset_refuted : forall phenomenon property_set property : text,
  name_ok phenomenon -> name_ok property_set -> name_ok property ->
  parse_array_pathname (pathname [] phenomenon property_set property) = Ok (text_of "/", phenomenon, property_set, property).
Proof. intros a b c A B C. exact (parse_pathname [] a b c A B C). Qed.
Print Assumptions C74_no_dataset_refuted.

Example C74_no_dataset_ex : pathname [] (text_of "area") (text_of "raster") (text_of "elevation") = text_of "/area/raster/elevation".
Proof. reflexivity. Qed.

(** Refuted: a slash at the end is not ignored (as it is in pathnames of directories), but shifts the names: the property's name is empty *)
Theorem C74_trailing_slash_refuted : forall dataset phenomenon property_set property : text,
  dataset <> [] -> name_ok phenomenon -> name_ok property_set -> name_ok property ->
  parse_array_pathname (pathname dataset phenomenon property_set property ++ [slash]) = Ok (squeeze (dataset ++ [slash] ++ phenomenon), property_set, property, []).
Proof.
  intros d a b c D A B C. replace (pathname d a b c ++ [slash]) with (pathname (d ++ [slash] ++ a) b c []).
  - rewrite parse_pathname; [|assumption|assumption|intros []]. destruct d; [congruence|reflexivity].
  - unfold pathname, pathname3. repeat (rewrite <- app_assoc; cbn [List.app]). reflexivity.
Qed.
Print Assumptions C74_trailing_slash_refuted.

Example C74_trailing_slash_ex : parse_array_pathname (text_of "my.lue/area/raster/elevation/") = Ok (text_of "my.lue/area", text_of "raster", text_of "elevation", text_of "").
Proof. reflexivity. Qed.
