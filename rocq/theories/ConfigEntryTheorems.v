(** Property theorems: configuration entries (C79). *)
From Coq Require Import Ascii String.
From Verif Require Import Common FileNameModel ConfigEntryModel ConfigEntrySpec ConfigEntryProofs ConfigEntryProofs2 ConfigEntryProofs3.
Local Open Scope Z_scope.

(** C79 for numbers: an entry is the number that it spells if the type has that number, and it is refused otherwise.  Missing: unsigned types and a
    minus sign; see [C79_negative_unsigned_refuted]. *)
Theorem C79_numbers_partial :
  forall (t : integer_type) (s : text), is_signed t = true \/ (forall r, s <> text_of "-" ++ r) ->
  (forall v, cast_integer t s = Ok v <-> spells s v /\ lowest t <= v <= highest t) /\
  ((forall v, spells s v -> ~ lowest t <= v <= highest t) -> cast_integer t s = Throw).
Proof.
  intros t s H. split; [intros v; apply number, H|]. intros N. pose proof (number_total t s). destruct (cast_integer t s) as [v| |] eqn:E; [|reflexivity|congruence].
  apply number in E; [|exact H]. destruct (N v); tauto.
Qed.
Print Assumptions C79_numbers_partial.
Example C79_numbers_ex :
  cast_integer Int32 (text_of "-2147483648") = Ok (-2147483648) /\ cast_integer Int32 (text_of "2147483648") = Throw /\
  cast_integer UInt64 (text_of "18446744073709551615") = Ok 18446744073709551615 /\ cast_integer UInt32 (text_of "+007") = Ok 7 /\
  cast_integer UInt32 (text_of "7 ") = Throw /\ cast_integer Int64 (text_of "-") = Throw /\
  (forall r, text_of "+007" <> text_of "-" ++ r) /\ spells (text_of "+007") 7.
Proof.
  repeat (split; [vm_compute; reflexivity|]). split; [discriminate|]. apply (spells_plus (text_of "007") 7).
  apply (decimal_more (text_of "00") 0 7); [|lia]. apply (decimal_more (text_of "0") 0 0); [|lia]. apply (decimal_one 0). lia.
Qed.

(** False of the code: a negative number is not refused for an unsigned type, it becomes a large one. *)
Theorem C79_negative_unsigned_refuted :
  forall t s n, is_signed t = false -> decimal s n -> 1 <= n <= highest t ->
  spells (text_of "-" ++ s) (- n) /\ - n < lowest t /\ cast_integer t (text_of "-" ++ s) = Ok (highest t + 1 - n).
Proof.
  intros t s n Ht H B. split; [apply spells_minus, H|]. split; [destruct t; try discriminate; cbn; lia|]. apply number_minus; assumption.
Qed.
Print Assumptions C79_negative_unsigned_refuted.
Example C79_negative_unsigned_ex : decimal (text_of "1") 1 /\ cast_integer UInt32 (text_of "-1") = Ok 4294967295.
Proof. split; [apply (decimal_one 1); lia|vm_compute; reflexivity]. Qed.

(** C79 for lists in the documented notation, with white space around the numbers: the numbers, in order; refused if one is too large. *)
Theorem C79_lists :
  forall t ns s, list_notation ns s ->
  (Forall (fun n => n <= highest t) ns -> cast_list t s = Ok ns) /\ (~ Forall (fun n => n <= highest t) ns -> cast_list t s = Throw).
Proof. exact lists_read_ok. Qed.
Print Assumptions C79_lists.
Lemma two_hundred : decimal (text_of "200") 200 /\ decimal (text_of "300") 300.
Proof.
  split; [apply (decimal_more (text_of "20") 20 0); [|lia]; apply (decimal_more (text_of "2") 2 0); [|lia]; apply (decimal_one 2); lia|
          apply (decimal_more (text_of "30") 30 0); [|lia]; apply (decimal_more (text_of "3") 3 0); [|lia]; apply (decimal_one 3); lia].
Qed.
Example C79_lists_ex :
  list_notation [200; 300] (text_of "[200, 300 ]") /\ list_notation [] (text_of "[]") /\
  cast_list UInt64 (text_of "[200, 300 ]") = Ok [200; 300] /\ cast_list UInt64 (text_of "[18446744073709551616]") = Throw /\
  cast_list UInt64 (text_of "[]") = Ok [] /\ cast_list UInt64 (text_of "[1, 2, 3, 4]") = Ok [1; 2; 3; 4].
Proof.
  split; [|split; [exists []; split; [constructor|reflexivity]|repeat split; vm_compute; reflexivity]].
  exists [text_of "200"; text_of " 300 "]. split; [|reflexivity]. repeat constructor.
  - exists [], (text_of "200"), []. repeat split; [constructor|apply two_hundred|constructor].
  - exists (text_of " "), (text_of "300"), (text_of " "). repeat split; [repeat constructor; cbn; tauto|apply two_hundred|repeat constructor; cbn; tauto].
Qed.

(** What is accepted for lists, exactly: any text between brackets whose last part, apart from a comma, ends in a number.  All that is not a number
    at the end of a part is skipped. *)
Theorem C79_lists_accepted :
  forall t s,
  cast_list t s <> UB /\
  forall ns, cast_list t s = Ok ns <->
  exists body, s = text_of "[" ++ body ++ text_of "]" /\ ~ In "]"%char body /\
    (body = [] /\ ns = [] \/
     exists parts number, Forall (fun p => ~ In ","%char p) (parts ++ [number]) /\ (exists n, ends_in_number number n) /\
       (body = separated (parts ++ [number]) \/ body = separated (parts ++ [number]) ++ text_of ",") /\
       picks (parts ++ [number]) ns /\ Forall (fun n => n <= highest t) ns).
Proof. intros t s. split; [apply list_defined|]. intros ns. apply list_iff. Qed.
Print Assumptions C79_lists_accepted.
Example C79_lists_accepted_ex :
  cast_list Int64 (text_of "[1, 2,]") = Ok [1; 2] /\ cast_list Int64 (text_of "[1, 2, ]") = Throw /\ cast_list Int64 (text_of "[1, two]") = Throw /\
  cast_list Int64 (text_of "1, 2") = Throw /\ cast_list Int64 (text_of "[1, 2] ") = Throw /\ cast_list Int64 (text_of "[1][2]") = Throw /\
  cast_list Int64 (text_of "[ ]") = Throw /\ cast_list Int64 (text_of "[1 2, 3]") = Ok [2; 3].
Proof. repeat split; vm_compute; reflexivity. Qed.

(** False of the code: a list with something else than a number is not refused.  The minus sign of negative numbers gets lost, of decimal fractions the
    digits behind the point remain, and what is no number is skipped. *)
Theorem C79_malformed_lists_refuted :
  (forall t a b n m, decimal a n -> decimal b m -> n <= highest t -> m <= highest t ->
     cast_list t (text_of "[-" ++ a ++ text_of ", " ++ b ++ text_of "]") = Ok [n; m]) /\
  cast_list Int64 (text_of "[-200, 300]") = Ok [200; 300] /\
  cast_list UInt64 (text_of "[1.5, 2]") = Ok [5; 2] /\
  cast_shape UInt64 (text_of "[many, 200, 300]") = Ok [200; 300].
Proof. split; [exact minus_dropped|]. repeat split; vm_compute; reflexivity. Qed.
Print Assumptions C79_malformed_lists_refuted.
Example C79_malformed_lists_ex : decimal (text_of "200") 200 /\ decimal (text_of "300") 300 /\ 300 <= highest Int64.
Proof. split; [apply two_hundred|]. split; [apply two_hundred|]. vm_compute. discriminate. Qed.

(** C79 for shapes: a list of two numbers, in the same order *)
Theorem C79_shapes :
  forall t s,
  cast_shape t s <> UB /\ (forall v, cast_shape t s = Ok v <-> cast_list t s = Ok v /\ exists a b, v = [a; b]) /\
  (forall a b, list_notation [a; b] s -> a <= highest t -> b <= highest t -> cast_shape t s = Ok [a; b]).
Proof.
  intros t s. split; [apply shape_defined|]. split; [intros v; apply shape_iff|]. intros a b H Ha Hb. apply shape_iff. split; [|eauto].
  apply (proj1 (lists_read_ok t [a; b] s H)). repeat constructor; assumption.
Qed.
Print Assumptions C79_shapes.
Example C79_shapes_ex :
  cast_shape Int64 (text_of "[200, 300]") = Ok [200; 300] /\ cast_shape Int64 (text_of "[200]") = Throw /\ cast_shape Int64 (text_of "[1, 2, 3]") = Throw.
Proof. repeat split; vm_compute; reflexivity. Qed.

(** C79: entries that are required are there, or it is an error; entries that are optional have their default only if they are not there. *)
Theorem C79_entries :
  forall (T : Type) (cast : text -> outcome T) (config : configuration) (section key : text),
  let name := section ++ text_of "." ++ key in
  (forall v, required_configuration_entry cast config section key = Ok v <-> exists value, config name = Some value /\ value <> [] /\ cast value = Ok v) /\
  forall default,
    (config name = None -> optional_configuration_entry cast config section key default = Ok default) /\
    (forall value, config name = Some value -> value <> [] -> optional_configuration_entry cast config section key default = cast value).
Proof.
  intros T cast config section key name. split; [intros v; apply required_iff|]. intros default.
  destruct (optional_ok T cast config section key default) as [H1 H2]. split; [intros E; apply H1; left; exact E|exact H2].
Qed.
Print Assumptions C79_entries.
Definition ex_config : configuration := fun name =>
  if list_eq_dec ascii_dec name (text_of "lue.partition_shape") then Some (text_of "[200, 300]")
  else if list_eq_dec ascii_dec name (text_of "application.model.nr_time_steps") then Some (text_of "10")
  else if list_eq_dec ascii_dec name (text_of "application.model.title") then Some []
  else if list_eq_dec ascii_dec name (text_of "hpx.program_name") then Some (text_of "/usr/bin/model") else None.
Example C79_entries_ex :
  required_configuration_entry (cast_shape UInt64) ex_config (text_of "lue") (text_of "partition_shape") = Ok [200; 300] /\
  required_configuration_entry (cast_shape UInt64) ex_config (text_of "lue") (text_of "array_shape") = Throw /\
  optional_configuration_entry (cast_shape UInt64) ex_config (text_of "lue") (text_of "array_shape") [10; 20] = Ok [10; 20] /\
  optional_configuration_entry (cast_integer Int64) ex_config (text_of "lue") (text_of "partition_shape") 5 = Throw.
Proof. repeat split; vm_compute; reflexivity. Qed.

(** The entries of the application are those in the section that is named after the file of the program, in whichever directory that is. *)
Theorem C79_application_entries :
  forall (T : Type) (cast : text -> outcome T) (config : configuration) dir name key default, ~ In slash name ->
  (config (text_of "hpx.program_name") = Some name \/ config (text_of "hpx.program_name") = Some (dir ++ text_of "/" ++ name)) ->
  required_application_entry cast config key = required_configuration_entry cast config (text_of "application." ++ name) key /\
  optional_application_entry cast config key default = optional_configuration_entry cast config (text_of "application." ++ name) key default.
Proof.
  intros T cast config dir name key default Hn H. unfold required_application_entry, optional_application_entry. rewrite (application config dir name Hn H). split; reflexivity.
Qed.
Print Assumptions C79_application_entries.
Example C79_application_ex :
  ~ In slash (text_of "model") /\ ex_config (text_of "hpx.program_name") = Some (text_of "/usr/bin" ++ text_of "/" ++ text_of "model") /\
  required_application_entry (cast_integer UInt32) ex_config (text_of "nr_time_steps") = Ok 10.
Proof. split; [cbn; intros H; repeat destruct H as [H|H]; discriminate || destruct H|]. split; vm_compute; reflexivity. Qed.

(** False of the code: a text that is there but empty counts as missing. *)
Theorem C79_empty_text_refuted :
  exists config section key default, config (section ++ text_of "." ++ key) = Some [] /\
  cast_text [] = Ok [] /\ optional_configuration_entry cast_text config section key default = Ok default /\ default <> [] /\
  required_configuration_entry cast_text config section key = Throw.
Proof.
  exists ex_config, (text_of "application.model"), (text_of "title"), (text_of "untitled"). repeat split; try (vm_compute; reflexivity). discriminate.
Qed.
Print Assumptions C79_empty_text_refuted.
