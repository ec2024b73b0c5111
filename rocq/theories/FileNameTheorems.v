(** Property theorems: names of files (C71). *)
From Coq Require Import Lia Ascii String.
From Verif Require Import Common FileNameModel FileNameSpec FileNameProofs.
Open Scope Z_scope.
Open Scope list_scope.

(** C71: files for different names or time steps are different. *)
Theorem C71_time_steps :
  forall n1 t1 n2 t2 f1 f2, generate_name_t n1 t1 = Ok f1 -> generate_name_t n2 t2 = Ok f2 -> parse f1 = parse f2 -> t1 = t2 /\ parse n1 = parse n2.
Proof. exact time_steps_inj. Qed.
Print Assumptions C71_time_steps.

(** C71: names without extension are accepted, for each time step from 1 on; others are refused. *)
Theorem C71_accepted :
  forall n t, (exists f, generate_name_t n t = Ok f) <-> n <> [] /\ 1 <= t /\ ~ has_extension n.
Proof. exact accepted. Qed.
Print Assumptions C71_accepted.

(** C71.  Full claim: files for different samples, time steps or names are different.
    Proved for names that are not absolute and do not contain "..". *)
Theorem C71_samples_partial :
  forall n1 s1 t1 n2 s2 t2 f1 f2, ~ absolute n1 -> ~ absolute n2 -> ~ goes_up n1 -> ~ goes_up n2 ->
  generate_name_st n1 s1 t1 = Ok f1 -> generate_name_st n2 s2 t2 = Ok f2 -> file f1 = file f2 -> s1 = s2 /\ t1 = t2 /\ parse n1 = parse n2.
Proof. exact samples_inj. Qed.
Print Assumptions C71_samples_partial.

(** C71: ... and these files are in the directory of the sample. *)
Theorem C71_directory_of_sample :
  forall n s t f, ~ absolute n -> generate_name_st n s t = Ok f ->
  exists g, generate_name_t n t = Ok g /\ parse f = Path [] (digits s :: p_parts (parse g)).
Proof. intros n s t f A E. destruct (generate_relative n s t f A E) as [g [G [P _]]]. eauto. Qed.
Print Assumptions C71_directory_of_sample.

(** C71, refuted: with an absolute name all samples have the same file, so the last one to be written remains. *)
Theorem C71_absolute_refuted :
  forall n s1 s2 t, absolute n -> generate_name_st n s1 t = generate_name_st n s2 t.
Proof. intros. now apply absolute_same. Qed.
Print Assumptions C71_absolute_refuted.
(** C71, refuted: and so have names that go up, such as ../x. *)
Theorem C71_up_refuted :
  exists n t s1 s2 f1 f2, ~ absolute n /\ s1 <> s2 /\ generate_name_st n s1 t = Ok f1 /\ generate_name_st n s2 t = Ok f2 /\ file f1 = file f2.
Proof.
  exists (text_of "../x"), 1, 1, 2. eexists. eexists. split; [intros [r E]; discriminate|]. split; [lia|]. split; [vm_compute; reflexivity|]. split; [vm_compute; reflexivity|].
  vm_compute. reflexivity.
Qed.
Print Assumptions C71_up_refuted.

(** Cases *)
Example C71_case : generate_name_t (text_of "maps//./q") 12 = Ok (text_of "maps/q_12.tif") /\ generate_name_st (text_of "q_1") 3 12 = Ok (text_of "3/q_1_12.tif") /\
  generate_name_st (text_of "/maps/q") 3 12 = Ok (text_of "/maps/q_12.tif") /\ generate_name_t (text_of "q.map") 1 = Throw.
Proof. vm_compute. repeat split. Qed.
Example C71_case_hypotheses : ~ absolute (text_of "maps/q") /\ ~ goes_up (text_of "maps/q") /\ ~ has_extension (text_of "maps/q") /\ has_extension (text_of "maps/q.map") /\ absolute (text_of "/maps/q").
Proof.
  split; [intros [r E]; discriminate|]. split.
  - unfold goes_up. vm_compute. intuition discriminate.
  - split; [|split].
    + intros H. apply suffix_spec in H. now vm_compute in H.
    + apply suffix_spec. vm_compute. discriminate.
    + now exists (text_of "maps/q").
Qed.
