(** C76: time series as input of a model (timeinputscalar of lue.pcraster). *)
From Coq Require Import Ascii String Lia.
From Verif Require Import Common CoreSpec DecompSpec ArraySpec ArrayRep DecompModel LocalModel ArrayModel PcrModel FileNameModel TimeSeriesModel TimeSeriesSpec TimeSeriesProofs LocalTheorems.
Open Scope Z_scope.

(** A raster with identifiers: a cell with identifier k gets the value in the k-th column of the line of the time step, other cells get no-data. *)
Theorem C76_raster : forall (D F : Type) (to_double : text -> option D) (to_float : D -> F) (nd : F) (junk : Z -> F) files name content rows timestep values xs t a p ids f,
  files name = Some content -> time_series content rows -> values_at rows timestep values -> Forall2 (fun v x => to_double v = Some x) values xs ->
  raster_of a p ids f -> imin t <= 1 -> Z.of_nat (length xs) <= imax t ->
  exists out g, fst (timeinputscalar to_double to_float nd junk files [] name (Ids t ids) timestep) = Ok (Raster out) /\ raster_of a p out g /\
    forall c, in_shape a c ->
      (forall x, f c <> no_data_value t -> 1 <= f c -> nth_error xs (Z.to_nat (f c - 1)) = Some x -> g c = to_float x) /\
      (f c = no_data_value t \/ f c < 1 \/ Z.of_nat (length xs) < f c -> g c = nd).
Proof.
  intros D F td tf nd junk files name content rows ts values xs t a p ids f Fn TS V X R L1 L2. unfold timeinputscalar. cbn [cached find option_map]. rewrite Fn, (read_ok _ _ TS). cbn [fst].
  rewrite (line_ok td tf nd junk rows _ ts values V), (table_ok td values xs X). cbn [obind]. unfold look_up.
  set (table := combine (zseq 1 (Z.of_nat (length xs))) xs).
  assert (K : forall k x, In (k, x) table <-> 1 <= k /\ nth_error xs (Z.to_nat (k - 1)) = Some x) by (intros; apply in_table).
  assert (B : forall k x, In (k, x) table -> 1 <= k <= Z.of_nat (length xs)).
  { intros k x I. apply K in I. destruct I as [A I]. pose proof (proj1 (nth_error_Some xs (Z.to_nat (k - 1))) ltac:(congruence)). lia. }
  replace (forallb _ table) with true.
  2:{ symmetry. apply forallb_forall. intros [k x] I. specialize (B k x I). cbn [fst]. apply Bool.andb_true_iff. rewrite !Z.leb_le. lia. }
  destruct (C30_reclassify_maps_by_table F (fun v => v =? no_data_value t) (fun _ => nd) nd junk (map (fun k => (fst k, tf (snd k))) table) a p ids f) as (out & g & E & G & H); [reflexivity| |exact R|].
  { rewrite map_map. cbn [fst]. change (NoDup (map fst table)). unfold table. rewrite table_keys. apply zseq_nodup. }
  exists out, g. rewrite E. split; [reflexivity|]. split; [exact G|]. intros c Hc. destruct (H c Hc) as [H1 H2]. split.
  - intros x N1 N2 N3. apply H1; [apply Z.eqb_neq; exact N1|]. apply in_map_iff. exists (f c, x). split; [reflexivity|]. apply K. split; assumption.
  - intros Q. apply H2. destruct Q as [Q|Q]; [left; apply Z.eqb_eq; exact Q|]. right. intros v I. apply in_map_iff in I. destruct I as ([k x] & I1 & I2). cbn [fst snd] in I1. inversion I1; subst. specialize (B _ _ I2). lia.
Qed.
Print Assumptions C76_raster.

(** A number as identifier: the value in the k-th column, without rounding. Another number is refused. *)
Theorem C76_number : forall (D F : Type) (to_double : text -> option D) (to_float : D -> F) (nd : F) (junk : Z -> F) files name content rows timestep values xs k,
  files name = Some content -> time_series content rows -> values_at rows timestep values -> Forall2 (fun v x => to_double v = Some x) values xs ->
  (forall x, 1 <= k -> nth_error xs (Z.to_nat (k - 1)) = Some x -> fst (timeinputscalar to_double to_float nd junk files [] name (Id k) timestep) = Ok (Number x)) /\
  (k < 1 \/ Z.of_nat (length xs) < k -> fst (timeinputscalar to_double to_float nd junk files [] name (Id k) timestep) = Throw).
Proof.
  intros D F td tf nd junk files name content rows ts values xs k Fn TS V X. unfold timeinputscalar. cbn [cached find option_map]. rewrite Fn, (read_ok _ _ TS). cbn [fst].
  rewrite (line_ok td tf nd junk rows _ ts values V), (table_ok td values xs X). cbn [obind]. unfold look_up. rewrite lookup_table. split.
  - intros x L N. destruct (Z.leb_spec 1 k); [rewrite N; reflexivity|lia].
  - intros H. destruct (Z.leb_spec 1 k) as [L|L]; [|reflexivity]. replace (nth_error xs (Z.to_nat (k - 1))) with (@None D); [reflexivity|]. symmetry. apply nth_error_None. lia.
Qed.
Print Assumptions C76_number.

(** Refused: a file that does not exist, a time step after the last line, a line with something that is no number (in any column but the first). *)
Theorem C76_refused : forall (D F : Type) (to_double : text -> option D) (to_float : D -> F) (nd : F) (junk : Z -> F) files name e timestep,
  (files name = None \/
   (exists content rows, files name = Some content /\ time_series content rows /\
     (Z.of_nat (length rows) < timestep \/ (exists values v, values_at rows timestep values /\ In v values /\ to_double v = None)))) ->
  fst (timeinputscalar to_double to_float nd junk files [] name e timestep) = Throw.
Proof.
  intros D F td tf nd junk files name e ts H. unfold timeinputscalar. cbn [cached find option_map]. destruct H as [-> |(content & rows & Fn & TS & H)]; [reflexivity|].
  rewrite Fn, (read_ok _ _ TS). cbn [fst]. destruct H as [H|(values & v & V & I & B)].
  - unfold of_lines. rewrite index_0 by lia. replace (nth_error (map rstrip rows) (Z.to_nat (ts - 1))) with (@None text); [reflexivity|]. symmetry. apply nth_error_None. rewrite map_length. lia.
  - rewrite (line_ok td tf nd junk rows _ ts values V), (table_bad td values v I B). reflexivity.
Qed.
Print Assumptions C76_refused.

(** While files are not written, the cache does not make a difference: each call gives what it would give in a program of its own. *)
Theorem C76_cache : forall (D F : Type) (to_double : text -> option D) (to_float : D -> F) (nd : F) (junk : Z -> F) files (before after : list op) name e timestep,
  (forall o, In o before -> match o with WriteFile _ _ => False | _ => True end) ->
  let run := run to_double to_float nd junk in
  run (before ++ Input name e timestep :: after) files [] = run before files [] ++ run [Input name e timestep] files [] ++ skipn (S (length (run before files []))) (run (before ++ Input name e timestep :: after) files []).
Proof.
  intros D F td tf nd junk files before after name e ts W. cbv zeta.
  assert (A : forall c, agrees files c -> exists rest, TimeSeriesModel.run td tf nd junk (before ++ Input name e ts :: after) files c =
     TimeSeriesModel.run td tf nd junk before files c ++ fst (timeinputscalar td tf nd junk files [] name e ts) :: rest).
  { induction before as [|o before IH]; intros c A.
    - cbn [List.app TimeSeriesModel.run]. destruct (call_ok td tf nd junk files c name e ts A) as [E _]. destruct (timeinputscalar td tf nd junk files c name e ts) as [r c']. cbn [fst] in *. eexists. rewrite E. reflexivity.
    - assert (W' : forall o, In o before -> match o with WriteFile _ _ => False | _ => True end) by (intros q I; apply W; right; exact I). pose proof (W o (or_introl eq_refl)) as Wo.
      destruct o as [n2 e2 t2|n2 c2|]; [|destruct Wo|].
      + cbn [List.app TimeSeriesModel.run]. destruct (call_ok td tf nd junk files c n2 e2 t2 A) as [E A']. destruct (timeinputscalar td tf nd junk files c n2 e2 t2) as [r c']. cbn [fst snd] in *.
        destruct (IH W' c' A') as [rest IHr]. exists rest. rewrite IHr. reflexivity.
      + cbn [List.app TimeSeriesModel.run]. apply (IH W'). intros n l K. discriminate. }
  destruct (A []) as [rest E]; [intros n l K; discriminate|]. rewrite E.
  replace (TimeSeriesModel.run td tf nd junk [Input name e ts] files []) with [fst (timeinputscalar td tf nd junk files [] name e ts)].
  2:{ cbn [TimeSeriesModel.run]. destruct (timeinputscalar td tf nd junk files [] name e ts). reflexivity. }
  f_equal. cbn [List.app]. f_equal. rewrite skipn_app. rewrite skipn_all2 by lia. replace (S (length _) - length _)%nat with 1%nat by lia. reflexivity.
Qed.
Print Assumptions C76_cache.

(** A file *)
Definition nl : string := String (ascii_of_nat 10) EmptyString.
Definition crlf : string := String (ascii_of_nat 13) nl.
Definition example_content : text := text_of ("discharge" ++ crlf ++ " 3 " ++ nl ++ "time" ++ nl ++ "a" ++ nl ++ "b" ++ nl ++ nl ++ "1  10 20" ++ crlf ++ " 2 30 40 " ++ nl)%string.
Definition to_number (s : text) : option Z := py_int s.
Definition example_files : text -> option text := fun n => if same_name n (text_of "q.tss") then Some example_content else None.
Ltac line := cbn; intuition discriminate.
Ltac spaces := repeat constructor; unfold space; vm_compute; lia.
Lemma not_blank c l : In c l -> ~ space c -> ~ blank l.
Proof. intros I N B. unfold blank in B. rewrite Forall_forall in B. exact (N (B c I)). Qed.
Ltac solid := unfold space; vm_compute; lia.
Example C76_time_series : exists rows, time_series example_content rows /\ rows = [text_of "1  10 20"; text_of " 2 30 40 "] /\ values_at rows 2 [text_of "30"; text_of "40"].
Proof.
  exists [text_of "1  10 20"; text_of " 2 30 40 "]. split; [|split; [reflexivity|]].
  - exists [text_of "discharge"; text_of " 3 "; text_of "time"; text_of "a"; text_of "b"; []; text_of "1  10 20"; text_of " 2 30 40 "; []].
    exists [text_of "discharge"; text_of " 3 "; text_of "time"; text_of "a"; text_of "b"; text_of "1  10 20"; text_of " 2 30 40 "].
    exists (text_of "discharge"), (text_of " 3 "), [text_of "time"; text_of "a"; text_of "b"]. split; [|split; [|split; [reflexivity|]]].
    + apply (one_line (text_of "discharge") (carriage_return ++ line_feed)); [line|line|right; reflexivity|].
      apply (one_line (text_of " 3 ") line_feed); [line|line|left; reflexivity|].
      apply (one_line (text_of "time") line_feed); [line|line|left; reflexivity|].
      apply (one_line (text_of "a") line_feed); [line|line|left; reflexivity|].
      apply (one_line (text_of "b") line_feed); [line|line|left; reflexivity|].
      apply (one_line [] line_feed); [line|line|left; reflexivity|].
      apply (one_line (text_of "1  10 20") (carriage_return ++ line_feed)); [line|line|right; reflexivity|].
      apply (one_line (text_of " 2 30 40 ") line_feed); [line|line|left; reflexivity|].
      apply last_line; line.
    + repeat (first [apply no_lines|apply skip_line; [apply Forall_nil|]|apply keep_line]).
      * apply (not_blank "d"%char); [now left|solid].
      * apply (not_blank "3"%char); [cbn; auto|solid].
      * apply (not_blank "t"%char); [now left|solid].
      * apply (not_blank "a"%char); [now left|solid].
      * apply (not_blank "b"%char); [now left|solid].
      * apply (not_blank "1"%char); [now left|solid].
      * apply (not_blank "2"%char); [cbn; auto|solid].
    + apply (one_word (text_of " ") (text_of "3") [] (text_of " ")); [spaces|discriminate|spaces|right; exists " "%char, []; split; [reflexivity|solid]|apply no_words; spaces].
  - split; [lia|]. exists (text_of " 2 30 40 "), (text_of "2"). split; [reflexivity|].
    apply (one_word (text_of " ") (text_of "2") _ (text_of " 30 40 ")); [spaces|discriminate|spaces|right; exists " "%char, (text_of "30 40 "); split; [reflexivity|solid]|].
    apply (one_word (text_of " ") (text_of "30") _ (text_of " 40 ")); [spaces|discriminate|spaces|right; exists " "%char, (text_of "40 "); split; [reflexivity|solid]|].
    apply (one_word (text_of " ") (text_of "40") _ (text_of " ")); [spaces|discriminate|spaces|right; exists " "%char, []; split; [reflexivity|solid]|apply no_words; spaces].
Qed.
Example C76_case :
  fst (timeinputscalar to_number (fun x => x) (-1) (fun _ => 0) example_files [] (text_of "q.tss") (Id 2) 2) = Ok (Number 40) /\
  fst (timeinputscalar to_number (fun x => x) (-1) (fun _ => 0) example_files [] (text_of "q.tss") (Id 3) 2) = Throw /\
  fst (timeinputscalar to_number (fun x => x) (-1) (fun _ => 0) example_files [] (text_of "q.tss") (Id 2) 3) = Throw /\
  fst (timeinputscalar to_number (fun x => x) (-1) (fun _ => 0) example_files [] (text_of "r.tss") (Id 2) 2) = Throw /\
  fst (timeinputscalar to_number (fun x => x) (-1) (fun _ => 0) example_files [] (text_of "q.tss") (Ids i32 (PArray [4] [2] [Placed 0 [0] [2] [2; 0]; Placed 0 [2] [2] [1; 3]])) 1) =
    Ok (Raster (PArray [4] [2] [Placed 0 [0] [2] [20; -1]; Placed 0 [2] [2] [10; -1]])).
Proof. vm_compute. repeat split. Qed.

(** Refuted: a file that is written by the program after it was used is not read again, until setclone is called. *)
Theorem C76_written_again_refuted : forall (D F : Type) (to_double : text -> option D) (to_float : D -> F) (nd : F) (junk : Z -> F) files name content rows e1 t1 content2 e t,
  files name = Some content -> time_series content rows ->
  let run := run to_double to_float nd junk in
  skipn 1 (run [Input name e1 t1; WriteFile name content2; Input name e t] files []) = run [Input name e t] files [] /\
  skipn 1 (run [Input name e1 t1; WriteFile name content2; SetClone; Input name e t] files []) = run [Input name e t] (fun n => if same_name n name then Some content2 else files n) [].
Proof.
  intros D F td tf nd junk files name content rows e1 t1 content2 e t Fn TS. cbv zeta. cbn [TimeSeriesModel.run]. unfold timeinputscalar. cbn [cached find option_map]. rewrite Fn, (read_ok _ _ TS).
  assert (S : same_name name name = true) by (apply same_name_iff; reflexivity). unfold cached. cbn [find fst]. rewrite S. cbn [option_map snd skipn]. split; [reflexivity|].
  destruct (read_lines content2); reflexivity.
Qed.
Print Assumptions C76_written_again_refuted.

(** Refuted: a time step before the first one is refused. Time step 0 gives the values of the last line, -1 those of the line before it. *)
Theorem C76_before_first_refuted : forall (D F : Type) (to_double : text -> option D) (to_float : D -> F) (nd : F) (junk : Z -> F) files name content rows e t,
  files name = Some content -> time_series content rows -> 1 - Z.of_nat (length rows) <= t <= 0 ->
  fst (timeinputscalar to_double to_float nd junk files [] name e t) = fst (timeinputscalar to_double to_float nd junk files [] name e (t + Z.of_nat (length rows))).
Proof.
  intros D F td tf nd junk files name content rows e t Fn TS L. unfold timeinputscalar. cbn [cached find option_map]. rewrite Fn, (read_ok _ _ TS). cbn [fst]. unfold of_lines.
  replace (index (t - 1) (map rstrip rows)) with (index (t + Z.of_nat (length rows) - 1) (map rstrip rows)); [reflexivity|].
  unfold index. rewrite map_length. destruct (Z.ltb_spec (t - 1) 0); [|lia]. destruct (Z.ltb_spec (t + Z.of_nat (length rows) - 1) 0); [lia|].
  replace (t - 1 + Z.of_nat (length rows)) with (t + Z.of_nat (length rows) - 1) by lia. reflexivity.
Qed.
Print Assumptions C76_before_first_refuted.
Example C76_before_first_ex : fst (timeinputscalar to_number (fun x => x) (-1) (fun _ => 0) example_files [] (text_of "q.tss") (Id 1) 0) = Ok (Number 30).
Proof. vm_compute. reflexivity. Qed.

(** Refuted: the values are those of the line that starts with the time step. A file that starts with time step 5 is read as if it starts with 1. *)
Theorem C76_time_of_line_refuted : exists content rows, time_series content rows /\ rows = [text_of "5 10"; text_of "6 20"] /\
  fst (timeinputscalar to_number (fun x => x) (-1) (fun _ => 0) (fun _ => Some content) [] (text_of "q.tss") (Id 1) 1) = Ok (Number 10) /\
  fst (timeinputscalar to_number (fun x => x) (-1) (fun _ => 0) (fun _ => Some content) [] (text_of "q.tss") (Id 1) 5) = Throw.
Proof.
  exists (text_of ("q" ++ nl ++ "0" ++ nl ++ "5 10" ++ nl ++ "6 20")%string), [text_of "5 10"; text_of "6 20"]. split; [|split; [reflexivity|split; vm_compute; reflexivity]].
  exists [text_of "q"; text_of "0"; text_of "5 10"; text_of "6 20"], [text_of "q"; text_of "0"; text_of "5 10"; text_of "6 20"], (text_of "q"), (text_of "0"), []. split; [|split; [|split; [reflexivity|]]].
  - apply (one_line (text_of "q") line_feed); [line|line|left; reflexivity|]. apply (one_line (text_of "0") line_feed); [line|line|left; reflexivity|].
    apply (one_line (text_of "5 10") line_feed); [line|line|left; reflexivity|]. apply last_line; line.
  - repeat (first [apply no_lines|apply keep_line]).
    + apply (not_blank "q"%char); [now left|solid].
    + apply (not_blank "0"%char); [now left|solid].
    + apply (not_blank "5"%char); [now left|solid].
    + apply (not_blank "6"%char); [now left|solid].
  - apply (one_word [] (text_of "0") [] []); [constructor|discriminate|spaces|left; reflexivity|apply no_words; constructor].
Qed.
Print Assumptions C76_time_of_line_refuted.

(** Refuted: a file with an empty title (an empty first line) is read or refused. It is read as if the number of columns is the title: lines of the header and of
    the first time steps are skipped or taken for values. Here, the values of time step 3 are given for time step 1. *)
Theorem C76_empty_title_refuted :
  let content := text_of (nl ++ "2" ++ nl ++ "3" ++ nl ++ "4" ++ nl ++ "1 10" ++ nl ++ "2 20" ++ nl ++ "3 30" ++ nl)%string in
  fst (timeinputscalar to_number (fun x => x) (-1) (fun _ => 0) (fun _ => Some content) [] (text_of "q.tss") (Id 1) 1) = Ok (Number 30).
Proof. vm_compute. reflexivity. Qed.
Print Assumptions C76_empty_title_refuted.

(** Refuted: an array with identifiers of 8 bits can be used with every file. With more than 255 columns it cannot, whatever the identifiers are. *)
Theorem C76_many_columns_refuted : forall (D F : Type) (to_double : text -> option D) (to_float : D -> F) (nd : F) (junk : Z -> F) files name content rows timestep values xs t ids,
  files name = Some content -> time_series content rows -> values_at rows timestep values -> Forall2 (fun v x => to_double v = Some x) values xs ->
  imin t <= 1 <= imax t -> imax t < Z.of_nat (length xs) ->
  fst (timeinputscalar to_double to_float nd junk files [] name (Ids t ids) timestep) = Throw.
Proof.
  intros D F td tf nd junk files name content rows ts values xs t ids Fn TS V X L1 L2. unfold timeinputscalar. cbn [cached find option_map]. rewrite Fn, (read_ok _ _ TS). cbn [fst].
  rewrite (line_ok td tf nd junk rows _ ts values V), (table_ok td values xs X). cbn [obind]. unfold look_up. replace (forallb _ _) with false; [reflexivity|]. symmetry.
  apply Bool.not_true_is_false. intros B. rewrite forallb_forall in B.
  destruct (nth_error xs (Z.to_nat (Z.of_nat (length xs) - 1))) as [x|] eqn:N.
  - assert (I : In (Z.of_nat (length xs), x) (combine (zseq 1 (Z.of_nat (length xs))) xs)) by (apply in_table; split; [lia|exact N]). specialize (B _ I). cbn [fst] in B.
    apply Bool.andb_true_iff in B. rewrite !Z.leb_le in B. lia.
  - apply nth_error_None in N. lia.
Qed.
Print Assumptions C76_many_columns_refuted.
