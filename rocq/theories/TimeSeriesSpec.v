(** Files with time series, as PCRaster's documentation describes them: a title, the number of columns, the name of each column, and a line with values for
    each time step, the first of which is the time step. *)
From Coq Require Import Ascii String.
From Verif Require Import Common FileNameModel.
Open Scope Z_scope.

(** Space, tab, ...: characters between values *)
Definition space (c : ascii) : Prop := let n := nat_of_ascii c in (9 <= n <= 13)%nat \/ (28 <= n <= 32)%nat.
Definition line_feed : text := [ascii_of_nat 10].
Definition carriage_return : text := [ascii_of_nat 13].
(** A line without content *)
Definition blank (l : text) : Prop := Forall space l.

(** A text consists of lines that end in a line feed, or a carriage return and a line feed; the last one need not *)
Inductive text_with_lines : list text -> text -> Prop :=
| last_line l : ~ In (ascii_of_nat 10) l -> ~ In (ascii_of_nat 13) l -> text_with_lines [l] l
| one_line l e ls s : ~ In (ascii_of_nat 10) l -> ~ In (ascii_of_nat 13) l -> e = line_feed \/ e = carriage_return ++ line_feed ->
    text_with_lines ls s -> text_with_lines (l :: ls) (l ++ e ++ s).
(** Lines that are blank do not count *)
Inductive without_blank_lines : list text -> list text -> Prop :=
| no_lines : without_blank_lines [] []
| skip_line l ls ks : blank l -> without_blank_lines ls ks -> without_blank_lines (l :: ls) ks
| keep_line l ls ks : ~ blank l -> without_blank_lines ls ks -> without_blank_lines (l :: ls) (l :: ks).
(** Words with spaces between them, and possibly before and after *)
Inductive spaced : list text -> text -> Prop :=
| no_words b : blank b -> spaced [] b
| one_word b w ws r : blank b -> w <> [] -> Forall (fun c => ~ space c) w -> r = [] \/ (exists c r', r = c :: r' /\ space c) -> spaced ws r -> spaced (w :: ws) (b ++ w ++ r).

(** A file with these lines of values *)
Definition time_series (content : text) (rows : list text) : Prop :=
  exists lines kept title count names,
    text_with_lines lines content /\ without_blank_lines lines kept /\ kept = title :: count :: names ++ rows /\ spaced [digits (Z.of_nat (length names))] count.
(** The values for a time step, counted from one *)
Definition values_at (rows : list text) (timestep : Z) (values : list text) : Prop :=
  1 <= timestep /\ exists row first, nth_error rows (Z.to_nat (timestep - 1)) = Some row /\ spaced (first :: values) row.
