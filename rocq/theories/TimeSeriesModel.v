(** Model of timeinputscalar of lue.pcraster: framework/python/pcraster/__init__.py:1168-1190, and the cache in its configuration (72, 113).
    Texts contain ASCII characters only.  float() is a parameter, with the conversion to float32.  int() is only modelled for texts with a sign "-" or
    without sign, and without underscores. *)
From Coq Require Import Ascii String DecimalString DecimalZ.
From Verif Require Import Common LocalModel ArrayModel FileNameModel.
Open Scope Z_scope.

(** str.isspace *)
Definition is_space (c : ascii) : bool := let n := Z.of_nat (nat_of_ascii c) in ((9 <=? n) && (n <=? 13)) || ((28 <=? n) && (n <=? 32)).
Definition lf : ascii := ascii_of_nat 10.
Definition cr : ascii := ascii_of_nat 13.

(** Reading a file in text mode, line by line: universal newlines.  Line ends are left out: they are removed by rstrip. *)
Fixpoint lines_of (s : text) : list text :=
  match s with
  | [] => [[]]
  | c :: r =>
      if Ascii.eqb c lf then [] :: lines_of r
      else if Ascii.eqb c cr then match r with d :: r' => if Ascii.eqb d lf then [] :: lines_of r' else [] :: lines_of r | [] => [] :: lines_of r end
      else match lines_of r with l :: ls => (c :: l) :: ls | [] => [[c]] end
  end.
(** str.rstrip *)
Fixpoint rstrip (s : text) : text :=
  match s with
  | [] => []
  | c :: s => match rstrip s with [] => if is_space c then [] else [c] | r => c :: r end
  end.
Fixpoint lstrip (s : text) : text := match s with [] => [] | c :: r => if is_space c then lstrip r else s end.
(** str.split *)
Fixpoint words (s : text) : list text :=
  match s with
  | [] => []
  | c :: r =>
      if is_space c then words r
      else match r with
           | [] => [[c]]
           | d :: _ => if is_space d then [c] :: words r else match words r with w :: ws => (c :: w) :: ws | [] => [[c]] end
           end
  end.
(** int *)
Definition py_int (s : text) : option Z :=
  option_map Z.of_int (NilZero.int_of_string (string_of_list_ascii (rstrip (lstrip s)))).
(** list[k:] *)
Definition slice_from {T} (k : Z) (l : list T) : list T := skipn (Z.to_nat (if k <? 0 then Z.max 0 (k + Z.of_nat (length l)) else k)) l.
(** list[k] *)
Definition index {T} (k : Z) (l : list T) : outcome T :=
  let k := if k <? 0 then k + Z.of_nat (length l) else k in
  if k <? 0 then Throw else match nth_error l (Z.to_nat k) with Some x => Ok x | None => Throw end.

(** 1172-1179 *)
Definition not_empty (l : text) : bool := match l with [] => false | _ => true end.
Definition read_lines (content : text) : outcome (list text) :=
  let lines := filter not_empty (map rstrip (lines_of content)) in
  obind (index 1 lines) (fun line =>
  match py_int line with Some n => Ok (slice_from (n + 2) lines) | None => Throw end).

(** configuration.timeseries_files *)
Definition cache : Type := list (text * list text).
Definition same_name (a b : text) : bool := if list_eq_dec ascii_dec a b then true else false.
Definition cached (name : text) (c : cache) : option (list text) := option_map snd (find (fun e => same_name (fst e) name) c).

Section Values.
(** double and float; [to_double]: float(text) *)
Context {D F : Type} (to_double : text -> option D) (to_float : D -> F) (mark : F) (junk : Z -> F).

(** 1182-1183: the table of columns, from 1 *)
Fixpoint table_from (i : Z) (values : list text) : outcome (list (Z * D)) :=
  match values with
  | [] => Ok []
  | v :: values =>
      match to_double v with
      | Some x => obind (table_from (i + 1) values) (fun t => Ok ((i, x) :: t))
      | None => Throw
      end
  end.

(** What is passed and returned: an int, or an array with integers of type [t] with its no-data value *)
Inductive ids : Type := Id (z : Z) | Ids (t : itype) (a : parray Z).
Inductive result : Type := Number (x : D) | Raster (a : parray F).

(** lfr.reclassify(..., dtype=np.float32): python/source/algorithm/global_operation/reclassify.cpp:14-48.  A key that is no value of the type of the
    array is a TypeError. *)
Definition look_up (table : list (Z * D)) (e : ids) : outcome result :=
  match e with
  | Id z => match lookup table z with Some x => Ok (Number x) | None => Throw end
  | Ids t a =>
      if forallb (fun k => (imin t <=? fst k) && (fst k <=? imax t)) table then
        obind (reclassify (fun v => v =? no_data_value t) (fun _ => mark) junk (map (fun k => (fst k, to_float (snd k))) table) a) (fun r => Ok (Raster r))
      else Throw
  end.

(** 1168-1190 *)
Definition of_lines (lines : list text) (e : ids) (timestep : Z) : outcome result :=
  obind (index (timestep - 1) lines) (fun line =>
  obind (table_from 1 (tl (words line))) (fun table => look_up table e)).
Definition timeinputscalar (files : text -> option text) (c : cache) (name : text) (e : ids) (timestep : Z) : outcome result * cache :=
  match cached name c with
  | Some lines => (of_lines lines e timestep, c)
  | None =>
      match files name with
      | None => (Throw, c)
      | Some content =>
          match read_lines content with
          | Ok lines => (of_lines lines e timestep, (name, lines) :: c)
          | Throw => (Throw, c)
          | UB => (UB, c)
          end
      end
  end.

(** A program: calls, files that are written, and setclone (83-113) *)
Inductive op : Type := Input (name : text) (e : ids) (timestep : Z) | WriteFile (name content : text) | SetClone.
Fixpoint run (ops : list op) (files : text -> option text) (c : cache) : list (outcome result) :=
  match ops with
  | [] => []
  | Input name e t :: ops => let (r, c) := timeinputscalar files c name e t in r :: run ops files c
  | WriteFile name content :: ops => run ops (fun n => if same_name n name then Some content else files n) c
  | SetClone :: ops => run ops files []
  end.
End Values.
