(** Model of parse_array_pathname3 and parse_array_pathname: data_model/hl/source/util.cpp:10-89.
    boost's split on a character gives the tokens between all slashes, as str.split does (FileNameModel.split).
    std::filesystem::path is that of the C++ standard for POSIX systems, where a path without root name is absolute if it starts with a slash. *)
From Coq Require Import Ascii String.
From Verif Require Import Common FileNameModel.

(** parse_array_pathname3, 10-39 *)
Definition parse_array_pathname3 (array_pathname : text) : outcome (text * text * text) :=
  match split array_pathname with
  | [phenomenon; property_set; property] => Ok (phenomenon, property_set, property)
  | _ => Throw
  end.

(** std::filesystem::path::has_filename *)
Definition has_filename (p : text) : bool := match p with [] => false | _ => negb (Ascii.eqb (last p slash) slash) end.
(** std::filesystem::path::is_absolute *)
Definition is_absolute (p : text) : bool := match p with c :: _ => Ascii.eqb c slash | [] => false end.
(** std::filesystem::path::operator/= *)
Definition append (p q : text) : text := if is_absolute q then q else if has_filename p then p ++ slash :: q else p ++ q.

(** parse_array_pathname, 42-89: the last three tokens, from the back (65-70); the other ones are appended to each other (72-79) *)
Definition parse_array_pathname (array_pathname : text) : outcome (text * text * text * text) :=
  match rev (split array_pathname) with
  | property :: property_set :: phenomenon :: last :: others =>
      match rev (last :: others) with
      | front :: tokens =>
          let dataset := fold_left append tokens front in
          Ok (if is_absolute array_pathname then slash :: dataset else dataset, phenomenon, property_set, property)
      | [] => UB
      end
  | _ => Throw
  end.
