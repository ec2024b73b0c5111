(** Model of the configuration entries: source/framework/core/source/configuration_entry.cpp.
    HPX's configuration is a map from keys to texts (hpx::get_config_entry); that HPX expands references to other entries in these texts is not modelled.
    Characters are bytes, classified as in the "C" locale. *)
From Coq Require Import Ascii String.
From Verif Require Import Common FileNameModel.
Local Open Scope Z_scope.

(** The code of a character *)
Definition code (c : ascii) : Z := Z.of_nat (nat_of_ascii c).
(** [[:space:]] and [[:digit:]] *)
Definition is_space (c : ascii) : bool := ((9 <=? code c) && (code c <=? 13)) || (code c =? 32).
Definition is_digit (c : ascii) : bool := (48 <=? code c) && (code c <=? 57).

(** The longest prefix of characters for which [p] holds, and the rest *)
Fixpoint span (p : ascii -> bool) (s : text) : text * text :=
  match s with
  | [] => ([], [])
  | c :: r => if p c then let (a, b) := span p r in (c :: a, b) else ([], s)
  end.

(** The types of integers of configuration_entry.cpp:222-242 *)
Inductive integer_type := UInt32 | Int32 | UInt64 | Int64.
Definition is_signed (t : integer_type) : bool := match t with Int32 | Int64 => true | _ => false end.
Definition bits (t : integer_type) : Z := match t with UInt32 | Int32 => 32 | _ => 64 end.
Definition max_value (t : integer_type) : Z := if is_signed t then 2 ^ (bits t - 1) - 1 else 2 ^ bits t - 1.

(** The value of a series of digits; [None] if there is another character or nothing at all *)
Fixpoint digits_value (acc : Z) (s : text) : option Z :=
  match s with
  | [] => Some acc
  | c :: r => if is_digit c then digits_value (acc * 10 + (code c - 48)) r else None
  end.
Definition unsigned_value (s : text) : option Z := match s with [] => None | _ => digits_value 0 s end.

(** boost::lexical_cast to an integer, as documented: an optional sign, digits, nothing else; a value that does not fit is refused.  The value of
    an unsigned integer with a minus sign is that of the unsigned number, negated in the unsigned type. *)
Definition lexical_cast (t : integer_type) (s : text) : option Z :=
  let '(negative, magnitude) := match s with
    | c :: r => if code c =? 45 then (true, r) else if code c =? 43 then (false, r) else (false, s)
    | [] => (false, s)
    end in
  match unsigned_value magnitude with
  | None => None
  | Some v =>
      if is_signed t then
        if negative then if v <=? max_value t + 1 then Some (- v) else None
        else if v <=? max_value t then Some v else None
      else if v <=? max_value t then Some (if negative then (2 ^ bits t - v) mod 2 ^ bits t else v) else None
  end.

(** cast<T> for integers, 82-98 *)
Definition cast_integer (t : integer_type) (value : text) : outcome Z :=
  match lexical_cast t value with Some v => Ok v | None => Throw end.

Definition comma : ascii := ","%char.
Definition open_bracket : ascii := "["%char.
Definition close_bracket : ascii := "]"%char.

(** trim_vector, 32-44: the regular expression is for a bracket, characters other than the closing bracket, and a closing bracket; the whole text must match *)
Definition trim_vector (value : text) : outcome text :=
  match value with
  | [] => Throw
  | c :: r =>
      if Ascii.eqb c open_bracket then
        let (inner, rest) := span (fun c => negb (Ascii.eqb c close_bracket)) r in
        match rest with [_] => Ok inner | _ => Throw end
      else Throw
  end.

(** The regular expression of 111 and 120 (spaces, digits, spaces, the end of the text or a comma; the digits are captured) at the start of a text: the capture and what follows the match.  Because spaces,
    digits and the comma are different characters, matching as much as possible without going back finds a match if there is one. *)
Definition match_here (s : text) : option (text * text) :=
  let (_, s1) := span is_space s in
  let (digits, s2) := span is_digit s1 in
  let (_, s3) := span is_space s2 in
  match digits with
  | [] => None
  | _ => match s3 with
         | [] => Some (digits, [])
         | c :: rest => if Ascii.eqb c comma then Some (digits, rest) else None
         end
  end.

(** std::regex_search: the first position with a match *)
Fixpoint regex_search (s : text) : option (text * text) :=
  match match_here s with
  | Some m => Some m
  | None => match s with [] => None | _ :: r => regex_search r end
  end.

(** The loop and the check of cast_list, 60-73; [fuel] is enough if it exceeds the number of characters (each match takes at least one) *)
Fixpoint cast_matches (fuel : nat) (t : integer_type) (string : text) : outcome (list Z) :=
  match fuel with
  | O => UB
  | S fuel =>
      match regex_search string with
      | Some (m, suffix) => obind (cast_integer t m) (fun v => obind (cast_matches fuel t suffix) (fun vs => Ok (v :: vs)))
      | None => match string with [] => Ok [] | _ => Throw end
      end
  end.

(** cast_list, 53-76, which is cast<std::vector<T>>, 108-122 *)
Definition cast_list (t : integer_type) (value : text) : outcome (list Z) :=
  obind (trim_vector value) (fun string => cast_matches (S (List.length string)) t string).

(** cast<lue::Shape<T, 2>>, 125-165 *)
Definition cast_shape (t : integer_type) (value : text) : outcome (list Z) :=
  obind (cast_list t value) (fun values => if Nat.eqb (List.length values) 2 then Ok values else Throw).

(** hpx::get_config_entry *)
Definition configuration := text -> option text.
Definition get_config_entry (config : configuration) (key default : text) : text :=
  match config key with Some v => v | None => default end.

(** std::filesystem::path::filename *)
Definition filename (p : text) : text := last (split p) [].

(** application_section, 15-22 *)
Definition application_section (config : configuration) : text :=
  text_of "application." ++ filename (get_config_entry config (text_of "hpx.program_name") []).

(** configuration_entry, 25-29 *)
Definition configuration_entry (config : configuration) (section key default : text) : text :=
  get_config_entry config (section ++ text_of "." ++ key) default.

Section Entry.
Context {T : Type} (cast : text -> outcome T) (config : configuration).

(** required_configuration_entry, 171-183 *)
Definition required_configuration_entry (section key : text) : outcome T :=
  match configuration_entry config section key [] with
  | [] => Throw
  | value => cast value
  end.
(** required_configuration_entry, 186-190 *)
Definition required_application_entry (key : text) : outcome T := required_configuration_entry (application_section config) key.

(** optional_configuration_entry, 193-199 *)
Definition optional_configuration_entry (section key : text) (default_value : T) : outcome T :=
  match configuration_entry config section key [] with
  | [] => Ok default_value
  | value => cast value
  end.
(** optional_configuration_entry, 202-206 *)
Definition optional_application_entry (key : text) (default_value : T) : outcome T :=
  optional_configuration_entry (application_section config) key default_value.
End Entry.

(** cast<std::string>, 101-105 *)
Definition cast_text (value : text) : outcome text := Ok value.
