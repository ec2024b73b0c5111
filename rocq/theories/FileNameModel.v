(** Model of generateNameT, generateNameS and generateNameST: framework/python/pcraster/framework/__init__.py:338-390.
    pathlib (PurePosixPath) and os.path.join are modelled after CPython's (3.9 up to 3.13); not modelled: arguments that are no strings, surrogates. *)
From Coq Require Import Ascii String DecimalString DecimalZ.
From Verif Require Import Common.
Open Scope Z_scope.

Definition text : Type := list ascii.
Definition slash : ascii := "/"%char.
Definition dot : ascii := "."%char.
Definition text_of (s : string) : text := list_ascii_of_string s.

(** str.split("/") *)
Fixpoint split (s : text) : list text :=
  match s with
  | [] => [[]]
  | c :: s =>
      if Ascii.eqb c slash then [] :: split s
      else match split s with part :: parts => (c :: part) :: parts | [] => [[c]] end
  end.

(** A path: root and parts *)
Record path : Type := Path { p_root : text; p_parts : list text }.

(** posixpath.splitroot: two slashes at the start are something else than one or more than two *)
Definition root_of (s : text) : text :=
  match s with
  | a :: b :: c :: _ => if Ascii.eqb a slash then if Ascii.eqb b slash then if Ascii.eqb c slash then [slash] else [slash; slash] else [slash] else []
  | [a; b] => if Ascii.eqb a slash then if Ascii.eqb b slash then [slash; slash] else [slash] else []
  | [a] => if Ascii.eqb a slash then [slash] else []
  | [] => []
  end.
Definition is_part (s : text) : bool := match s with [] => false | [c] => negb (Ascii.eqb c dot) | _ => true end.
(** PurePath._parse_path: empty parts and "." are dropped *)
Definition parse (s : text) : path := Path (root_of s) (filter is_part (split s)).

(** PurePath.parent, name, suffix *)
Definition parent (p : path) : path := Path (p_root p) (removelast (p_parts p)).
Definition name (p : path) : text := last (p_parts p) [].
(** str.rfind("."), counted from the start *)
Fixpoint last_dot (i : nat) (s : text) : option nat :=
  match s with
  | [] => None
  | c :: s => match last_dot (S i) s with Some j => Some j | None => if Ascii.eqb c dot then Some i else None end
  end.
Definition suffix (p : path) : text :=
  match last_dot 0 (name p) with
  | Some i => if (0 <? i)%nat && (i <? length (name p) - 1)%nat then skipn i (name p) else []
  | None => []
  end.

(** "/".join *)
Fixpoint join (parts : list text) : text :=
  match parts with
  | [] => []
  | [p] => p
  | p :: parts => p ++ slash :: join parts
  end.
(** str(path) *)
Definition to_text (p : path) : text :=
  match p_root p, p_parts p with [], [] => [dot] | r, parts => r ++ join parts end.
(** pathlib.Path(path, s) *)
Definition join_path (p : path) (s : text) : path :=
  match p_root (parse s) with [] => Path (p_root p) (p_parts p ++ p_parts (parse s)) | _ => parse s end.

(** Formatting an int: f"{n}", "%d" *)
Definition digits (n : Z) : text := text_of (NilZero.string_of_int (Z.to_int n)).

(** generateNameT, 338-367 *)
Definition generate_name_t (nm : text) (timestep : Z) : outcome text :=
  match nm with
  | [] => Throw
  | _ =>
      if timestep <? 1 then Throw
      else
        let p := parse nm in
        match suffix p with
        | [] => Ok (to_text (join_path (parent p) (name p ++ text_of "_" ++ digits timestep ++ text_of ".tif")))
        | _ => Throw
        end
  end.

(** os.path.join(a, b) for an [a] that is not empty and does not end with a slash *)
Definition os_join (a b : text) : text := match b with c :: _ => if Ascii.eqb c slash then b else a ++ slash :: b | [] => a ++ [slash] end.
(** generateNameS, 370-381 *)
Definition generate_name_s (nm : text) (sample : Z) : text := os_join (digits sample) nm.
(** generateNameST, 384-390 *)
Definition generate_name_st (nm : text) (sample timestep : Z) : outcome text :=
  obind (generate_name_t nm timestep) (fun nm => Ok (generate_name_s nm sample)).
