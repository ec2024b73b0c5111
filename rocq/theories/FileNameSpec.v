(** Files that names refer to. *)
From Coq Require Import Ascii.
From Verif Require Import Common FileNameModel.

Definition up : text := [dot; dot].
(** The file that a path refers to when no symbolic links are used: ".." leads to the directory above; there is none above the root. *)
Fixpoint resolve_parts (rooted : bool) (above parts : list text) : list text :=
  match parts with
  | [] => rev above
  | p :: parts =>
      if list_eq_dec ascii_dec p up then
        match above with
        | a :: above' => if list_eq_dec ascii_dec a up then resolve_parts rooted (p :: above) parts else resolve_parts rooted above' parts
        | [] => resolve_parts rooted (if rooted then [] else [p]) parts
        end
      else resolve_parts rooted (p :: above) parts
  end.
Definition resolve (p : path) : path := Path (p_root p) (resolve_parts (negb (match p_root p with [] => true | _ => false end)) [] (p_parts p)).

(** The file that a name refers to *)
Definition file (s : text) : path := resolve (parse s).

Definition absolute (s : text) : Prop := exists r, s = slash :: r.
Definition goes_up (s : text) : Prop := In up (p_parts (parse s)).
(** The last part of the name has an extension: something before and after its last dot *)
Definition has_extension (s : text) : Prop :=
  exists before after, before <> [] /\ after <> [] /\ ~ In dot after /\ last (p_parts (parse s)) [] = before ++ dot :: after.
