(** What is expected of configuration entries, in terms of texts. *)
From Coq Require Import Ascii String.
From Verif Require Import Common FileNameModel ConfigEntryModel.
Local Open Scope Z_scope.

(** Decimal notation *)
Definition digit (d : Z) : ascii := nth (Z.to_nat d) (text_of "0123456789") "0"%char.
Inductive decimal : text -> Z -> Prop :=
| decimal_one d : 0 <= d <= 9 -> decimal [digit d] d
| decimal_more s n d : decimal s n -> 0 <= d <= 9 -> decimal (s ++ [digit d]) (10 * n + d).

(** White space: tab, newline, vertical tab, form feed, carriage return, space *)
Definition white (s : text) : Prop := Forall (fun c => In (nat_of_ascii c) [9; 10; 11; 12; 13; 32]%nat) s.

(** A number with a sign or without *)
Inductive spells : text -> Z -> Prop :=
| spells_plain s n : decimal s n -> spells s n
| spells_plus s n : decimal s n -> spells (text_of "+" ++ s) n
| spells_minus s n : decimal s n -> spells (text_of "-" ++ s) (- n).

(** The values of the types *)
Definition lowest (t : integer_type) : Z :=
  match t with UInt32 | UInt64 => 0 | Int32 => -2147483648 | Int64 => -9223372036854775808 end.
Definition highest (t : integer_type) : Z :=
  match t with UInt32 => 4294967295 | UInt64 => 18446744073709551615 | Int32 => 2147483647 | Int64 => 9223372036854775807 end.

(** Parts of a text, separated by commas *)
Fixpoint separated (parts : list text) : text :=
  match parts with
  | [] => []
  | [p] => p
  | p :: ps => p ++ text_of "," ++ separated ps
  end.

(** A list of numbers in the notation of the documentation and the tests: [200, 300] *)
Definition item (n : Z) (s : text) : Prop := exists before number after, white before /\ decimal number n /\ white after /\ s = before ++ number ++ after.
Definition list_notation (ns : list Z) (s : text) : Prop :=
  exists parts, Forall2 item ns parts /\ s = text_of "[" ++ separated parts ++ text_of "]".

(** A text that ends in a number, whatever is before it *)
Definition ends_in_number (s : text) (n : Z) : Prop :=
  exists before number after, s = before ++ number ++ after /\ decimal number n /\ white after /\
    forall before' d, 0 <= d <= 9 -> before <> before' ++ [digit d].

(** The numbers at the end of those parts that end in a number *)
Inductive picks : list text -> list Z -> Prop :=
| picks_nil : picks [] []
| picks_number p n ps ns : ends_in_number p n -> picks ps ns -> picks (p :: ps) (n :: ns)
| picks_other p ps ns : (forall n, ~ ends_in_number p n) -> picks ps ns -> picks (p :: ps) ns.
