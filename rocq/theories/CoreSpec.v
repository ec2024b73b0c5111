(** Specification vocabulary for n-dimensional arrays; independent of the model. *)
From Verif Require Import Common.

(** [c] lies in the box that starts at [s] and has extents [n]. *)
Fixpoint in_box (s n c : list Z) : Prop :=
  match s, n, c with
  | [], [], [] => True
  | s :: ss, n :: ns, c :: cs => s <= c < s + n /\ in_box ss ns cs
  | _, _, _ => False
  end.

(** [c] is a cell of an array with shape [n]. *)
Fixpoint in_shape (n c : list Z) : Prop :=
  match n, c with
  | [], [] => True
  | n :: ns, c :: cs => 0 <= c < n /\ in_shape ns cs
  | _, _ => False
  end.

(** Row-major order of cells: the last dimension varies fastest. *)
Fixpoint lex_lt (a b : list Z) : Prop :=
  match a, b with
  | x :: xs, y :: ys => x < y \/ (x = y /\ lex_lt xs ys)
  | _, _ => False
  end.

(** A shape: extents are not negative. *)
Definition is_shape (s : list Z) : Prop := Forall (fun e => 0 <= e) s.

(** A non-empty shape. *)
Definition pos_shape (s : list Z) : Prop := Forall (fun e => 0 < e) s.

(** Number of cells of a shape (the empty list is a shape with one cell). *)
Fixpoint volume (s : list Z) : Z :=
  match s with [] => 1 | e :: t => e * volume t end.
