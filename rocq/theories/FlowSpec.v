(** Specification vocabulary for flow direction networks; independent of the code. *)
From Verif Require Import Common.

(** A cell of a 2D array: row and column. *)
Definition cell := (Z * Z)%type.

Definition inside (a0 a1 : Z) (x : cell) : Prop := 0 <= fst x < a0 /\ 0 <= snd x < a1.

(** Flow directions are numbered like the keys of a numeric keypad

      7 8 9
      4 5 6
      1 2 3

    5 is a sink; values that are not on the keypad behave like sinks. *)
Definition keypad (d : Z) : Z * Z :=
  if (1 <=? d) && (d <=? 9) then (1 - (d - 1) / 3, (d - 1) mod 3 - 1) else (0, 0).

Definition towards (f : cell -> Z) (x : cell) : cell :=
  (fst x + fst (keypad (f x)), snd x + snd (keypad (f x))).

(** Water in cell [x], which has a flow direction, flows into another cell [y]. *)
Definition drains (a0 a1 : Z) (nd : Z -> bool) (f : cell -> Z) (x y : cell) : Prop :=
  inside a0 a1 x /\ nd (f x) = false /\ y = towards f x /\ y <> x.

(** A network: a cell does not drain into a cell of the array without flow direction. *)
Definition valid_network (a0 a1 : Z) (nd : Z -> bool) (f : cell -> Z) : Prop :=
  forall x y, drains a0 a1 nd f x y -> inside a0 a1 y -> nd (f y) = false.

(** [path x y]: the water of [x] passes [y]; each cell of the path is in the array. *)
Inductive path (a0 a1 : Z) (nd : Z -> bool) (f : cell -> Z) : cell -> cell -> Prop :=
| path_here x : inside a0 a1 x -> nd (f x) = false -> path a0 a1 nd f x x
| path_step x y z : drains a0 a1 nd f x y -> path a0 a1 nd f y z -> path a0 a1 nd f x z.

(** Water never returns to a cell it has left. *)
Definition acyclic (a0 a1 : Z) (nd : Z -> bool) (f : cell -> Z) : Prop :=
  forall x y, drains a0 a1 nd f x y -> ~ path a0 a1 nd f y x.

(** The eight neighbours of a cell *)
Definition neighbours (x : cell) : list cell :=
  let (r, c) := x in
  [(r - 1, c - 1); (r - 1, c); (r - 1, c + 1); (r, c - 1); (r, c + 1); (r + 1, c - 1); (r + 1, c); (r + 1, c + 1)].

Definition cell_eqb (x y : cell) : bool := (fst x =? fst y) && (snd x =? snd y).
Definition insideb (a0 a1 : Z) (x : cell) : bool :=
  (0 <=? fst x) && (fst x <? a0) && (0 <=? snd x) && (snd x <? a1).

(** The neighbours of [x] that drain into [x] *)
Definition upstream (a0 a1 : Z) (nd : Z -> bool) (f : cell -> Z) (x : cell) : list cell :=
  filter (fun y => insideb a0 a1 y && negb (nd (f y)) && cell_eqb (towards f y) x) (neighbours x).
