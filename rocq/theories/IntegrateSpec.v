(** Specification vocabulary for values accumulated along routes. *)
From Verif Require Import Common CoreSpec ArraySpec DecompModel ArrayModel ZonalModel OrderModel OrderSpec.

(** Each cell is visited once: by one of the routes, at one of its positions. *)
Definition visited_once (r : serial_route) : Prop :=
  forall id id' cells cells' k k' x, visits r id cells -> visits r id' cells' -> nth_error cells k = Some x -> nth_error cells' k' = Some x -> id = id' /\ k = k'.

(** The sum, from the start of the route, of the valid ones among the values in these cells *)
Definition sum_valid {E} (zero : E) (plus : E -> E -> E) (is_no_data : E -> bool) (g : list Z -> E) (cells : list (list Z)) : E :=
  fold_left (fun acc x => if is_no_data (g x) then acc else plus acc (g x)) cells zero.

(** What an integration must deliver in cell [x]: in one of the first [n] cells of a route the sum of the values up to and including that
    cell, provided the value in the cell itself is valid, and no-data anywhere else. *)
Definition integral_at {E} (zero : E) (plus : E -> E -> E) (is_no_data : E -> bool) (no_data : E) (r : serial_route) (n : Z) (g : list Z -> E) (x : list Z) (e : E) : Prop :=
  (exists id cells k, visits r id cells /\ nth_error cells k = Some x /\ Z.of_nat k < n /\ is_no_data (g x) = false /\ e = sum_valid zero plus is_no_data g (firstn (S k) cells)) \/
  ((forall id cells k, visits r id cells -> nth_error cells k = Some x -> Z.of_nat k < n -> is_no_data (g x) = true) /\ e = no_data).
