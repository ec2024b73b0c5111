(** Operations on elevations and flow directions that are compositions of focal and local operations.
    ALG = source/framework/algorithm/include/lue/framework/algorithm *)
From Verif Require Import Common IndexModel DecompModel ArrayModel GridModel LocalModel FlowModel FocalModel FocalFunctorsModel.

(** ** ALG/definition/d8_flow_direction.hpp *)
Section D8.
(** An elevation type: no-data test, subtraction, comparison, zero; [marker] is the no-data flow direction. *)
Context {E : Type} (is_no_data : E -> bool) (minus : E -> E -> E) (gtb : E -> E -> bool) (zero : E) (marker : Z).

(** The neighbours in the order in which they are tried: North, West, East, South, North-west, North-east,
    South-west, South-east; their position in the window and their code, 59-146 *)
Definition d8_neighbours : list (Z * Z * Z) :=
  [(0, 1, north); (1, 0, west); (1, 2, east); (2, 1, south); (0, 0, north_west); (0, 2, north_east); (2, 0, south_west); (2, 2, south_east)].

(** One of the eight if statements, e.g. 61-69; the state is (drop, direction). *)
Definition d8_try (window : grid E) (center : E) (n : Z * Z * Z) (s : E * Z) : outcome (E * Z) :=
  let '(i, j, code) := n in
  obind (gget window i j) (fun v =>
  if negb (is_no_data v) then
    let other_drop := minus center v in
    if gtb other_drop (fst s) then Ok (other_drop, code) else Ok s
  else Ok s).

(** D8FlowDirection::operator(), 24-150 *)
Definition d8_functor (window : grid E) : outcome Z :=
  obind (gget window 1 1) (fun center =>
  if is_no_data center then Ok marker
  else obind (for_each d8_neighbours (d8_try window center) (zero, sink)) (fun s => Ok (snd s))).

(** d8_flow_direction, 158-175; [halo] is the value the halo is filled with (value_policies/d8_flow_direction.hpp:21-46). *)
Definition d8_flow_direction (junk : Z -> E) (ojunk : Z -> Z) (halo : E) (elevation : parray E) : outcome (parray Z) :=
  focal_operation 1 d8_functor junk ojunk (constant_halo halo) elevation.
End D8.

(** ** ALG/definition/downstream_distance.hpp *)
(** DownstreamDistance::operator(), 40-63; [cell_size_diagonal] is computed by the constructor, 28-34 *)
Definition downstream_distance_functor {D} (zero cell_size cell_size_diagonal : D) (flow_direction : Z) : D :=
  if (flow_direction =? north_west) || (flow_direction =? north_east) || (flow_direction =? south_west) || (flow_direction =? south_east)
  then cell_size_diagonal
  else if (flow_direction =? north) || (flow_direction =? west) || (flow_direction =? east) || (flow_direction =? south)
  then cell_size
  else zero.
(** downstream_distance, 86-101, with policies that let all values be within domain and range
    (ALG/downstream_distance.hpp:7-23).  [times root2 cell_size] is std::sqrt(2) * cell_size. *)
Definition downstream_distance {D} (is_no_data : Z -> bool) (mark : D -> D) (zero : D) (times : D -> D -> D) (root2 : D) (junk : Z -> D)
    (flow_direction : parray Z) (cell_size : D) : outcome (parray D) :=
  unary_local_operation (UnaryPolicies is_no_data (fun _ => true) mark (fun _ _ => true))
    (downstream_distance_functor zero cell_size (times root2 cell_size)) junk flow_direction.
