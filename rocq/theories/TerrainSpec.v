(** Specification vocabulary for terrain: flow directions from elevations; independent of the code. *)
From Verif Require Import Common CoreSpec ArraySpec FlowSpec.

(** The neighbour of cell (r, c) in direction [k] of the keypad *)
Definition neighbour_value {E} (elevation : Z -> Z -> E) (r c k : Z) : E :=
  elevation (r + fst (keypad k)) (c + snd (keypad k)).

(** One of the eight directions, in which there is a neighbour with a valid elevation *)
Definition open_direction {E} (nd : E -> bool) (elevation : Z -> Z -> E) (r c k : Z) : Prop :=
  1 <= k <= 9 /\ k <> 5 /\ nd (neighbour_value elevation r c k) = false.

(** The raster [f] of [a0] rows and [a1] columns in a plain with elevation [plain] *)
Definition surrounded {E} (a0 a1 : Z) (plain : E) (f : list Z -> E) (r c : Z) : E :=
  if insideb a0 a1 (r, c) then f [r; c] else plain.

(** The drop in elevation *)
Definition drop {E} (minus : E -> E -> E) (elevation : Z -> Z -> E) (r c k : Z) : E :=
  minus (elevation r c) (neighbour_value elevation r c k).

Definition diagonal (k : Z) : Prop := fst (keypad k) <> 0 /\ snd (keypad k) <> 0.

(** [d] is the direction of the largest drop, if there is a drop at all; otherwise the cell is a sink (5).  A diagonal
    neighbour is only chosen if its drop is larger than those of the nearer neighbours. *)
Definition largest_drop {E} (nd : E -> bool) (nan : E -> bool) (minus : E -> E -> E) (gtb : E -> E -> bool) (zero : E)
    (elevation : Z -> Z -> E) (r c d : Z) : Prop :=
  (d = 5 /\ forall k, open_direction nd elevation r c k -> gtb (drop minus elevation r c k) zero = false) \/
  (open_direction nd elevation r c d /\ gtb (drop minus elevation r c d) zero = true /\
   (forall k, open_direction nd elevation r c k -> gtb (drop minus elevation r c k) (drop minus elevation r c d) = false) /\
   (forall k, open_direction nd elevation r c k -> nan (drop minus elevation r c k) = false -> diagonal d -> ~ diagonal k ->
      gtb (drop minus elevation r c d) (drop minus elevation r c k) = true)).
