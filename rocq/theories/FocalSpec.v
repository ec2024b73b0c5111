(** Specification vocabulary for focal operations: rasters with a border around them. *)
From Verif Require Import Common.

(** Values used outside of a raster, per side and corner. *)
Record border_values (E : Type) := Border {
  b_north_west : E; b_north : E; b_north_east : E;
  b_west : E; b_east : E;
  b_south_west : E; b_south : E; b_south_east : E
}.
Arguments Border {E}. Arguments b_north_west {E}. Arguments b_north {E}. Arguments b_north_east {E}.
Arguments b_west {E}. Arguments b_east {E}. Arguments b_south_west {E}. Arguments b_south {E}. Arguments b_south_east {E}.

(** The raster [f] of [a0] rows and [a1] columns, extended in all directions. *)
Definition padded {E} (a0 a1 : Z) (b : border_values E) (f : Z -> Z -> E) (r c : Z) : E :=
  if r <? 0 then
    (if c <? 0 then b_north_west b else if c <? a1 then b_north b else b_north_east b)
  else if r <? a0 then
    (if c <? 0 then b_west b else if c <? a1 then f r c else b_east b)
  else
    (if c <? 0 then b_south_west b else if c <? a1 then b_south b else b_south_east b).

(** Smallest extent of the blocks of [p] in which an extent [a] is divided. *)
Definition smallest_block (a p : Z) : Z := if a / p =? 1 then a else p.

(** Row and column offsets of the cells in a square neighbourhood, row by row. *)
Definition offsets (radius : Z) : list (Z * Z) :=
  flat_map (fun dr => map (fun dc => (dr, dc)) (zseq (- radius) (2 * radius + 1))) (zseq (- radius) (2 * radius + 1)).

(** The valid values in the selected cells around ([r], [c]), row by row. *)
Definition focal_values {E} (radius : Z) (selected : Z -> Z -> bool) (valid : E -> bool) (f : Z -> Z -> E) (r c : Z) : list E :=
  filter valid (map (fun d => f (r + fst d) (c + snd d)) (filter (fun d => selected (fst d) (snd d)) (offsets radius))).

(** [r] is the smallest of the values that occur most often. *)
Definition smallest_majority_of (l : list Z) (r : Z) : Prop :=
  In r l /\ forall v, (count_occ Z.eq_dec l v <= count_occ Z.eq_dec l r)%nat /\
    (In v l -> count_occ Z.eq_dec l v = count_occ Z.eq_dec l r -> r <= v).
