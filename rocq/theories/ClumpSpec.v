(** Specification vocabulary for clumps: which cells belong together. *)
From Verif Require Import Common CoreSpec DecompSpec ArraySpec.

Inductive connectivity := Diagonal | Nondiagonal.   (* framework/algorithm/include/lue/framework/algorithm/clump.hpp:8 *)

(** Two cells (row, column) touch: with an edge, or, if diagonals count, with a corner. *)
Definition neighbours (how : connectivity) (x y : Z * Z) : Prop :=
  let dr := Z.abs (fst x - fst y) in let dc := Z.abs (snd x - snd y) in
  match how with Nondiagonal => dr + dc = 1 | Diagonal => Z.max dr dc = 1 end.

(** There is a path of neighbouring cells, all inside [inside], that all hold the same valid value. *)
Inductive joined (how : connectivity) (inside : Z * Z -> Prop) (no_data : Z -> bool) (f : Z * Z -> Z) : Z * Z -> Z * Z -> Prop :=
| joined_refl : forall x, inside x -> no_data (f x) = false -> joined how inside no_data f x x
| joined_step : forall x y w, joined how inside no_data f x y -> inside w -> neighbours how y w -> f w = f y -> joined how inside no_data f x w.

Definition rectangle (r0 n0 c0 n1 : Z) (x : Z * Z) : Prop := r0 <= fst x < r0 + n0 /\ c0 <= snd x < c0 + n1.

(** Two cells of an array of shape [a] in partitions of shape [p] are in the same piece: there is such a path that does not leave their partition. *)
Definition same_piece (how : connectivity) (a p : list Z) (no_data : Z -> bool) (f : list Z -> Z) (x y : Z * Z) : Prop :=
  exists c, in_shape (parts_shape a p) c /\ joined how (fun w => in_box (part_offset p c) (part_extent a p c) [fst w; snd w]) no_data (fun w => f [fst w; snd w]) x y.
