(** Specification vocabulary for aggregates. *)
From Verif Require Import Common CoreSpec.

(** All cells of an array, in row-major order. *)
Fixpoint all_cells (shape : list Z) : list (list Z) :=
  match shape with
  | [] => [[]]
  | n :: shape' => flat_map (fun i => map (cons i) (all_cells shape')) (zseq 0 n)
  end.

Definition sumZ (l : list Z) : Z := fold_right Z.add 0 l.

(** The values of the cells that are not no-data and in the domain. *)
Definition valid_values {E} (valid : E -> bool) (a : list Z) (f : list Z -> E) : list E :=
  filter valid (map f (all_cells a)).
