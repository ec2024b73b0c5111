(** Specification vocabulary for the domain decomposition. *)
From Verif Require Import Common CoreSpec.

(** A partition fits in the array: in each dimension it is not empty and not larger. *)
Definition partition_fits (array_shape partition_shape : list Z) : Prop :=
  Forall2 (fun a p => 0 < p <= a) array_shape partition_shape.

(** Whole partitions that fit in the array, and their number. *)
Fixpoint parts_shape (a p : list Z) : list Z :=
  match a, p with
  | a :: a', p :: p' => a / p :: parts_shape a' p'
  | _, _ => []
  end.
Definition nr_parts (a p : list Z) : Z := volume (parts_shape a p).

(** Requests the implementation supports: rank 1 to 3, and sizes for which the binary64
    arithmetic used to pick a locality is precise enough. *)
Definition supported (nr_localities : Z) (a p : list Z) : Prop :=
  a <> [] /\ (length a <= 3)%nat /\ 0 < nr_localities /\ nr_localities * nr_parts a p <= 2 ^ 50.
