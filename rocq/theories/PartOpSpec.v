(** What a user relies on: an array with one cell per partition, in which the cell for a partition contains something about it. *)
From Coq Require Import Sorted.
From Verif Require Import Common CoreSpec DecompSpec ArraySpec UniqueSpec.

(** [v]: the number of different valid values of [f] in the partition with index [c], or [no_data] if there are none. *)
Definition number_of_values (nd : Z -> bool) (no_data : Z) (a p : list Z) (f : list Z -> Z) (c : list Z) (v : Z) : Prop :=
  exists s, set_of (fun x => nd x = false /\ exists y, in_shape (part_extent a p c) y /\ f (vadd (part_offset p c) y) = x) s /\
    v = (if s then no_data else Z.of_nat (length s)).

(** All partitions have the same shape. *)
Definition divides (a p : list Z) : Prop := Forall2 (fun a p => a mod p = 0) a p.
(** Some dimension has more than one partition, and the last one is larger. *)
Definition leaves_border (a p : list Z) : Prop := Exists (fun '(a, p) => a mod p <> 0 /\ 2 <= a / p) (combine a p).
