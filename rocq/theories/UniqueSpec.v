(** Specification vocabulary for unique and unique_id. *)
From Coq Require Import Sorted.
From Verif Require Import Common CoreSpec DecompSpec ArraySpec.

(** [s] lists the values for which [P] holds, each once, from small to large. *)
Definition set_of (P : Z -> Prop) (s : list Z) : Prop := StronglySorted Z.lt s /\ forall v, In v s <-> P v.

(** hpx::when_any returns the index of one of the futures that are waited for. *)
Definition picks_pending (choose : nat -> nat) : Prop := forall n, (choose (S n) <= n)%nat.

(** Cells for which the condition holds have an ID of their own, from 1 up to the number of cells; the other ones have 0, or the marker if the condition
    does not contain data. *)
Definition distinct_ids {C} (nd truth : C -> bool) (marker : Z) (a : list Z) (f : list Z -> C) (g : list Z -> Z) : Prop :=
  forall x, in_shape a x ->
    (nd (f x) = true -> g x = marker) /\
    (nd (f x) = false -> truth (f x) = false -> g x = 0) /\
    (nd (f x) = false -> truth (f x) = true -> 1 <= g x <= volume a /\
       forall y, in_shape a y -> nd (f y) = false -> truth (f y) = true -> g x = g y -> x = y).
