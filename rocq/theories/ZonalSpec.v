(** Specification vocabulary for zonal operations. *)
From Verif Require Import Common CoreSpec AggregateSpec.

(** The values in zone [z] of the cells whose value and zone are valid. *)
Definition zone_values {E} (valid : E -> bool) (a : list Z) (zone : list Z -> Z) (value : list Z -> E) (z : Z) : list E :=
  map value (filter (fun c => (zone c =? z) && valid (value c)) (all_cells a)).

(** [r] occurs in [l], and nothing in [l] is smaller. *)
Definition least_of {E} (ltb : E -> E -> bool) (l : list E) (r : E) : Prop :=
  In r l /\ forall v, In v l -> ltb v r = false.
Definition largest_of {E} (ltb : E -> E -> bool) (l : list E) (r : E) : Prop :=
  In r l /\ forall v, In v l -> ltb r v = false.

(** How often [v] occurs in [l]. *)
Definition occurrences (l : list Z) (v : Z) : nat := count_occ Z.eq_dec l v.

(** [r] is the largest of the values that occur most often. *)
Definition majority_of (l : list Z) (r : Z) : Prop :=
  In r l /\ forall v, (occurrences l v <= occurrences l r)%nat /\
    (In v l -> occurrences l v = occurrences l r -> v <= r).
