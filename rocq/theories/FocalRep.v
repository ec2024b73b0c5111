(** The border that a halo policy describes. *)
From Verif Require Import Common FocalSpec FocalModel.

Definition border_of {E} (hp : halo_policy E) : border_values E :=
  Border (h_north_west hp) (h_north hp) (h_north_east hp) (h_west hp) (h_east hp)
    (h_south_west hp) (h_south hp) (h_south_east hp).
