(** Specification vocabulary for random values. *)
From Coq Require Import Reals.
From Flocq Require Import Core.
From Flocq Require Import IEEE754.BinarySingleNaN.
From Verif Require Import Common CoreSpec DecompSpec ArraySpec.

Section Spec.
Context {G V : Type} (draw : G -> V * G).
(** The state of an engine after [n] values have been drawn, and the value that is drawn after these *)
Fixpoint engine_after (n : nat) (g : G) : G := match n with O => g | S n => engine_after n (snd (draw g)) end.
Definition nth_draw (n : nat) (g : G) : V := fst (draw (engine_after n g)).
End Spec.

(** Value [v] is number [k], from 0, of the values of raster [f] (of shape [a]) for which [use] holds, from small to large, each counted once. *)
Definition zone_rank (a : list Z) (f : list Z -> Z) (use : Z -> Prop) (v : Z) (k : nat) : Prop :=
  exists smaller, NoDup smaller /\ length smaller = k /\ forall w, In w smaller <-> w < v /\ use w /\ exists x, in_shape a x /\ f x = w.

(** What std::generate_canonical promises: a number from 0 up to but not including 1 *)
Definition in_unit_interval {prec emax : Z} (u : binary_float prec emax) : Prop := is_finite u = true /\ (0 <= B2R u < 1)%R.
(** A number from [lo] up to and including [hi] *)
Definition between {prec emax : Z} (lo hi v : binary_float prec emax) : Prop := is_finite v = true /\ (B2R lo <= B2R v <= B2R hi)%R.
