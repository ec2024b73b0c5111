(** What is asked of the root finder that kinematic_wave uses *)
From Coq Require Import Reals.
From Verif Require Import Common KinematicModel KinematicSpec.
Local Open Scope R_scope.

(** For each equation that the code asks it to solve, from a positive guess, it finds the root up to a relative error [eps] *)
Definition solves (eps : R) (solve : wave -> R -> R) : Prop :=
  forall up old lateral alpha beta dt dx w guess root, make_wave up old lateral alpha beta dt dx = Ok w -> 0 < guess ->
    0 < root -> fq w root = Ok 0 -> within eps (solve w guess) root.
