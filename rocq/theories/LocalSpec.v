(** Specification vocabulary for local operations. *)
From Verif Require Import Common LocalModel.

(** Element types the code is instantiated for have at least 8 bits; the proofs need 2. *)
Definition int_type (t : itype) : Prop := 2 <= bits t.
Definition representable (t : itype) (z : Z) : Prop := imin t <= z <= imax t.
Definition is_no_data (t : itype) (z : Z) : Prop := z = no_data_value t.

(** The mathematical result of an operation, if there is one. *)
Definition exact (op : arith_op) (a b : Z) (r : Z) : Prop :=
  match op with
  | Add => r = a + b
  | Subtract => r = a - b
  | Multiply => r = a * b
  | Divide => b <> 0 /\ Z.abs b * Z.abs r <= Z.abs a < Z.abs b * (Z.abs r + 1) /\ 0 <= r * (a * b)
  | Modulus => b <> 0 /\ Z.abs r < Z.abs b /\ 0 <= r * a /\ exists q, a = b * q + r
  end.
