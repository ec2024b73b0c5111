(** Model of a partitioned array: array/partitioned_array.hpp (the shape, the partitions
    and their localities; handles to component servers are replaced by their content). *)
From Verif Require Import Common IndexModel DecompModel.

(** PartitionedArray: partitioned_array/include/lue/framework/partitioned_array_decl.hpp.
    [pa_sip] is partitions().shape(). *)
Record parray (E : Type) := PArray {
  pa_shape : list Z;
  pa_sip : list Z;
  pa_parts : list (placed (list E))
}.
Arguments PArray {E}. Arguments pa_shape {E}. Arguments pa_sip {E}. Arguments pa_parts {E}.

(** One task per partition; [f] cannot see other partitions, so the order in which the
    tasks run does not matter. *)
Fixpoint sequence {A} (l : list (outcome A)) : outcome (list A) :=
  match l with
  | [] => Ok []
  | x :: l' => obind x (fun a => obind (sequence l') (fun r => Ok (a :: r)))
  end.

(** data[i] / data(i) with its bounds check: core/array.hpp (asserted in debug builds). *)
Definition at_z {E} (l : list E) (i : Z) : outcome E :=
  match nth_z i l with Some e => Ok e | None => UB end.

(** [for (i = 0; i < n; ++i) out[i] = body(i, out[i])] on a buffer. *)
Definition for_elements {O} (n : Z) (body : Z -> O -> outcome O) (out : list O) : outcome (list O) :=
  fold_left
    (fun acc i => obind acc (fun out => obind (at_z out i) (fun old => obind (body i old) (fun new =>
       match upd_z i new out with Some out' => Ok out' | None => UB end))))
    (zseq 0 n) (Ok out).

(** A freshly allocated, not initialised buffer: [junk i] is what happens to be at [i]. *)
Definition fresh {O} (junk : Z -> O) (n : Z) : list O := map junk (zseq 0 n).
