(** Model of unique (algorithm/definition/unique.hpp) and unique_id (algorithm/definition/unique_id.hpp).  Element types are integral. *)
From Verif Require Import Common IndexModel DecompModel ArrayModel.

(** std::set<Element>::insert, for integers: a sorted list without duplicates *)
Fixpoint set_insert (v : Z) (l : list Z) : list Z :=
  match l with
  | [] => [v]
  | x :: l' => if v <? x then v :: l else if x <? v then x :: set_insert v l' else l
  end.

(** unique_partition_ready, unique.hpp:11-46 *)
Definition unique_partition (nd : Z -> bool) (q : placed (list Z)) : outcome (list Z) :=
  fold_left (fun acc i => obind acc (fun s => obind (at_z (pl_data q) i) (fun v => Ok (if negb (nd v) then set_insert v s else s))))
    (zseq 0 (nr_elements (pl_shape q))) (Ok []).

(** unique, unique.hpp:75-122: the sets of the partitions are merged in the order of the partitions, once all are ready. *)
Definition unique (nd : Z -> bool) (a : parray Z) : outcome (list Z) :=
  obind (sequence (map (unique_partition nd) (pa_parts a))) (fun partitions =>
  Ok (fold_left (fun unique_values s => fold_left (fun acc v => set_insert v acc) s unique_values) partitions [])).

Section UniqueID.
Context {C : Type} (nd : C -> bool) (truth : C -> bool) (mark : Z -> Z) (junk : Z -> Z).
(** The largest value of IDElement: adding to it is undefined (signed types) or wraps around (unsigned types); both are UB here. *)
Context (max_id : Z).

(** The loop over cells in unique_id_partition, unique_id.hpp:43-62 *)
Fixpoint unique_id_cells (condition : list C) (output : list Z) (start_value : Z) : outcome (list Z) :=
  match condition, output with
  | [], [] => Ok []
  | c :: condition', old :: output' =>
      if nd c then obind (unique_id_cells condition' output' start_value) (fun r => Ok (mark old :: r))
      else if truth c then
        if start_value <? max_id then obind (unique_id_cells condition' output' (start_value + 1)) (fun r => Ok (start_value :: r)) else UB
      else obind (unique_id_cells condition' output' start_value) (fun r => Ok (0 :: r))
  | _, _ => UB
  end.

(** unique_id_partition, unique_id.hpp:14-68, with the assertion of line 20 *)
Definition unique_id_partition (q : placed (list C)) (start_value : Z) : outcome (placed (list Z)) :=
  if 0 <? start_value then
    obind (unique_id_cells (pl_data q) (fresh junk (nr_elements (pl_shape q))) start_value) (fun d =>
    Ok (Placed (pl_locality q) (pl_offset q) (pl_shape q) d))
  else UB.

(** std::rotate(begin + k, begin + k + 1, begin + n) *)
Definition rotate_out {A} (k n : nat) (l : list A) : list A :=
  firstn k l ++ skipn (S k) (firstn n l) ++ firstn 1 (skipn k l) ++ skipn n l.

(** Writing an element of a vector *)
Fixpoint set_nth {A} (k : nat) (v : A) (l : list A) : list A :=
  match l, k with
  | [], _ => []
  | _ :: l', O => v :: l'
  | x :: l', S k' => x :: set_nth k' v l'
  end.

(** unique_id_partitions2, unique_id.hpp:82-176.  [choose n] is the index that hpx::when_any returns when [n] futures are waited for.  A future
    whose value has been got is [None].  The tasks that are spawned do not depend on each other; each is run when it is spawned.  A promise is
    [None] until its value is set; setting it again is an error. *)
Fixpoint unique_id_loop (choose : nat -> nat) (partitions : list (placed (list C))) (nr_partitions_to_handle : nat)
    (sizes : list (option Z)) (partition_idxs : list nat) (start_value : Z) (promises : list (option (placed (list Z)))) : outcome (list (option (placed (list Z)))) :=
  match nr_partitions_to_handle with
  | O => Ok promises
  | S n =>
      let sizes := firstn (S n) sizes in
      let k := choose (S n) in
      match nth_error partition_idxs k, nth_error sizes k with
      | Some partition_idx, Some (Some nr_elements) =>
          match nth_error partitions partition_idx, nth_error promises partition_idx with
          | Some q, Some None =>
              obind (unique_id_partition q start_value) (fun r =>
              if start_value + nr_elements <=? max_id then
                unique_id_loop choose partitions n (rotate_out k (S n) (set_nth k None sizes)) (rotate_out k (S n) partition_idxs) (start_value + nr_elements)
                  (set_nth partition_idx (Some r) promises)
              else UB)
          | Some _, Some (Some _) => Throw
          | _, _ => UB
          end
      | Some _, Some None => Throw
      | _, _ => UB
      end
  end.

(** unique_id, unique_id.hpp:226-266: the array is available once all promises are set; a partition whose promise is never set blocks (UB here). *)
Definition unique_id (choose : nat -> nat) (a : parray C) : outcome (parray Z) :=
  let parts := pa_parts a in
  obind (unique_id_loop choose parts (length parts) (map (fun q => Some (nr_elements (pl_shape q))) parts) (seq 0 (length parts)) 1 (map (fun _ => None) parts)) (fun promises =>
  obind (sequence (map (fun o => match o with Some q => Ok q | None => UB end) promises)) (fun r =>
  Ok (PArray (pa_shape a) (pa_sip a) r))).
End UniqueID.
