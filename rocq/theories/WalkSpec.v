(** Specification vocabulary for walks along routes. *)
From Verif Require Import Common CoreSpec DecompSpec ArraySpec AggregateSpec DecompModel ArrayModel ArrayRep ZonalModel OrderModel OrderSpec WalkModel.

(** A route along cells of an array of shape [a] with partitions of shape [p]: starts and fragments are in maps, and each of the
    routes can be followed to its end. *)
Definition well_formed_route (a p : list Z) (r : serial_route) : Prop :=
  a <> [] /\ partition_fits a p /\ rt_shape r = a /\ rt_sip r = parts_shape a p /\
  map (fun q => (pl_offset q, pl_shape q)) (rt_parts r) = map (fun c => (part_offset p c, part_extent a p c)) (all_cells (parts_shape a p)) /\
  NoDup (map fst (rt_starts r)) /\
  (forall q, In q (rt_parts r) -> NoDup (map fst (pl_data q)) /\ forall id, zfind (pl_data q) id <> Some []) /\
  forall id, exists cells, visits r id cells.

(** [x] is one of the first [n] cells of one of the routes. *)
Definition among_first (r : serial_route) (n : Z) (x : list Z) : Prop :=
  exists id cells, visits r id cells /\ In x (firstn (Z.to_nat n) cells).

(** The tasks that deliver partitions run before the tasks that walk through these. *)
Definition result_first (st : walk_state) (k : nat) : Prop :=
  match nth_error (ws_tasks st) k with
  | Some (WalkRoute p _ _) | Some (SkipRoute p _) => ~ In (ResultPartition p) (ws_tasks st)
  | _ => True
  end.
Inductive ordered_run (no_data n : Z) (r : serial_route) : walk_state -> list nat -> walk_state -> Prop :=
| ordered_nil st : ordered_run no_data n r st [] st
| ordered_cons st k st' ks st'' : result_first st k -> walk_step n r k st = Some (Ok st') -> ordered_run no_data n r st' ks st'' ->
    ordered_run no_data n r st (k :: ks) st''.
