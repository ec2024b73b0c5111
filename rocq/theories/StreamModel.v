(** Model of downstream and upstream: focal operations with two input arrays.
    Paths are relative to source/framework/algorithm/include/lue/framework/algorithm. *)
From Verif Require Import Common IndexModel DecompModel ArrayModel GridModel FocalModel FocalFunctorsModel FlowModel.

(** The arrays passed to focal_operation, definition/focal_operation.hpp:2003-2030.  In the code the windows of each array are
    determined separately, by the same code (961-1010), and passed to the functor together.  Here the elements of the
    arrays are combined first.  The arrays must have the same partitions: the code does not check that; otherwise, here, UB. *)
Fixpoint zip {A B} (l : list A) (l' : list B) : outcome (list (A * B)) :=
  match l, l' with
  | [], [] => Ok []
  | a :: l, b :: l' => obind (zip l l') (fun z => Ok ((a, b) :: z))
  | _, _ => UB
  end.
Definition zip_arrays {A B} (x : parray A) (y : parray B) : outcome (parray (A * B)) :=
  obind (zip (pa_parts x) (pa_parts y)) (fun pairs =>
  obind (sequence (map (fun '(q, q') => obind (zip (pl_data q) (pl_data q')) (fun data =>
           Ok (Placed (pl_locality q) (pl_offset q) (pl_shape q) data))) pairs)) (fun parts =>
  Ok (PArray (pa_shape x) (pa_sip x) parts))).

(** policy/flow_direction_halo.hpp:9-62: flow directions around the array point away from it; the halo of the material is
    filled with zeros, flow_accumulation.hpp:23-45. *)
Definition stream_halo {E} (zero : E) : halo_policy (Z * E) :=
  HaloPolicy (north_west, zero) (north, zero) (north_east, zero) (west, zero) (east, zero) (south_west, zero) (south, zero) (south_east, zero).

Section Functors.
Context {E : Type} (zero : E) (plus : E -> E -> E).
Context (nd : Z -> bool) (mnd : E -> bool) (mark : E -> E).  (* no-data policies; mark_no_data of the output policy *)

(** definition/downstream.hpp:24-150.  The assertion that other flow directions are sinks is not there: these are handled
    like sinks. *)
Definition downstream_functor (window : grid (Z * E)) : outcome E :=
  obind (gget window 1 1) (fun '(d, own) =>
  if nd d || mnd own then Ok (mark zero)
  else
    let pick r c := obind (gget window r c) (fun '(_, m) => Ok (if mnd m then mark zero else m)) in
    if d =? north_west then pick 0 0
    else if d =? north then pick 0 1
    else if d =? north_east then pick 0 2
    else if d =? west then pick 1 0
    else if d =? east then pick 1 2
    else if d =? south_west then pick 2 0
    else if d =? south then pick 2 1
    else if d =? south_east then pick 2 2
    else Ok own).

(** definition/upstream.hpp:24-172: a chain of ifs that may return; [k] is what follows. *)
Definition add_upstream (window : grid (Z * E)) (r c d : Z) (k : E -> outcome E) (material : E) : outcome E :=
  obind (gget window r c) (fun '(d', m) =>
  if d' =? d then (if mnd m then Ok (mark material) else k (plus material m)) else k material).
Definition upstream_functor (window : grid (Z * E)) : outcome E :=
  obind (gget window 1 1) (fun '(d, own) =>
  if nd d || mnd own then Ok (mark zero)
  else
    add_upstream window 0 0 south_east (
    add_upstream window 0 1 south (
    add_upstream window 0 2 south_west (
    add_upstream window 1 0 east (
    add_upstream window 1 2 west (
    add_upstream window 2 0 north_east (
    add_upstream window 2 1 north (
    add_upstream window 2 2 north_west (fun m => Ok m)))))))) zero).

(** definition/downstream.hpp:156-184, definition/upstream.hpp:178-195 *)
Definition downstream (junk : Z -> Z * E) (ojunk : Z -> E) (flow : parray Z) (material : parray E) : outcome (parray E) :=
  obind (zip_arrays flow material) (fun arr => focal_operation (kernel_radius (box_kernel 1 true)) downstream_functor junk ojunk (stream_halo zero) arr).
Definition upstream_sum (junk : Z -> Z * E) (ojunk : Z -> E) (flow : parray Z) (material : parray E) : outcome (parray E) :=
  obind (zip_arrays flow material) (fun arr => focal_operation (kernel_radius (box_kernel 1 true)) upstream_functor junk ojunk (stream_halo zero) arr).
End Functors.
