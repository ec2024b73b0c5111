(** Specification vocabulary for routes. *)
From Verif Require Import Common CoreSpec ArraySpec AggregateSpec DecompModel ArrayModel ZonalModel OrderModel.

(** A route is a sequence of hops: partitions, each with the linear indices of the cells visited there. *)
Definition next_partition (hops : list (Z * list Z)) : option Z := option_map fst (hd_error hops).

(** The fragments that partition [p] must hold for a route: its hops in this partition, in order, each with the
    partition of the next hop; [last] is what follows the last hop. *)
Fixpoint hop_fragments (last : option Z) (p : Z) (hops : list (Z * list Z)) : list fragment :=
  match hops with
  | [] => []
  | (q, cells) :: hops' =>
      let next := match hops' with [] => last | (q', _) :: _ => Some q' end in
      if q =? p then Fragment cells next :: hop_fragments last p hops' else hop_fragments last p hops'
  end.

(** Starting at the route's start and following the fragments, one visits these hops, after which the route ends. *)
Definition route_hops (r : serial_route) (id : Z) (hops : list (Z * list Z)) : Prop :=
  zfind (rt_starts r) id = next_partition hops /\
  Forall (fun h => 0 <= fst h < Z.of_nat (length (rt_parts r))) hops /\
  forall k q, nth_error (rt_parts r) k = Some q ->
    match zfind (pl_data q) id with Some l => l | None => [] end = hop_fragments None (Z.of_nat k) hops.

(** Cell [x] of the array is the one with linear index [idx] in partition [p]. *)
Definition route_cell (r : serial_route) (at_ : Z * Z) (x : list Z) : Prop :=
  let (p, idx) := at_ in
  exists q y, nth_z p (rt_parts r) = Some q /\ in_shape (pl_shape q) y /\ rowmaj (pl_shape q) y = idx /\ x = vadd (pl_offset q) y.

(** The cells of the array that a route visits, in the order of the visit. *)
Definition visits (r : serial_route) (id : Z) (cells : list (list Z)) : Prop :=
  exists hops, route_hops r id hops /\
    Forall2 (route_cell r) (flat_map (fun '(p, idxs) => map (pair p) idxs) hops) cells.

(** [cells] are at most [n] of the cells in [candidates], as many as possible, each once, from high to low values, such
    that no cell that is left out has a higher value than a cell that is not. *)
Definition highest_first {V} (ltb : V -> V -> bool) (value : list Z -> V) (candidates : list (list Z)) (n : Z) (cells : list (list Z)) : Prop :=
  NoDup cells /\ incl cells candidates /\
  StronglySorted (fun x y => ltb (value x) (value y) = false) cells /\
  Z.of_nat (length cells) = Z.min (Z.max 0 n) (Z.of_nat (length candidates)) /\
  (forall x y, In x cells -> In y candidates -> ~ In y cells -> ltb (value x) (value y) = false).

(** The cells of a zone: zone and value are valid. *)
Definition zone_cells {V} (zone_nd : Z -> bool) (value_nd : V -> bool) (a : list Z) (zone : list Z -> Z) (value : list Z -> V) (z : Z) : list (list Z) :=
  filter (fun x => (zone x =? z) && negb (zone_nd (zone x)) && negb (value_nd (value x))) (all_cells a).

(** std::sort by decreasing first elements: a permutation that is sorted, provided that the elements can be compared.  What it
    does with ties is unspecified. *)
Definition sorts {V} (ltb : V -> V -> bool) (comparable : V -> Prop) (sort : list (V * Z) -> list (V * Z)) : Prop :=
  forall l, Forall (fun e => comparable (fst e)) l ->
    Permutation (sort l) l /\ StronglySorted (fun x y => ltb (fst x) (fst y) = false) (sort l).

(** On [comparable] values, [ltb] is a strict order in which ties are possible (a strict weak order), and [eqb] are the ties. *)
Definition weak_order {V} (ltb eqb : V -> V -> bool) (comparable : V -> Prop) : Prop :=
  (forall x y, comparable x -> comparable y -> ltb x y = true -> ltb y x = false) /\
  (forall x y z, comparable x -> comparable y -> comparable z -> ltb x y = false -> ltb y z = false -> ltb x z = false) /\
  (forall x y, comparable x -> comparable y -> eqb x y = negb (ltb x y) && negb (ltb y x)).

(** The driver spawned tasks ([o]), after which: whatever the order in which the tasks run, none fails, there are no more than
    there are cells, and as long as there are tasks, a task can run.  Once there are no tasks left, each partition of the route has been
    delivered once, and for each zone the route visits the highest cells first. *)
Definition routes_from_high_to_low {V} (ltb eqb : V -> V -> bool) (min_value : V) (max_nr_cells : Z)
    (a : list Z) (value : parray V) (f : list Z -> V) (candidates : Z -> list (list Z)) (o : outcome (zmap Z * order_state V)) : Prop :=
  exists starts first, o = Ok (starts, first) /\
  forall ks st, order_run ltb eqb min_value max_nr_cells first ks st ->
    Z.of_nat (length ks) <= volume a /\
    (forall k o', order_step ltb eqb min_value max_nr_cells k st = Some o' -> exists st', o' = Ok st') /\
    (os_tasks st = [] ->
      (forall c, In c (os_components st) -> cm_finished c = 1) /\
      forall z, exists cells, visits (order_result value starts st) z cells /\ highest_first ltb f (candidates z) max_nr_cells cells).
