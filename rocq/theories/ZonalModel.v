(** Model of zonal operations: algorithm/definition/zonal_operation.hpp and the aggregators in
    algorithm/definition/zonal_{sum,minimum,maximum,mean,diversity,majority,area}.hpp. *)
From Verif Require Import Common IndexModel DecompModel ArrayModel LocalModel AggregateModel.

(** A std::unordered_map from integers: a list of pairs with distinct keys.  The order in which
    the pairs are visited is unspecified: [iter] below is any function that permutes them. *)
Definition zmap (S : Type) := list (Z * S).
Fixpoint zfind {S} (m : zmap S) (k : Z) : option S :=
  match m with
  | [] => None
  | (k', s) :: m' => if k' =? k then Some s else zfind m' k
  end.
(** m[k] = s *)
Fixpoint zset_map {S} (m : zmap S) (k : Z) (s : S) : zmap S :=
  match m with
  | [] => [(k, s)]
  | (k', s') :: m' => if k' =? k then (k, s) :: m' else (k', s') :: zset_map m' k s
  end.

(** An Aggregator is a map from zones to statistics.  [za_add old v] is the zone's statistic after
    add(zone, v), [za_merge old s] after merging the other aggregator's entry (zone, s);
    [old] is [None] if the zone is not there yet.  [za_result] is operator[]. *)
Record aggregator (I S O : Type) := Aggregator {
  za_add : option S -> I -> S; za_merge : option S -> S -> S; za_result : S -> O
}.
Arguments Aggregator {I S O}. Arguments za_add {I S O}. Arguments za_merge {I S O}. Arguments za_result {I S O}.

(** Aggregator::add *)
Definition agg_add {I S O} (ag : aggregator I S O) (m : zmap S) (zone : Z) (value : I) : zmap S :=
  zset_map m zone (za_add ag (zfind m zone) value).
(** Aggregator::merge: loop over the entries of [other] in the order given by [iter]. *)
Definition agg_merge {I S O} (iter : zmap S -> zmap S) (ag : aggregator I S O) (m other : zmap S) : zmap S :=
  fold_left (fun m '(zone, s) => zset_map m zone (za_merge ag (zfind m zone) s)) (iter other) m.

(** Policies: no-data tests of the values and the zones, domain test, marking of the output. *)
Record zonal_policies (I O : Type) := ZonalPolicies {
  z_no_data1 : I -> bool; z_no_data2 : Z -> bool; z_domain : Z -> I -> bool; z_mark : O -> O
}.
Arguments ZonalPolicies {I O}. Arguments z_no_data1 {I O}. Arguments z_no_data2 {I O}.
Arguments z_domain {I O}. Arguments z_mark {I O}.

(** zonal_operation_partition (array input), lines 112-167 *)
Definition zonal_partition {I S O} (pol : zonal_policies I O) (ag : aggregator I S O)
    (input : placed (list I)) (zones : placed (list Z)) : outcome (zmap S) :=
  let n := nr_elements (pl_shape zones) in
  if nr_elements (pl_shape input) =? n then
    fold_left (fun acc i =>
        obind acc (fun result => obind (at_z (pl_data input) i) (fun v => obind (at_z (pl_data zones) i) (fun z =>
          Ok (if negb (z_no_data1 pol v) && negb (z_no_data2 pol z) then
                if z_domain pol z v then agg_add ag result z v else result
              else result)))))
      (zseq 0 n) (Ok [])
  else UB.

(** zonal_operation_partition (scalar input), lines 28-80 *)
Definition zonal_partition_scalar {I S O} (pol : zonal_policies I O) (ag : aggregator I S O)
    (value : I) (zones : placed (list Z)) : outcome (zmap S) :=
  if negb (z_no_data1 pol value) then
    let n := nr_elements (pl_shape zones) in
    fold_left (fun acc i =>
        obind acc (fun result => obind (at_z (pl_data zones) i) (fun z =>
          Ok (if negb (z_no_data2 pol z) then
                if z_domain pol z value then agg_add ag result z value else result
              else result))))
      (zseq 0 n) (Ok [])
  else Ok [].

(** Merging the aggregators of all partitions, lines 308-313 and 423-428 *)
Definition merge_all {I S O} (iter : zmap S -> zmap S) (ag : aggregator I S O) (l : list (zmap S)) : zmap S :=
  fold_left (agg_merge iter ag) l [].

(** zonal_operation_partition2, lines 189-231 *)
Definition zonal_reclass {I S O} (pol : zonal_policies I O) (ag : aggregator I S O) (m : zmap S) (junk : Z -> O)
    (zones : placed (list Z)) : outcome (placed (list O)) :=
  let n := nr_elements (pl_shape zones) in
  obind
    (for_elements n
       (fun i old => obind (at_z (pl_data zones) i) (fun z =>
          Ok (match zfind m z with None => z_mark pol old | Some s => za_result ag s end)))
       (fresh junk n))
    (fun data => Ok (Placed (pl_locality zones) (pl_offset zones) (pl_shape zones) data)).

(** zonal_operation(array, zones), lines 358-463 *)
Definition zonal_operation {I S O} (iter : zmap S -> zmap S) (pol : zonal_policies I O) (ag : aggregator I S O) (junk : Z -> O)
    (input : parray I) (zones : parray Z) : outcome (parray O) :=
  obind (verify_compatible input zones) (fun _ =>
  obind (sequence (map2 (zonal_partition pol ag) (pa_parts input) (pa_parts zones))) (fun maps =>
  let m := merge_all iter ag maps in
  obind (sequence (map (zonal_reclass pol ag m junk) (pa_parts zones))) (fun parts =>
  Ok (PArray (pa_shape zones) (pa_sip zones) parts)))).

(** zonal_operation(scalar, zones), lines 251-343 *)
Definition zonal_operation_scalar {I S O} (iter : zmap S -> zmap S) (pol : zonal_policies I O) (ag : aggregator I S O) (junk : Z -> O)
    (value : I) (zones : parray Z) : outcome (parray O) :=
  obind (sequence (map (zonal_partition_scalar pol ag value) (pa_parts zones))) (fun maps =>
  let m := merge_all iter ag maps in
  obind (sequence (map (zonal_reclass pol ag m junk) (pa_parts zones))) (fun parts =>
  Ok (PArray (pa_shape zones) (pa_sip zones) parts))).

(** ** Aggregators *)

(** ZonalSum: zonal_sum.hpp:34-69, for integers of type [t] *)
Definition zonal_sum_add (t : itype) (old : option Z) (v : Z) : Z :=
  match old with None => v | Some s => wrap t (s + v) end.
Definition zonal_sum_aggregator (t : itype) : aggregator Z Z Z :=
  Aggregator (zonal_sum_add t) (zonal_sum_add t) (fun s => s).

(** ZonalMinimum: zonal_minimum.hpp:34-64; ZonalMaximum: zonal_maximum.hpp:34-64 *)
Definition zonal_min_add {E} (ltb : E -> E -> bool) (old : option E) (v : E) : E :=
  std_min ltb (match old with None => v | Some s => s end) v.
Definition zonal_minimum_aggregator {E} (ltb : E -> E -> bool) : aggregator E E E :=
  Aggregator (zonal_min_add ltb) (zonal_min_add ltb) (fun s => s).
Definition zonal_max_add {E} (ltb : E -> E -> bool) (old : option E) (v : E) : E :=
  std_max ltb (match old with None => v | Some s => s end) v.
Definition zonal_maximum_aggregator {E} (ltb : E -> E -> bool) : aggregator E E E :=
  Aggregator (zonal_max_add ltb) (zonal_max_add ltb) (fun s => s).

(** ZonalMean: zonal_mean.hpp:40-89.  [plus] and [divide] are the element type's + and
    / by a count. *)
Definition zonal_mean_merge {E} (plus : E -> E -> E) (old : option (E * Z)) (other : E * Z) : E * Z :=
  match old with
  | None => other
  | Some (this_sum, this_count) => (plus this_sum (fst other), this_count + snd other)
  end.
Definition zonal_mean_aggregator {E} (plus : E -> E -> E) (divide : E -> Z -> E) : aggregator E (E * Z) E :=
  Aggregator (fun old v => zonal_mean_merge plus old (v, 1)) (zonal_mean_merge plus) (fun s => divide (fst s) (snd s)).

(** ZonalDiversity: zonal_diversity.hpp:36-71.  A std::set is a list without duplicates. *)
Definition set_insert (v : Z) (s : list Z) : list Z := if existsb (Z.eqb v) s then s else v :: s.
Definition zonal_diversity_aggregator : aggregator Z (list Z) Z :=
  Aggregator
    (fun old v => set_insert v (match old with None => [] | Some s => s end))
    (fun old other => match old with None => other | Some s => fold_left (fun s v => set_insert v s) other s end)
    (fun s => Z.of_nat (length s)).

(** ZonalMajority: zonal_majority.hpp:36-126.  [iter] is the order of the frequency maps. *)
Definition majority_pick (best : Z * Z) (e : Z * Z) : Z * Z :=
  let '(value, frequency) := e in
  let '(majority_value, majority_frequency) := best in
  if majority_frequency <? frequency then (value, frequency)
  else if frequency =? majority_frequency then
    if majority_value <? value then (value, majority_frequency) else best
  else best.
Definition zonal_majority_aggregator (iter : zmap Z -> zmap Z) : aggregator Z (zmap Z) Z :=
  Aggregator
    (fun old v =>
       let m := match old with None => [] | Some m => m end in
       zset_map m v ((match zfind m v with None => 0 | Some n => n end) + 1))
    (fun old other =>
       match old with
       | None => other
       | Some m => fold_left (fun m '(v, n) =>
           zset_map m v (match zfind m v with None => n | Some n' => n' + n end)) (iter other) m
       end)
    (fun m => fst (fold_left majority_pick (iter m) (0, 0))).

(** zonal_area: zonal_area.hpp:8-15; a ZonalSum of the scalar 1. *)
Definition zonal_area (iter : zmap Z -> zmap Z) (t : itype) (pol : zonal_policies Z Z) (junk : Z -> Z) (zones : parray Z) : outcome (parray Z) :=
  zonal_operation_scalar iter pol (zonal_sum_aggregator t) junk 1 zones.
