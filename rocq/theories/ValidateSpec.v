(** Specification vocabulary for valid datasets. *)
From Verif Require Import Common ArrayModel NumpyModel ValueModel ValidateModel.
From Coq Require Export Sorting.Sorted.

(** Location in time number [k]: the positions of its objects are those from [set_first] up to [set_last] *)
Definition set_first (t : tracker) (k : nat) : Z := nth k (tr_sets t) (len (tr_ids t)).
Definition set_last (t : tracker) (k : nat) : Z := set_first t (S k).
Definition in_set (t : tracker) (k : nat) (position : Z) : Prop := set_first t k <= position < set_last t k.
(** The objects that are active at location in time [k] *)
Definition active_set (t : tracker) (k : nat) : list Z :=
  firstn (Z.to_nat (set_last t k - set_first t k)) (skipn (Z.to_nat (set_first t k)) (tr_ids t)).

Definition sumZ : list Z -> Z := fold_right Z.add 0.
Definition increasing : list Z -> Prop := StronglySorted Z.le.
Definition size_range (i : Z) : Prop := 0 <= i < 18446744073709551616.

(** The administration of the objects is consistent *)
Record consistent (ids : list Z) (t : tracker) : Prop := Consistent {
  static_ids_unique : NoDup ids;
  nothing_without_sets : tr_sets t = [] -> tr_ids t = [] /\ tr_idxs t = [];
  sets_in_order : increasing (tr_sets t ++ [len (tr_ids t)]);
  active_ids_unique : forall k, (k < length (tr_sets t))%nat -> NoDup (active_set t k);
  enough_indices : tr_idxs t <> [] -> Forall (fun first => first <= len (tr_idxs t)) (tr_sets t);
  active_ids_known : ids <> [] -> incl (tr_ids t) ids }.

Section Valid.
Context {E : Type}.

(** A property's value has room for all object arrays: not more, not less *)
Definition complete (ids : list Z) (t : tracker) (p : @property E) : Prop :=
  match p with
  | SameShape v => nr_arrays v = len ids
  | DifferentShape g => gr_count g = len ids /\ forall id, In id ids -> exists v, item id g = Ok v
  | SameConstant v => nr_arrays v = len (tr_ids t)
  | DifferentConstant g =>
      gr_count g = len (nodup Z.eq_dec (tr_ids t)) /\
      (forall id, In id (tr_ids t) -> exists v, item id g = Ok v) /\
      forall k position, (k < length (tr_sets t))%nat -> in_set t k position ->
        exists id idx v, nth_error (tr_ids t) (Z.to_nat position) = Some id /\ nth_error (tr_idxs t) (Z.to_nat position) = Some idx /\
          item id g = Ok v /\ idx < nr_arrays v
  | SameVariable g =>
      gr_count g = len (tr_sets t) /\
      forall k, (k < length (tr_sets t))%nat -> exists v, item (Z.of_nat k) g = Ok v /\ nr_arrays v = len (active_set t k)
  | DifferentVariable g => gr_count g = len (tr_sets t)
  end.

Definition valid_time (t : tracker) (d : time_domain) : Prop :=
  match d with
  | TimeBoxes boxes => increasing (coordinates boxes) /\ length boxes = length (tr_sets t)
  | TimeCells boxes counts => increasing (coordinates boxes) /\ length counts = length boxes /\ (sumZ counts) mod 18446744073709551616 = len (tr_sets t)
  | TimePoints points => increasing points /\ length points = length (tr_sets t)
  end.
Definition valid_space (ids : list Z) (t : tracker) (d : @space_domain E) : Prop :=
  match d with
  | Stationary v => nr_arrays v = len ids
  | Mobile v => nr_arrays v = len (tr_ids t)
  end.
Definition valid_grid (arrays : Z) (g : grid) : Prop :=
  gr_same_shape g = true /\ gr_unsigned g = true /\ gr_nr_arrays g = if gr_collection g then 1 else arrays.
Definition valid_time_grid (p : @property E) (g : grid) : Prop :=
  match p with SameVariable _ => gr_variable g = true /\ gr_same_shape g = true /\ gr_constant_shape g = true | _ => True end.
Definition valid_space_grid (p : @property E) (g : grid) : Prop :=
  match p with
  | DifferentShape v | DifferentConstant v => gr_variable g = false /\ valid_grid (gr_count v) g
  | SameConstant _ => gr_variable g = true \/ valid_grid 1 g
  | _ => True
  end.
Definition when {A} (o : option A) (P : A -> Prop) : Prop := forall a, o = Some a -> P a.

Record valid_set (ids : list Z) (s : @property_set E) : Prop := ValidSet {
  valid_tracker : consistent ids (ps_tracker s);
  valid_times : when (ps_time s) (valid_time (ps_tracker s));
  valid_spaces : when (ps_space s) (valid_space ids (ps_tracker s));
  valid_values : forall p, In p (ps_properties s) ->
    complete ids (ps_tracker s) (di_property p) /\ when (di_time p) (valid_time_grid (di_property p)) /\ when (di_space p) (valid_space_grid (di_property p)) }.

(** For collections, with a single object *)
Record valid_collection (s : @property_set E) : Prop := ValidCollection {
  valid_collection_set : valid_set [collection_id (ps_tracker s)] s;
  an_object_per_time : (exists p, In p (ps_properties s) /\
      match di_property p with SameConstant _ | SameVariable _ | DifferentConstant _ => True | _ => False end) ->
    length (tr_sets (ps_tracker s)) = length (tr_ids (ps_tracker s)) }.

Definition valid_phenomenon (p : @phenomenon E) : Prop :=
  (forall s, In s (ph_sets p) -> valid_set (ph_ids p) s) /\ (forall s, In s (ph_collections p) -> valid_collection s).
Definition in_dataset (p : @phenomenon E) (d : data_set) : Prop := In p (da_phenomena d) \/ exists u, In u (da_universes d) /\ In p u.
Definition valid_dataset (d : data_set) : Prop := forall p, in_dataset p d -> valid_phenomenon p.

(** Numbers are unsigned and fit in 64 bits; so do the numbers of elements *)
Definition unsigned_tracker (t : tracker) : Prop := Forall size_range (tr_sets t) /\ size_range (len (tr_ids t)).
Definition unsigned_time (d : time_domain) : Prop := match d with TimeCells _ counts => Forall size_range counts | _ => True end.
Definition unsigned_set (s : @property_set E) : Prop := unsigned_tracker (ps_tracker s) /\ when (ps_time s) unsigned_time.
Definition unsigned_dataset (d : data_set) : Prop :=
  forall p s, in_dataset p d -> In s (ph_sets p) \/ In s (ph_collections p) -> unsigned_set s.

(** ** A dataset as it is meant to be written.  For each location in time the objects that are active: *)

(** where the sets start, *)
Fixpoint starts (first : Z) (sets : list (list Z)) : list Z :=
  match sets with [] => [] | s :: sets' => first :: starts (first + len s) sets' end.
(** and for each active object how often it has been active before *)
Definition times_active (sets : list (list Z)) (id : Z) : Z := len (filter (fun s => existsb (Z.eqb id) s) sets).
Fixpoint indices (before sets : list (list Z)) : list Z :=
  match sets with [] => [] | s :: sets' => map (times_active before) s ++ indices (before ++ [s]) sets' end.
Definition written (sets : list (list Z)) : tracker := Tracker (starts 0 sets) (concat sets) (indices [] sets).

(** What is written for a property *)
Definition written_value (ids : list Z) (sets : list (list Z)) (p : @property E) : Prop :=
  match p with
  | SameShape v => nr_arrays v = len ids
  | DifferentShape g => gr_count g = len ids /\ forall id, In id ids -> exists v, item id g = Ok v
  | SameConstant v => nr_arrays v = sumZ (map len sets)
  | DifferentConstant g =>
      gr_count g = len (nodup Z.eq_dec (concat sets)) /\
      forall id, 0 < times_active sets id -> exists v, item id g = Ok v /\ nr_arrays v = times_active sets id
  | SameVariable g =>
      gr_count g = len sets /\ forall k s, nth_error sets k = Some s -> exists v, item (Z.of_nat k) g = Ok v /\ nr_arrays v = len s
  | DifferentVariable g => gr_count g = len sets
  end.

End Valid.
