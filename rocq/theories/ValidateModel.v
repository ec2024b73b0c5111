(** Model of the validation of datasets: data_model/cxx/source/validate.cpp.
    The collections of IDs and indices are value arrays of numbers (info/identity/*.cpp); reading them as a whole is C54, so here they are lists.  ID, Index, Count
    and DurationCount are unsigned 64-bit integers (core/define.hpp:9-16, core/time/duration.hpp:7).
    Values of all properties have the same element type [E], which does not matter for validation.
    Not modelled: discretization of presence in space domains (1510-1586), identifiers in messages, and the opening of the dataset. *)
From Verif Require Import Common IndexModel DecompModel ArrayModel IOModel NumpyModel ValueModel.

(** ** Issues: hdf5/source/issues.cpp.  What the messages in validate.cpp say *)
Inductive problem : Type :=
| DuplicateID (id : Z) | NotIncreasing (a b : Z) | WrongNumber (found expected : Z) | MissingValue (id : Z) | TooFewArrays (id : Z)
| SetsMissing (n : Z) | SetsDecrease (next current : Z) | SetIncomplete (last size : Z) | UnknownID (id : Z)
| NotVariable | NotConstant | NotSameShape | NotConstantShape | NotUnsigned | WrongRank (rank : Z) | NotSupported.
Inductive issue : Type := Error (p : problem) | Warning (p : problem).
Definition is_error (i : issue) : bool := match i with Error _ => true | Warning _ => false end.
Definition errors_found (l : list issue) : bool := existsb is_error l.
Definition warnings_found (l : list issue) : bool := existsb (fun i => negb (is_error i)) l.

(** Checking whether two numbers are the same *)
Definition same_number (found expected : Z) : list issue := if found =? expected then [] else [Error (WrongNumber found expected)].

(** std::ranges::sort of numbers *)
Fixpoint insert_sorted (x : Z) (l : list Z) : list Z :=
  match l with
  | [] => [x]
  | y :: l' => if x <=? y then x :: l else y :: insert_sorted x l'
  end.
Definition sort_numbers (l : list Z) : list Z := fold_right insert_sorted [] l.
(** std::adjacent_find *)
Fixpoint adjacent_find (p : Z -> Z -> bool) (l : list Z) : option (Z * Z) :=
  match l with
  | a :: ((b :: _) as l') => if p a b then Some (a, b) else adjacent_find p l'
  | _ => None
  end.

(** assert_ids_are_unique: 103-124 *)
Definition assert_ids_are_unique (ids : list Z) : list issue :=
  match adjacent_find Z.eqb (sort_numbers ids) with Some (a, _) => [Error (DuplicateID a)] | None => [] end.
(** assert_increasing: 159-186 *)
Definition assert_increasing (l : list Z) : list issue :=
  match adjacent_find Z.gtb l with Some (a, b) => [Error (NotIncreasing a b)] | None => [] end.

Definition len {A} (l : list A) : Z := Z.of_nat (length l).

(** ** The object tracker: object/identity/object_tracker.hpp *)
Record tracker : Type := Tracker { tr_sets : list Z; tr_ids : list Z; tr_idxs : list Z }.

(** validate_active_ids: 527-609.  The loop over the ends of the sets: 563-607 *)
Fixpoint check_sets (first : Z) (ends ids : list Z) : list issue :=
  match ends with
  | [] => []
  | last :: ends' =>
      if last <? first then [Error (SetsDecrease last first)]
      else if len ids <? last then [Error (SetIncomplete last (len ids))]
      else match assert_ids_are_unique (firstn (Z.to_nat (last - first)) (skipn (Z.to_nat first) ids)) with
           | [] => check_sets last ends' ids
           | issues => issues
           end
  end.
Definition validate_active_ids (sets ids : list Z) : list issue :=
  match sets with
  | [] => match ids with [] => [] | _ => [Error (SetsMissing (len ids))] end
  | first :: rest => check_sets first (rest ++ [len ids]) ids
  end.
(** validate_active_object_idxs: 612-673 *)
Fixpoint check_idxs (first : Z) (ends : list Z) (size : Z) : list issue :=
  match ends with
  | [] => []
  | last :: ends' =>
      if last <? first then [Error (SetsDecrease last first)]
      else if size <? last then [Error (SetIncomplete last size)]
      else check_idxs last ends' size
  end.
Definition validate_active_object_idxs (sets idxs : list Z) : list issue :=
  match sets with
  | [] => match idxs with [] => [] | _ => [Error (SetsMissing (len idxs))] end
  | first :: rest => match idxs with [] => [] | _ => check_idxs first (rest ++ [len idxs]) (len idxs) end
  end.
(** validate_object_tracker: 676-735 *)
Definition is_known (ids : list Z) (id : Z) : bool := existsb (Z.eqb id) ids.
Definition validate_object_tracker (ids : list Z) (t : tracker) : list issue :=
  assert_ids_are_unique ids ++
  validate_active_ids (tr_sets t) (tr_ids t) ++
  validate_active_object_idxs (tr_sets t) (tr_idxs t) ++
  match ids with
  | [] => []
  | _ => match find (fun id => negb (is_known ids id)) (tr_ids t) with Some id => [Error (UnknownID id)] | None => [] end
  end.

Section Validate.
Context {E : Type}.

(** ** Values *)

(** validate_value: 189-207 *)
Definition validate_same (ids : list Z) (v : array E) : list issue := same_number (nr_arrays v) (len ids).
(** 210-246 *)
Definition validate_different (ids : list Z) (g : group (array E)) : list issue :=
  if negb (gr_count g =? len ids) then [Error (WrongNumber (gr_count g) (len ids))]
  else concat (map (fun id => if has_item id g then [] else [Error (MissingValue id)]) ids).
(** 249-273 *)
Definition validate_same_constant (t : tracker) (v : array E) : list issue := same_number (nr_arrays v) (len (tr_ids t)).

(** 276-393.  The loop over an active set: 363-388; a vector's operator[] does not check the index *)
Fixpoint check_objects (positions : list Z) (t : tracker) (g : group (array E)) : outcome (list issue) :=
  match positions with
  | [] => Ok []
  | k :: positions' =>
      obind (at_z (tr_ids t) k) (fun id =>
      obind (at_z (tr_idxs t) k) (fun idx =>
      obind (item id g) (fun v =>
      if nr_arrays v <=? idx then Ok [Error (TooFewArrays id)] else check_objects positions' t g)))
  end.
Fixpoint check_active_sets (first : Z) (ends : list Z) (t : tracker) (g : group (array E)) : outcome (list issue) :=
  match ends with
  | [] => Ok []
  | last :: ends' =>
      obind (check_objects (zseq first (last - first)) t g) (fun issues =>
      obind (check_active_sets last ends' t g) (fun issues' => Ok (issues ++ issues')))
  end.
Definition validate_different_constant (t : tracker) (g : group (array E)) : outcome (list issue) :=
  let unique_ids := sort_numbers (nodup Z.eq_dec (tr_ids t)) in
  if negb (gr_count g =? len unique_ids) then Ok [Error (WrongNumber (gr_count g) (len unique_ids))]
  else match find (fun id => negb (has_item id g)) unique_ids with
       | Some id => Ok [Error (MissingValue id)]
       | None =>
           match tr_sets t ++ [len (tr_ids t)] with
           | [] => UB
           | first :: ends => check_active_sets first ends t g
           end
       end.

(** 396-448.  The loop: 426-446; differences of unsigned integers *)
Fixpoint check_sizes (i first : Z) (ends : list Z) (g : group (array E)) : outcome (list issue) :=
  match ends with
  | [] => Ok []
  | last :: ends' =>
      obind (item i g) (fun v =>
      if negb (nr_arrays v =? to_size (last - first)) then Ok [Error (WrongNumber (nr_arrays v) (to_size (last - first)))]
      else check_sizes (i + 1) last ends' g)
  end.
Definition validate_same_variable (t : tracker) (g : group (array E)) : outcome (list issue) :=
  if negb (gr_count g =? len (tr_sets t)) then Ok [Error (WrongNumber (gr_count g) (len (tr_sets t)))]
  else match tr_sets t ++ [len (tr_ids t)] with
       | [] => UB
       | first :: ends => check_sizes 0 first ends g
       end.
(** 451-513: what the locations in time contain is not looked at *)
Definition validate_different_variable (t : tracker) (g : group (group (array E))) : list issue :=
  if negb (gr_count g =? len (tr_sets t)) then [Error (WrongNumber (gr_count g) (len (tr_sets t)))] else [Warning NotSupported].

(** ** Domains *)

Inductive time_domain : Type :=
| TimeBoxes (boxes : list (Z * Z))
| TimeCells (boxes : list (Z * Z)) (counts : list Z)
| TimePoints (points : list Z).
Definition coordinates (boxes : list (Z * Z)) : list Z := concat (map (fun b => [fst b; snd b]) boxes).
(** validate_time_box: 738-776; validate_time_cell: 779-839; validate_time_point: 842-870; validate: 873-895.  Sums wrap around. *)
Definition validate_time (t : tracker) (d : time_domain) : list issue :=
  match d with
  | TimeBoxes boxes => assert_increasing (coordinates boxes) ++ same_number (len boxes) (len (tr_sets t))
  | TimeCells boxes counts =>
      assert_increasing (coordinates boxes) ++
      if negb (len counts =? len boxes) then [Error (WrongNumber (len counts) (len boxes))]
      else same_number (fold_left (fun a c => to_size (a + c)) counts 0) (len (tr_sets t))
  | TimePoints points => assert_increasing points ++ same_number (len points) (len (tr_sets t))
  end.
(** validate of a space domain: 898-985.  Boxes and points are stored the same way. *)
Inductive space_domain : Type := Stationary (v : array E) | Mobile (v : array E).
Definition validate_space (ids : list Z) (t : tracker) (d : space_domain) : list issue :=
  match d with Stationary v => validate_same ids v | Mobile v => validate_same_constant t v end.

(** ** Properties *)

(** A discretization property, as far as validation looks at it *)
Record grid : Type := Grid {
  gr_variable : bool;        (* value_variability is variable *)
  gr_same_shape : bool;      (* shape_per_object is same *)
  gr_constant_shape : bool;  (* shape_variability is constant *)
  gr_collection : bool;      (* is_collection_property: 37-41 *)
  gr_unsigned : bool;        (* is_native_unsigned_integral(memory_datatype) *)
  gr_nr_arrays : Z;
  gr_array_shape : list Z }.
(** validate_space_constant_regular_grid: 988-1133.  [arrays]: the number of object arrays that is needed if this is not a collection property *)
Definition validate_grid (g : grid) (arrays : Z) : list issue :=
  if negb (gr_same_shape g) then [Error NotSameShape]
  else same_number (gr_nr_arrays g) (if gr_collection g then 1 else arrays) ++
       (if gr_unsigned g then [] else [Error NotUnsigned]).
(** 1160-1195, 1248-1287: a variable discretization property is an error *)
Definition validate_constant_grid (g : grid) (arrays : Z) : list issue :=
  if gr_variable g then [Error NotConstant] else validate_grid g arrays.

Inductive property : Type :=
| SameShape (v : array E)
| DifferentShape (g : group (array E))
| SameConstant (v : array E)
| DifferentConstant (g : group (array E))
| SameVariable (g : group (array E))
| DifferentVariable (g : group (group (array E))).
Record discretized : Type := Discretized { di_property : property; di_time : option grid; di_space : option grid }.

(** validate_property, discretization through time: 1136-1150, 1160-1163, 1205-1208, 1256-1259, 1297-1398, 1410-1414.  [values_can_be_tested] is false from
    the start (1308). *)
Definition validate_time_grid (g : grid) (nr_locations_in_time : Z) : list issue :=
  let values_can_be_tested := false in
  (if gr_variable g then [] else [Error NotVariable]) ++
  (if gr_same_shape g then [] else [Error NotSameShape]) ++
  (if gr_constant_shape g then [] else [Error NotConstantShape]) ++
  if values_can_be_tested then
    same_number (gr_nr_arrays g) nr_locations_in_time ++
    (if gr_unsigned g then [] else [Error NotUnsigned]) ++
    match gr_array_shape g with
    | [n] => same_number n nr_locations_in_time
    | shape => [Error (WrongRank (len shape))]
    end
  else [].
Definition validate_time_discretization (p : property) (d : option grid) : list issue :=
  match d with
  | None => []
  | Some g =>
      match p with
      | SameVariable v => validate_time_grid g (gr_count v)
      | _ => [Warning NotSupported]
      end
  end.
(** discretization through space: 1145-1149, 1165-1195, 1210-1240, 1261-1287, 1400-1404, 1416-1420 *)
Definition validate_space_discretization (p : property) (d : option grid) : list issue :=
  match d with
  | None => []
  | Some g =>
      match p with
      | DifferentShape v => validate_constant_grid g (gr_count v)
      | SameConstant _ => if gr_variable g then [Warning NotSupported] else validate_grid g 1
      | DifferentConstant v => validate_constant_grid g (gr_count v)
      | SameShape _ | SameVariable _ | DifferentVariable _ => [Warning NotSupported]
      end
  end.
Definition validate_value (ids : list Z) (t : tracker) (p : property) : outcome (list issue) :=
  match p with
  | SameShape v => Ok (validate_same ids v)
  | DifferentShape g => Ok (validate_different ids g)
  | SameConstant v => Ok (validate_same_constant t v)
  | DifferentConstant g => validate_different_constant t g
  | SameVariable g => validate_same_variable t g
  | DifferentVariable g => Ok (validate_different_variable t g)
  end.
Definition validate_property (ids : list Z) (t : tracker) (p : discretized) : outcome (list issue) :=
  obind (validate_value ids t (di_property p)) (fun issues =>
  Ok (issues ++ validate_time_discretization (di_property p) (di_time p) ++ validate_space_discretization (di_property p) (di_space p))).

(** One after the other; an exception ends the validation *)
Fixpoint validate_each {A} (f : A -> outcome (list issue)) (l : list A) : outcome (list issue) :=
  match l with
  | [] => Ok []
  | a :: l' => obind (f a) (fun issues => obind (validate_each f l') (fun issues' => Ok (issues ++ issues')))
  end.

(** ** Property sets, phenomena, datasets *)
Record property_set : Type := PropertySet {
  ps_tracker : tracker; ps_time : option time_domain; ps_space : option space_domain; ps_properties : list discretized }.

(** validate_property_set: 1470-1590 (without 1489-1586), validate_properties: 1424-1461.  The properties are visited per kind: their order does not matter here. *)
Definition validate_property_set (ids : list Z) (s : property_set) : outcome (list issue) :=
  let tracker_issues := validate_object_tracker ids (ps_tracker s) in
  if errors_found tracker_issues then Ok tracker_issues
  else
    obind (validate_each (validate_property ids (ps_tracker s)) (ps_properties s)) (fun issues =>
    Ok (tracker_issues ++
        match ps_time s with Some d => validate_time (ps_tracker s) d | None => [] end ++
        match ps_space s with Some d => validate_space ids (ps_tracker s) d | None => [] end ++
        issues)).

(** Collection property sets: 1608-1746 *)
Definition collection_id (t : tracker) : Z := match tr_ids t with id :: _ => id | [] => 999 end.
Definition checks_active_sets (p : discretized) : bool :=
  match di_property p with SameConstant _ | SameVariable _ | DifferentConstant _ => true | _ => false end.
Definition checks_active_object_indices (p : discretized) : bool :=
  match di_property p with DifferentConstant _ => true | _ => false end.
Definition validate_collection_property_set (s : property_set) : outcome (list issue) :=
  let t := ps_tracker s in
  obind (validate_property_set [collection_id t] s) (fun issues =>
  Ok (issues ++
      if existsb checks_active_sets (ps_properties s) then
        same_number (len (tr_sets t)) (len (tr_ids t)) ++
        (* the number of active object indices is meant: 1725 *)
        (if existsb checks_active_object_indices (ps_properties s) then same_number (len (tr_sets t)) (len (tr_ids t)) else [])
      else [])).

(** validate_phenomenon: 1593-1747 *)
Record phenomenon : Type := Phenomenon { ph_ids : list Z; ph_sets : list property_set; ph_collections : list property_set }.
Definition validate_phenomenon (p : phenomenon) : outcome (list issue) :=
  obind (validate_each (validate_property_set (ph_ids p)) (ph_sets p)) (fun issues =>
  obind (validate_each validate_collection_property_set (ph_collections p)) (fun issues' => Ok (issues ++ issues'))).

(** validate of a dataset: 1750-1783: the phenomena of the universes, and the other ones *)
Record data_set : Type := DataSet { da_universes : list (list phenomenon); da_phenomena : list phenomenon }.
Definition validate_dataset (d : data_set) : outcome (list issue) :=
  obind (validate_each (validate_each validate_phenomenon) (da_universes d)) (fun issues =>
  obind (validate_each validate_phenomenon (da_phenomena d)) (fun issues' => Ok (issues ++ issues'))).

(** assert_is_valid: 1864-1881 *)
Definition assert_is_valid (fail_on_warning : bool) (d : data_set) : outcome unit :=
  obind (validate_dataset d) (fun issues =>
  if errors_found issues || (fail_on_warning && warnings_found issues) then Throw else Ok tt).

End Validate.
