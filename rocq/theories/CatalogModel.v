(** Model of the collections of named items in a dataset (universes, phenomena, property-sets, properties): data_model/cxx, on top of HDF5 groups.
    Modelled: the groups and datasets in the file, with HDF5's rules for names of links, and the items that an opened dataset keeps in memory.  Not modelled:
    attributes and descriptions, the values, time and space domains, shared object trackers and domains, files that are no datasets or cannot be written. *)
From Coq Require Import Ascii String.
From Verif Require Import Common ArrayModel FileNameModel.
Open Scope Z_scope.

(** ** HDF5 *)

(** What a link in a file leads to *)
Inductive entry : Type := GroupEntry | DatasetEntry.
Definition same_entry (a b : entry) : bool := match a, b with GroupEntry, GroupEntry | DatasetEntry, DatasetEntry => true | _, _ => false end.
(** The names on the way from the root group to something in the file *)
Definition location : Type := list text.
Definition same_text (a b : text) : bool := if list_eq_dec ascii_dec a b then true else false.
Definition same_location (a b : location) : bool := if list_eq_dec (list_eq_dec ascii_dec) a b then true else false.
(** What there is in a file, in the order of creation; the root group is always there *)
Definition file : Type := list (location * entry).
Definition entry_at (f : file) (p : location) : option entry :=
  match p with
  | [] => Some GroupEntry
  | _ => match find (fun e => same_location (fst e) p) f with Some e => Some (snd e) | None => None end
  end.
Definition has_entry (f : file) (p : location) (e : entry) : bool := match entry_at f p with Some e' => same_entry e e' | None => false end.

(** std::string::c_str, as HDF5 reads it: up to the first NUL *)
Fixpoint cstr (s : text) : text := match s with [] => [] | c :: s => if Ascii.eqb c Ascii.zero then [] else c :: cstr s end.
(** The names in the name of a link: slashes separate; repeated slashes and "." don't count *)
Definition components (name : text) : list text := filter is_part (split (cstr name)).
Definition is_absolute (name : text) : bool := match cstr name with c :: _ => Ascii.eqb c slash | [] => false end.
Definition resolve (base : location) (name : text) : location := (if is_absolute name then [] else base) ++ components name.

(** hdf5::create_group: hdf5/source/group.cpp:295-312; group_exists: 284-287; H5Gcreate does not create intermediate groups *)
Definition create_group (f : file) (base : location) (name : text) : outcome (file * location) :=
  let target := resolve base name in
  match components name with
  | [] => Throw
  | _ =>
      match entry_at f target with
      | Some _ => Throw
      | None => if has_entry f (removelast target) GroupEntry then Ok (f ++ [(target, GroupEntry)], target) else Throw
      end
  end.

(** Group::group_names: hdf5/source/group.cpp:70-89, 189-195 *)
Definition children (f : file) (p : location) : list text :=
  concat (map (fun e => match fst e, snd e with
                        | [], _ => []
                        | _, DatasetEntry => []
                        | q, GroupEntry => if same_location (removelast q) p then [last q []] else []
                        end) f).

(** ** Items *)

(** std::map: keys are ordered, byte by byte; insert does not replace *)
Fixpoint text_less (a b : text) : bool :=
  match a, b with
  | _, [] => false
  | [], _ :: _ => true
  | c :: a, d :: b => if Ascii.eqb c d then text_less a b else (N_of_ascii c <? N_of_ascii d)%N
  end.
Fixpoint map_insert {T} (key : text) (v : T) (m : list (text * T)) : list (text * T) :=
  match m with
  | [] => [(key, v)]
  | (k, w) :: m' => if same_text key k then m else if text_less key k then (key, v) :: m else (k, w) :: map_insert key v m'
  end.
Definition map_find {T} (key : text) (m : list (text * T)) : option T :=
  match find (fun i => same_text (fst i) key) m with Some i => Some (snd i) | None => None end.
Definition map_update {T} (key : text) (v : T) (m : list (text * T)) : list (text * T) := map (fun i => if same_text (fst i) key then (fst i, v) else i) m.
Definition map_contains {T} (key : text) (m : list (text * T)) : bool := existsb (fun i => same_text (fst i) key) m.

(** The collections of properties: object/property/properties.hpp:96-106 *)
Inductive kind : Type := SameShape | SameConstant | SameVariable | DifferentShape | DifferentConstant | DifferentVariable.
Definition kinds : list kind := [SameShape; SameConstant; SameVariable; DifferentShape; DifferentConstant; DifferentVariable].
(** core/tag.hpp *)
Definition kind_tag (k : kind) : text :=
  text_of match k with
  | SameShape => "lue_same_shape" | SameConstant => "lue_same_shape_constant_shape" | SameVariable => "lue_same_shape_variable_shape"
  | DifferentShape => "lue_different_shape" | DifferentConstant => "lue_different_shape_constant_shape" | DifferentVariable => "lue_different_shape_variable_shape"
  end%string.
Definition tag (s : string) : location := [text_of s].

Inductive class : Type := Dataset | Universe | Phenomenon | PropertySet | Property (k : kind).
(** The collections of items in an item, where they are in its group, and what they contain:
    object/dataset.hpp, universe.hpp, phenomenon.hpp, property/property_set.hpp, property/properties.hpp *)
Definition collections (c : class) : list (location * class) :=
  match c with
  | Dataset => [(tag "lue_universes", Universe); (tag "lue_phenomena", Phenomenon)]
  | Universe => [(tag "lue_phenomena", Phenomenon)]
  | Phenomenon => [(tag "lue_collection_property_sets", PropertySet); (tag "lue_property_sets", PropertySet)]
  | PropertySet => map (fun k => (tag "lue_properties" ++ [kind_tag k], Property k)) kinds
  | Property _ => []
  end.
(** What is created in the group of a new item: create_dataset: dataset.cpp:139-152; create_universe: universe.cpp:42-49; create_phenomenon: phenomenon.cpp:88-111;
    create_property_set: property_set.cpp:169-183, with create_object_tracker and create_properties: properties.cpp:246-264; create_property: same_shape/property.cpp, ...
    Nothing exists in a group that was just created: these don't fail. *)
Definition parts (c : class) : list (location * entry) :=
  match c with
  | Dataset => [(tag "lue_universes", GroupEntry); (tag "lue_phenomena", GroupEntry)]
  | Universe => [(tag "lue_phenomena", GroupEntry)]
  | Phenomenon => [(tag "lue_object_id", DatasetEntry); (tag "lue_collection_property_sets", GroupEntry); (tag "lue_property_sets", GroupEntry)]
  | PropertySet =>
      [(tag "lue_object_tracker", GroupEntry); (tag "lue_object_tracker" ++ tag "lue_active_object_id", DatasetEntry);
       (tag "lue_object_tracker" ++ tag "lue_active_set_index", DatasetEntry); (tag "lue_object_tracker" ++ tag "lue_active_object_index", DatasetEntry);
       (tag "lue_properties", GroupEntry)] ++ map (fun k => (tag "lue_properties" ++ [kind_tag k], GroupEntry)) kinds
  | Property k => [(tag "lue_value", match k with SameShape | SameConstant => DatasetEntry | _ => GroupEntry end)]
  end.

(** An opened item: its group, and its collections.  Collection<T>::_items: core/collection.hpp:73 *)
Inductive object : Type := Object (where_ : location) (items : list (list (text * object))).
Definition o_location (o : object) : location := match o with Object p _ => p end.
Definition o_collections (o : object) : list (list (text * object)) := match o with Object _ cs => cs end.

(** Collection<T>::Collection: core/collection.hpp:86-122 *)
Definition open_collection (open_item : location -> outcome object) (f : file) (p : location) : outcome (list (text * object)) :=
  obind (sequence (map (fun name => obind (open_item (p ++ [name])) (fun o => Ok (name, o))) (children f p))) (fun items =>
  Ok (fold_left (fun m i => map_insert (fst i) (snd i) m) items [])).
(** Dataset::Dataset: dataset.cpp:8-56; Universe::Universe: universe.cpp:6-21; Phenomenon::Phenomenon: phenomenon.cpp:7-30; PropertySet::PropertySet:
    property_set.cpp:12-41; Properties::Properties: properties.cpp:10-35; Property::Property: throws if something is missing *)
Fixpoint open_object (depth : nat) (f : file) (c : class) (p : location) : outcome object :=
  if forallb (fun q => has_entry f (p ++ fst q) (snd q)) (parts c) then
    match depth with
    | O => Ok (Object p [])
    | S d =>
        obind (sequence (map (fun co => open_collection (open_object d f (snd co)) f (p ++ fst co)) (collections c))) (fun cs =>
        Ok (Object p cs))
    end
  else Throw.
Definition depth (c : class) : nat := match c with Dataset => 4 | Universe => 3 | Phenomenon => 2 | PropertySet => 1 | Property _ => 0 end.
Definition open_dataset (f : file) : outcome object := open_object (depth Dataset) f Dataset [].

(** create_universe, create_phenomenon, create_property_set, create_property, as above *)
Definition create_object (f : file) (base : location) (c : class) (name : text) : outcome (file * object) :=
  obind (create_group f base name) (fun g =>
  let f := fst g ++ map (fun q => (snd g ++ fst q, snd q)) (parts c) in
  obind (open_object (depth c) f c (snd g)) (fun o => Ok (f, o))).

(** Properties::verify_property_does_not_exist: properties.cpp:203-209, and Properties::contains: 73-81.  Other collections don't verify. *)
Definition verify_does_not_exist (c : class) (o : object) (name : text) : bool :=
  match c with PropertySet => negb (existsb (map_contains name) (o_collections o)) | _ => true end.

(** Collection::add: core/collection.hpp:166-173, called by Universes::add, Phenomena::add, PropertySets::add, Properties::add.  The item to add to is found with
    Collection::operator[]: 193-222.  [i]: which of the item's collections *)
Fixpoint add_item (f : file) (c : class) (o : object) (address : list (nat * text)) (i : nat) (name : text) : outcome (file * object) :=
  match address with
  | [] =>
      if verify_does_not_exist c o name then
        match nth_error (collections c) i, nth_error (o_collections o) i with
        | Some (t, c'), Some items =>
            obind (create_object f (o_location o ++ t) c' name) (fun r =>
            match upd_nth i (map_insert name (snd r) items) (o_collections o) with
            | Some cs => Ok (fst r, Object (o_location o) cs)
            | None => UB
            end)
        | _, _ => UB
        end
      else Throw
  | (j, key) :: rest =>
      match nth_error (collections c) j, nth_error (o_collections o) j with
      | Some (t, c'), Some items =>
          match map_find key items with
          | Some o' =>
              obind (add_item f c' o' rest i name) (fun r =>
              match upd_nth j (map_update key (snd r) items) (o_collections o) with
              | Some cs => Ok (fst r, Object (o_location o) cs)
              | None => UB
              end)
          | None => Throw
          end
      | _, _ => UB
      end
  end.

(** ** Use of a dataset *)

(** Dataset::add_universe, add_phenomenon: dataset.cpp:67-80; Universe::add_phenomenon: universe.cpp:36-39; PropertySets::add: property_sets.cpp:22-25;
    Properties::add: properties.cpp:212-243, properties.hpp:146-230.  [u]: the universe, if any; [c]: add_collection_property_set *)
Inductive op : Type :=
| AddUniverse (u : text)
| AddPhenomenon (u : option text) (p : text)
| AddPropertySet (u : option text) (p : text) (c : bool) (s : text)
| AddProperty (u : option text) (p : text) (c : bool) (s : text) (k : kind) (n : text)
| Reopen.

Definition phenomenon_at (u : option text) (p : text) : list (nat * text) := match u with None => [(1%nat, p)] | Some u => [(0%nat, u); (0%nat, p)] end.
Definition set_at (c : bool) (s : text) : nat * text := ((if c then 0 else 1)%nat, s).
Definition kind_index (k : kind) : nat :=
  match k with SameShape => 0 | SameConstant => 1 | SameVariable => 2 | DifferentShape => 3 | DifferentConstant => 4 | DifferentVariable => 5 end.
(** Where an item is: the collections and the keys *)
Definition address_of (o : op) : list (nat * text) :=
  match o with
  | AddUniverse u => [(0%nat, u)]
  | AddPhenomenon u p => phenomenon_at u p
  | AddPropertySet u p c s => phenomenon_at u p ++ [set_at c s]
  | AddProperty u p c s k n => phenomenon_at u p ++ [set_at c s] ++ [(kind_index k, n)]
  | Reopen => []
  end.

Definition add_at (f : file) (o : object) (address : list (nat * text)) : outcome (file * object) :=
  add_item f Dataset o (removelast address) (fst (last address (0%nat, []))) (snd (last address (0%nat, []))).
Definition step (o : op) (s : file * object) : outcome (file * object) :=
  match o with
  | Reopen => obind (open_dataset (fst s)) (fun d => Ok (fst s, d))
  | _ => add_at (fst s) (snd s) (address_of o)
  end.
(** What each operation results in, and the file and the opened dataset after them *)
Fixpoint run (ops : list op) (s : file * object) : list (outcome unit) * (file * object) :=
  match ops with
  | [] => ([], s)
  | o :: ops =>
      match step o s with
      | Ok s' => let (results, s'') := run ops s' in (Ok tt :: results, s'')
      | Throw => let (results, s'') := run ops s in (Throw :: results, s'')
      | UB => let (results, s'') := run ops s in (UB :: results, s'')
      end
  end.

(** create_dataset: dataset.cpp:139-152, 178-188 *)
Definition new_file : file := parts Dataset.
Definition create_dataset : outcome (file * object) := obind (open_dataset new_file) (fun d => Ok (new_file, d)).

(** Collection::contains and operator[] *)
Fixpoint find_item (o : object) (address : list (nat * text)) : option object :=
  match address with
  | [] => Some o
  | (i, key) :: rest =>
      match nth_error (o_collections o) i with
      | Some items => match map_find key items with Some o' => find_item o' rest | None => None end
      | None => None
      end
  end.
Definition contains (o : object) (item : op) : bool := match find_item o (address_of item) with Some _ => true | None => false end.
(** Collection::names: core/collection.hpp:142-156 *)
Definition names (o : object) (address : list (nat * text)) (i : nat) : list text :=
  match find_item o address with
  | Some o' => match nth_error (o_collections o') i with Some items => map fst items | None => [] end
  | None => []
  end.
Definition universe_names (o : object) : list text := names o [] 0.
Definition phenomenon_names (o : object) (u : option text) : list text := match u with None => names o [] 1 | Some u => names o [(0%nat, u)] 0 end.
Definition property_set_names (o : object) (u : option text) (p : text) (c : bool) : list text := names o (phenomenon_at u p) (if c then 0 else 1).
Definition property_names (o : object) (u : option text) (p : text) (c : bool) (s : text) (k : kind) : list text :=
  names o (phenomenon_at u p ++ [set_at c s]) (kind_index k).
