(** Model of the views on rasters in a dataset: data_model/hl/source/raster_view.cpp, data_model/hl/include/lue/data_model/hl/raster_view.hpp.
    The value arrays are those of ValueModel, the maps of named items those of CatalogModel.  Names of items are names as in C72 (no slashes, not
    empty): they are used as they are.  Clocks, descriptions and types of values are not modelled: a value in the file has the type of the value in
    memory.  Properties of the two variable shape kinds are not modelled: views do not create them.  Assertions of the standard library's assert are
    not modelled: the code is compiled with NDEBUG. *)
From Coq Require Import Ascii String.
From Verif Require Import Common ArrayModel IOModel NumpyModel ValueModel ValidateModel FileNameModel CatalogModel.
Open Scope Z_scope.

(** raster_view.cpp:10-12 *)
Definition time_grid_name : text := text_of "time_grid_shape".
Definition space_grid_name : text := text_of "space_grid_shape".

Section Views.
(** Cells of layers, with HDF5's default value, and coordinates of space boxes *)
Context {E C : Type} (zero : E) (origin : C).

(** ** Property sets, phenomena and datasets *)

(** A discretization: its type is regular_grid, and the pathname of the discretization property: data_model/cxx/source/info/property/property_group.cpp:38-113 *)
Record link : Type := Link { ln_regular : bool; ln_path : location }.
(** same_shape::Property, same_shape::constant_shape::Property with numbers.  [np_standard]: the type in the file is the one of hdf5::Shape's values *)
Record numbers : Type := Numbers { np_value : array Z; np_standard : bool; np_time : bool; np_space : bool }.
(** different_shape::Property, different_shape::constant_shape::Property *)
Record values : Type := Values { vp_value : group (array E); vp_time : option link; vp_space : option link }.
(** A space domain: data_model/cxx/source/object/space_domain.cpp *)
Record space : Type := Space { sp_mobile : bool; sp_box : bool; sp_presence : bool; sp_items : array C }.
(** A time domain: data_model/cxx/source/object/time_domain.cpp *)
Record times : Type := Times { ti_box : bool; ti_boxes : list (Z * Z) }.
Record set : Type := Set_ {
  se_tracker : tracker; se_time : option times; se_space : option space;
  se_same : list (text * numbers); se_same_constant : list (text * numbers);
  se_different : list (text * values); se_different_constant : list (text * values) }.
Record phen : Type := Phen { pn_ids : list Z; pn_sets : list (text * set) }.
Definition store : Type := list (text * phen).

Definition get {T} (key : text) (m : list (text * T)) : outcome T := match map_find key m with Some v => Ok v | None => Throw end.
Definition get_set (ph s : text) (d : store) : outcome set := obind (get ph d) (fun p => get s (pn_sets p)).
Definition put_set (ph s : text) (v : set) (d : store) : store :=
  match map_find ph d with Some p => map_update ph (Phen (pn_ids p) (map_update s v (pn_sets p))) d | None => d end.

(** Where properties are: C72 *)
Definition path_of (ph s : text) (k : CatalogModel.kind) (name : text) : location :=
  [text_of "lue_phenomena"; ph; text_of "lue_property_sets"; s; text_of "lue_properties"; kind_tag k; name]%string.

(** Properties::contains, shape_per_object == same, value_variability == constant, shape_variability == constant:
    data_model/cxx/source/object/property/properties.cpp:73-159.  The last one throws an exception when the property does not vary through time. *)
Definition has_property (name : text) (s : set) : bool :=
  map_contains name (se_same s) || map_contains name (se_same_constant s) || map_contains name (se_different s) || map_contains name (se_different_constant s).
Definition is_same (name : text) (s : set) : bool := map_contains name (se_same s) || map_contains name (se_same_constant s).
Definition is_constant (name : text) (s : set) : bool := map_contains name (se_same s) || map_contains name (se_different s).
Definition has_constant_shape (name : text) (s : set) : outcome bool :=
  if map_contains name (se_same_constant s) || map_contains name (se_different_constant s) then Ok true else Throw.

(** ** Views *)

(** [rv_time]: the time box and the number of time steps of a variable raster *)
Record view : Type := View {
  rv_phenomenon : text; rv_set : text; rv_id : Z; rv_box : list C; rv_shape : list Z; rv_time : option ((Z * Z) * Z); rv_layers : list text }.

(** Collections without time domain or space domain: dereferencing an empty optional is UB: data_model/cxx/source/object/property/property_set.cpp:107-148.
    Reading the first item from an array: two, four or one elements, in vectors with this size *)
Definition first_id (p : phen) : outcome Z := match pn_ids p with id :: _ => Ok id | [] => Throw end.
Definition first_box (s : set) : outcome (list C) :=
  match se_space s with None => UB | Some sp => read_index 0 (sp_items sp) (repeat origin 4) end.
Definition first_time_box (s : set) : outcome (Z * Z) :=
  match se_time s with None => UB | Some t => match ti_boxes t with b :: _ => Ok b | [] => Throw end end.

(** Is this property a layer?: 236-266, 482-520 *)
Definition links_to (l : option link) (p : location) : bool :=
  match l with Some l => ln_regular l && same_location (ln_path l) p | None => false end.
Definition constant_layers (ph s : text) (v : set) : list text :=
  map fst (filter (fun i => links_to (vp_space (snd i)) (path_of ph s SameShape space_grid_name)) (se_different v)).
Definition variable_layers (ph s : text) (v : set) : list text :=
  map fst (filter (fun i => links_to (vp_time (snd i)) (path_of ph s SameConstant time_grid_name) &&
                            links_to (vp_space (snd i)) (path_of ph s SameShape space_grid_name)) (se_different_constant v)).

(** The base class: 17-51 *)
Definition open_base (ph s : text) (d : store) : outcome (set * view) :=
  obind (get ph d) (fun p =>
  obind (get s (pn_sets p)) (fun v =>
  obind (first_id p) (fun id =>
  obind (first_box v) (fun box =>
  obind (get space_grid_name (se_same v)) (fun grid =>
  obind (read_index 0 (np_value grid) (repeat 0 2)) (fun shape => Ok (v, View ph s id box shape None []))))))).
(** 214-267 *)
Definition open_constant (ph s : text) (d : store) : outcome view :=
  obind (open_base ph s d) (fun '(v, w) => Ok (View ph s (rv_id w) (rv_box w) (rv_shape w) None (constant_layers ph s v))).
(** 445-522 *)
Definition open_variable (ph s : text) (d : store) : outcome view :=
  obind (open_base ph s d) (fun '(v, w) =>
  obind (first_time_box v) (fun box =>
  obind (get time_grid_name (se_same_constant v)) (fun grid =>
  obind (read_index 0 (np_value grid) (repeat 0 1)) (fun steps =>
  obind (at_z steps 0) (fun n => Ok (View ph s (rv_id w) (rv_box w) (rv_shape w) (Some (box, n)) (variable_layers ph s v))))))).

(** ** Adding layers *)

(** RasterView::contains, add_layer of the base class: 103-118 *)
Definition knows (w : view) (name : text) : bool := existsb (same_text name) (rv_layers w).
Definition know (w : view) (name : text) : view :=
  View (rv_phenomenon w) (rv_set w) (rv_id w) (rv_box w) (rv_shape w) (rv_time w) (rv_layers w ++ [name]).

(** The property is added to the collection of raster properties, and not through the property set's properties: 270-308, 294-296.  A name that is
    in use in this collection is an error (C72).  A new value has no objects yet. *)
Definition add_constant (name : text) (no_data : option E) (w : view) (d : store) : outcome view * store :=
  if knows w name then (Throw, d) else
  match get_set (rv_phenomenon w) (rv_set w) d with
  | Ok v =>
      match map_find space_grid_name (se_same v), map_find name (se_different v) with
      | Some _, None =>
          match expand_objects (match no_data with Some fill => fill | None => zero end) [(rv_id w, rv_shape w)] (Handle 0 2) ValueModel.create_group with
          | (Ok _, _, g) =>
              let p := Values g None (Some (Link true (path_of (rv_phenomenon w) (rv_set w) SameShape space_grid_name))) in
              (Ok (know w name),
               put_set (rv_phenomenon w) (rv_set w)
                 (Set_ (se_tracker v) (se_time v) (se_space v) (se_same v) (se_same_constant v) (map_insert name p (se_different v)) (se_different_constant v)) d)
          | (o, _, _) => (obind o (fun _ => UB), d)
          end
      | _, _ => (Throw, d)
      end
  | Throw => (Throw, d)
  | UB => (UB, d)
  end.
(** 538-586: a single location in time, with an array for all time steps *)
Definition add_variable (name : text) (w : view) (d : store) : outcome view * store :=
  if knows w name then (Throw, d) else
  match get_set (rv_phenomenon w) (rv_set w) d, rv_time w with
  | Ok v, Some (_, steps) =>
      match map_find time_grid_name (se_same_constant v), map_find space_grid_name (se_same v), map_find name (se_different_constant v) with
      | Some _, Some _, None =>
          match expand_values zero [(rv_id w, (steps :: rv_shape w, 1))] (Handle 0 3) ValueModel.create_group with
          | (Ok _, _, g) =>
              let p := Values g (Some (Link true (path_of (rv_phenomenon w) (rv_set w) SameConstant time_grid_name)))
                                (Some (Link true (path_of (rv_phenomenon w) (rv_set w) SameShape space_grid_name))) in
              (Ok (know w name),
               put_set (rv_phenomenon w) (rv_set w)
                 (Set_ (se_tracker v) (se_time v) (se_space v) (se_same v) (se_same_constant v) (se_different v) (map_insert name p (se_different_constant v))) d)
          | (o, _, _) => (obind o (fun _ => UB), d)
          end
      | _, _, _ => (Throw, d)
      end
  | UB, _ => (UB, d)
  | _, _ => (Throw, d)
  end.

(** layer: 311-336, 589-614: the array of the object, or the value of the object *)
Definition layer_of (name : text) (w : view) (d : store) : outcome (array E) :=
  if knows w name then
    obind (get_set (rv_phenomenon w) (rv_set w) d) (fun v =>
    obind (get name (match rv_time w with None => se_different v | Some _ => se_different_constant v end)) (fun p => item (rv_id w) (vp_value p)))
  else Throw.
(** Writing all cells: of the array, or of the value's first object array *)
Definition write_layer (name : text) (cells : list E) (w : view) (d : store) : outcome store :=
  if knows w name then
    obind (get_set (rv_phenomenon w) (rv_set w) d) (fun v =>
    match rv_time w with
    | None =>
        obind (get name (se_different v)) (fun p =>
        obind (update_item (rv_id w) (write_array cells) (vp_value p)) (fun g =>
        Ok (put_set (rv_phenomenon w) (rv_set w)
             (Set_ (se_tracker v) (se_time v) (se_space v) (se_same v) (se_same_constant v) (map_update name (Values g (vp_time p) (vp_space p)) (se_different v)) (se_different_constant v)) d)))
    | Some _ =>
        obind (get name (se_different_constant v)) (fun p =>
        obind (update_item (rv_id w) (write_index 0 cells) (vp_value p)) (fun g =>
        Ok (put_set (rv_phenomenon w) (rv_set w)
             (Set_ (se_tracker v) (se_time v) (se_space v) (se_same v) (se_same_constant v) (se_different v) (map_update name (Values g (vp_time p) (vp_space p)) (se_different_constant v))) d)))
    end)
  else Throw.
Definition read_layer (name : text) (size : Z) (w : view) (d : store) : outcome (list E) :=
  obind (layer_of name w d) (fun v =>
  match rv_time w with
  | None => read_array v (repeat zero (Z.to_nat size))
  | Some _ => read_index 0 v (repeat zero (Z.to_nat size))
  end).

(** ** Creating views *)

(** The only object, if there is none yet: 390-405, 727-741 *)
Definition object_id : Z := 5.
Definition with_object (ph : text) (d : store) : store :=
  let d := if map_contains ph d then d else map_insert ph (Phen [] []) d in
  match map_find ph d with
  | Some p => match pn_ids p with [] => map_update ph (Phen [object_id] (pn_sets p)) d | _ => d end
  | None => d
  end.
(** A value with a single object array.  The pointer refers to [buffer]. *)
Definition single {T} (fill : T) (shape : list Z) (buffer : list T) : outcome (array T) :=
  obind (expand 1 (create_value shape fill)) (write_index 0 buffer).
Definition add_set (ph s : text) (v : outcome set) (open : store -> outcome view) (d : store) : outcome view * store :=
  let d := with_object ph d in
  match map_find ph d with
  | Some p =>
      if map_contains s (pn_sets p) then (Throw, d) else
      match v with
      | Ok v => let d := map_update ph (Phen (pn_ids p) (map_insert s v (pn_sets p))) d in (open d, d)
      | Throw => (Throw, d)
      | UB => (UB, d)
      end
  | None => (UB, d)
  end.
(** 382-438 *)
Definition create_constant (ph s : text) (shape : list Z) (box : list C) (d : store) : outcome view * store :=
  add_set ph s
    (obind (single origin [4] box) (fun boxes =>
     obind (single 0 [2] shape) (fun grid =>
     Ok (Set_ (Tracker [] [] []) None (Some (Space false true false boxes)) [(space_grid_name, Numbers grid true false false)] [] [] []))))
    (open_constant ph s) d.
(** 715-806 *)
Definition create_variable (ph s : text) (steps : Z) (time_box : Z * Z) (shape : list Z) (box : list C) (d : store) : outcome view * store :=
  add_set ph s
    (obind (single origin [4] box) (fun boxes =>
     obind (single 0 [1] [steps]) (fun time_grid =>
     obind (single 0 [2] shape) (fun grid =>
     Ok (Set_ (Tracker [0] [object_id] [0]) (Some (Times true [time_box])) (Some (Space false true false boxes))
          [(space_grid_name, Numbers grid true false false)] [(time_grid_name, Numbers time_grid true false false)] [] [])))))
    (open_variable ph s) d.

(** ** Is this a raster? *)

(** 121-207 *)
Definition contains_raster (ph s : text) (d : store) : outcome bool :=
  obind (get ph d) (fun p =>
  obind (get s (pn_sets p)) (fun v =>
  if Z.of_nat (length (pn_ids p)) =? 1 then
    let space_domain_ok := match se_space v with
      | Some sp => negb (sp_mobile sp) && sp_box sp && negb (sp_presence sp) && (nr_arrays (sp_items sp) =? 1)
      | None => false
      end in
    if space_domain_ok && has_property space_grid_name v && is_same space_grid_name v && is_constant space_grid_name v then
      obind (get space_grid_name (se_same v)) (fun g =>
      Ok (negb (np_time g) && negb (np_space g) && (nr_arrays (np_value g) =? 1) && (if list_eq_dec Z.eq_dec (array_shape (np_value g)) [2] then true else false) && np_standard g))
    else Ok false
  else Ok false)).
(** 339-359 *)
Definition contains_constant (ph s : text) (d : store) : outcome bool :=
  obind (contains_raster ph s d) (fun yes => if yes then obind (get_set ph s d) (fun v => Ok (negb (has_property time_grid_name v))) else Ok false).
(** 617-694.  That the discretization property is not discretized itself is tested for time only: 672-673 *)
Definition contains_variable (ph s : text) (d : store) : outcome bool :=
  obind (contains_raster ph s d) (fun yes =>
  if yes then obind (get_set ph s d) (fun v =>
    let time_domain_ok := match se_time v with Some t => ti_box t && (Z.of_nat (length (ti_boxes t)) =? 1) | None => false end in
    if time_domain_ok && has_property time_grid_name v && is_same time_grid_name v && negb (is_constant time_grid_name v) then
      obind (has_constant_shape time_grid_name v) (fun same =>
      if same then
        obind (get time_grid_name (se_same_constant v)) (fun g =>
        Ok (negb (np_time g) && negb (np_time g) && (nr_arrays (np_value g) =? 1) && (if list_eq_dec Z.eq_dec (array_shape (np_value g)) [1] then true else false) && np_standard g))
      else Ok false)
    else Ok false)
  else Ok false).

(** ** Programs: a dataset and a number of views on it *)

(** What a program gets to see.  A view: object_id, space_box, grid_shape, time_box and nr_time_steps, layer_names: 53-100, 524-535 *)
Inductive answer : Type :=
| Done | Refused | Undefined | NoRaster
| Raster (id : Z) (box : list C) (shape : list Z) (time : option ((Z * Z) * Z)) (layers : list text)
| Cells (cells : list E).
Definition describe (w : view) : answer := Raster (rv_id w) (rv_box w) (rv_shape w) (rv_time w) (rv_layers w).

Inductive op : Type :=
| AddPhenomenon (ph : text) (ids : list Z)                                                        (* with objects *)
| CreateConstant (ph s : text) (shape : list Z) (box : list C)
| CreateVariable (ph s : text) (steps : Z) (time_box : Z * Z) (shape : list Z) (box : list C)
| OpenConstant (ph s : text)                                                                      (* if it contains a raster *)
| OpenVariable (ph s : text)
| AddLayer (v : nat) (name : text) (no_data : option E)                                           (* no_data: constant rasters only *)
| Look (v : nat)                                                                                  (* at the view *)
| WriteLayer (v : nat) (name : text) (cells : list E)
| ReadLayer (v : nat) (name : text) (size : Z).

Record world : Type := World { wo_store : store; wo_views : list view }.
Definition answer_of {T} (o : outcome T) (f : T -> answer) : answer := match o with Ok a => f a | Throw => Refused | UB => Undefined end.
Definition new_view (r : outcome view * store) (views : list view) : answer * world :=
  match r with
  | (Ok w, d) => (describe w, World d (views ++ [w]))
  | (Throw, d) => (Refused, World d views)
  | (UB, d) => (Undefined, World d views)
  end.
Definition on_view (i : nat) (w : world) (f : view -> answer * world) : answer * world :=
  match nth_error (wo_views w) i with Some v => f v | None => (Refused, w) end.
Definition step (o : op) (w : world) : answer * world :=
  let d := wo_store w in
  match o with
  | AddPhenomenon ph ids => if map_contains ph d then (Refused, w) else (Done, World (map_insert ph (Phen ids []) d) (wo_views w))
  | CreateConstant ph s shape box => new_view (create_constant ph s shape box d) (wo_views w)
  | CreateVariable ph s steps time_box shape box => new_view (create_variable ph s steps time_box shape box d) (wo_views w)
  | OpenConstant ph s =>
      match contains_constant ph s d with
      | Ok true => new_view (open_constant ph s d, d) (wo_views w)
      | Ok false => (NoRaster, w) | Throw => (Refused, w) | UB => (Undefined, w)
      end
  | OpenVariable ph s =>
      match contains_variable ph s d with
      | Ok true => new_view (open_variable ph s d, d) (wo_views w)
      | Ok false => (NoRaster, w) | Throw => (Refused, w) | UB => (Undefined, w)
      end
  | AddLayer i name no_data => on_view i w (fun v =>
      match (match rv_time v with None => add_constant name no_data v d | Some _ => add_variable name v d end) with
      | (Ok v', d') => match upd_nth i v' (wo_views w) with Some views => (Done, World d' views) | None => (Undefined, w) end
      | (Throw, d') => (Refused, World d' (wo_views w))
      | (UB, d') => (Undefined, World d' (wo_views w))
      end)
  | Look i => on_view i w (fun v => (describe v, w))
  | WriteLayer i name cells => on_view i w (fun v =>
      match write_layer name cells v d with Ok d' => (Done, World d' (wo_views w)) | Throw => (Refused, w) | UB => (Undefined, w) end)
  | ReadLayer i name size => on_view i w (fun v => (answer_of (read_layer name size v d) Cells, w))
  end.
Fixpoint run (ops : list op) (w : world) : list answer * world :=
  match ops with
  | [] => ([], w)
  | o :: ops => let '(a, w) := step o w in let '(l, w) := run ops w in (a :: l, w)
  end.
(** create_dataset *)
Definition new_world : world := World [] [].

(** ** The dataset, as validation looks at it (ValidateModel).  Values are not looked at. *)
Definition forget {T} (v : array T) : array unit := Array (IOModel.Dataset (ds_shape (ar_data v)) (map (fun _ => tt) (ds_cells (ar_data v)))) tt.
Definition forget_group (g : group (array E)) : group (array unit) := Group (map (fun i => (fst i, forget (snd i))) (gr_items g)) (gr_count g).
(** The discretization property that a link refers to: same_shape or same_shape::constant_shape *)
Definition as_grid (variable : bool) (p : numbers) : grid := Grid variable true true false (np_standard p) (nr_arrays (np_value p)) (array_shape (np_value p)).
Definition grid_at (ph s : text) (v : set) (l : option link) : option grid :=
  match l with
  | None => None
  | Some l =>
      if same_location (ln_path l) (path_of ph s SameShape space_grid_name) then option_map (as_grid false) (map_find space_grid_name (se_same v))
      else if same_location (ln_path l) (path_of ph s SameConstant time_grid_name) then option_map (as_grid true) (map_find time_grid_name (se_same_constant v))
      else None
  end.
Definition to_set (ph s : text) (v : set) : @ValidateModel.property_set unit :=
  ValidateModel.PropertySet (se_tracker v)
    (option_map (fun t => TimeBoxes (ti_boxes t)) (se_time v))
    (option_map (fun sp => Stationary (forget (sp_items sp))) (se_space v))
    (map (fun i => Discretized (ValidateModel.SameShape (forget (np_value (snd i)))) None None) (se_same v) ++
     map (fun i => Discretized (ValidateModel.SameConstant (forget (np_value (snd i)))) None None) (se_same_constant v) ++
     map (fun i => Discretized (ValidateModel.DifferentShape (forget_group (vp_value (snd i)))) (grid_at ph s v (vp_time (snd i))) (grid_at ph s v (vp_space (snd i)))) (se_different v) ++
     map (fun i => Discretized (ValidateModel.DifferentConstant (forget_group (vp_value (snd i)))) (grid_at ph s v (vp_time (snd i))) (grid_at ph s v (vp_space (snd i)))) (se_different_constant v)).
Definition to_data_set (d : store) : @ValidateModel.data_set unit :=
  ValidateModel.DataSet [] (map (fun p => ValidateModel.Phenomenon (pn_ids (snd p)) (map (fun s => to_set (fst p) (fst s) (snd s)) (pn_sets (snd p))) []) d).
End Views.
