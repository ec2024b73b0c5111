(** Specification of the views on rasters in a dataset: what a program gets to see, in terms of the rasters and their layers. *)
From Verif Require Import Common CoreSpec ArraySpec IOModel ValueModel ValueSpec FileNameModel CatalogModel RasterViewModel.
Open Scope Z_scope.

Section Rasters.
Context {E C : Type} (zero : E).

(** A raster: the object it is about, where it is, its numbers of rows and columns, for a raster that varies through time the time box and the number
    of time steps, and its layers, sorted by name.  A layer: the value of cells that are not written yet, and the cells *)
Record raster : Type := Raster_ {
  ra_id : Z; ra_box : list C; ra_shape : list Z; ra_time : option ((Z * Z) * Z); ra_layers : list (text * (E * list E)) }.
(** The rasters of a phenomenon, per property set, and the phenomenon's objects *)
Record area : Type := Area { ar_ids : list Z; ar_rasters : list (text * raster) }.
(** A view on a raster: the phenomenon, the property set and the layers that were there when the view was made or that were added through it *)
Record state : Type := State { st_areas : list (text * area); st_views : list (text * text * list text) }.

(** The number of cells of a layer *)
Definition nr_cells (r : raster) : Z := volume (match ra_time r with None => ra_shape r | Some (_, steps) => steps :: ra_shape r end).
Definition layer_names (r : raster) : list text := map fst (ra_layers r).

Definition find_raster (ph s : text) (areas : list (text * area)) : option raster :=
  match map_find ph areas with Some a => map_find s (ar_rasters a) | None => None end.
Definition set_raster (ph s : text) (r : raster) (areas : list (text * area)) : list (text * area) :=
  match map_find ph areas with Some a => map_update ph (Area (ar_ids a) (map_update s r (ar_rasters a))) areas | None => areas end.

Definition shown (r : raster) (layers : list text) : @answer E C := Raster (ra_id r) (ra_box r) (ra_shape r) (ra_time r) layers.

(** A phenomenon without objects gets an object with ID 5, also if the raster turns out to exist already *)
Definition with_one (ph : text) (areas : list (text * area)) : list (text * area) :=
  match map_find ph areas with
  | None => map_insert ph (Area [5] []) areas
  | Some a => match ar_ids a with [] => map_update ph (Area [5] (ar_rasters a)) areas | _ => areas end
  end.
Definition created (ph s : text) (time : option ((Z * Z) * Z)) (shape : list Z) (box : list C) (st : state) : @answer E C * state :=
  let areas := with_one ph (st_areas st) in
  match map_find ph areas with
  | Some a =>
      match map_find s (ar_rasters a) with
      | Some _ => (Refused, State areas (st_views st))
      | None =>
          let r := Raster_ (hd 0 (ar_ids a)) box shape time [] in
          (shown r [], State (map_update ph (Area (ar_ids a) (map_insert s r (ar_rasters a))) areas) (st_views st ++ [(ph, s, [])]))
      end
  | None => (Undefined, st)
  end.
(** There is a raster to be opened if the phenomenon has a single object and the raster is of the right kind *)
Definition is_variable (r : raster) : bool := match ra_time r with Some _ => true | None => false end.
Definition opened (ph s : text) (variable : bool) (st : state) : @answer E C * state :=
  match map_find ph (st_areas st) with
  | None => (Refused, st)
  | Some a =>
      match map_find s (ar_rasters a) with
      | None => (Refused, st)
      | Some r =>
          if (Z.of_nat (length (ar_ids a)) =? 1) && Bool.eqb (is_variable r) variable
          then (shown r (layer_names r), State (st_areas st) (st_views st ++ [(ph, s, layer_names r)]))
          else (NoRaster, st)
      end
  end.

Definition at_view (i : nat) (st : state) (f : text -> text -> list text -> raster -> @answer E C * state) : @answer E C * state :=
  match nth_error (st_views st) i with
  | None => (Refused, st)
  | Some (ph, s, known) => match find_raster ph s (st_areas st) with Some r => f ph s known r | None => (Undefined, st) end
  end.
Definition with_layers (r : raster) (layers : list (text * (E * list E))) : raster := Raster_ (ra_id r) (ra_box r) (ra_shape r) (ra_time r) layers.

Definition expected (o : @op E C) (st : state) : @answer E C * state :=
  match o with
  | AddPhenomenon ph ids =>
      match map_find ph (st_areas st) with Some _ => (Refused, st) | None => (Done, State (map_insert ph (Area ids []) (st_areas st)) (st_views st)) end
  | CreateConstant ph s shape box => created ph s None shape box st
  | CreateVariable ph s steps time_box shape box => created ph s (Some (time_box, steps)) shape box st
  | OpenConstant ph s => opened ph s false st
  | OpenVariable ph s => opened ph s true st
  | AddLayer i name no_data => at_view i st (fun ph s known r =>
      match map_find name (ra_layers r) with
      | Some _ => (Refused, st)
      | None =>
          let fill := match ra_time r, no_data with None, Some v => v | _, _ => zero end in
          match upd_nth i (ph, s, known ++ [name]) (st_views st) with
          | Some views => (Done, State (set_raster ph s (with_layers r (map_insert name (fill, repeat fill (Z.to_nat (nr_cells r))) (ra_layers r))) (st_areas st)) views)
          | None => (Undefined, st)
          end
      end)
  | Look i => at_view i st (fun ph s known r => (shown r known, st))
  | WriteLayer i name cells => at_view i st (fun ph s known r =>
      match (if existsb (same_text name) known then map_find name (ra_layers r) else None) with
      | None => (Refused, st)
      | Some (fill, _) => (Done, State (set_raster ph s (with_layers r (map_update name (fill, cells) (ra_layers r))) (st_areas st)) (st_views st))
      end)
  | ReadLayer i name size => at_view i st (fun ph s known r =>
      match (if existsb (same_text name) known then map_find name (ra_layers r) else None) with
      | None => (Refused, st)
      | Some (_, cells) => (Cells cells, st)
      end)
  end.
Fixpoint expect (ops : list (@op E C)) (st : state) : list (@answer E C) * state :=
  match ops with
  | [] => ([], st)
  | o :: ops => let '(a, st) := expected o st in let '(l, st) := expect ops st in (a :: l, st)
  end.
Definition nothing : state := State [] [].

(** What a program may do: there are rows, columns and time steps, the number of cells is right and the names of the discretization properties are
    not used for layers *)
Definition proper_op (st : state) (o : @op E C) : Prop :=
  let right_number i n := forall ph s known r, nth_error (st_views st) i = Some (ph, s, known) -> find_raster ph s (st_areas st) = Some r -> n = nr_cells r in
  match o with
  | CreateConstant _ _ shape box => array_extents shape /\ length shape = 2%nat /\ length box = 4%nat
  | CreateVariable _ _ steps _ shape box => array_extents (steps :: shape) /\ length shape = 2%nat /\ length box = 4%nat
  | AddLayer _ name _ => name <> time_grid_name /\ name <> space_grid_name
  | WriteLayer i _ cells => right_number i (Z.of_nat (length cells))
  | ReadLayer i _ size => right_number i size
  | AddPhenomenon _ _ | OpenConstant _ _ | OpenVariable _ _ | Look _ => True
  end.
Fixpoint proper_program (ops : list (@op E C)) (st : state) : Prop :=
  match ops with [] => True | o :: ops => proper_op st o /\ proper_program ops (snd (expected o st)) end.

(** Which rasters are accepted by the validation: the phenomenon has no other objects than the raster's; if the raster varies through time the object's
    ID is 5 and the time box does not end before it starts *)
Definition fine_raster (a : area) (r : raster) : Prop :=
  length (ar_ids a) = 1%nat /\ match ra_time r with None => True | Some (b, e, _) => ra_id r = 5 /\ b <= e end.
(** A program in which phenomena are made by creating views only *)
Definition views_only (o : @op E C) : Prop :=
  match o with AddPhenomenon _ _ => False | CreateVariable _ _ _ tb _ _ => fst tb <= snd tb | _ => True end.

(** An HDF5 array contains as many elements as its shape says *)
Definition sized {T} (v : array T) : Prop := Z.of_nat (length (ds_cells (ar_data v))) = volume (ds_shape (ar_data v)).
(** The arrays of a property set, and space boxes with [n] coordinates *)
Definition sized_set (n : Z) (v : @set E C) : Prop :=
  (forall sp, se_space v = Some sp -> sized (sp_items sp) /\ array_shape (sp_items sp) = [n]) /\
  (forall name p, In (name, p) (se_same v) -> sized (np_value p)) /\ (forall name p, In (name, p) (se_same_constant v) -> sized (np_value p)).
End Rasters.
