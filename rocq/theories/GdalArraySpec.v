(** Specification vocabulary for reading and writing rasters with GDAL. *)
From Verif Require Import Common CoreSpec DecompSpec ArraySpec IndexModel DecompModel ArrayModel IOModel IOSpec GdalArrayModel.

(** A raster of shape [n] whose band holds [F] and whose no-data value is [no_data]. *)
Definition raster_file {E C S} (r : gdal_raster E C S) (n : list Z) (F : list Z -> E) (no_data : option E) : Prop :=
  file_holds (gr_band r) n F /\ gr_no_data r = no_data.

(** A value is missing in a band: the band has a no-data value, and the value is equal to it, or both are not a number. *)
Definition missing_in_band {E} (k : element_kind E) (no_data : option E) (v : E) : Prop :=
  exists x, no_data = Some x /\
    ((ek_floating k = true /\ ek_is_nan k x = true /\ ek_is_nan k v = true) \/
     ((ek_floating k = false \/ ek_is_nan k x = false) /\ ek_equal k v x = true)).

(** [g] is what LUE must make of the values [f] of a band: LUE's no-data value where the band has no value, the value of the band elsewhere. *)
Definition read_as {E} (k : element_kind E) (no_data : option E) (n : list Z) (f g : list Z -> E) : Prop :=
  forall x, in_shape n x -> (missing_in_band k no_data (f x) -> g x = ek_mark k) /\ (~ missing_in_band k no_data (f x) -> g x = f x).

(** Whether a value in an array is no-data according to LUE's own convention. *)
Definition missing_in_array {E} (k : element_kind E) (v : E) : Prop :=
  if ek_floating k then ek_is_nan k v = true else ek_equal k v (ek_mark k) = true.

(** The indices that when_any may report: the k-th is one of the [n] - k partitions that are left. *)
Fixpoint valid_picks (n : nat) (picks : list nat) : Prop :=
  match n, picks with
  | O, [] => True
  | Datatypes.S m, i :: picks' => (i < n)%nat /\ valid_picks m picks'
  | _, _ => False
  end.

(** A value that LUE takes for no-data is the one value it marks no-data with; holds for the element types of LUE, and a NaN is a NaN. *)
Definition one_mark {E} (k : element_kind E) : Prop := (ek_floating k = true -> ek_is_nan k (ek_mark k) = true) /\ forall v, missing_in_array k v -> v = ek_mark k.

(** The georeference of a raster of shape [a]: that of the clone, or the default one: cells of one by one, the lower left corner at (0, 0), north up. *)
Definition georeferenced {E C S} (of_int : Z -> C) (a : list Z) (clone : option (gdal_raster E C S)) (r : gdal_raster E C S) : Prop :=
  match clone with
  | None => gr_transform r = Some (map of_int [0; 1; 0; nth 0 a 0; 0; -1]) /\ gr_reference r = None
  | Some c => gr_transform r = gr_transform c /\ gr_reference r = gr_reference c
  end.
