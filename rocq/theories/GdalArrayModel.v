(** Model of from_gdal and to_gdal: framework/io/source/gdal.cpp.in.
    The type of the cells in the raster file is the element type of the array, a band is its cells in row-major order, GDALRasterBand::RasterIO
    reads and writes a box and fails when the box is not within the raster, and numbers of rows and columns fit in an int.
    Reading a partition is a task of its own; the tasks of a locality run one after the other and do not look at each other's result. *)
From Flocq Require Import BinarySingleNaN.
From Verif Require Import Common IndexModel DecompModel ArrayModel IOModel Float64.

(** What the code asks of an element type: std::is_floating_point_v, std::isnan, operator==, and the value that mark_no_data assigns.
    algorithm/policy/default_value_policies.hpp:18-29, detect_no_data_by_value.hpp, detect_no_data_by_nan.hpp, mark_no_data_by_value.hpp,
    mark_no_data_by_nan.hpp *)
Record element_kind (E : Type) : Type := ElementKind {
  ek_floating : bool;
  ek_is_nan : E -> bool;
  ek_equal : E -> E -> bool;
  ek_mark : E
}.
Arguments ElementKind {E}. Arguments ek_floating {E}. Arguments ek_is_nan {E}. Arguments ek_equal {E}. Arguments ek_mark {E}.

(** detect_no_data_by_value.hpp:40-58: max() for unsigned integers, min() for signed integers *)
Definition unsigned_kind (bits : Z) : element_kind Z := ElementKind false (fun _ => false) Z.eqb (2 ^ bits - 1).
Definition signed_kind (bits : Z) : element_kind Z := ElementKind false (fun _ => false) Z.eqb (- 2 ^ (bits - 1)).
(** detect_no_data_by_nan.hpp, mark_no_data_by_nan.hpp; operator== of doubles *)
Definition float_kind : element_kind b64 := ElementKind true (fun v => is_nan v) (fun x y => Beqb x y) B754_nan.

(** A raster file with one band: cells, no-data value (if set), geo-transform and spatial reference (if set). *)
Record gdal_raster (E C S : Type) : Type := GdalRaster {
  gr_band : dataset E;
  gr_no_data : option E;
  gr_transform : option (list C);
  gr_reference : option S
}.
Arguments GdalRaster {E C S}. Arguments gr_band {E C S}. Arguments gr_no_data {E C S}. Arguments gr_transform {E C S}. Arguments gr_reference {E C S}.

Section GdalArray.
Context {E C S : Type} (kind : element_kind E).

(** is_no_data of the input no-data policy that is used, given the no-data value of the band: from_gdal, 485-519 and 536-569.
    No no-data value: SkipNoData (policy/skip_no_data.hpp); a NaN: DetectNoDataByNaN; otherwise SpecialValuePolicy (28-76): DetectNoDataByValue. *)
Definition band_is_no_data (no_data : option E) (value : E) : bool :=
  match no_data with
  | None => false
  | Some x => if ek_floating kind && ek_is_nan kind x then ek_is_nan kind value else ek_equal kind value x
  end.

(** mark_no_data of the output no-data policy: DontMarkNoData without a no-data value, DefaultOutputNoDataPolicy otherwise *)
Definition band_mark (no_data : option E) (value : E) : E :=
  match no_data with None => value | Some _ => ek_mark kind end.

(** ReadPartition::instantiate: 203-247.  [junk]: the content of the buffer that is allocated. *)
Definition instantiate_partition (junk : Z -> E) (r : gdal_raster E C S) (hyperslab_offset partition_offset shape : list Z) : outcome (list E) :=
  let offset := map2 Z.add hyperslab_offset partition_offset in
  obind (read_hyperslab (hyperslab_of offset shape) (gr_band r) (fresh junk (nr_elements shape))) (fun data =>
  Ok (map (fun value => if band_is_no_data (gr_no_data r) value then band_mark (gr_no_data r) value else value) data)).

(** read_partition_per_locality: 273-320.  Without partitions, partitions[0] does not exist: one partition too many here, UB for the caller. *)
Definition read_partition_per_locality (junk : Z -> E) (r : gdal_raster E C S) (hyperslab_offset : list Z) (partitions : list (list Z * list Z))
    : list (outcome (list E)) :=
  match partitions with
  | [] => [UB]
  | (offset0, shape0) :: rest =>
      instantiate_partition junk r hyperslab_offset offset0 shape0 ::
      map (fun '(offset, shape) => instantiate_partition junk r hyperslab_offset offset shape) rest
  end.

(** create_partitioned_array with ReadPartitionsPerLocality (333-379): algorithm/create_partitioned_array.hpp:445-560.  The values of the
    partitions are futures; here the array is what remains when all of these are ready. *)
Definition create_read (junk : Z -> E) (nr_localities : Z) (r : gdal_raster E C S) (hyperslab_offset array_shape partition_shape : list Z) : outcome (parray E) :=
  obind (partition_shapes array_shape partition_shape) (fun '(sip, _) =>
  obind (instantiate_per_locality nr_localities (fun _ l => read_partition_per_locality junk r hyperslab_offset l) array_shape partition_shape) (fun parts =>
  obind (sequence (map (fun q => obind (pl_data q) (fun data => Ok (Placed (pl_locality q) (pl_offset q) (pl_shape q) data))) parts)) (fun parts =>
  Ok (PArray array_shape sip parts)))).

(** from_gdal(name, partition_shape): 456-521.  A file that cannot be opened (None): open_dataset throws (data_model/gdal/source/dataset.cpp:66-80). *)
Definition from_gdal (junk : Z -> E) (nr_localities : Z) (file : option (gdal_raster E C S)) (partition_shape : list Z) : outcome (parray E) :=
  match file with
  | None => Throw
  | Some r => create_read junk nr_localities r (map (fun _ => 0) (ds_shape (gr_band r))) (ds_shape (gr_band r)) partition_shape
  end.

(** verify_compatibility: 84-97; Hyperslab::is_strided: core/hyperslab.hpp:83-86 *)
Definition verify_hyperslab (array_shape offsets strides counts : list Z) : outcome unit :=
  if existsb (fun stride => 1 <? stride) strides then Throw
  else if negb (is_contained_by offsets counts array_shape) then Throw
  else Ok tt.

(** from_gdal(name, hyperslab, partition_shape): 524-571.  The one constructor of a hyperslab takes a center and a shape (core/hyperslab.hpp:27-66);
    it sets the strides to one. *)
Definition from_gdal_hyperslab (junk : Z -> E) (nr_localities : Z) (file : option (gdal_raster E C S)) (center shape partition_shape : list Z)
    : outcome (parray E) :=
  obind (hyperslab_at center shape) (fun '(offsets, counts) =>
  match file with
  | None => Throw
  | Some r =>
      obind (verify_hyperslab (ds_shape (gr_band r)) offsets (map (fun _ => 1) shape) counts) (fun _ =>
      create_read junk nr_localities r offsets counts partition_shape)
  end).

(** write_partition: 392-420: opens the dataset, writes the partition at its offset *)
Definition write_ready_partition (d : dataset E) (q : placed (list E)) : outcome (dataset E) :=
  write_hyperslab (hyperslab_of (pl_offset q) (pl_shape q)) (pl_data q) d.

(** std::rotate(begin + idx, begin + idx + 1, begin + n): element [idx] becomes the last one of the first [n]; 672-675 *)
Definition rotate_to_end {A} (idx n : nat) (l : list A) : list A :=
  firstn idx l ++ skipn (idx + 1) (firstn n l) ++ firstn 1 (skipn idx l) ++ skipn n l.

(** The loop of to_gdal: 651-680.  [picks]: the indices that hpx::when_any reports, one for each iteration (none left: the loop does not end, UB);
    its result holds the futures that were passed in (663). *)
Fixpoint write_ready (picks : list nat) (nr_partitions_to_write : nat) (partitions : list (placed (list E))) (d : dataset E) : outcome (dataset E) :=
  match nr_partitions_to_write with
  | O => Ok d
  | Datatypes.S nr_left =>
      match picks with
      | [] => UB
      | idx :: picks' =>
          let partitions := firstn nr_partitions_to_write partitions in
          match nth_error partitions idx with
          | None => UB
          | Some q =>
              obind (write_ready_partition d q) (fun d => write_ready picks' nr_left (rotate_to_end idx nr_partitions_to_write partitions) d)
          end
      end
  end.

(** The geo-transform that is used without a clone: 613-622.  [of_int]: conversion of an integer to a coordinate. *)
Definition default_transform (of_int : Z -> C) (raster_shape : list Z) : list C :=
  map of_int [0; 1; 0; nth 0 raster_shape 0; 0; -1].

(** to_gdal: 574-690.  [before]: the file with the name that is passed in; [clone]: None when no name of a clone is passed in, Some None when the
    clone cannot be opened; [created]: the cells of a raster that has just been created.  Result: the file afterwards, and how the call ended. *)
Definition to_gdal (of_int : Z -> C) (created : Z -> E) (picks : list nat) (arr : parray E) (clone : option (option (gdal_raster E C S)))
    (before : option (gdal_raster E C S)) : option (gdal_raster E C S) * outcome unit :=
  let raster_shape := pa_shape arr in
  let d := Dataset raster_shape (fresh created (nr_elements raster_shape)) in                (* create_dataset: 596-605; replaces [before] *)
  let no_data := Some (ek_mark kind) in                                                     (* 586-589, 608 *)
  let write transform reference :=
    match write_ready picks (length (pa_parts arr)) (pa_parts arr) d with
    | Ok d' => (Some (GdalRaster d' no_data transform reference), Ok tt)
    | Throw => (Some (GdalRaster d no_data transform reference), Throw)
    | UB => (Some (GdalRaster d no_data transform reference), UB)
    end in
  match clone with
  | None => write (Some (default_transform of_int raster_shape)) None
  | Some None => (Some (GdalRaster d no_data None None), Throw)
  | Some (Some c) =>
      if list_eq_dec Z.eq_dec (ds_shape (gr_band c)) raster_shape
      then write (gr_transform c) (gr_reference c)                                          (* 641-650 *)
      else (Some (GdalRaster d no_data None None), Throw)                                   (* 633-636 *)
  end.
End GdalArray.
