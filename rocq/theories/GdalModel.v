(** Rasters seen through LUE's wrapper of GDAL: the blocks of a raster band, reading and writing a block, comparing two rasters.
    Files: data_model/gdal/source/{blocks,raster_band,compare_rasters}.cpp, include/lue/gdal/define.hpp.
    Simplifications: int arithmetic is exact (gdal::Count is int: overflow is not modelled); a failing assert is undefined behaviour. *)
From Verif Require Import Common.

(* gdal/include/lue/gdal/define.hpp:15-28: an offset is (y, x), a shape is (number of rows, number of columns). *)
Definition pair2 : Type := (Z * Z)%type.

(* define.hpp:34-37: nr_elements *)
Definition nr_elements (s : pair2) : Z := fst s * snd s.

(* blocks.cpp:8-13: extent_in_blocks.  / of two ints, both positive here. *)
Definition extent_in_blocks (full_extent block_extent : Z) : Z :=
  Z.quot (full_extent + block_extent - 1) block_extent.

(* blocks.cpp:16-22: nr_valid_cells *)
Definition nr_valid_cells (full_extent block_extent block_offset : Z) : Z :=
  if (block_offset + 1) * block_extent >? full_extent
  then full_extent - block_offset * block_extent
  else block_extent.

(* include/lue/gdal/blocks.hpp:13-38: class Blocks; the fields are in the order of the C++ class: index 0, index 1 of each array. *)
Record blocks : Type := { bl_raster : pair2; bl_block : pair2; bl_in_blocks : pair2 }.

(* blocks.cpp:33-52: the constructor and its assertions *)
Definition make_blocks (raster_shape block_shape : pair2) : outcome blocks :=
  if (fst block_shape <=? fst raster_shape) && (snd block_shape <=? snd raster_shape)
  then Ok {| bl_raster := raster_shape; bl_block := block_shape;
             bl_in_blocks :=
               (if fst block_shape >? 0 then extent_in_blocks (fst raster_shape) (fst block_shape) else 0,
                if snd block_shape >? 0 then extent_in_blocks (snd raster_shape) (snd block_shape) else 0) |}
  else UB.

(* blocks.cpp:91-96: shape_in_valid_cells *)
Definition shape_in_valid_cells (b : blocks) (block_offset : pair2) : pair2 :=
  (nr_valid_cells (fst (bl_raster b)) (fst (bl_block b)) (fst block_offset),
   nr_valid_cells (snd (bl_raster b)) (snd (bl_block b)) (snd block_offset)).

(* GDAL's data types, as dispatched on in compare_rasters.cpp:267-332 *)
Inductive gdal_type : Type :=
| UInt8 | Int8 | UInt16 | Int16 | UInt32 | Int32 | UInt64 | Int64 | Float32 | Float64 | OtherType.

Definition gdal_type_eqb (a b : gdal_type) : bool :=
  match a, b with
  | UInt8, UInt8 | Int8, Int8 | UInt16, UInt16 | Int16, Int16 | UInt32, UInt32 | Int32, Int32
  | UInt64, UInt64 | Int64, Int64 | Float32, Float32 | Float64, Float64 | OtherType, OtherType => true
  | _, _ => false
  end.

(* std::is_floating_point_v<Element> of the Element chosen at compare_rasters.cpp:267-326 *)
Definition floating (t : gdal_type) : bool :=
  match t with Float32 | Float64 => true | _ => false end.

(* compare_rasters.cpp:327-331: everything else is the default branch *)
Definition supported (t : gdal_type) : bool :=
  match t with OtherType => false | _ => true end.

Section Elements.

(** [eqb] is C++'s == on the elements, [isnan] is std::isnan. *)
Context {E : Type} (eqb : E -> E -> bool) (isnan : E -> bool).

(** A GDALRasterBand.  GDAL itself is not part of the repository: this record is what LUE can observe of a band.
    [b_outside] is what GDAL puts in those elements of a partial block that are outside of the raster (unspecified by GDAL).
    [b_no_data] is what GetNoDataValue returns: a value also when no no-data value is set ([b_no_data_set] = *success). *)
Record band : Type :=
  { b_shape : pair2;                (* raster_band.cpp:27-30: (GetYSize, GetXSize) *)
    b_block : pair2;                (* raster_band.cpp:16-24: GetBlockSize as (size_y, size_x) *)
    b_type : gdal_type;             (* raster_band.cpp:10-13 *)
    b_no_data : E; b_no_data_set : bool;   (* raster_band.hpp:113-120 *)
    b_cell : Z -> Z -> E;
    b_outside : Z -> Z -> E }.

(* What a cell of the block grid contains *)
Definition cell_or_outside (b : band) (r c : Z) : E :=
  if (0 <=? r) && (r <? fst (b_shape b)) && (0 <=? c) && (c <? snd (b_shape b)) then b_cell b r c else b_outside b r c.

(* The offsets GDALRasterBand::ReadBlock and WriteBlock accept; CE_Failure otherwise *)
Definition block_exists (b : band) (off : pair2) : bool :=
  (0 <=? fst off) && (fst off * fst (b_block b) <? fst (b_shape b)) &&
  (0 <=? snd off) && (snd off * snd (b_block b) <? snd (b_shape b)).

(* The elements of a block, row by row: a block is always whole in memory, whatever part of it is inside the raster *)
Definition block_values (b : band) (off : pair2) : list E :=
  flat_map (fun i => map (fun j => cell_or_outside b (fst off * fst (b_block b) + i) (snd off * snd (b_block b) + j))
                         (zseq 0 (snd (b_block b))))
           (zseq 0 (fst (b_block b))).

(* raster_band.cpp:33-42: read_block.  The whole block is written to the buffer: beyond its end if it is too small. *)
Definition read_block (b : band) (off : pair2) (buffer : list E) : outcome (list E) :=
  if negb (block_exists b off) then Throw
  else let vs := block_values b off in
       if Nat.ltb (length buffer) (length vs) then UB
       else Ok (vs ++ skipn (length vs) buffer).

(* raster_band.cpp:45-54: write_block.  The whole block is read from the buffer; the cells inside the raster are set. *)
Definition write_block (b : band) (off : pair2) (buffer : list E) : outcome band :=
  if negb (block_exists b off) then Throw
  else if Z.of_nat (length buffer) <? nr_elements (b_block b) then UB
  else
    let inside r c :=
      (fst off * fst (b_block b) <=? r) && (r <? (fst off + 1) * fst (b_block b)) &&
      (snd off * snd (b_block b) <=? c) && (c <? (snd off + 1) * snd (b_block b)) in
    let at_ r c := (r - fst off * fst (b_block b)) * snd (b_block b) + (c - snd off * snd (b_block b)) in
    let upd f r c := if inside r c then nth (Z.to_nat (at_ r c)) buffer (f r c) else f r c in
    Ok {| b_shape := b_shape b; b_block := b_block b; b_type := b_type b;
          b_no_data := b_no_data b; b_no_data_set := b_no_data_set b;
          b_cell := upd (b_cell b); b_outside := upd (b_outside b) |}.

(* compare_rasters.cpp:29-63: compare_elements: std::equal over [begin, begin + nr_valid_cells); the range must be in the vectors *)
Definition same_element (fp no_data_value_valid : bool) (no_data_value : E) (v w : E) : bool :=
  if fp && (no_data_value_valid && isnan no_data_value)
  then (isnan v && isnan w) || eqb v w
  else eqb v w.

Fixpoint equal_lists (eq : E -> E -> bool) (vs ws : list E) : bool :=
  match vs, ws with
  | v :: vs', w :: ws' => eq v w && equal_lists eq vs' ws'
  | _, _ => true
  end.

Definition compare_elements (eq : E -> E -> bool) (vs ws : list E) (n : Z) : outcome bool :=
  if (n <? 0) || (Z.of_nat (length vs) <? n) || (Z.of_nat (length ws) <? n) then UB
  else Ok (equal_lists eq (firstn (Z.to_nat n) vs) (firstn (Z.to_nat n) ws)).

(* compare_rasters.cpp:77-94: the loops over the blocks; result: whether different values were found.
   :81 passes {block_x, block_y} where {y, x} is expected. *)
Fixpoint compare_blocks (eq : E -> E -> bool) (bs : blocks) (b1 b2 : band) (todo : list pair2) (v1 v2 : list E)
    : outcome bool :=
  match todo with
  | [] => Ok false
  | (block_y, block_x) :: todo' =>
      let n := nr_elements (shape_in_valid_cells bs (block_x, block_y)) in
      obind (read_block b1 (block_y, block_x) v1) (fun v1' =>
      obind (read_block b2 (block_y, block_x) v2) (fun v2' =>
      obind (compare_elements eq v1' v2' n) (fun equal =>
      if equal then compare_blocks eq bs b1 b2 todo' v1' v2' else Ok true)))
  end.

(* The order of the two nested loops *)
Definition all_blocks (in_blocks : pair2) : list pair2 :=
  flat_map (fun y => map (fun x => (y, x)) (zseq 0 (snd in_blocks))) (zseq 0 (fst in_blocks)).

(* compare_rasters.cpp:66-95: compare_values (std::vector<Element>(n) with n < 0 throws or worse: UB here).  [zero] is Element{}. *)
Definition compare_values (zero : E) (eq : E -> E -> bool) (b1 b2 : band) : outcome bool :=
  obind (make_blocks (b_shape b1) (b_block b1)) (fun bs =>
  if nr_elements (b_block b1) <? 0 then UB
  else let v := repeat zero (Z.to_nat (nr_elements (b_block b1))) in
       compare_blocks eq bs b1 b2 (all_blocks (bl_in_blocks bs)) v v).

(* The texts in the result, without the values that are printed in them *)
Inductive difference : Type :=
| NotExist | DifferentShapes | DifferentTypes | DifferentNrBands | DifferentGeoTransforms
| DifferentNoDataValidity | DifferentNoDataValues | DifferentCells | UnsupportedType.

Definition pair2_eqb (a b : pair2) : bool := (fst a =? fst b) && (snd a =? snd b).

Definition report (ok : bool) (d : difference) : list difference := if ok then [] else [d].

(* compare_rasters.cpp:98-169: compare_raster_bands<Element>; [fp]: whether Element is a floating point type *)
Definition compare_raster_bands (zero : E) (fp : bool) (b1 b2 : band) : outcome (list difference) :=
  let shapes_equal := pair2_eqb (b_shape b1) (b_shape b2) in
  let types_equal := gdal_type_eqb (b_type b1) (b_type b2) in
  let both_valid := b_no_data_set b1 && b_no_data_set b2 in
  let both_invalid := negb (b_no_data_set b1) && negb (b_no_data_set b2) in
  let values_equal :=
    if fp then (isnan (b_no_data b1) && isnan (b_no_data b2)) || eqb (b_no_data b1) (b_no_data b2)
    else eqb (b_no_data b1) (b_no_data b2) in
  let found :=
    report shapes_equal DifferentShapes ++ report types_equal DifferentTypes ++
    report (both_valid || both_invalid) DifferentNoDataValidity ++
    report (negb (both_valid && negb values_equal)) DifferentNoDataValues in
  let settings_equal := both_invalid || values_equal in
  if shapes_equal && types_equal && settings_equal
  then obind (compare_values zero (same_element fp both_valid (b_no_data b1)) b1 b2) (fun different =>
       Ok (found ++ report (negb different) DifferentCells))
  else Ok found.

(** A raster: Raster (raster.hpp:12-111), that is a GDALDataset.  [geo]: the six numbers of GetGeoTransform. *)
Record raster : Type := { r_shape : pair2; r_type : gdal_type; r_geo : list E; r_bands : list band }.

(* operator== of std::array<double, 6> *)
Definition geo_eqb (g h : list E) : bool := Nat.eqb (length g) (length h) && equal_lists eqb g h.

(* compare_rasters.cpp:262-333: the loop over the bands *)
Fixpoint compare_all_bands (zero : E) (t : gdal_type) (bs1 bs2 : list band) : outcome (list difference) :=
  match bs1, bs2 with
  | b1 :: bs1', b2 :: bs2' =>
      obind (if supported t then compare_raster_bands zero (floating t) b1 b2 else Ok [UnsupportedType]) (fun d =>
      obind (compare_all_bands zero t bs1' bs2') (fun ds => Ok (d ++ ds)))
  | _, _ => Ok []
  end.

(* compare_rasters.cpp:190-337: compare_rasters; None: the dataset cannot be opened.
   Simplification: coordinates have the same type as elements (a parameter); spatial references are not compared (:257). *)
Definition compare_rasters (zero : E) (d1 d2 : option raster) : outcome (list difference) :=
  match d1, d2 with
  | Some r1, Some r2 =>
      let shapes_equal := pair2_eqb (r_shape r1) (r_shape r2) in
      let types_equal := gdal_type_eqb (r_type r1) (r_type r2) in
      let nr_bands_equal := Nat.eqb (length (r_bands r1)) (length (r_bands r2)) in
      let geo_equal := geo_eqb (r_geo r1) (r_geo r2) in
      let found :=
        report shapes_equal DifferentShapes ++ report types_equal DifferentTypes ++
        report nr_bands_equal DifferentNrBands ++ report geo_equal DifferentGeoTransforms in
      if shapes_equal && types_equal && geo_equal && nr_bands_equal
      then obind (compare_all_bands zero (r_type r1) (r_bands r1) (r_bands r2)) (fun ds => Ok (found ++ ds))
      else Ok found
  | _, _ => Ok [NotExist]
  end.

End Elements.

Arguments band E : clear implicits.
Arguments raster E : clear implicits.
