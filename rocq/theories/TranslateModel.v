(** Importing rasters into a LUE dataset and exporting them from it: lue_translate.
    File: data_model/translate/source/format/gdal.cpp.
    Simplifications: a layer of the raster view is its shape, no-data value and cells (hl/raster_view.cpp and the HDF5 file are
    not modelled here); elements of GDAL's type are kept as they are; int arithmetic is exact; a failing assert is UB. *)
From Coq Require Import QArith Qcanon.
From Verif Require Import Common GdalModel.
Open Scope Z_scope.

(* gdal.cpp:10-33: blocks.  The result is in (x, y) order: {nr_cols, nr_rows}, {block_size_x, block_size_y}. *)
Definition translate_blocks (band_shape block_shape : pair2) : outcome blocks :=
  let block_size_y := fst block_shape in
  let block_size_x := snd block_shape in
  let nr_rows := fst band_shape in
  let nr_cols := snd band_shape in
  if (block_size_x >=? 0) && (block_size_y >=? 0) && (nr_rows >=? 0) && (nr_cols >=? 0)
  then make_blocks (nr_cols, nr_rows) (Z.min (block_size_x * 10) nr_cols, Z.min (block_size_y * 10) nr_rows)
  else UB.

Section Elements.

Context {E : Type}.

(** A layer in the LUE dataset *)
Record layer : Type := { l_shape : pair2; l_no_data : option E; l_cell : Z -> Z -> E }.

(* The elements of a hyperslab, row by row *)
Definition slab_values (a : layer) (offset count : pair2) : list E :=
  flat_map (fun i => map (fun j => l_cell a (fst offset + i) (snd offset + j)) (zseq 0 (snd count))) (zseq 0 (fst count)).

(* HDF5 refuses hyperslabs that are not in the dataset; negative numbers are converted to huge unsigned ones by the static_casts
   (gdal.cpp:209-219, 303-309, 861-867).  Selecting nothing is fine. *)
Definition slab_in (a : layer) (offset count : pair2) : bool :=
  (0 <=? fst offset) && (0 <=? snd offset) && (0 <=? fst count) && (0 <=? snd count) &&
  ((fst count =? 0) || (snd count =? 0) ||
   ((fst offset + fst count <=? fst (l_shape a)) && (snd offset + snd count <=? snd (l_shape a)))).

(* Array::read(memory_datatype, hyperslab, buffer) *)
Definition read_slab (a : layer) (offset count : pair2) (buffer : list E) : outcome (list E) :=
  if negb (slab_in a offset count) then Throw
  else let vs := slab_values a offset count in
       if Nat.ltb (length buffer) (length vs) then UB else Ok (vs ++ skipn (length vs) buffer).

(* Array::write(memory_dataspace, hyperslab, buffer); memory_dataspace: one dimension of [n] elements *)
Definition write_slab (a : layer) (n : Z) (offset count : pair2) (buffer : list E) : outcome layer :=
  if negb (slab_in a offset count) || negb (n =? nr_elements count) then Throw
  else if Z.of_nat (length buffer) <? nr_elements count then UB
  else
    let inside r c := (fst offset <=? r) && (r <? fst offset + fst count) && (snd offset <=? c) && (c <? snd offset + snd count) in
    Ok {| l_shape := l_shape a; l_no_data := l_no_data a;
          l_cell := fun r c => if inside r c
                               then nth (Z.to_nat ((r - fst offset) * snd count + (c - snd offset))) buffer (l_cell a r c)
                               else l_cell a r c |}.

(* gdal.cpp:298-313: the body of the loops of lue_to_gdal<T>(array, raster_band).
   [offset] uses block_shape[0], which is the width, for y and block_shape[1] for x. *)
Fixpoint export_blocks (bs : blocks) (a : layer) (todo : list pair2) (values : list E) (b : band E) : outcome (band E) :=
  match todo with
  | [] => Ok b
  | (block_y, block_x) :: todo' =>
      let valid := shape_in_valid_cells bs (block_x, block_y) in
      let nr_valid_cells_x := fst valid in
      let nr_valid_cells_y := snd valid in
      let offset := (block_y * fst (bl_block bs), block_x * snd (bl_block bs)) in
      let count := (nr_valid_cells_y, nr_valid_cells_x) in
      obind (read_slab a offset count values) (fun values' =>
      obind (write_block b (block_y, block_x) values') (fun b' =>
      export_blocks bs a todo' values' b'))
  end.

Definition set_no_data (v : option E) (b : band E) : band E :=
  match v with
  | Some n => {| b_shape := b_shape b; b_block := b_block b; b_type := b_type b; b_no_data := n; b_no_data_set := true;
                 b_cell := b_cell b; b_outside := b_outside b |}
  | None => b
  end.

(* gdal.cpp:279-315: lue_to_gdal<T>(array, raster_band); shape_in_blocks is unpacked as [nr_blocks_y, nr_blocks_x] (:292).
   [zero] is T{}: std::vector<T> values(n). *)
Definition lue_to_gdal (zero : E) (a : layer) (b : band E) : outcome (band E) :=
  let b := set_no_data (l_no_data a) b in
  obind (translate_blocks (b_shape b) (b_block b)) (fun bs =>
  export_blocks bs a (all_blocks (bl_in_blocks bs)) (repeat zero (Z.to_nat (nr_elements (bl_block bs)))) b).

(* gdal.cpp:854-875: the body of the loops of gdal_to_lue<RasterView, T> *)
Fixpoint import_blocks (bs : blocks) (b : band E) (todo : list pair2) (values : list E) (a : layer) : outcome layer :=
  match todo with
  | [] => Ok a
  | (block_y, block_x) :: todo' =>
      let valid := shape_in_valid_cells bs (block_x, block_y) in
      let nr_valid_cells_x := fst valid in
      let nr_valid_cells_y := snd valid in
      let offset := (block_y * fst (bl_block bs), block_x * snd (bl_block bs)) in
      let count := (nr_valid_cells_y, nr_valid_cells_x) in
      obind (read_block b (block_y, block_x) values) (fun values' =>
      obind (write_slab a (nr_valid_cells_x * nr_valid_cells_y) offset count values') (fun a' =>
      import_blocks bs b todo' values' a'))
  end.

(* gdal.cpp:836-876: gdal_to_lue<RasterView, T>: add a layer, with the no-data value if there is one, and fill it.
   [fill] is what HDF5 reads from elements that were never written; the layer has the shape of the raster (:1026-1027). *)
Definition gdal_to_lue (zero : E) (fill : E) (b : band E) : outcome layer :=
  let a := {| l_shape := b_shape b; l_no_data := if b_no_data_set b then Some (b_no_data b) else None;
              l_cell := fun _ _ => fill |} in
  obind (translate_blocks (b_shape b) (b_block b)) (fun bs =>
  import_blocks bs b (all_blocks (bl_in_blocks bs)) (repeat zero (Z.to_nat (nr_elements (bl_block bs)))) a).

(* gdal.cpp:379-471: the part of translate_lue_dataset_to_gdal_raster about the bands: a dataset with as many bands as there are in
   the metadata is created, then the layer named first is written to the first band, and that is all (:449-451, TODO :454-470).
   None: there is no such layer (throws, :400-407).  [create nr_bands]: the bands of the dataset made by GDAL. *)
Definition export_raster (zero : E) (layers : nat -> option layer) (create : nat -> list (band E)) (names : list nat)
    : outcome (list (band E)) :=
  match names with
  | [] => Ok []
  | name :: _ =>
      match layers name with
      | None => Throw
      | Some a =>
          match create (length names) with
          | [] => UB
          | b :: bs => obind (lue_to_gdal zero a b) (fun b' => Ok (b' :: bs))
          end
      end
  end.

(* gdal.cpp:1045-1055: translate_gdal_raster_dataset_to_lue: each band named in the metadata becomes a layer.
   The pointer to a band that does not exist is null: the assertion in Raster::Band fails (gdal/source/raster.cpp:7-13). *)
Fixpoint import_raster (zero fill : E) (bands : list (band E)) (names : list nat) : outcome (list (nat * layer)) :=
  match names, bands with
  | [], _ => Ok []
  | _ :: _, [] => UB
  | name :: names', b :: bands' =>
      obind (gdal_to_lue zero fill b) (fun a =>
      obind (import_raster zero fill bands' names') (fun r => Ok ((name, a) :: r)))
  end.

End Elements.

Arguments layer E : clear implicits.

(** Geo-transforms and space boxes, in exact arithmetic (C++ uses double). *)
Record geo_transform : Type :=
  { g_west : Qc; g_cell_width : Qc; g_row_rotation : Qc; g_north : Qc; g_col_rotation : Qc; g_cell_height : Qc }.
Record space_box : Type := { x_west : Qc; x_south : Qc; x_east : Qc; x_north : Qc }.

Definition qabs (q : Qc) : Qc := if Qclt_le_dec q (Q2Qc 0) then Qcopp q else q.
Definition qz (z : Z) : Qc := Q2Qc (inject_Z z).

(* gdal.cpp:1011-1028: the space box of an imported raster; the assertions :1017-1020 *)
Definition box_of_geo (shape : pair2) (g : geo_transform) : outcome space_box :=
  let east := Qcplus (g_west g) (Qcmult (qz (snd shape)) (g_cell_width g)) in
  let south := Qcminus (g_north g) (Qcmult (qz (fst shape)) (qabs (g_cell_height g))) in
  if (if Qclt_le_dec east (g_west g) then false else true) && (if Qclt_le_dec (g_north g) south then false else true) &&
     (fst shape >? 0) && (snd shape >? 0)
  then Ok {| x_west := g_west g; x_south := south; x_east := east; x_north := g_north g |}
  else UB.

(* gdal.cpp:414-427: the geo-transform of an exported raster *)
Definition geo_of_box (shape : pair2) (x : space_box) : outcome geo_transform :=
  if (if Qclt_le_dec (x_east x) (x_west x) then false else true) && (if Qclt_le_dec (x_north x) (x_south x) then false else true) &&
     (fst shape >? 0) && (snd shape >? 0)
  then Ok {| g_west := x_west x; g_cell_width := Qcdiv (Qcminus (x_east x) (x_west x)) (qz (snd shape)); g_row_rotation := Q2Qc 0;
             g_north := x_north x; g_col_rotation := Q2Qc 0;
             g_cell_height := Qcopp (Qcdiv (Qcminus (x_north x) (x_south x)) (qz (fst shape))) |}
  else UB.
