(** Property theorems about arrays that are filled by position (C43 - C46). *)
From Verif Require Import Common CoreSpec DecompSpec ArraySpec IndexModel DecompModel ArrayModel ArrayRep
  GridModel LocalModel LocalSpec CreateSpec CreateModel CreateProofs CreateProofs2 RasterCheck.

(** In all theorems [junk] is the content of freshly allocated buffers. *)

(** C43: range numbers the cells in row-major order, if the partitions in a row are equally wide or there is only one
    row of them.  Unsigned types and types smaller than int wrap around. *)
Theorem C43_range_partial :
  forall t a0 a1 p0 p1 junk arr f start,
  int_type t -> raster_of [a0; a1] [p0; p1] arr f -> regular_rows a0 a1 p0 p1 -> countable t a0 a1 start ->
  exists out g, range t junk arr start = Ok out /\ raster_of [a0; a1] [p0; p1] out g /\
    forall x, in_shape [a0; a1] x ->
      g x = wrap t (start + rowmaj [a0; a1] x) /\ (start + a0 * a1 - 1 <= imax t -> g x = start + rowmaj [a0; a1] x).
Proof. exact range_regular. Qed.
Print Assumptions C43_range_partial.
(** C43 is false in all other cases: the numbers are not unique. *)
Theorem C43_range_refuted :
  forall t a0 a1 p0 p1 junk arr f start,
  int_type t -> raster_of [a0; a1] [p0; p1] arr f -> ~ regular_rows a0 a1 p0 p1 -> countable t a0 a1 start ->
  exists out g, range t junk arr start = Ok out /\ raster_of [a0; a1] [p0; p1] out g /\
    in_shape [a0; a1] [p0 - 1; a1 - a1 mod p1] /\ in_shape [a0; a1] [p0; 0] /\ g [p0 - 1; a1 - a1 mod p1] = g [p0; 0].
Proof. exact range_irregular. Qed.
Print Assumptions C43_range_refuted.

Definition ex_range (t : itype) (a p : list Z) (start : Z) : outcome (list (list Z)) :=
  obind (range t (fun _ => 77) (raster_array a p (fun _ => 0)) start) (fun out => Ok (map pl_data (pa_parts out))).
Example C43_ex1 : ex_range (IType 32 true) [5; 4] [2; 2] (-1) =
  Ok [[-1; 0; 3; 4]; [1; 2; 5; 6]; [7; 8; 11; 12; 15; 16]; [9; 10; 13; 14; 17; 18]].
Proof. vm_compute. reflexivity. Qed.
Example C43_ex1_hypotheses : raster_of [5; 4] [2; 2] (raster_array [5; 4] [2; 2] (fun _ => 0)) (fun _ => 0) /\
  int_type (IType 32 true) /\ regular_rows 5 4 2 2 /\ countable (IType 32 true) 5 4 (-1).
Proof.
  split; [apply raster_array_ok; [discriminate|]; repeat constructor; vm_compute; congruence|].
  split; [vm_compute; congruence|]. split; [left; reflexivity|]. split; [split; vm_compute; congruence|intros _; vm_compute; congruence].
Qed.
Example C43_ex2 : ex_range (IType 8 false) [4; 5] [2; 2] 0 =
  Ok [[0; 1; 5; 6]; [2; 3; 4; 7; 8; 9]; [9; 10; 14; 15]; [11; 12; 13; 16; 17; 18]].
Proof. vm_compute. reflexivity. Qed.
Example C43_ex2_hypotheses : raster_of [4; 5] [2; 2] (raster_array [4; 5] [2; 2] (fun _ => 0)) (fun _ => 0) /\
  int_type (IType 8 false) /\ ~ regular_rows 4 5 2 2 /\ countable (IType 8 false) 4 5 0.
Proof.
  split; [apply raster_array_ok; [discriminate|]; repeat constructor; vm_compute; congruence|].
  split; [vm_compute; congruence|]. split; [intros [H|[H|H]]; vm_compute in H; discriminate|]. split; [split; vm_compute; congruence|discriminate].
Qed.

(** C44: mesh_grid of a two-dimensional array: the rows are numbered in the first array, the columns in the second one.
    [plus] and [times] are the arithmetic of the element type. *)
Theorem C44_mesh_grid :
  forall (I O : Type) (plus : O -> O -> O) (times : Z -> O -> O) junk first_value step a0 a1 p0 p1 (arr : parray I) f,
  raster_of [a0; a1] [p0; p1] arr f ->
  exists out0 out1, mesh_grid2 plus times junk first_value step arr = Ok (out0, out1) /\
    raster_of [a0; a1] [p0; p1] out0 (fun x => plus first_value (times (row x) step)) /\
    raster_of [a0; a1] [p0; p1] out1 (fun x => plus first_value (times (column x) step)).
Proof. exact @mesh_grid2_ok. Qed.
Print Assumptions C44_mesh_grid.
(** C44: of a one-dimensional array *)
Theorem C44_mesh_grid_of_a_vector :
  forall (I O : Type) (plus : O -> O -> O) (times : Z -> O -> O) junk first_value step a p (arr : parray I) f,
  raster_of [a] [p] arr f ->
  exists out, mesh_grid1 plus times junk first_value step arr = Ok out /\
    raster_of [a] [p] out (fun x => plus first_value (times (nth 0 x 0) step)).
Proof. exact @mesh_grid1_ok. Qed.
Print Assumptions C44_mesh_grid_of_a_vector.
Example C44_ex1 : obind (mesh_grid2 Z.add Z.mul (fun _ => 77) 10 3 (raster_array [5; 3] [2; 2] (fun _ => 0))) (fun out =>
    Ok (map pl_data (pa_parts (fst out)), map pl_data (pa_parts (snd out)))) =
  Ok ([[10; 10; 10; 13; 13; 13]; [16; 16; 16; 19; 19; 19; 22; 22; 22]], [[10; 13; 16; 10; 13; 16]; [10; 13; 16; 10; 13; 16; 10; 13; 16]]).
Proof. vm_compute. reflexivity. Qed.
Example C44_ex2 : obind (mesh_grid1 Z.add Z.mul (fun _ => 77) 10 3 (raster_array [5] [2] (fun _ => 0))) (fun out => Ok (map pl_data (pa_parts out))) =
  Ok [[10; 13]; [16; 19; 22]].
Proof. vm_compute. reflexivity. Qed.
Example C44_hypotheses : raster_of [5; 3] [2; 2] (raster_array [5; 3] [2; 2] (fun _ => 0)) (fun _ => 0).
Proof. apply raster_array_ok; [discriminate|]; repeat constructor; vm_compute; congruence. Qed.

(** C45: cell_index, if there is one partition in the dimension or the first partition is as wide as the others are
    high (or the other way around).  [marker] is the no-data value. *)
Theorem C45_cell_index_partial :
  forall t no_data mark marker junk a0 a1 p0 p1 arr f d,
  int_type t -> (forall v, mark v = marker) -> raster_of [a0; a1] [p0; p1] arr f -> d = 0 \/ d = 1 ->
  one_or_square a0 a1 p0 p1 d ->
  exists out g, cell_index t no_data mark junk arr d = Ok out /\ raster_of [a0; a1] [p0; p1] out g /\
    forall x, in_shape [a0; a1] x ->
      (no_data (f x) = true \/ f x = 0 -> g x = marker) /\
      (no_data (f x) = false -> f x <> 0 -> representable t (nth (Z.to_nat d) x 0) -> g x = nth (Z.to_nat d) x 0).
Proof. exact cell_index_right. Qed.
Print Assumptions C45_cell_index_partial.
(** C45 is false in all other cases: the first cell of the second partition gets another index. *)
Theorem C45_cell_index_refuted :
  forall t no_data mark marker junk a0 a1 p0 p1 arr f d,
  int_type t -> (forall v, mark v = marker) -> raster_of [a0; a1] [p0; p1] arr f -> d = 0 \/ d = 1 ->
  ~ one_or_square a0 a1 p0 p1 d -> representable t a0 -> representable t a1 ->
  exists out g, cell_index t no_data mark junk arr d = Ok out /\ raster_of [a0; a1] [p0; p1] out g /\
    let x := if d =? 0 then [p0; 0] else [0; p1] in
    in_shape [a0; a1] x /\ (no_data (f x) = false -> f x <> 0 -> g x <> nth (Z.to_nat d) x 0).
Proof. exact cell_index_wrong. Qed.
Print Assumptions C45_cell_index_refuted.
Definition ex_condition (x : list Z) : Z := if column x =? 0 then 1 else if row x =? 0 then 255 else if row x =? column x then 0 else 1.
Definition ex_index (a p : list Z) (d : Z) : outcome (list (list Z)) :=
  obind (cell_index (IType 32 true) (fun v => v =? 255) (fun _ => -9) (fun _ => 77) (raster_array a p ex_condition) d) (fun out =>
  Ok (map pl_data (pa_parts out))).
Example C45_ex1 : ex_index [4; 5] [2; 2] 0 = Ok [[0; -9; 1; -9]; [-9; -9; -9; 1; 1; 1]; [2; 2; 3; 3]; [-9; 2; 2; 3; -9; 3]].
Proof. vm_compute. reflexivity. Qed.
Example C45_ex1_hypotheses : one_or_square 4 5 2 2 0 /\ one_or_square 4 5 2 2 1 /\ raster_of [4; 5] [2; 2] (raster_array [4; 5] [2; 2] ex_condition) ex_condition.
Proof. split; [right; reflexivity|]. split; [right; reflexivity|]. apply raster_array_ok; [discriminate|]; repeat constructor; vm_compute; congruence. Qed.
(** Two rows of partitions of two rows and six columns: the third row gets index 6. *)
Example C45_ex2 : ex_index [4; 6] [2; 6] 0 = Ok [[0; -9; -9; -9; -9; -9; 1; -9; 1; 1; 1; 1]; [6; 6; -9; 6; 6; 6; 7; 7; 7; -9; 7; 7]].
Proof. vm_compute. reflexivity. Qed.
Example C45_ex2_hypotheses : ~ one_or_square 4 6 2 6 0 /\ ex_condition [2; 0] = 1.
Proof. split; [intros [H|H]; vm_compute in H; discriminate|reflexivity]. Qed.

(** C46: array_like fills an array that is partitioned like the input array. *)
Theorem C46_array_like :
  forall (I O : Type) (junk : Z -> O) a p (arr : parray I) f fill_value, raster_of a p arr f ->
  exists out, array_like junk arr fill_value = Ok out /\ raster_of a p out (fun _ => fill_value).
Proof. exact @array_like_ok. Qed.
Print Assumptions C46_array_like.
Example C46_ex : obind (array_like (fun _ => 77) (raster_array [5; 3] [2; 2] (fun _ => tt)) 4) (fun out => Ok (map pl_data (pa_parts out))) =
  Ok [[4; 4; 4; 4; 4; 4]; [4; 4; 4; 4; 4; 4; 4; 4; 4]].
Proof. vm_compute. reflexivity. Qed.
