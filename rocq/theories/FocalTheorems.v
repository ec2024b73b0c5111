(** Property theorems about focal operations (C18, C19, C39, C40). *)
From Verif Require Import Common CoreSpec DecompSpec ArraySpec IndexModel DecompModel ArrayModel ArrayRep
  GridModel LocalModel LocalSpec AggregateModel AggregateSpec ZonalSpec ZonalProofs
  FocalSpec FocalModel FocalRep FocalFunctorsModel FocalProofs3 FocalProofs4 FocalProofs5 RasterCheck.

(** In all theorems [junk] and [ojunk] are the content of freshly allocated buffers, and [p0], [p1] the
    partition extents, which do not occur in the conclusion about the values. *)

(** C18: the windows.  [functor] is called with the window around a cell; [F] says what it returns. *)
Theorem C18_focal_windows :
  forall (E O : Type) R (functor : grid E -> outcome O) (F : (Z -> Z -> E) -> O) junk ojunk hp a0 a1 p0 p1 arr f,
  0 <= R ->
  (forall window, functor (gmake (2 * R + 1) (2 * R + 1) window) = Ok (F window)) ->
  raster_of [a0; a1] [p0; p1] arr f ->
  2 * R + 1 <= smallest_block a0 p0 -> 2 * R + 1 <= smallest_block a1 p1 ->
  exists out g, focal_operation R functor junk ojunk hp arr = Ok out /\ raster_of [a0; a1] [p0; p1] out g /\
    forall r c, g [r; c] = F (fun i j => padded a0 a1 (border_of hp) (fun r c => f [r; c]) (r - R + i) (c - R + j)).
Proof. intros E O R functor F junk ojunk hp a0 a1 p0 p1 arr f HR HF. exact (focal_op_ok R functor F junk ojunk hp HF a0 a1 p0 p1 arr f HR). Qed.
Print Assumptions C18_focal_windows.

(** C18: partitions that are too small are reported. *)
Theorem C18_small_partitions_are_reported :
  forall (E O : Type) R (functor : grid E -> outcome O) (F : (Z -> Z -> E) -> O) junk ojunk hp a0 a1 p0 p1 arr f,
  0 <= R ->
  (forall window, functor (gmake (2 * R + 1) (2 * R + 1) window) = Ok (F window)) ->
  raster_of [a0; a1] [p0; p1] arr f ->
  smallest_block a0 p0 < 2 * R + 1 \/ smallest_block a1 p1 < 2 * R + 1 ->
  focal_operation R functor junk ojunk hp arr = Throw.
Proof. intros E O R functor F junk ojunk hp a0 a1 p0 p1 arr f HR HF. exact (focal_op_throw R functor F junk ojunk hp HF a0 a1 p0 p1 arr f HR). Qed.
Print Assumptions C18_small_partitions_are_reported.


(** A raster of 7 rows and 3 columns in partitions of 3 x 3 and 4 x 3 cells; no-data is -128. *)
Definition ex_raster (x : list Z) : Z :=
  nth (Z.to_nat (nth 0 x 0 * 3 + nth 1 x 0)) [0; 1; 2; 10; 11; 12; 20; 21; 22; 30; 31; 32; 40; -128; 42; 50; 51; 52; 60; 60; 60] 0.
Definition ex_array : parray Z := raster_array [7; 3] [3; 3] ex_raster.
Example ex_array_holds : raster_of [7; 3] [3; 3] ex_array ex_raster.
Proof. apply raster_array_ok; [discriminate|]. repeat constructor; vm_compute; congruence. Qed.
Example ex_blocks : smallest_block 7 3 = 3 /\ smallest_block 3 3 = 3 /\ smallest_block 7 2 = 2.
Proof. repeat split. Qed.
(** A plus-shaped kernel, without the focal cell *)
Definition ex_weight (i j : Z) : Z := if (i =? 1) && (j =? 1) then 0 else if (i =? 1) || (j =? 1) then 1 else 0.
Definition ex_halo : halo_policy Z := HaloPolicy 1 2 3 4 5 6 7 (-128).
Definition ex_nd (v : Z) : bool := v =? -128.
Definition ex_run (fn : kernel Z -> grid Z -> outcome Z) : outcome (list (list Z)) :=
  obind (focal fn (gmake 3 3 ex_weight) (fun _ => 9) (fun _ => 9) ex_halo ex_array) (fun out => Ok (map pl_data (pa_parts out))).
Example C18_ex : focal_operation 2 (fun w => gget w 0 0) (fun _ => 9) (fun _ => 9) (constant_halo 7) ex_array = Throw.
Proof. vm_compute. reflexivity. Qed.
Example C18_ex2 : ex_run (fun _ w => gget w 0 1) = Ok [[2; 2; 2; 0; 1; 2; 10; 11; 12]; [20; 21; 22; 30; 31; 32; 40; -128; 42; 50; 51; 52]].
Proof. vm_compute. reflexivity. Qed.

(** C19: sum, in row-major order, for any element type. *)
Theorem C19_focal_sum :
  forall (E : Type) (zero : E) (plus : E -> E -> E) no_data nd (weight : Z -> Z -> Z) R junk ojunk hp a0 a1 p0 p1 arr f,
  0 <= R -> raster_of [a0; a1] [p0; p1] arr f ->
  2 * R + 1 <= smallest_block a0 p0 -> 2 * R + 1 <= smallest_block a1 p1 ->
  exists out g,
    focal (fun k => focal_sum_functor no_data nd k zero plus) (gmake (2 * R + 1) (2 * R + 1) weight) junk ojunk hp arr = Ok out /\
    raster_of [a0; a1] [p0; p1] out g /\
    forall r c,
      let l := focal_values R (fun dr dc => negb (weight (R + dr) (R + dc) =? 0)) (fun v => negb (no_data v))
                 (padded a0 a1 (border_of hp) (fun r c => f [r; c])) r c in
      (l = [] -> g [r; c] = nd) /\ (l <> [] -> g [r; c] = fold_left plus l zero).
Proof. exact c19_sum. Qed.
Print Assumptions C19_focal_sum.
Example C19_focal_sum_ex : ex_run (fun k => focal_sum_functor ex_nd (-128) k 0 Z.add) =
  Ok [[17; 15; 20; 35; 44; 40; 65; 84; 70]; [95; 83; 100; 84; 164; 89; 155; 162; 158; 121; 178; 124]].
Proof. vm_compute. reflexivity. Qed.

(** C19: sum of integers, in the element type. *)
Theorem C19_focal_sum_of_integers :
  forall (t : itype) no_data nd (weight : Z -> Z -> Z) R junk ojunk hp a0 a1 p0 p1 arr f,
  int_type t -> 0 <= R -> raster_of [a0; a1] [p0; p1] arr f ->
  2 * R + 1 <= smallest_block a0 p0 -> 2 * R + 1 <= smallest_block a1 p1 ->
  exists out g,
    focal (fun k => focal_sum_functor no_data nd k 0 (fun s v => wrap t (s + v))) (gmake (2 * R + 1) (2 * R + 1) weight) junk ojunk hp arr = Ok out /\
    raster_of [a0; a1] [p0; p1] out g /\
    forall r c,
      let l := focal_values R (fun dr dc => negb (weight (R + dr) (R + dc) =? 0)) (fun v => negb (no_data v))
                 (padded a0 a1 (border_of hp) (fun r c => f [r; c])) r c in
      (l = [] -> g [r; c] = nd) /\ (l <> [] -> g [r; c] = wrap t (sumZ l)).
Proof. exact c19_sum_of_integers. Qed.
Print Assumptions C19_focal_sum_of_integers.
Example C19_focal_sum_of_integers_ex : ex_run (fun k => focal_sum_functor ex_nd (-128) k 0 (fun s v => wrap (IType 8 true) (s + v))) =
  Ok [[17; 15; 20; 35; 44; 40; 65; 84; 70]; [95; 83; 100; 84; -92; 89; -101; -94; -98; 121; -78; 124]].
Proof. vm_compute. reflexivity. Qed.

(** C19: mean: the sum in row-major order divided by the number of values. *)
Theorem C19_focal_mean :
  forall (E : Type) (zero : E) (plus : E -> E -> E) (divide : E -> Z -> E) no_data nd (weight : Z -> Z -> Z) R junk ojunk hp a0 a1 p0 p1 arr f,
  0 <= R -> raster_of [a0; a1] [p0; p1] arr f ->
  2 * R + 1 <= smallest_block a0 p0 -> 2 * R + 1 <= smallest_block a1 p1 ->
  exists out g,
    focal (fun k => focal_mean_functor no_data nd k zero plus divide) (gmake (2 * R + 1) (2 * R + 1) weight) junk ojunk hp arr = Ok out /\
    raster_of [a0; a1] [p0; p1] out g /\
    forall r c,
      let l := focal_values R (fun dr dc => negb (weight (R + dr) (R + dc) =? 0)) (fun v => negb (no_data v))
                 (padded a0 a1 (border_of hp) (fun r c => f [r; c])) r c in
      (l = [] -> g [r; c] = nd) /\ (l <> [] -> g [r; c] = divide (fold_left plus l zero) (Z.of_nat (length l))).
Proof. exact c19_mean. Qed.
Print Assumptions C19_focal_mean.
Example C19_focal_mean_ex : ex_run (fun k => focal_mean_functor ex_nd (-128) k 0 Z.add Z.div) =
  Ok [[4; 3; 5; 8; 11; 10; 16; 21; 17]; [23; 27; 25; 28; 41; 29; 38; 54; 39; 30; 44; 31]].
Proof. vm_compute. reflexivity. Qed.

(** C19: minimum. *)
Theorem C19_focal_minimum :
  forall (E : Type) (ltb : E -> E -> bool) (zero : E) no_data nd (weight : Z -> Z -> Z) R junk ojunk hp a0 a1 p0 p1 arr f,
  (forall u v, ltb u v = true -> ltb v u = false) ->
  (forall u v w, ltb u w = true -> ltb u v = true \/ ltb v w = true) ->
  0 <= R -> raster_of [a0; a1] [p0; p1] arr f ->
  2 * R + 1 <= smallest_block a0 p0 -> 2 * R + 1 <= smallest_block a1 p1 ->
  exists out g,
    focal (fun k => focal_minimum_functor no_data nd k ltb zero) (gmake (2 * R + 1) (2 * R + 1) weight) junk ojunk hp arr = Ok out /\
    raster_of [a0; a1] [p0; p1] out g /\
    forall r c,
      let l := focal_values R (fun dr dc => negb (weight (R + dr) (R + dc) =? 0)) (fun v => negb (no_data v))
                 (padded a0 a1 (border_of hp) (fun r c => f [r; c])) r c in
      (l = [] -> g [r; c] = nd) /\ (l <> [] -> least_of ltb l (g [r; c])).
Proof. exact c19_minimum. Qed.
Print Assumptions C19_focal_minimum.
Example C19_focal_minimum_ex : ex_run (fun k => focal_minimum_functor ex_nd (-128) k Z.ltb 0) =
  Ok [[1; 0; 1; 0; 1; 2; 4; 11; 5]; [4; 21; 5; 4; 31; 5; 4; 50; 5; 4; 7; 5]].
Proof. vm_compute. reflexivity. Qed.

(** C19: maximum. *)
Theorem C19_focal_maximum :
  forall (E : Type) (ltb : E -> E -> bool) (zero : E) no_data nd (weight : Z -> Z -> Z) R junk ojunk hp a0 a1 p0 p1 arr f,
  (forall u v, ltb u v = true -> ltb v u = false) ->
  (forall u v w, ltb u w = true -> ltb u v = true \/ ltb v w = true) ->
  0 <= R -> raster_of [a0; a1] [p0; p1] arr f ->
  2 * R + 1 <= smallest_block a0 p0 -> 2 * R + 1 <= smallest_block a1 p1 ->
  exists out g,
    focal (fun k => focal_maximum_functor no_data nd k ltb zero) (gmake (2 * R + 1) (2 * R + 1) weight) junk ojunk hp arr = Ok out /\
    raster_of [a0; a1] [p0; p1] out g /\
    forall r c,
      let l := focal_values R (fun dr dc => negb (weight (R + dr) (R + dc) =? 0)) (fun v => negb (no_data v))
                 (padded a0 a1 (border_of hp) (fun r c => f [r; c])) r c in
      (l = [] -> g [r; c] = nd) /\ (l <> [] -> largest_of ltb l (g [r; c])).
Proof. exact c19_maximum. Qed.
Print Assumptions C19_focal_maximum.
Example C19_focal_maximum_ex : ex_run (fun k => focal_maximum_functor ex_nd (-128) k Z.ltb 0) =
  Ok [[10; 11; 12; 20; 21; 22; 30; 31; 32]; [40; 32; 42; 50; 51; 52; 60; 60; 60; 60; 60; 60]].
Proof. vm_compute. reflexivity. Qed.

(** C19: diversity: the number of different values, in the output element type. *)
Theorem C19_focal_diversity :
  forall (t : itype) no_data nd (weight : Z -> Z -> Z) R junk ojunk hp a0 a1 p0 p1 arr f,
  0 <= R -> raster_of [a0; a1] [p0; p1] arr f ->
  2 * R + 1 <= smallest_block a0 p0 -> 2 * R + 1 <= smallest_block a1 p1 ->
  exists out g,
    focal (fun k => focal_diversity_functor t no_data nd k) (gmake (2 * R + 1) (2 * R + 1) weight) junk ojunk hp arr = Ok out /\
    raster_of [a0; a1] [p0; p1] out g /\
    forall r c,
      let l := focal_values R (fun dr dc => negb (weight (R + dr) (R + dc) =? 0)) (fun v => negb (no_data v))
                 (padded a0 a1 (border_of hp) (fun r c => f [r; c])) r c in
      (l = [] -> g [r; c] = nd) /\ (l <> [] -> g [r; c] = wrap t (Z.of_nat (length (nodup Z.eq_dec l)))).
Proof. exact c19_diversity. Qed.
Print Assumptions C19_focal_diversity.
Example C19_focal_diversity_ex : ex_run (fun k => focal_diversity_functor (IType 8 true) ex_nd (-128) k) =
  Ok [[4; 3; 4; 4; 4; 4; 4; 4; 4]; [4; 3; 4; 3; 4; 3; 4; 3; 4; 4; 3; 4]].
Proof. vm_compute. reflexivity. Qed.

(** C19: majority: the smallest of the values that occur most often. *)
Theorem C19_focal_majority :
  forall  no_data nd (weight : Z -> Z -> Z) R junk ojunk hp a0 a1 p0 p1 arr f,
  0 <= R -> raster_of [a0; a1] [p0; p1] arr f ->
  2 * R + 1 <= smallest_block a0 p0 -> 2 * R + 1 <= smallest_block a1 p1 ->
  exists out g,
    focal (fun k => focal_majority_functor no_data nd k) (gmake (2 * R + 1) (2 * R + 1) weight) junk ojunk hp arr = Ok out /\
    raster_of [a0; a1] [p0; p1] out g /\
    forall r c,
      let l := focal_values R (fun dr dc => negb (weight (R + dr) (R + dc) =? 0)) (fun v => negb (no_data v))
                 (padded a0 a1 (border_of hp) (fun r c => f [r; c])) r c in
      (l = [] -> g [r; c] = nd) /\ (l <> [] -> smallest_majority_of l (g [r; c])).
Proof. exact c19_majority. Qed.
Print Assumptions C19_focal_majority.
Example C19_focal_majority_ex : ex_run (fun k => focal_majority_functor ex_nd (-128) k) =
  Ok [[1; 2; 1; 0; 1; 2; 4; 11; 5]; [4; 21; 5; 4; 31; 5; 4; 50; 5; 4; 60; 5]].
Proof. vm_compute. reflexivity. Qed.

(** C19: high pass: 2 * focal value * number of neighbours - sum of neighbours, over the selected valid neighbours. *)
Theorem C19_focal_high_pass :
  forall (E : Type) (zero : E) (plus : E -> E -> E) (combine : E -> Z -> E -> E) no_data nd (weight : Z -> Z -> Z) R junk ojunk hp a0 a1 p0 p1 arr f,
  0 <= R -> raster_of [a0; a1] [p0; p1] arr f ->
  2 * R + 1 <= smallest_block a0 p0 -> 2 * R + 1 <= smallest_block a1 p1 ->
  exists out g,
    focal (fun k => focal_high_pass_functor no_data nd k zero plus combine) (gmake (2 * R + 1) (2 * R + 1) weight) junk ojunk hp arr = Ok out /\
    raster_of [a0; a1] [p0; p1] out g /\
    forall r c,
      let raster := padded a0 a1 (border_of hp) (fun r c => f [r; c]) in
      let neighbours := focal_values R (fun dr dc => negb ((dr =? 0) && (dc =? 0)) && negb (weight (R + dr) (R + dc) =? 0))
                          (fun v => negb (no_data v)) raster r c in
      (neighbours = [] -> g [r; c] = nd) /\
      (neighbours <> [] -> g [r; c] = combine (raster r c) (Z.of_nat (length neighbours)) (fold_left plus neighbours zero)).
Proof. exact c19_high_pass. Qed.
Print Assumptions C19_focal_high_pass.
Example C19_focal_high_pass_ex : ex_run (fun k => focal_high_pass_functor ex_nd (-128) k 0 Z.add (fun f n s => 2 * f * n - s)) =
  Ok [[-17; -7; -4; 45; 44; 56; 95; 84; 106]; [145; 103; 156; 156; -1188; 163; 245; 144; 258; 359; 302; 356]].
Proof. vm_compute. reflexivity. Qed.

(** C19: convolution: the sum, over the valid cells in the neighbourhood, of weight * value. *)
Theorem C19_convolve :
  forall (E W : Type) (zero : E) (plus : E -> E -> E) (times : W -> E -> E) no_data nd (weight : Z -> Z -> W) R junk ojunk hp a0 a1 p0 p1 arr f,
  0 <= R -> raster_of [a0; a1] [p0; p1] arr f ->
  2 * R + 1 <= smallest_block a0 p0 -> 2 * R + 1 <= smallest_block a1 p1 ->
  exists out g,
    focal (fun k => convolve_functor no_data nd k zero plus times) (gmake (2 * R + 1) (2 * R + 1) weight) junk ojunk hp arr = Ok out /\
    raster_of [a0; a1] [p0; p1] out g /\
    forall r c,
      let raster := padded a0 a1 (border_of hp) (fun r c => f [r; c]) in
      let valid := filter (fun d => negb (no_data (raster (r + fst d) (c + snd d)))) (offsets R) in
      (valid = [] -> g [r; c] = nd) /\
      (valid <> [] -> g [r; c] =
         fold_left plus (map (fun d => times (weight (R + fst d) (R + snd d)) (raster (r + fst d) (c + snd d))) valid) zero).
Proof. exact c19_convolve. Qed.
Print Assumptions C19_convolve.
Example C19_convolve_ex : ex_run (fun k => convolve_functor ex_nd (-128) k 0 Z.add Z.mul) =
  Ok [[17; 15; 20; 35; 44; 40; 65; 84; 70]; [95; 83; 100; 84; 164; 89; 155; 162; 158; 121; 178; 124]].
Proof. vm_compute. reflexivity. Qed.

(** C39: the predefined kernels. *)
Theorem C39_kernels :
  forall (W : Type) (zero value : W) R, 0 <= R ->
  exists k, circle_kernel zero R value = Ok k /\
    kernel_radius k = R /\ kernel_size k = 2 * R + 1 /\ g0 k = 2 * R + 1 /\ g1 k = 2 * R + 1 /\
    kernel_radius (box_kernel R value) = R /\ kernel_size (box_kernel R value) = 2 * R + 1 /\
    forall dr dc, - R <= dr <= R -> - R <= dc <= R ->
      gget (box_kernel R value) (R + dr) (R + dc) = Ok value /\
      (dr * dr + dc * dc <= R * R -> gget k (R + dr) (R + dc) = Ok value) /\
      (R * R < dr * dr + dc * dc -> gget k (R + dr) (R + dc) = Ok zero).
Proof. exact c39. Qed.
Print Assumptions C39_kernels.
Example C39_ex : circle_kernel 0 2 1 =
  Ok (Grid 5 5 [0; 0; 1; 0; 0; 0; 1; 1; 1; 0; 1; 1; 1; 1; 1; 0; 1; 1; 1; 0; 0; 0; 1; 0; 0]).
Proof. vm_compute. reflexivity. Qed.

(** C40, false: a focal cell without a value gets the mean of its neighbours.  [None] is no-data. *)
Theorem C40_focal_mean_propagates_no_data_refuted :
  let plus (u v : option Z) := match u, v with Some x, Some y => Some (x + y) | _, _ => None end in
  let divide (u : option Z) (n : Z) := option_map (fun x => x / n) u in
  let no_data (u : option Z) := match u with None => true | _ => false end in
  let f (x : list Z) := if (nth 0 x 0 =? 1) && (nth 1 x 0 =? 1) then None else Some 8 in
  exists out g,
    raster_of [3; 3] [3; 3] (raster_array [3; 3] [3; 3] f) f /\ f [1; 1] = None /\
    focal (fun k => focal_mean_functor no_data None k (Some 0) plus divide) (box_kernel 1 1)
      (fun _ => None) (fun _ => None) (constant_halo None) (raster_array [3; 3] [3; 3] f) = Ok out /\
    raster_of [3; 3] [3; 3] out g /\ g [1; 1] = Some 8.
Proof. exact c40. Qed.
Print Assumptions C40_focal_mean_propagates_no_data_refuted.
