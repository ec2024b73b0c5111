(** Property theorems about the domain decomposition
    (C01, C02, C06, C07, C08, C10, C11, C12, C36). *)
From Verif Require Import Common CoreSpec DecompSpec IndexModel DecompModel DecompProofs4 DecompProofs3.

(** C01.  [create] is whatever the partition creator makes of (locality, offset, shape). *)
Theorem C01_partitions_tile_the_array :
  forall (P : Type) (create : Z -> list Z -> list Z -> P) nr_localities array_shape partition_shape,
  supported nr_localities array_shape partition_shape ->
  partition_fits array_shape partition_shape ->
  nr_localities <= nr_parts array_shape partition_shape ->
  exists parts, instantiate_individually nr_localities create array_shape partition_shape = Ok parts /\
    (forall q, In q parts ->
       length (pl_offset q) = length array_shape /\ pos_shape (pl_shape q) /\
       (forall x, in_box (pl_offset q) (pl_shape q) x -> in_shape array_shape x)) /\
    (forall x, in_shape array_shape x -> exists k, forall j,
       (exists q, nth_error parts j = Some q /\ in_box (pl_offset q) (pl_shape q) x) <-> j = k).
Proof. exact @c01. Qed.
Print Assumptions C01_partitions_tile_the_array.
Example C01_ex : supported 3 [7; 11] [3; 4] /\ partition_fits [7; 11] [3; 4] /\ 3 <= nr_parts [7; 11] [3; 4].
Proof.
  unfold supported, partition_fits, nr_parts. cbn.
  repeat split; try discriminate; try lia. constructor; [lia|constructor; [lia|constructor]].
Qed.
Example C01_ex_run : option_map (fun l => map (fun q => (pl_offset q, pl_shape q)) l)
  (match instantiate_individually 3 (fun _ _ _ => tt) [7; 11] [3; 4] with Ok l => Some l | _ => None end) =
  Some [([0; 0], [3; 4]); ([0; 4], [3; 7]); ([3; 0], [4; 4]); ([3; 4], [4; 7])].
Proof. vm_compute. reflexivity. Qed.

(** C02 *)
Theorem C02_rejected_iff_ill_formed :
  forall (P : Type) (create : Z -> list Z -> list Z -> P) nr_localities array_shape partition_shape,
  supported nr_localities array_shape partition_shape ->
  length array_shape = length partition_shape -> is_shape array_shape -> is_shape partition_shape ->
  (instantiate_individually nr_localities create array_shape partition_shape = Throw <->
     ~ (partition_fits array_shape partition_shape /\ nr_localities <= nr_parts array_shape partition_shape)) /\
  ((exists parts, instantiate_individually nr_localities create array_shape partition_shape = Ok parts) <->
     partition_fits array_shape partition_shape /\ nr_localities <= nr_parts array_shape partition_shape).
Proof. exact @c02. Qed.
Print Assumptions C02_rejected_iff_ill_formed.
Example C02_ex : instantiate_individually 1 (fun _ _ _ => tt) [5; 5] [3; 6] = Throw /\
  instantiate_individually 1 (fun _ _ _ => tt) [5; 0] [3; 3] = Throw /\
  instantiate_individually 2 (fun _ _ _ => tt) [5; 5] [3; 5] = Throw.
Proof. vm_compute. auto. Qed.

(** C02, continued: number, offsets and extents of the partitions. *)
Theorem C02_partition_extents :
  forall (P : Type) (create : Z -> list Z -> list Z -> P) nr_localities a p,
  supported nr_localities a p -> partition_fits a p -> nr_localities <= nr_parts a p ->
  exists parts, instantiate_individually nr_localities create a p = Ok parts /\
    Z.of_nat (length parts) = nr_parts a p /\
    forall idxs, in_shape (parts_shape a p) idxs ->
      exists i q, idxs_to_linear_idx idxs (parts_shape a p) = Ok i /\
        nth_error parts (Z.to_nat i) = Some q /\
        forall d, (d < length a)%nat ->
          nth d (pl_offset q) 0 = nth d idxs 0 * nth d p 0 /\
          (nth d idxs 0 < nth d a 0 / nth d p 0 - 1 -> nth d (pl_shape q) 0 = nth d p 0) /\
          (nth d idxs 0 = nth d a 0 / nth d p 0 - 1 ->
             nth d (pl_offset q) 0 + nth d (pl_shape q) 0 = nth d a 0 /\
             nth d p 0 <= nth d (pl_shape q) 0 < 2 * nth d p 0).
Proof. exact @c02_extents. Qed.
Print Assumptions C02_partition_extents.

(** C06: localities get non-empty, contiguous (along the curve), balanced runs. *)
Theorem C06_localities_contiguous_and_balanced :
  forall (P : Type) (create : Z -> list Z -> list Z -> P) nr_localities array_shape partition_shape,
  supported nr_localities array_shape partition_shape ->
  partition_fits array_shape partition_shape ->
  nr_localities <= nr_parts array_shape partition_shape ->
  exists visits parts,
    curve_visits (parts_shape array_shape partition_shape) = Ok visits /\
    instantiate_individually nr_localities create array_shape partition_shape = Ok parts /\
    (forall q, In q parts -> 0 <= pl_locality q < nr_localities) /\
    (forall l, 0 <= l < nr_localities ->
       exists b e, 0 <= b < e /\ e <= nr_parts array_shape partition_shape /\
         nr_parts array_shape partition_shape - 2 * nr_localities
           < (e - b) * nr_localities
           < nr_parts array_shape partition_shape + 2 * nr_localities /\
       forall k idxs, In (k, idxs) visits ->
         exists i q, idxs_to_linear_idx idxs (parts_shape array_shape partition_shape) = Ok i /\
           nth_error parts (Z.to_nat i) = Some q /\ (pl_locality q = l <-> b <= k < e)).
Proof. exact @c06. Qed.
Print Assumptions C06_localities_contiguous_and_balanced.
(** The runs are not always the exact quotients: rounding in binary64 moves the start of
    the second run from 49 to 50. *)
Example C06_ex : map (locality_idx_by_partition_idx 147 3) [0; 48; 49; 50; 97; 98; 99; 146] =
  [Ok 0; Ok 0; Ok 0; Ok 1; Ok 1; Ok 1; Ok 2; Ok 2].
Proof. vm_compute. reflexivity. Qed.

(** C07 *)
Theorem C07_batches_equal_individual :
  forall (P : Type) (create : Z -> list Z -> list Z -> P)
         (create_batch : Z -> list (list Z * list Z) -> list P)
         nr_localities array_shape partition_shape,
  supported nr_localities array_shape partition_shape ->
  partition_fits array_shape partition_shape ->
  nr_localities <= nr_parts array_shape partition_shape ->
  (forall loc l, l <> [] -> create_batch loc l = map (fun '(o, s) => create loc o s) l) ->
  instantiate_per_locality nr_localities create_batch array_shape partition_shape =
  instantiate_individually nr_localities create array_shape partition_shape.
Proof. exact @c07. Qed.
Print Assumptions C07_batches_equal_individual.
Example C07_ex :
  instantiate_per_locality 3 (fun loc l => map (fun '(o, s) => (loc, o, s)) l) [9; 11] [2; 3] =
  instantiate_individually 3 (fun loc o s => (loc, o, s)) [9; 11] [2; 3].
Proof. vm_compute. reflexivity. Qed.

(** C08 *)
Theorem C08_array_from_buffer :
  forall (E : Type) (eqb : E -> E -> bool) (mark : E) (no_data_value : option E) (buffer : list E)
         nr_localities a0 a1 p0 p1,
  supported nr_localities [a0; a1] [p0; p1] -> 0 < p0 <= a0 -> 0 < p1 <= a1 ->
  nr_localities <= nr_parts [a0; a1] [p0; p1] ->
  Z.of_nat (length buffer) = a0 * a1 ->
  exists parts,
    instantiate_individually nr_localities
      (fun _ => from_buffer eqb mark no_data_value buffer [a0; a1]) [a0; a1] [p0; p1] = Ok parts /\
    (forall x0 x1, 0 <= x0 < a0 -> 0 <= x1 < a1 ->
       exists q o0 o1 s0 s1 data, In q parts /\
         pl_offset q = [o0; o1] /\ pl_shape q = [s0; s1] /\ pl_data q = Ok data /\
         o0 <= x0 < o0 + s0 /\ o1 <= x1 < o1 + s1) /\
    (forall q, In q parts -> exists o0 o1 s0 s1 data,
       pl_offset q = [o0; o1] /\ pl_shape q = [s0; s1] /\ pl_data q = Ok data /\
       forall x0 x1, o0 <= x0 < o0 + s0 -> o1 <= x1 < o1 + s1 ->
         exists e, nth_error buffer (Z.to_nat (x0 * a1 + x1)) = Some e /\
         nth_error data (Z.to_nat ((x0 - o0) * s1 + (x1 - o1))) =
         Some (match no_data_value with Some n => if eqb e n then mark else e | None => e end)).
Proof. exact @c08. Qed.
Print Assumptions C08_array_from_buffer.
Example C08_ex : from_buffer Z.eqb (-1) (Some 7) (zseq 0 20) [4; 5] [1; 2] [2; 3] = Ok [-1; 8; 9; 12; 13; 14].
Proof. reflexivity. Qed.

(** C10 *)
Theorem C10_erase_removes_exactly_the_slab :
  forall (E : Type) (l : list E) shape d hb he,
  pos_shape shape -> (d < length shape)%nat -> 0 <= hb <= he -> he <= nth d shape 0 ->
  Z.of_nat (length l) = volume shape ->
  exists l' shape', erase l shape d hb he = Ok (l', shape') /\
    length shape' = length shape /\
    (forall e, (e < length shape)%nat ->
       nth e shape' 0 = if (e =? d)%nat then nth e shape 0 - (he - hb) else nth e shape 0) /\
    Z.of_nat (length l') = volume shape' /\
    (forall before i after, length before = d -> in_shape shape' (before ++ i :: after) ->
       let i' := if i <? hb then i else i + (he - hb) in
       in_shape shape (before ++ i' :: after) /\
       nth_error l' (Z.to_nat (linear_idx (before ++ i :: after) shape')) =
       nth_error l (Z.to_nat (linear_idx (before ++ i' :: after) shape))).
Proof. exact @c10. Qed.
Print Assumptions C10_erase_removes_exactly_the_slab.
Example C10_ex : erase (zseq 0 24) [2; 4; 3] 1 1 3 =
  Ok ([0; 1; 2; 9; 10; 11; 12; 13; 14; 21; 22; 23], [2; 2; 3]).
Proof. vm_compute. reflexivity. Qed.

(** C11.  The full statement has no hypothesis on the extents.  It is false for the
    code: see the refutation below. [k] stands for ceil(min_nr_partitions^(1/rank)). *)
Theorem C11_max_partition_shape_partial : forall k array_shape min_nr_partitions,
  array_shape <> [] -> Forall small array_shape -> 0 < min_nr_partitions -> 0 < k ->
  min_nr_partitions <= k ^ Z.of_nat (length array_shape) ->
  Forall (fun e => k <= e) array_shape ->
  min_nr_partitions <= volume array_shape ->
  exists p, max_partition_shape k array_shape min_nr_partitions = Ok p /\
    Forall2 (fun a p => 0 < p <= a) array_shape p /\
    min_nr_partitions <= prodZ (map2 (fun a p => (a + p - 1) / p) array_shape p).
Proof. exact max_partition_shape_ok. Qed.
Print Assumptions C11_max_partition_shape_partial.
Example C11_ex : max_partition_shape 3 [20; 30] 7 = Ok [6; 10].
Proof. vm_compute. reflexivity. Qed.

Theorem C11_max_partition_shape_refuted : exists array_shape min_nr_partitions,
  array_shape <> [] /\ pos_shape array_shape /\ 0 < min_nr_partitions <= volume array_shape /\
  min_nr_partitions = 2 ^ Z.of_nat (length array_shape) /\
  max_partition_shape 2 array_shape min_nr_partitions = UB.
Proof. exact c11_refuted. Qed.
Print Assumptions C11_max_partition_shape_refuted.

(** C12.  The full statement has no third hypothesis.  It is false for the code. *)
Theorem C12_default_partition_shape_accepted_partial : forall root array_shape nr_worker_threads,
  array_shape <> [] -> pos_shape array_shape -> 0 < nr_worker_threads ->
  (nr_worker_threads = 1 \/ volume array_shape / nr_worker_threads < 2000 * 2000 \/
   Forall (fun e => root <= e) array_shape) ->
  exists p, default_partition_shape root array_shape nr_worker_threads = Ok p /\
    array_shape <> [] /\ partition_fits array_shape p.
Proof. exact default_shape_fits. Qed.
Print Assumptions C12_default_partition_shape_accepted_partial.
Example C12_ex : default_partition_shape 2000 [300; 5000] 8 = Ok [37; 37].
Proof. vm_compute. reflexivity. Qed.

Theorem C12_default_partition_shape_refuted : exists array_shape nr_worker_threads,
  array_shape <> [] /\ pos_shape array_shape /\ 0 < nr_worker_threads /\
  default_partition_shape 2000 array_shape nr_worker_threads = UB /\
  ~ partition_fits array_shape (map (fun _ => 2000) array_shape).
Proof. exact c12_refuted. Qed.
Print Assumptions C12_default_partition_shape_refuted.

(** C36 *)
Theorem C36_clamped_shape_is_next_multiple : forall area_shape partition_shape,
  partition_fits area_shape partition_shape \/
    Forall2 (fun a p => 0 <= a /\ 0 < p) area_shape partition_shape ->
  Forall (fun e => e < 2 ^ 53) area_shape -> Forall (fun e => e <= 2 ^ 53) partition_shape ->
  length (shape_in_partitions area_shape partition_shape) = length area_shape /\
  length (clamp_area_shape area_shape partition_shape) = length area_shape /\
  forall d, (d < length area_shape)%nat ->
    let n := nth d (shape_in_partitions area_shape partition_shape) 0 in
    let c := nth d (clamp_area_shape area_shape partition_shape) 0 in
    c = n * nth d partition_shape 0 /\
    c - nth d partition_shape 0 < nth d area_shape 0 <= c.
Proof. exact c36. Qed.
Print Assumptions C36_clamped_shape_is_next_multiple.
Example C36_ex : clamp_area_shape [7; 8; 0] [3; 4; 5] = [9; 8; 0].
Proof. vm_compute. reflexivity. Qed.
