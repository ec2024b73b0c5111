(** C83: operations with one value per partition. *)
From Verif Require Import Common CoreSpec DecompSpec ArraySpec IndexModel DecompModel ArrayModel ArrayRep RasterCheck LocalSpec LocalModel UniqueSpec
  PartOpModel PartOpSpec PartOpProofs.

(** partition_count_unique, for arrays of which all partitions have the same shape and result types that can represent
    the number of cells in a partition: an array with a cell per partition, on the locality of the partition, with the
    number of different valid values in the partition. *)
Theorem C83_count_unique_partial (asserts : bool) (nd : Z -> bool) (mark : Z -> Z) (t : itype) (a p : list Z) (arr : parray Z) (f : list Z -> Z) :
  length a = 2%nat -> raster_of a p arr f -> divides a p -> int_type t -> volume p <= imax t ->
  exists out g, partition_count_unique asserts nd mark t arr = Ok out /\
    raster_of (parts_shape a p) [1; 1] out g /\ map pl_locality (pa_parts out) = map pl_locality (pa_parts arr) /\
    forall c, in_shape (parts_shape a p) c -> number_of_values nd (mark 0) a p f c (g c).
Proof. apply count_ok. Qed.
Print Assumptions C83_count_unique_partial.

(** When partitions at the border are larger than the other ones, the result is never an array with a cell per partition:
    an assertion fails, or the offset that a partition in the result has is not the one of its cell. *)
Theorem C83_borders_refuted (asserts : bool) (nd : Z -> bool) (mark : Z -> Z) (t : itype) (a p : list Z) (arr : parray Z) (f : list Z -> Z) :
  length a = 2%nat -> raster_of a p arr f -> leaves_border a p ->
  forall out, partition_count_unique asserts nd mark t arr = Ok out -> forall g, ~ raster_of (parts_shape a p) [1; 1] out g.
Proof. apply border_wrong. Qed.
Print Assumptions C83_borders_refuted.

(** locality_id: a cell per partition with the locality of the partition, whatever the rank, and also if there are borders. *)
Theorem C83_locality_id (E : Type) (a p : list Z) (arr : parray E) (f : list Z -> E) : raster_of a p arr f ->
  exists g, raster_of (parts_shape a p) (map (fun _ => 1) (parts_shape a p)) (locality_id arr) g /\
    map pl_locality (pa_parts (locality_id arr)) = map pl_locality (pa_parts arr) /\
    forall c, in_shape (parts_shape a p) c ->
      exists q, In q (pa_parts arr) /\ pl_offset q = part_offset p c /\ pl_shape q = part_extent a p c /\ g c = pl_locality q.
Proof. apply locality_id_ok. Qed.
Print Assumptions C83_locality_id.

(** timestamp: a cell per partition with the time at which its task ran. *)
Theorem C83_timestamp (E : Type) (now : Z -> Z) (a p : list Z) (arr : parray E) (f : list Z -> E) : length a = 2%nat -> raster_of a p arr f ->
  exists g, raster_of (parts_shape a p) [1; 1] (timestamp now arr) g /\
    map pl_locality (pa_parts (timestamp now arr)) = map pl_locality (pa_parts arr) /\
    forall c, in_shape (parts_shape a p) c -> g c = now (rowmaj (parts_shape a p) c).
Proof. apply timestamp_ok. Qed.
Print Assumptions C83_timestamp.

Definition po_f (x : list Z) : Z := (3 * nth 0 x 0 + nth 1 x 0) mod 5.
Example even_instance : let arr := raster_array [4; 6] [2; 3] po_f in
  raster_of [4; 6] [2; 3] arr po_f /\ divides [4; 6] [2; 3] /\ int_type (IType 8 false) /\ volume [2; 3] <= imax (IType 8 false) /\
  partition_count_unique true (fun v => v <=? 1) (fun _ => 255) (IType 8 false) arr =
    Ok (PArray [2; 2] [2; 2] [Placed 0 [0; 0] [1; 1] [3]; Placed 0 [0; 1] [1; 1] [3]; Placed 0 [1; 0] [1; 1] [3]; Placed 0 [1; 1] [1; 1] [3]]).
Proof.
  split; [apply raster_array_ok; [discriminate|repeat constructor; cbn; lia]|]. split; [repeat constructor|].
  split; [unfold int_type; cbn; lia|]. split; [vm_compute; discriminate|]. vm_compute. reflexivity.
Qed.
Example border_instance : let arr := raster_array [5; 2] [2; 2] po_f in
  raster_of [5; 2] [2; 2] arr po_f /\ leaves_border [5; 2] [2; 2] /\
  partition_count_unique true (fun _ => false) (fun _ => 255) (IType 64 false) arr = UB /\
  exists out, partition_count_unique false (fun _ => false) (fun _ => 255) (IType 64 false) arr = Ok out /\
    map pl_offset (pa_parts out) = [[0; 0]; [0; 0]].
Proof.
  split; [apply raster_array_ok; [discriminate|repeat constructor; cbn; lia]|]. split; [constructor; cbn; lia|].
  split; [vm_compute; reflexivity|]. eexists. split; vm_compute; reflexivity.
Qed.
Example locality_instance : let arr := PArray [4] [2] [Placed 7 [0] [2] [1; 2]; Placed 8 [2] [2] [3; 4]] in
  raster_of [4] [2] arr (fun x => nth 0 x 0 + 1) /\ locality_id arr = PArray [2] [2] [Placed 7 [0] [1] [7]; Placed 8 [1] [1] [8]].
Proof.
  split; [|reflexivity]. apply raster_of_listed; try reflexivity; [discriminate|repeat constructor; cbn; lia].
Qed.
