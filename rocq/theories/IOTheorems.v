(** C34: what is written to a dataset is what is read back. *)
From Coq Require Import Permutation.
From Verif Require Import Common CoreSpec DecompSpec ArraySpec IndexModel DecompModel ArrayModel ArrayRep ArrayProofs RasterCheck IOModel IOSpec IOProofs IOProofs2 IOProofs3.

(** C34: writing puts each value in its cell of the file and changes no other cell, whatever the order in which partitions are written. *)
Theorem C34_write : forall (E : Type) (order : list (placed (list E)) -> list (placed (list E))) time_step a p arr f n d F,
  (forall l, Permutation (order l) l) -> raster_of a p arr f -> file_holds d n F -> room_for time_step (origin a) a n ->
  exists d' F', to_lue order time_step arr d = Ok d' /\ file_holds d' n F' /\
    (forall x, in_shape a x -> F' (stored_at time_step x) = f x) /\
    (forall y, in_shape n y -> (forall x, in_shape a x -> y <> stored_at time_step x) -> F' y = F y).
Proof. exact @to_lue_ok. Qed.
Print Assumptions C34_write.

(** C34: reading a hyperslab gives the values in the file, whatever the partition shape and the number of localities. *)
Theorem C34_read : forall (E : Type) (junk : Z -> E) nr_localities time_step d n F start count p,
  supported nr_localities count p -> partition_fits count p -> nr_localities <= nr_parts count p ->
  file_holds d n F -> room_for time_step start count n ->
  exists arr, from_lue junk nr_localities time_step d (hyperslab_of start count) p = Ok arr /\
    raster_of count p arr (fun x => F (stored_at time_step (vadd start x))).
Proof. exact @from_lue_ok. Qed.
Print Assumptions C34_read.

(** C34: an array, or a part of it, that is written and read again has the values that were written; partitions may differ. *)
Theorem C34_round_trip : forall (E : Type) (junk : Z -> E) order time_step a p arr f n d F,
  (forall l, Permutation (order l) l) -> raster_of a p arr f -> file_holds d n F -> room_for time_step (origin a) a n ->
  exists d', to_lue order time_step arr d = Ok d' /\
    forall nr_localities start count p', supported nr_localities count p' -> partition_fits count p' -> nr_localities <= nr_parts count p' -> box_within start count a ->
      exists arr', from_lue junk nr_localities time_step d' (hyperslab_of start count) p' = Ok arr' /\ raster_of count p' arr' (fun x => f (vadd start x)).
Proof.
  intros E junk order ts a p arr f n d F Ho H Hd Hr. destruct (to_lue_ok order ts a p arr f n d F Ho H Hd Hr) as [d' [F' [E1 [Hd' [A B]]]]]. exists d'. split; [assumption|].
  intros L start count p' Hs Hf HL Hb. destruct (from_lue_ok junk L ts d' n F' start count p' Hs Hf HL Hd') as [arr' [E2 R]].
  - pose proof (room_add ts (origin a) a n start count Hr Hb) as X. rewrite vadd_origin in X; [exact X|]. destruct (box_within_length _ _ _ Hb) as [-> ->]. reflexivity.
  - exists arr'. split; [assumption|]. eapply raster_ext; [|exact R]. intros x Hx. cbv beta. apply A. eapply box_within_vadd; eassumption.
Qed.
Print Assumptions C34_round_trip.

(** C34: time steps do not overwrite each other. *)
Theorem C34_other_time_steps : forall (E : Type) (junk : Z -> E) order t a p arr f n d F,
  (forall l, Permutation (order l) l) -> raster_of a p arr f -> file_holds d n F -> room_for (Some t) (origin a) a n ->
  exists d', to_lue order (Some t) arr d = Ok d' /\
    forall t' nr_localities start count p', t' <> t -> supported nr_localities count p' -> partition_fits count p' -> nr_localities <= nr_parts count p' ->
      room_for (Some t') start count n ->
      exists before after g, from_lue junk nr_localities (Some t') d (hyperslab_of start count) p' = Ok before /\ raster_of count p' before g /\
        from_lue junk nr_localities (Some t') d' (hyperslab_of start count) p' = Ok after /\ raster_of count p' after g.
Proof.
  intros E junk order t a p arr f n d F Ho H Hd Hr. destruct (to_lue_ok order (Some t) a p arr f n d F Ho H Hd Hr) as [d' [F' [E1 [Hd' [A B]]]]]. exists d'. split; [assumption|].
  intros t' L start count p' Ht Hs Hf HL Hb. destruct (from_lue_ok junk L (Some t') d n F start count p' Hs Hf HL Hd Hb) as [b [E2 R2]].
  destruct (from_lue_ok junk L (Some t') d' n F' start count p' Hs Hf HL Hd' Hb) as [c [E3 R3]].
  exists b, c, (fun x => F (stored_at (Some t') (vadd start x))). repeat (split; [assumption|]). eapply raster_ext; [|exact R3]. intros x Hx. cbv beta. apply B.
  - eapply room_cell; eassumption.
  - intros y _ HE. cbn in HE. congruence.
Qed.
Print Assumptions C34_other_time_steps.

(** C34: an array that does not fit in the file, or a time step that the file does not have, is reported. *)
Theorem C34_no_room_is_reported : forall (E : Type) order time_step a p (arr : parray E) f n d F,
  (forall l, Permutation (order l) l) -> raster_of a p arr f -> file_holds d n F ->
  length n = (length a + match time_step with None => 0 | Some _ => 2 end)%nat -> ~ room_for time_step (origin a) a n -> to_lue order time_step arr d = Throw.
Proof. exact @to_lue_throws. Qed.
Print Assumptions C34_no_room_is_reported.

(** Two time steps of a raster of 3 by 4 cells in partitions of 1 by 2 cells, spread over two localities; read back: 2 by 3 cells, one partition. *)
Definition io_raster (x : list Z) : Z := match x with [i; j] => 10 * i + j | _ => 0 end.
Definition io_array : parray Z :=
  PArray [3; 4] [3; 2] (map (fun '(l, q) => Placed l (pl_offset q) (pl_shape q) (pl_data q)) (combine [1; 0; 0; 1; 1; 0] (pa_parts (raster_array [3; 4] [1; 2] io_raster)))).
Definition io_file : dataset Z := Dataset [1; 2; 3; 4] (repeat 99 24).
Example C34_ex :
  raster_of [3; 4] [1; 2] io_array io_raster /\
  to_lue (@rev _) (Some 1) io_array io_file =
    Ok (Dataset [1; 2; 3; 4] (repeat 99 12 ++ [0; 1; 2; 3; 10; 11; 12; 13; 20; 21; 22; 23])) /\
  obind (to_lue (fun l => l) (Some 1) io_array io_file) (fun d => from_lue (fun k => k) 1 (Some 1) d (hyperslab_of [1; 1] [2; 3]) [2; 3]) =
    Ok (PArray [2; 3] [1; 1] [Placed 0 [0; 0] [2; 3] [11; 12; 13; 21; 22; 23]]) /\
  to_lue (fun l => l) (Some 2) io_array io_file = Throw /\
  room_for (Some 1) (origin [3; 4]) [3; 4] [1; 2; 3; 4].
Proof.
  split; [apply raster_of_listed; try reflexivity; [discriminate|repeat constructor; lia]|]. split; [vm_compute; reflexivity|]. split; [vm_compute; reflexivity|]. split; [vm_compute; reflexivity|].
  exists 1, 2, [3; 4]. cbn. repeat split; lia.
Qed.
