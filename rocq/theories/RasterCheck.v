(** Deciding by evaluation that a concrete array holds a raster; used by examples and counterexamples only. *)
From Verif Require Import Common CommonProofs CoreSpec DecompSpec ArraySpec IndexModel IndexProofs DecompModel DecompProofs
  DecompProofs2 DecompProofs4 ArrayModel ArrayRep ArrayProofs LocalModel LocalProofs AggregateModel AggregateSpec AggregateProofs.

Definition listed_parts {E} (a p : list Z) (f : list Z -> E) : list (list Z * list Z * list E) :=
  map (fun c => (part_offset p c, part_extent a p c, map (fun x => f (vadd (part_offset p c) x)) (all_cells (part_extent a p c))))
    (all_cells (parts_shape a p)).

(** An array of a raster *)
Definition raster_array {E} (a p : list Z) (f : list Z -> E) : parray E :=
  PArray a (parts_shape a p) (map (fun '(o, s, d) => Placed 0 o s d) (listed_parts a p f)).

Lemma raster_of_listed {E} a p (arr : parray E) f : a <> [] -> partition_fits a p -> pa_shape arr = a -> pa_sip arr = parts_shape a p ->
  map (fun q => (pl_offset q, pl_shape q, pl_data q)) (pa_parts arr) = listed_parts a p f ->
  raster_of a p arr f.
Proof.
  intros Ha Hf E1 E2 E3. repeat split; try assumption.
  - rewrite E3. unfold listed_parts. rewrite map_length. change (all_cells (parts_shape a p)) with (shape_cells (parts_shape a p)).
    pose proof (block_of_holds (parts_shape a p) (fun x => x) (parts_shape_pos a p Hf)) as [L _]. unfold block_of in L. rewrite map_length in L. exact L.
  - intros c Hc. rewrite E3. eexists. split.
    + unfold listed_parts. rewrite nth_error_map. change (all_cells (parts_shape a p)) with (shape_cells (parts_shape a p)).
      rewrite (shape_cells_nth _ _ Hc). reflexivity.
    + apply (block_of_holds (part_extent a p c)). now apply part_extent_pos.
Qed.
Lemma raster_array_ok {E} a p (f : list Z -> E) : a <> [] -> partition_fits a p -> raster_of a p (raster_array a p f) f.
Proof.
  intros Ha Hf. apply raster_of_listed; try reflexivity; try assumption. unfold raster_array, pa_parts. rewrite map_map.
  rewrite <- (map_id (listed_parts a p f)) at 2. apply map_ext. intros [[o s] d]. reflexivity.
Qed.
