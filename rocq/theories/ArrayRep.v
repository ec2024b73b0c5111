(** When a partitioned array holds a raster. *)
From Verif Require Import Common CoreSpec DecompSpec ArraySpec IndexModel DecompModel ArrayModel.

(** Array [arr] has shape [a], is split in partitions of shape [p], and cell [x] holds [f x]. *)
Definition raster_of {E} (a p : list Z) (arr : parray E) (f : list Z -> E) : Prop :=
  a <> [] /\ partition_fits a p /\ pa_shape arr = a /\ pa_sip arr = parts_shape a p /\
  parts_hold a p (map (fun q => (pl_offset q, pl_shape q, pl_data q)) (pa_parts arr)) f.
