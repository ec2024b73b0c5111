(** C31: unique and unique_id. *)
From Coq Require Import Sorted.
From Verif Require Import Common CoreSpec DecompSpec ArraySpec IndexModel DecompModel ArrayModel ArrayRep RasterCheck UniqueModel UniqueSpec UniqueProofs UniqueProofs2.

(** C31: unique. *)
Theorem C31_unique : forall nd a p arr f, raster_of a p arr f ->
  exists s, unique nd arr = Ok s /\ set_of (fun v => nd v = false /\ exists x, in_shape a x /\ f x = v) s.
Proof. exact unique_ok. Qed.
Print Assumptions C31_unique.

(** C31: unique_id, whatever the order in which the sizes of the partitions become available, if the number of cells is less than the largest ID. *)
Theorem C31_unique_id : forall (C : Type) (nd truth : C -> bool) (mark : Z -> Z) (marker : Z) (junk : Z -> Z) (max_id : Z), (forall v, mark v = marker) ->
  forall choose a p (arr : parray C) f, picks_pending choose -> raster_of a p arr f -> volume a < max_id ->
  exists out g, unique_id nd truth mark junk max_id choose arr = Ok out /\ raster_of a p out g /\ distinct_ids nd truth marker a f g.
Proof. exact @unique_id_ok. Qed.
Print Assumptions C31_unique_id.

Definition uq_f (x : list Z) : Z := Z.modulo (3 * nth 0 x 0 + nth 1 x 0) 5.
Definition uq_last (n : nat) : nat := (n - 1)%nat.
Definition uq_array := raster_array [3; 5] [1; 2] uq_f.
Example C31_ex :
  raster_of [3; 5] [1; 2] uq_array uq_f /\ picks_pending uq_last /\ volume [3; 5] < 255 /\
  unique (fun v => v =? 3) uq_array = Ok [0; 1; 2; 4] /\
  match unique_id (fun v => v =? 3) (fun v => negb (v =? 0)) (fun _ => -9) (fun _ => 77) 255 uq_last uq_array with
  | Ok r => map pl_data (pa_parts r) | _ => [] end = [[0; 14]; [11; -9; 12]; [-9; 9]; [0; 6; 7]; [4; 5]; [-9; 1; 0]].
Proof.
  split; [apply raster_array_ok; [discriminate|repeat constructor; cbn; lia]|]. split; [intros n; unfold uq_last; lia|]. split; [reflexivity|].
  split; [reflexivity|]. vm_compute. reflexivity.
Qed.
