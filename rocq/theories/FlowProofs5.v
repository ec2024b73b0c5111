(** The statements about inflow_count. *)
From Verif Require Import Common CommonProofs CoreSpec DecompSpec ArraySpec IndexModel DecompModel ArrayModel ArrayRep RasterCheck GridModel GridRaster FlowSpec AccuSpec FlowModel
  FlowProofs FlowProofs3 FlowProofs4 FlowCheck.

Lemma c20 a0 a1 p0 p1 nd mark cnd arr f : 2 <= p0 -> 2 <= p1 -> raster_of [a0; a1] [p0; p1] arr f ->
  valid_network a0 a1 nd (by_cell f) -> (forall k, 0 <= k < 8 -> cnd k = false) ->
  exists out g, inflow_count nd mark cnd arr = Ok out /\ raster_of [a0; a1] [p0; p1] out g /\
    forall x, inside a0 a1 x ->
      (nd (by_cell f x) = true -> by_cell g x = mark 0) /\
      (nd (by_cell f x) = false -> exists L, lists (fun y => drains a0 a1 nd (by_cell f) y x) L /\ by_cell g x = Z.of_nat (length L)).
Proof.
  intros H0 H1 H V HC. destruct (inflow_count_ok a0 a1 p0 p1 nd mark cnd arr f H0 H1 H V HC) as [out [E R]]. eexists. eexists. split; [exact E|]. split; [exact R|].
  intros [r c] Hx. unfold by_cell. cbn [fst snd nth]. split; intros E'; rewrite E'; [reflexivity|].
  exists (upstream a0 a1 nd (by_cell f) (r, c)). split; [|reflexivity]. split; [apply upstream_NoDup|]. intros y. apply in_upstream.
Qed.

Lemma c20_refuted : exists out g,
  raster_of [1; 3] [1; 3] (raster_array [1; 3] [1; 3] row_flow) row_flow /\
  valid_network 1 3 ex_no_data (by_cell row_flow) /\
  inflow_count ex_no_data (fun _ => -1) (fun k => k =? -1) (raster_array [1; 3] [1; 3] row_flow) = Ok out /\
  raster_of [1; 3] [1; 3] out g /\
  lists (fun y => drains 1 3 ex_no_data (by_cell row_flow) y (0, 1)) [(0, 0)] /\ by_cell g (0, 1) = 2.
Proof.
  eexists. exists (fun x => nth (Z.to_nat (nth 1 x 0)) [0; 2; 2] 0).
  assert (Hf : partition_fits [1; 3] [1; 3]) by (repeat constructor; cbn; lia).
  split; [apply raster_array_ok; [discriminate|exact Hf]|]. split; [exact (proj1 row_network)|]. split; [vm_compute; reflexivity|].
  split; [apply raster_of_listed; [discriminate|exact Hf|reflexivity..]|]. split; [|reflexivity].
  change [(0, 0)] with (upstream 1 3 ex_no_data (by_cell row_flow) (0, 1)). split; [apply upstream_NoDup|]. intros y. apply in_upstream.
Qed.
