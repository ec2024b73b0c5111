(** Property theorems about indices, visitors, curves and hyperslabs
    (C03, C04, C05, C09, C35). *)
From Verif Require Import Common CommonProofs CoreSpec IndexModel IndexProofs.

(** C03 *)
Theorem C03_indices_roundtrip : forall shape idxs,
  shape <> [] -> in_shape shape idxs ->
  exists i, idxs_to_linear_idx idxs shape = Ok i /\ 0 <= i < volume shape /\
            linear_idx_to_idxs_checked i shape = Ok idxs.
Proof. exact idxs_roundtrip_full. Qed.
Print Assumptions C03_indices_roundtrip.
Example C03_indices_roundtrip_ex : [3; 4; 5] <> [] /\ in_shape [3; 4; 5] [2; 0; 3].
Proof. split; [discriminate|cbn; lia]. Qed.

Theorem C03_linear_roundtrip : forall shape i,
  shape <> [] -> pos_shape shape -> 0 <= i < volume shape ->
  exists idxs, linear_idx_to_idxs_checked i shape = Ok idxs /\ in_shape shape idxs /\
               idxs_to_linear_idx idxs shape = Ok i.
Proof. exact linear_roundtrip_full. Qed.
Print Assumptions C03_linear_roundtrip.
Example C03_linear_roundtrip_ex : pos_shape [3; 4; 5] /\ 0 <= 43 < volume [3; 4; 5].
Proof. split; [repeat constructor; lia|cbn; lia]. Qed.

Theorem C03_row_major_order : forall shape a b i j,
  shape <> [] -> in_shape shape a -> in_shape shape b ->
  idxs_to_linear_idx a shape = Ok i -> idxs_to_linear_idx b shape = Ok j ->
  lex_lt a b -> i < j.
Proof. exact linear_order_full. Qed.
Print Assumptions C03_row_major_order.
Example C03_row_major_order_ex : in_shape [3; 4] [1; 3] /\ in_shape [3; 4] [2; 0] /\ lex_lt [1; 3] [2; 0].
Proof. cbn. lia. Qed.

(** All four index conversions of the code agree. *)
Theorem C03_index_functions_agree : forall shape idxs,
  shape <> [] -> in_shape shape idxs ->
  idxs_to_linear_idx idxs shape = Ok (linear_idx idxs shape) /\
  linear_to_shape_index shape (linear_idx idxs shape) = idxs.
Proof. exact index_functions_agree. Qed.
Print Assumptions C03_index_functions_agree.

(** C04 *)
Theorem C04_hilbert_visits_each_cell_once : forall n0 n1,
  0 <= n0 -> 0 <= n1 ->
  exists visits, hilbert_curve n0 n1 = Some visits /\
    map fst visits = zseq 0 (n0 * n1) /\
    NoDup (map snd visits) /\
    (forall i j, In (i, j) (map snd visits) <-> 0 <= i < n0 /\ 0 <= j < n1).
Proof. exact hilbert_curve_ok. Qed.
Print Assumptions C04_hilbert_visits_each_cell_once.
Example C04_ex : hilbert_curve 2 3 =
  Some [(0, (0, 0)); (1, (1, 0)); (2, (1, 1)); (3, (1, 2)); (4, (0, 2)); (5, (0, 1))].
Proof. vm_compute. reflexivity. Qed.

(** C05 *)
Theorem C05_linear_curve_row_major : forall shape,
  shape <> [] -> (length shape <= 3)%nat -> is_shape shape ->
  map fst (linear_curve shape) = zseq 0 (volume shape) /\
  (forall k c, In (k, c) (linear_curve shape) <->
     in_shape shape c /\ idxs_to_linear_idx c shape = Ok k).
Proof. exact linear_curve_ok. Qed.
Print Assumptions C05_linear_curve_row_major.
Example C05_ex : is_shape [2; 3; 2] /\ length (linear_curve [2; 3; 2]) = 12%nat.
Proof. split; [repeat constructor; lia|vm_compute; reflexivity]. Qed.

(** C09 *)
Theorem C09_visit_array : forall begin_indices end_indices,
  length begin_indices = length end_indices -> begin_indices <> [] ->
  StronglySorted lex_lt (visit_array begin_indices end_indices) /\
  NoDup (visit_array begin_indices end_indices) /\
  (forall c, In c (visit_array begin_indices end_indices) <->
     length c = length begin_indices /\
     forall d, (d < length begin_indices)%nat ->
       nth d begin_indices 0 <= nth d c 0 < nth d end_indices 0).
Proof. exact visit_array_ok. Qed.
Print Assumptions C09_visit_array.
Example C09_ex : visit_array [1; 2] [3; 4] = [[1; 2]; [1; 3]; [2; 2]; [2; 3]].
Proof. vm_compute. reflexivity. Qed.

(** C35 *)
Theorem C35_hyperslab_centered : forall center shape,
  length center = length shape -> is_shape shape ->
  (forall d, (d < length shape)%nat -> nth d shape 0 / 2 <= nth d center 0) ->
  exists offsets, hyperslab_at center shape = Ok (offsets, shape) /\
    length offsets = length shape /\
    (forall d, (d < length shape)%nat ->
       0 <= nth d offsets 0 /\ nth d offsets 0 + nth d shape 0 / 2 = nth d center 0).
Proof. exact hyperslab_at_ok. Qed.
Print Assumptions C35_hyperslab_centered.
Example C35_ex : hyperslab_at [4; 5] [3; 4] = Ok ([3; 3], [3; 4]).
Proof. reflexivity. Qed.

Theorem C35_hyperslab_rejected : forall center shape d,
  length center = length shape -> is_shape shape -> (d < length shape)%nat ->
  nth d center 0 < nth d shape 0 / 2 -> hyperslab_at center shape = Throw.
Proof. exact hyperslab_at_throw. Qed.
Print Assumptions C35_hyperslab_rejected.

Theorem C35_contained_iff : forall offsets counts array_shape,
  length offsets = length array_shape -> length counts = length array_shape -> pos_shape counts ->
  Forall (fun o => 0 <= o) offsets ->
  is_contained_by offsets counts array_shape = true <->
  (forall c, in_box offsets counts c -> in_shape array_shape c).
Proof. exact is_contained_by_ok. Qed.
Print Assumptions C35_contained_iff.
Example C35_contained_ex : is_contained_by [3; 3] [3; 4] [6; 7] = true /\ is_contained_by [3; 3] [3; 4] [6; 6] = false.
Proof. split; reflexivity. Qed.
