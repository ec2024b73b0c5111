(** Proofs about the views on rasters: the arrays, and maps of which the values are translated *)
From Coq Require Import Ascii String.
From Verif Require Import Common CoreSpec DecompSpec ArraySpec IndexModel DecompModel ArrayModel IOModel IOSpec NumpyModel NumpySpec ValueModel ValueSpec ValidateModel.
From Verif Require Import FileNameModel CatalogModel RasterViewModel RasterViewSpec.
From Verif Require Import CommonProofs IndexProofs DecompProofs DecompProofs3 ArrayProofs IOProofs NumpyProofs ValueProofs ValueProofs2 ValueProofs3 ValueProofs4 CatalogProofs CatalogProofs2.
Open Scope Z_scope.

(** ** Maps *)
Definition mapv {A B} (f : text -> A -> B) (m : list (text * A)) : list (text * B) := map (fun i => (fst i, f (fst i) (snd i))) m.

Section Maps.
Context {A B : Type} (f : text -> A -> B).
Lemma mapv_find k m : map_find k (mapv f m) = option_map (f k) (map_find k m).
Proof.
  unfold map_find, mapv. induction m as [|[k' v] m IH]; [reflexivity|]. cbn [map find fst snd].
  destruct (same_text k' k) eqn:Eq; [apply same_text_true in Eq; now subst|exact IH].
Qed.
Lemma mapv_contains k m : map_contains k (mapv f m) = map_contains k m.
Proof. rewrite !map_contains_find, mapv_find. now destruct (map_find k m). Qed.
Lemma mapv_insert k v m : map_insert k (f k v) (mapv f m) = mapv f (map_insert k v m).
Proof.
  induction m as [|[k' w] m IH]; [reflexivity|]. cbn [mapv map map_insert fst snd].
  destruct (same_text k k'); [reflexivity|]. destruct (text_less k k'); [reflexivity|]. cbn [map fst snd]. f_equal. exact IH.
Qed.
Lemma mapv_update k v m : map_update k (f k v) (mapv f m) = mapv f (map_update k v m).
Proof.
  unfold map_update, mapv. rewrite !map_map. apply map_ext. intros [k' w]. cbn [fst snd].
  destruct (same_text k' k) eqn:Eq; [apply same_text_true in Eq; now subst|reflexivity].
Qed.
Lemma mapv_names m : map fst (mapv f m) = map fst m.
Proof. unfold mapv. rewrite map_map. reflexivity. Qed.
End Maps.
Lemma map_update_self {T} k (v : T) m : NoDup (map fst m) -> map_find k m = Some v -> map_update k v m = m.
Proof.
  intros N F. apply map_find_in in F. unfold map_update. rewrite <- map_id. apply map_ext_in. intros [k' w] I. cbn [fst].
  destruct (same_text k' k) eqn:Eq; [|reflexivity]. apply same_text_true in Eq. subst k'. f_equal.
  revert N F I. clear. induction m as [|[k' u] m IH]; intros N F I; [destruct F|]. cbn in N. apply NoDup_cons_iff in N. destruct N as [N1 N2].
  destruct F as [F|F], I as [I|I].
  - congruence.
  - injection F as -> ->. exfalso. apply N1. change k with (fst (k, w)). now apply in_map.
  - injection I as -> ->. exfalso. apply N1. change k with (fst (k, v)). now apply in_map.
  - now apply IH.
Qed.
Lemma find_contains {T} k (m : list (text * T)) v : map_find k m = Some v -> map_contains k m = true.
Proof. intros H. now rewrite map_contains_find, H. Qed.
Lemma find_not_contains {T} k (m : list (text * T)) : map_find k m = None -> map_contains k m = false.
Proof. intros H. now rewrite map_contains_find, H. Qed.

(** ** Arrays *)
Section Arrays.
Context {E : Type} (zero : E).
Implicit Types (fill : E) (cells data : list E).

Lemma whole_eq v shape data : array_extents shape -> whole v shape data -> v = Array (IOModel.Dataset shape data) (ar_fill v).
Proof.
  intros X [F [[ES HF] HB]]. pose proof (extents_pos _ X) as P. destruct v as [[s c] fill]. cbn [ar_data ds_shape ds_cells ar_fill] in *.
  subst s. now rewrite (block_unique shape c data F P HF HB).
Qed.
Lemma whole_array shape data fill : array_extents shape -> Z.of_nat (length data) = volume shape -> whole (Array (IOModel.Dataset shape data) fill) shape data.
Proof.
  intros X L. pose proof (extents_pos _ X) as P. pose proof (volume_pos _ P) as V. destruct data as [|d0 data0] eqn:ED; [cbn in L; lia|]. rewrite <- ED in *.
  assert (B : block_holds shape data (fun x => nth (Z.to_nat (rowmaj shape x)) data d0)).
  { split; [lia|]. intros x Hx. pose proof (rowmaj_range _ _ Hx). apply nth_error_nth'. lia. }
  exists (fun x => nth (Z.to_nat (rowmaj shape x)) data d0). split; [|exact B]. split; [reflexivity|exact B].
Qed.
Lemma write_array_eq shape data cells fill : array_extents shape -> Z.of_nat (length data) = volume shape -> Z.of_nat (length cells) = volume shape ->
  write_array cells (Array (IOModel.Dataset shape data) fill) = Ok (Array (IOModel.Dataset shape cells) fill).
Proof.
  intros X L1 L2. destruct (write_whole _ shape data cells X (whole_array shape data fill X L1)) as [v' [W1 W2]]; [lia|].
  rewrite firstn_all2 in W2 by lia. rewrite W1. f_equal. rewrite (whole_eq _ _ _ X W2). f_equal.
  unfold write_array in W1. destruct (write_strided _ _ _ _) in W1; [|discriminate|discriminate]. cbn [obind] in W1. now injection W1 as <-.
Qed.
Lemma read_array_eq shape data buffer fill : array_extents shape -> Z.of_nat (length data) = volume shape -> Z.of_nat (length buffer) = volume shape ->
  read_array (Array (IOModel.Dataset shape data) fill) buffer = Ok data.
Proof. intros X L1 L2. apply (read_whole _ shape); [exact X|now apply whole_array|exact L2]. Qed.
Lemma index_slab shape (data : list E) fill : range_slab 0 (0 + 1) (Array (IOModel.Dataset (1 :: shape) data) fill) = hyperslab_of_shape (1 :: shape).
Proof. rewrite (range_slab_ok _ shape 1); [reflexivity|reflexivity|lia|cbv; reflexivity]. Qed.
Lemma extents_one shape : array_extents shape -> array_extents (1 :: shape).
Proof. intros X. constructor; [lia|exact X]. Qed.
Lemma volume_one shape : volume (1 :: shape) = volume shape.
Proof. change (volume (1 :: shape)) with (1 * volume shape). lia. Qed.
Lemma write_index_eq shape data cells fill : array_extents shape -> Z.of_nat (length data) = volume shape -> Z.of_nat (length cells) = volume shape ->
  write_index 0 cells (Array (IOModel.Dataset (1 :: shape) data) fill) = Ok (Array (IOModel.Dataset (1 :: shape) cells) fill).
Proof.
  intros X L1 L2. rewrite <- (volume_one shape) in L1, L2. rewrite <- (write_array_eq _ _ _ fill (extents_one _ X) L1 L2). unfold write_index, write_range.
  rewrite index_slab. reflexivity.
Qed.
Lemma read_index_eq shape data buffer fill : array_extents shape -> Z.of_nat (length data) = volume shape -> Z.of_nat (length buffer) = volume shape ->
  read_index 0 (Array (IOModel.Dataset (1 :: shape) data) fill) buffer = Ok data.
Proof.
  intros X L1 L2. rewrite <- (volume_one shape) in L1, L2. rewrite <- (read_array_eq _ _ buffer fill (extents_one _ X) L1 L2). unfold read_index, read_range.
  rewrite index_slab. reflexivity.
Qed.
Lemma expand_one shape fill : array_extents shape -> expand 1 (create_value shape fill) = Ok (Array (IOModel.Dataset (1 :: shape) (repeat fill (Z.to_nat (volume shape)))) fill).
Proof.
  intros X. pose proof (extents_pos _ X) as P. pose proof (volume_pos _ P) as V.
  destruct (expand_stores (create_value shape fill) shape fill 0 (fun _ => repeat fill (Z.to_nat (volume shape))) 1 X) as [v [E1 S]];
    [lia|lia|cbv; reflexivity|apply create_stores|reflexivity|]. rewrite E1. f_equal.
  pose proof S as S'. destruct S as [Ef [F [[ES HF] HV]]]. rewrite <- Ef at 2. apply whole_eq; [now apply extents_one|].
  exists F. split; [split; [exact ES|exact HF]|]. split; [rewrite repeat_length, volume_one; lia|].
  intros [|i y] Hx; [destruct Hx|]. destruct Hx as [Hi Hy]. assert (i = 0) by lia. subst i. destruct (HV 0) as [_ B]; [lia|]. rewrite <- (B y Hy). f_equal.
Qed.
End Arrays.

(** Arrays with four, two or one numbers *)
Lemma single_four {T} (o a b c d : T) : single o [4] [a; b; c; d] = Ok (Array (IOModel.Dataset [1; 4] [a; b; c; d]) o).
Proof. reflexivity. Qed.
Lemma single_two {T} (o a b : T) : single o [2] [a; b] = Ok (Array (IOModel.Dataset [1; 2] [a; b]) o).
Proof. reflexivity. Qed.
Lemma single_one {T} (o a : T) : single o [1] [a] = Ok (Array (IOModel.Dataset [1; 1] [a]) o).
Proof. reflexivity. Qed.
