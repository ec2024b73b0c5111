(** C51-C53: indexing the arrays of a dataset from Python. *)
From Verif Require Import Common CommonProofs CoreSpec ArraySpec IndexModel ArrayModel IOModel IOSpec NumpyModel NumpySpec NumpyProofs NumpyProofs2 NumpyProofs3 NumpyProofs4.

(** ** C51: reading *)

(** Reading with a collection of indices, and with a single index, gives the array that NumPy would give: the same shape, the same values.
    Partial: slices with a negative step that select more than one element are excluded, see C51_backward_refuted. *)
Theorem C51_getitem_partial (E : Type) (junk : Z -> E) d n F ixs : file_shape n -> file_holds d n F -> valid_indices n ixs -> not_backward n ixs ->
  exists a, get_items junk d ixs = Ok a /\ nd_holds a (numpy_shape n ixs) (fun r => F (numpy_cell n ixs r)).
Proof. exact (get_items_ok junk d n F ixs). Qed.
Print Assumptions C51_getitem_partial.

Theorem C51_getitem_single_partial (E : Type) (junk : Z -> E) d n F ix : file_shape n -> file_holds d n F -> valid_indices n [ix] -> not_backward n [ix] ->
  exists a, get_item junk d ix = Ok a /\ nd_holds a (numpy_shape n [ix]) (fun r => F (numpy_cell n [ix] r)).
Proof.
  intros Hn Hd Hv Hb. rewrite get_single by (destruct Hd as [-> _]; apply Hn). now apply get_items_ok.
Qed.
Print Assumptions C51_getitem_single_partial.

(** An integer outside of the dimension, a step of zero, too many indices and things that are not indices are errors, for reading and writing. *)
Theorem C51_wrong_indices (E : Type) (junk : Z -> E) d n F ixs values : file_shape n -> file_holds d n F -> Forall fits_long ixs -> ~ valid_indices n ixs ->
  get_items junk d ixs = Throw /\ set_items d ixs values = Throw.
Proof. intros Hn Hd Hf Hv. split; [now apply (get_items_throw junk d n F ixs)|now apply (set_items_throw d n F ixs)]. Qed.
Print Assumptions C51_wrong_indices.

(** a[::-1]: the negative step ends up in an unsigned variable; HDF5 is asked for elements that do not exist. *)
Theorem C51_backward_refuted (E : Type) (junk : Z -> E) d e F : 1 < e -> file_shape [e] -> file_holds d [e] F ->
  numpy_shape [e] [Slice None None (Some (-1))] = [e] /\ get_item junk d (Slice None None (Some (-1))) = UB.
Proof.
  intros He Hn Hd. split; [|now apply (get_backward junk d e F)]. cbn [numpy_shape]. f_equal.
  destruct (slice_backward e None None (Some (-1))) as [s [k [c [Ec [_ [Hc [_ [_ Ech]]]]]]]]; [apply file_shape_ssize in Hn; now inversion Hn|reflexivity|].
  unfold chosen. cbn [Z.ltb Z.compare]. change (- -1) with 1. unfold backward. rewrite backward_filter by lia. rewrite map_length, zseq_length. rewrite (proj2 (Z.ltb_lt _ _)) by lia. rewrite Z.div_1_r. lia.
Qed.
Print Assumptions C51_backward_refuted.

(** Non-vacuity: an array of 3 by 4 cells; a[-1, 3:0:-5] and a[::2, 1:]. *)
Definition example_array : dataset Z := Dataset [3; 4] [0; 1; 2; 3; 10; 11; 12; 13; 20; 21; 22; 23].
Definition example_cells (x : list Z) : Z := match x with [i; j] => 10 * i + j | _ => 0 end.
Lemma example_holds : file_holds example_array [3; 4] example_cells.
Proof.
  split; [reflexivity|]. split; [reflexivity|]. intros [|i [|j [|k x]]] H; cbn in H; try tauto. destruct H as [Hi [Hj _]].
  assert (HI : i = 0 \/ i = 1 \/ i = 2) by lia. assert (HJ : j = 0 \/ j = 1 \/ j = 2 \/ j = 3) by lia. destruct HI as [->|[->| ->]]; destruct HJ as [->|[->|[->| ->]]]; reflexivity.
Qed.
Example C51_example_1 : file_shape [3; 4] /\ valid_indices [3; 4] [Index (-1); Slice (Some 3) (Some 0) (Some (-5))] /\ not_backward [3; 4] [Index (-1); Slice (Some 3) (Some 0) (Some (-5))] /\
  get_items (fun _ => -1) example_array [Index (-1); Slice (Some 3) (Some 0) (Some (-5))] = Ok (NDArray [1] [23]).
Proof. repeat split; try discriminate; try lia; try (repeat constructor; lia). Qed.
Example C51_example_2 : valid_indices [3; 4] [Slice None None (Some 2); Slice (Some 1) None None] /\ not_backward [3; 4] [Slice None None (Some 2); Slice (Some 1) None None] /\
  get_items (fun _ => -1) example_array [Slice None None (Some 2); Slice (Some 1) None None] = Ok (NDArray [2; 3] [1; 2; 3; 21; 22; 23]).
Proof. repeat split; try discriminate. - left. lia. - left. exact I. Qed.
Example C51_example_3 : ~ valid_indices [3; 4] [Index 3] /\ ~ valid_indices [3; 4] [Index 0; Index 0; Index 0] /\ get_items (fun _ => -1) example_array [Index 3] = Throw.
Proof. split; [intros [H _]; cbn in H; lia|]. split; [intros [_ [_ []]]|reflexivity]. Qed.

(** ** C52: writing *)

(** Writing an array of the shape that reading would return changes the selected cells, and only those.
    Partial: see the refuted claims below. *)
Theorem C52_setitem_partial (E : Type) d n (F : list Z -> E) ixs values V : file_shape n -> file_holds d n F -> valid_indices n ixs -> not_backward n ixs ->
  nd_holds values (numpy_shape n ixs) V ->
  exists d' F', set_items d ixs values = Ok d' /\ file_holds d' n F' /\
    (forall r, in_shape (numpy_shape n ixs) r -> F' (numpy_cell n ixs r) = V r) /\
    (forall y, in_shape n y -> (forall r, in_shape (numpy_shape n ixs) r -> y <> numpy_cell n ixs r) -> F' y = F y).
Proof. exact (set_items_ok d n F ixs values V). Qed.
Print Assumptions C52_setitem_partial.

Theorem C52_setitem_single_partial (E : Type) d n (F : list Z -> E) ix values V : file_shape n -> file_holds d n F -> valid_indices n [ix] -> not_backward n [ix] ->
  nd_holds values (numpy_shape n [ix]) V ->
  exists d' F', set_item d ix values = Ok d' /\ file_holds d' n F' /\
    (forall r, in_shape (numpy_shape n [ix]) r -> F' (numpy_cell n [ix] r) = V r) /\
    (forall y, in_shape n y -> (forall r, in_shape (numpy_shape n [ix]) r -> y <> numpy_cell n [ix] r) -> F' y = F y).
Proof. exact (set_item_ok d n F ix values V). Qed.
Print Assumptions C52_setitem_single_partial.

(** Reading back what was written. *)
Theorem C52_read_back_partial (E : Type) (junk : Z -> E) d n F ixs values V : file_shape n -> file_holds d n F -> valid_indices n ixs -> not_backward n ixs ->
  nd_holds values (numpy_shape n ixs) V ->
  exists d' a, set_items d ixs values = Ok d' /\ get_items junk d' ixs = Ok a /\ nd_holds a (numpy_shape n ixs) V.
Proof.
  intros Hn Hd Hv Hb HV. destruct (set_items_ok d n F ixs values V Hn Hd Hv Hb HV) as [d' [F' [E1 [Hd' [A _]]]]].
  destruct (get_items_ok junk d' n F' ixs Hn Hd' Hv Hb) as [a [E2 [S H2]]]. exists d', a. split; [assumption|]. split; [assumption|]. split; [assumption|].
  split; [apply H2|]. intros r Hr. destruct H2 as [_ H2]. rewrite H2 by assumption. now rewrite A.
Qed.
Print Assumptions C52_read_back_partial.

(** An array with another number of values is refused, with a collection of indices and with a slice. *)
Theorem C52_wrong_number_partial (E : Type) d n (F : list Z -> E) values : file_shape n -> file_holds d n F ->
  (forall ixs, valid_indices n ixs -> not_backward n ixs -> volume (nd_shape values) <> volume (numpy_shape n ixs) -> set_items d ixs values = Throw) /\
  (forall start stop step, valid_indices n [Slice start stop step] -> not_backward n [Slice start stop step] ->
     volume (nd_shape values) <> volume (numpy_shape n [Slice start stop step]) -> set_item d (Slice start stop step) values = Throw).
Proof. intros Hn Hd. split; [intros ixs; now apply (set_items_number d n F)|intros start stop step; now apply (set_slice_number d n F)]. Qed.
Print Assumptions C52_wrong_number_partial.

(** Assigning a number to an integer index, or to a slice without gaps, gives all selected cells that value. *)
Theorem C52_fill_partial (E : Type) d n (F : list Z -> E) ix v : file_shape n -> file_holds d n F -> valid_indices n [ix] ->
  volume (numpy_shape n [ix]) < SIZES ->
  match ix with Slice _ _ (Some k) => k = 1 \/ (not_backward n [ix] /\ volume (numpy_shape n [ix]) = 0) | _ => True end ->
  exists d' F', fill_item d ix v = Ok d' /\ file_holds d' n F' /\
    (forall r, in_shape (numpy_shape n [ix]) r -> F' (numpy_cell n [ix] r) = v) /\
    (forall y, in_shape n y -> (forall r, in_shape (numpy_shape n [ix]) r -> y <> numpy_cell n [ix] r) -> F' y = F y).
Proof. exact (fill_item_ok d n F ix v). Qed.
Print Assumptions C52_fill_partial.

(** a[::2] = 5 and so on fail: the number of elements of the hyperslab is computed as the product of strides and counts. *)
Theorem C52_fill_refuted (E : Type) d e (F : list Z -> E) start stop k v : file_shape [e] -> file_holds d [e] F -> 1 < k <= SSIZE_MAX ->
  chosen e start stop (Some k) <> [] -> k * Z.of_nat (length (chosen e start stop (Some k))) < SIZES ->
  fill_item d (Slice start stop (Some k)) v = Throw.
Proof. exact (fill_strided d e F start stop k v). Qed.
Print Assumptions C52_fill_refuted.

(** a[i] = values: values outside of the array passed in are read when it has too few values. *)
Theorem C52_row_refuted (E : Type) d n (F : list Z -> E) i values : file_shape n -> file_holds d n F -> valid_indices n [Index i] ->
  Z.of_nat (length (nd_values values)) < volume (numpy_shape n [Index i]) -> set_item d (Index i) values = UB.
Proof. exact (set_row_too_small d n F i values). Qed.
Print Assumptions C52_row_refuted.

(** NumPy refuses to assign an array of shape (2, 3) to a selection of shape (3, 2); here the values are assigned in row-major order. *)
Theorem C52_shape_refuted : exists (d : dataset Z) ixs values d', valid_indices (ds_shape d) ixs /\ not_backward (ds_shape d) ixs /\
  nd_shape values = [2; 3] /\ numpy_shape (ds_shape d) ixs = [3; 2] /\ set_items d ixs values = Ok d'.
Proof.
  exists example_array, [Slice None None None; Slice None (Some 2) None], (NDArray [2; 3] [5; 6; 7; 8; 9; 10]), (Dataset [3; 4] [5; 6; 2; 3; 7; 8; 12; 13; 9; 10; 22; 23]).
  split; [repeat split; discriminate|]. split; [repeat split; left; exact I|]. split; [reflexivity|]. split; reflexivity.
Qed.
Print Assumptions C52_shape_refuted.

(** Non-vacuity *)
Example C52_example : set_items example_array [Slice None None (Some 2); Slice (Some 1) None None] (NDArray [2; 3] [5; 6; 7; 8; 9; 10]) = Ok (Dataset [3; 4] [0; 5; 6; 7; 10; 11; 12; 13; 20; 8; 9; 10])
  /\ nd_holds (NDArray [2; 3] [5; 6; 7; 8; 9; 10]) [2; 3] (fun r => match r with [i; j] => 5 + 3 * i + j | _ => 0 end).
Proof.
  split; [reflexivity|]. split; [reflexivity|]. split; [reflexivity|]. intros [|i [|j [|k x]]] H; cbn in H; try tauto. destruct H as [Hi [Hj _]].
  assert (HI : i = 0 \/ i = 1) by lia. assert (HJ : j = 0 \/ j = 1 \/ j = 2) by lia. destruct HI as [->| ->]; destruct HJ as [->|[->| ->]]; reflexivity.
Qed.
Example C52_example_number : set_items example_array [Index 0] (NDArray [3] [5; 6; 7]) = Throw.
Proof. reflexivity. Qed.
Example C52_example_fill : fill_item example_array (Slice (Some (-2)) None None) 7 = Ok (Dataset [3; 4] [0; 1; 2; 3; 7; 7; 7; 7; 7; 7; 7; 7]) /\ fill_item example_array (Index 0) 7 = Ok (Dataset [3; 4] [7; 7; 7; 7; 10; 11; 12; 13; 20; 21; 22; 23]).
Proof. split; reflexivity. Qed.
Example C52_example_fill_strided : fill_item (Dataset [4] [1; 2; 3; 4]) (Slice None None (Some 2)) 7 = Throw /\ chosen 4 None None (Some 2) = [0; 2].
Proof. split; reflexivity. Qed.
Example C52_example_row : set_item example_array (Index 1) (NDArray [3] [5; 6; 7]) = UB.
Proof. reflexivity. Qed.

(** ** C53: strings *)

(** Writing an array of byte strings to the whole array stores these strings.  Partial: not for Unicode strings, and not when part of the array
    is assigned to, see the refuted claims. *)
Theorem C53_write_bytes_partial d n F start stop step values l : 0 <= n <= SSIZE_MAX -> file_holds d [n] F -> 0 < step_of step -> strings_hold values l ->
  Z.of_nat (length (chosen n start stop step)) = n -> st_count values = n ->
  exists d' F', set_strings false d start stop step values = Ok d' /\ file_holds d' [n] F' /\ forall i, 0 <= i < n -> F' [i] = nth (Z.to_nat i) l [].
Proof. intros Hn Hd Hs Hl Hm Hc. exact (set_strings_all d n F start stop step values l Hn Hd Hs Hl false Hm Hc). Qed.
Print Assumptions C53_write_bytes_partial.

(** Writing an array of Unicode strings stores the first one everywhere. *)
Theorem C53_write_unicode_refuted d n F start stop step values l : 0 <= n <= SSIZE_MAX -> file_holds d [n] F -> 0 < step_of step -> strings_hold values l ->
  Z.of_nat (length (chosen n start stop step)) = n -> st_count values = n ->
  exists d' F', set_strings true d start stop step values = Ok d' /\ file_holds d' [n] F' /\ forall i, 0 <= i < n -> F' [i] = nth 0 l [].
Proof. intros Hn Hd Hs Hl Hm Hc. exact (set_strings_all d n F start stop step values l Hn Hd Hs Hl true Hm Hc). Qed.
Print Assumptions C53_write_unicode_refuted.

(** Assigning to part of an array of strings: the whole array is written, from a buffer that has room for the part. *)
Theorem C53_write_part_refuted (unicode : bool) d n F start stop step values l : 0 <= n <= SSIZE_MAX -> file_holds d [n] F -> 0 < step_of step -> strings_hold values l ->
  Z.of_nat (length (chosen n start stop step)) < n -> st_count values = Z.of_nat (length (chosen n start stop step)) ->
  set_strings unicode d start stop step values = UB.
Proof. intros Hn Hd Hs Hl Hm Hc. exact (set_strings_less d n F start stop step values l Hn Hd Hs Hl unicode Hm Hc). Qed.
Print Assumptions C53_write_part_refuted.

(** Reading strings: the result has the right number of strings, but element j of it is selected string j / 4 if four divides j, and empty otherwise. *)
Theorem C53_read_refuted d n F start stop step : 0 <= n <= SSIZE_MAX -> file_holds d [n] F -> 0 < step_of step -> (forall i, 0 <= i < n -> ~ In 0 (F [i])) ->
  exists a, get_strings d start stop step = Ok a /\ st_count a = Z.of_nat (length (chosen n start stop step)) /\
    forall j, 0 <= j < st_count a -> string_at a j = if j mod 4 =? 0 then F [nth (Z.to_nat (j / 4)) (chosen n start stop step) 0] else [].
Proof. intros Hn Hd Hs. exact (get_strings_ok d n F start stop step Hn Hd Hs). Qed.
Print Assumptions C53_read_refuted.

(** A single string is read correctly. *)
Theorem C53_read_one_partial d n F start stop step x : 0 <= n <= SSIZE_MAX -> file_holds d [n] F -> 0 < step_of step -> (forall i, 0 <= i < n -> ~ In 0 (F [i])) ->
  chosen n start stop step = [x] -> exists a, get_strings d start stop step = Ok a /\ st_count a = 1 /\ string_at a 0 = F [x].
Proof.
  intros Hn Hd Hs Hz Hx. destruct (get_strings_ok d n F start stop step Hn Hd Hs Hz) as [a [E1 [C1 S1]]]. rewrite Hx in *. exists a. split; [assumption|]. split; [assumption|].
  specialize (S1 0). rewrite S1 by (rewrite C1; cbn; lia). reflexivity.
Qed.
Print Assumptions C53_read_one_partial.

(** Non-vacuity: "ab" and "c" *)
Definition example_strings : strings := Strings 2 2 [97; 98; 99; 0].
Example C53_example_holds : strings_hold example_strings [[97; 98]; [99]].
Proof.
  unfold strings_hold. cbn [example_strings st_width st_count st_buffer length]. split; [lia|]. split; [reflexivity|]. split; [reflexivity|]. split.
  - intros s Hs. cbn in Hs. destruct Hs as [<-|[<-|[]]]; cbn; intuition discriminate.
  - intros i Hi. assert (HI : i = 0 \/ i = 1) by lia. destruct HI as [-> | ->]; reflexivity.
Qed.
Example C53_example_bytes : set_strings false (Dataset [2] [[]; []]) None None None example_strings = Ok (Dataset [2] [[97; 98]; [99]]).
Proof. reflexivity. Qed.
Example C53_example_unicode : set_strings true (Dataset [2] [[]; []]) None None None example_strings = Ok (Dataset [2] [[97; 98]; [97; 98]]).
Proof. reflexivity. Qed.
Example C53_example_part : set_strings false (Dataset [3] [[]; []; []]) (Some 1) None None example_strings = UB.
Proof. reflexivity. Qed.
Example C53_example_read : exists a, get_strings (Dataset [2] [[97; 98]; [99]]) None None None = Ok a /\ string_at a 0 = [97; 98] /\ string_at a 1 = [].
Proof. eexists. split; [reflexivity|]. split; reflexivity. Qed.
