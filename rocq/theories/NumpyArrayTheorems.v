(** C68: converting NumPy arrays to LUE arrays and back. *)
From Flocq Require Import BinarySingleNaN.
From Verif Require Import Common CoreSpec DecompSpec ArraySpec IndexModel DecompModel ArrayModel ArrayRep ArrayProofs RasterCheck Float64 Float64Proofs.
From Verif Require Import GdalArrayModel GdalArraySpec GdalArrayProofs NumpyArrayModel NumpyArraySpec NumpyArrayProofs.

(** C68: from_numpy makes an array with the values of the NumPy array, whatever the partition shape (passed in, or the default one) and the
    number of localities, and with no-data where the no-data value is.  It does not change the memory that exists; what happens to that memory
    afterwards, while partitions are being created, has no effect on the array. *)
Theorem C68_from_numpy : forall (E : Type) (kind : element_kind E) default nr_localities (m : memory E) a a0 a1 F partition_shape p no_data,
  supported nr_localities [a0; a1] p -> partition_fits [a0; a1] p -> nr_localities <= nr_parts [a0; a1] p ->
  (partition_shape = Some p \/ (partition_shape = None /\ default [a0; a1] = Ok p)) ->
  numpy_holds m a [a0; a1] F -> row_major a ->
  exists m1 pd, from_numpy default m a partition_shape no_data = Ok (m1, pd) /\ unchanged m m1 /\
    forall m2, (forall b, (length m <= b)%nat -> nth_error m2 b = nth_error m1 b) ->
    exists arr g, finish kind nr_localities m2 pd = Ok arr /\ raster_of [a0; a1] p arr g /\ forall x, in_shape [a0; a1] x -> taken_from kind no_data (F x) (g x).
Proof. exact @from_numpy_ok. Qed.
Print Assumptions C68_from_numpy.

(** C68: arrays whose elements are not in row-major order, which do not have two dimensions, or for which the partition shape does not have two
    dimensions, are refused. *)
Theorem C68_refused : forall (E : Type) default (m : memory E) a partition_shape no_data,
  pos_shape (nd_shape a) -> length (nd_strides a) = length (nd_shape a) ->
  (~ row_major a \/ length (nd_shape a) <> 2%nat \/ (exists p, partition_shape = Some p /\ length p <> 2%nat)) ->
  from_numpy default m a partition_shape no_data = Throw.
Proof. exact @from_numpy_refused. Qed.
Print Assumptions C68_refused.

(** C68: to_numpy makes a NumPy array, in memory of its own, with the values of the array, and the no-data value that is passed in for no-data. *)
Theorem C68_to_numpy : forall (E : Type) (kind : element_kind E) junk (m : memory E) a0 a1 p arr f no_data,
  raster_of [a0; a1] p arr f ->
  exists m1 a h, to_numpy kind junk m arr no_data = Ok (m1, a) /\ unchanged m m1 /\ (length m <= nd_block a)%nat /\
    numpy_holds m1 a [a0; a1] h /\ row_major a /\ forall x, in_shape [a0; a1] x -> passed_to kind no_data (f x) (h x).
Proof. exact @to_numpy_ok. Qed.
Print Assumptions C68_to_numpy.

(** The element types of LUE. *)
Theorem C68_element_types : (forall bits, sane (unsigned_kind bits)) /\ (forall bits, sane (signed_kind bits)) /\ sane float_kind.
Proof.
  assert (Hz : forall k, sane (ElementKind false (fun _ => false) Z.eqb k)).
  { intros k. split; [apply integer_one_mark|]. split; [apply Z.eqb_refl|]. intros v. left. apply Z.eqb_refl. }
  split; [intros; apply Hz|]. split; [intros; apply Hz|]. split; [apply float_one_mark|]. split; [reflexivity|].
  intros v. destruct (is_nan v) eqn:En; [now right|]. left. cbn [ek_equal float_kind]. rewrite Beqb_refl, En. reflexivity.
Qed.
Print Assumptions C68_element_types.

(** C68: an array that is converted to NumPy and back is the same array, for any no-data value that is not a valid value of the array (or none). *)
Theorem C68_there_and_back : forall (E : Type) (kind : element_kind E) default junk nr_localities (m : memory E) a0 a1 p arr f no_data p',
  sane kind -> raster_of [a0; a1] p arr f -> supported nr_localities [a0; a1] p' -> partition_fits [a0; a1] p' -> nr_localities <= nr_parts [a0; a1] p' ->
  (forall x v, in_shape [a0; a1] x -> no_data = Some v -> ~ missing_in_array kind (f x) -> ek_equal kind (f x) v = false) ->
  exists m1 a m2 pd arr', to_numpy kind junk m arr no_data = Ok (m1, a) /\ from_numpy default m1 a (Some p') no_data = Ok (m2, pd) /\
    finish kind nr_localities m2 pd = Ok arr' /\ raster_of [a0; a1] p' arr' f.
Proof.
  intros E kind default junk L m a0 a1 p arr f nd p' [[S1 S2] [S3 S4]] H Hs Hf HL Hv.
  destruct (C68_to_numpy E kind junk m a0 a1 p arr f nd H) as [m1 [a [h [E1 [_ [_ [Hh [Hr Hp]]]]]]]].
  destruct (C68_from_numpy E kind default L m1 a a0 a1 h (Some p') p' nd Hs Hf HL (or_introl eq_refl) Hh Hr) as [m2 [pd [E2 [_ Hfin]]]].
  destruct (Hfin m2) as [arr' [g [E3 [R Hg]]]]; [reflexivity|].
  exists m1, a, m2, pd, arr'. split; [exact E1|]. split; [exact E2|]. split; [exact E3|]. eapply raster_ext; [|exact R].
  intros x Hx. specialize (Hg x Hx). specialize (Hp x Hx). apply taken_unique in Hg. rewrite Hg. unfold taken, passed_to in *. destruct nd as [y|]; [|assumption].
  destruct Hp as [Hp1 Hp2]. destruct (is_no_data kind (f x)) eqn:Ei.
  - assert (Hm : missing_in_array kind (f x)) by (unfold is_no_data in Ei; unfold missing_in_array; destruct (ek_floating kind); assumption).
    rewrite (Hp1 Hm). destruct (ek_equal kind y y) eqn:Ey; [symmetry; now apply S2|]. destruct (S4 y) as [Hy|Hy]; [congruence|]. rewrite (S2 _ Hm). now apply S2.
  - assert (Hm : ~ missing_in_array kind (f x)) by (unfold is_no_data in Ei; unfold missing_in_array; destruct (ek_floating kind); congruence).
    rewrite (Hp2 Hm). rewrite (Hv x y Hx eq_refl Hm). reflexivity.
Qed.
Print Assumptions C68_there_and_back.

(** C68: a NumPy array that is converted to a LUE array and back has the same values (0 and -0 are the same no-data value), if LUE's no-data value
    is not in it, or is the no-data value that is passed in, or none is passed in. *)
Theorem C68_back_and_there_partial : forall (E : Type) (kind : element_kind E) default junk nr_localities (m : memory E) a a0 a1 F p no_data,
  sane kind -> numpy_holds m a [a0; a1] F -> row_major a -> supported nr_localities [a0; a1] p -> partition_fits [a0; a1] p -> nr_localities <= nr_parts [a0; a1] p ->
  (forall x, in_shape [a0; a1] x -> missing_in_array kind (F x) -> no_data = None \/ no_data = Some (F x)) ->
  exists m1 pd arr m2 a' h, from_numpy default m a (Some p) no_data = Ok (m1, pd) /\ finish kind nr_localities m1 pd = Ok arr /\
    to_numpy kind junk m1 arr no_data = Ok (m2, a') /\ numpy_holds m2 a' [a0; a1] h /\
    forall x, in_shape [a0; a1] x -> h x = F x \/ (exists y, no_data = Some y /\ ek_equal kind (F x) y = true /\ h x = y).
Proof.
  intros E kind default junk L m a a0 a1 F p nd [[S1 S2] [S3 S4]] Hh Hr Hs Hf HL Hv.
  destruct (C68_from_numpy E kind default L m a a0 a1 F (Some p) p nd Hs Hf HL (or_introl eq_refl) Hh Hr) as [m1 [pd [E1 [_ Hfin]]]].
  destruct (Hfin m1) as [arr [g [E2 [R Hg]]]]; [reflexivity|].
  destruct (C68_to_numpy E kind junk m1 a0 a1 p arr g nd R) as [m2 [a' [h [E3 [_ [_ [Hh' [_ Hp]]]]]]]].
  exists m1, pd, arr, m2, a', h. split; [exact E1|]. split; [exact E2|]. split; [exact E3|]. split; [exact Hh'|].
  intros x Hx. specialize (Hg x Hx). specialize (Hp x Hx). specialize (Hv x Hx). apply taken_unique in Hg. rewrite Hg in Hp. unfold taken, passed_to in *. destruct nd as [y|].
  - destruct Hp as [Hp1 Hp2]. destruct (ek_equal kind (F x) y) eqn:Ey.
    + right. exists y. split; [reflexivity|]. split; [assumption|]. apply Hp1. assumption.
    + left. destruct (is_no_data kind (F x)) eqn:Ei.
      * assert (Hm : missing_in_array kind (F x)) by (unfold is_no_data in Ei; unfold missing_in_array; destruct (ek_floating kind); assumption).
        rewrite (Hp1 Hm). destruct (Hv Hm) as [Hn|Hn]; [discriminate|]. congruence.
      * apply Hp2. unfold is_no_data in Ei; unfold missing_in_array; destruct (ek_floating kind); congruence.
  - left. assumption.
Qed.
Print Assumptions C68_back_and_there_partial.

(** C68, the other NumPy arrays: does not hold.  With 0 as no-data value, the bytes 1, 255 come back as 1, 0: 255 is LUE's own no-data value. *)
Theorem C68_back_and_there_refuted : exists (m m1 m2 : memory Z) a a' pd arr F h,
  numpy_holds m a [1; 2] F /\ row_major a /\ from_numpy (fun _ => UB) m a (Some [1; 2]) (Some 0) = Ok (m1, pd) /\ finish (unsigned_kind 8) 1 m1 pd = Ok arr /\
  to_numpy (unsigned_kind 8) (fun _ => 99) m1 arr (Some 0) = Ok (m2, a') /\ numpy_holds m2 a' [1; 2] h /\ F [0; 1] = 255 /\ h [0; 1] = 0.
Proof.
  exists [[1; 255]], [[1; 255]; [1; 255]], [[1; 255]; [1; 255]; [1; 0]], (NDArray 0 0 [1; 2] [2; 1]), (NDArray 2 0 [1; 2] [2; 1]), (Pending 1 (Some 0) [1; 2] [1; 2]).
  eexists. exists (fun x => match x with [_; j] => if j =? 0 then 1 else 255 | _ => 0 end), (fun x => match x with [_; j] => if j =? 0 then 1 else 0 | _ => 0 end).
  assert (Hx : forall x, in_shape [1; 2] x -> x = [0; 0] \/ x = [0; 1]).
  { intros [|i [|j [|]]] Hx; cbn in Hx; try tauto. assert (i = 0) by lia. assert (j = 0 \/ j = 1) as [-> | ->] by lia; subst i; auto. }
  split; [split; [reflexivity|split; [reflexivity|]]; eexists; split; [reflexivity|]; intros x Hi; destruct (Hx x Hi) as [-> | ->]; cbn; split; (lia || reflexivity)|].
  split; [intros x Hi; destruct (Hx x Hi) as [-> | ->]; reflexivity|]. split; [reflexivity|]. split; [vm_compute; reflexivity|]. split; [vm_compute; reflexivity|].
  split; [split; [reflexivity|split; [reflexivity|]]; eexists; split; [reflexivity|]; intros x Hi; destruct (Hx x Hi) as [-> | ->]; cbn; split; (lia || reflexivity)|].
  split; reflexivity.
Qed.
Print Assumptions C68_back_and_there_refuted.

(** An array of 3 by 4 in the middle of a block, in partitions of 2 by 2 (the only row of partitions gets the rest); after the call, the block is overwritten. *)
Definition numpy_cells (x : list Z) : Z := match x with [i; j] => 10 + 4 * i + j | _ => 0 end.
Definition numpy_array : ndarray := NDArray 0 5 [3; 4] [4; 1].
Definition numpy_memory : memory Z := [[1; 2; 3; 4; 5; 10; 11; 12; 13; 14; 15; 16; 17; 18; 19; 20; 21; 6; 7]].
Definition lue_array : parray Z :=
  PArray [3; 4] [1; 2] [Placed 0 [0; 0] [3; 2] [10; 11; 14; 15; 18; 19]; Placed 0 [0; 2] [3; 2] [12; 13; -2147483648; 17; 20; 21]].
Example C68_ex :
  numpy_holds numpy_memory numpy_array [3; 4] numpy_cells /\ row_major numpy_array /\ partition_fits [3; 4] [2; 2] /\ nr_parts [3; 4] [2; 2] = 2 /\
  from_numpy (fun _ => UB) numpy_memory numpy_array (Some [2; 2]) (Some 16) = Ok (numpy_memory ++ [zseq 10 12], Pending 1 (Some 16) [3; 4] [2; 2]) /\
  finish (signed_kind 32) 1 ([[0; 0]] ++ [zseq 10 12]) (Pending 1 (Some 16) [3; 4] [2; 2]) = Ok lue_array /\
  to_numpy (signed_kind 32) (fun _ => 99) [] lue_array (Some (-1)) = Ok ([[10; 11; 12; 13; 14; 15; -1; 17; 18; 19; 20; 21]], NDArray 0 0 [3; 4] [4; 1]) /\
  from_numpy (fun _ => UB) numpy_memory (NDArray 0 5 [3; 4] [1; 3]) (Some [2; 2]) None = Throw.
Proof.
  split.
  { split; [reflexivity|]. split; [reflexivity|]. eexists. split; [reflexivity|]. intros [|i [|j [|]]] Hx; cbn in Hx; try tauto.
    assert (Hi : i = 0 \/ i = 1 \/ i = 2) by lia. assert (Hj : j = 0 \/ j = 1 \/ j = 2 \/ j = 3) by lia.
    destruct Hi as [->|[-> | ->]], Hj as [->|[->|[-> | ->]]]; (split; [discriminate|reflexivity]). }
  split; [intros [|i [|j [|]]] Hx; cbn in Hx; try tauto; unfold numpy_array; cbn [nd_start nd_strides nd_shape address rowmaj volume]; lia|]. split; [repeat constructor; lia|]. repeat (split; [vm_compute; reflexivity|]). vm_compute. reflexivity.
Qed.
