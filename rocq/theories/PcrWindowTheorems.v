(** C75: PCRaster's window operations, with window lengths in the unit of the map. *)
From Coq Require Import Reals Sorted Lia Lra.
From Flocq Require Import Core BinarySingleNaN.
From Verif Require Import Common CoreSpec DecompSpec ArraySpec IndexModel DecompModel LocalModel ArrayModel ArrayRep GridModel AggregateModel AggregateSpec ZonalSpec FocalSpec FocalModel FocalRep FocalFunctorsModel FocalProofs4 FocalTheorems Float64 Float64Proofs RasterCheck
  PcrWindowModel PcrWindowSpec PcrWindowProofs.
Open Scope Z_scope.

(** A window length that is an odd multiple of the cell size is accepted; what is accepted is an odd multiple, apart from the rounding of the quotient. *)
Theorem C75_window_lengths : forall (cell_size window_length : b64) (k : Z),
  (odd_multiple cell_size window_length k -> translate_window_length cell_size window_length = Ok k) /\
  (translate_window_length cell_size window_length = Ok k -> k mod 2 = 1 /\ 0 < k) /\
  (translate_window_length cell_size window_length = Ok k -> (0 < B2R cell_size)%R ->
   (Rabs (B2R window_length - IZR k * B2R cell_size) <= bpow radix2 (-53) * B2R window_length)%R) /\
  translate_window_length cell_size window_length <> UB.
Proof.
  intros cs w k. split; [intros (P & F & W & O & K); apply translate_multiple; assumption|]. split; [intros H; apply translate_ok in H; intuition|].
  split; [intros H P; apply translate_error; assumption|apply translate_total].
Qed.
Print Assumptions C75_window_lengths.

(** A window of 75 m in a raster with cells of 25 m; windows of 50 m, -75 m, 80 m *)
Example C75_window_lengths_ex : translate_window_length (b64_of_Z 25) (b64_of_Z 75) = Ok 3 /\ translate_window_length (b64_of_Z 25) (b64_of_Z 50) = Throw /\
  translate_window_length (b64_of_Z 25) (b64_of_Z (-75)) = Throw /\ translate_window_length (b64_of_Z 25) (b64_of_Z 80) = Throw /\ translate_window_length (b64_of_Z 0) (b64_of_Z 75) = Throw.
Proof. repeat split; vm_compute; reflexivity. Qed.
Example C75_multiple_ex : odd_multiple (b64_of_Z 25) (b64_of_Z 75) 3.
Proof.
  destruct (b64_of_Z_correct 25 ltac:(lia)) as [A _]. destruct (b64_of_Z_correct 75 ltac:(lia)) as [B F].
  split; [rewrite A; lra|]. split; [exact F|]. split; [rewrite A, B; lra|]. split; [reflexivity|lia].
Qed.

(** Refuted: with cells of 0.1, a length that is calculated as 3 * cell_size is refused, and so is 0.3. *)
Theorem C75_calculated_lengths_refuted :
  let cell_size := b64_div (b64_of_Z 1) (b64_of_Z 10) in
  translate_window_length cell_size (b64_mul (b64_of_Z 3) cell_size) = Throw /\ translate_window_length cell_size (b64_div (b64_of_Z 3) (b64_of_Z 10)) = Throw.
Proof. cbv zeta. split; vm_compute; reflexivity. Qed.
Print Assumptions C75_calculated_lengths_refuted.

(** windowtotal: the sum, row by row *)
Theorem C75_windowtotal : forall (E : Type) (junk ojunk : Z -> E) (no_data : E -> bool) (nd zero : E) (plus : E -> E -> E) (cell_size window_length : b64) (k : Z) a0 a1 p0 p1 arr f,
  no_data nd = true -> raster_of [a0; a1] [p0; p1] arr f ->
  odd_multiple cell_size window_length k -> k <= smallest_block a0 p0 -> k <= smallest_block a1 p1 ->
  exists out g, windowtotal junk ojunk no_data nd zero cell_size plus arr window_length = Ok out /\ raster_of [a0; a1] [p0; p1] out g /\
    forall r c, exists cells, window_cells a0 a1 (fun v => negb (no_data v)) f (B2R cell_size) (B2R window_length) r c cells /\
      (cells = [] -> g [r; c] = nd) /\ (cells <> [] -> g [r; c] = fold_left plus (values_of f cells) zero).
Proof.
  intros E junk ojunk no_data nd zero plus cs w k a0 a1 p0 p1 arr f Hnd Harr M L0 L1. unfold windowtotal.
  match goal with |- context [window_operation ?j ?oj ?fn ?n ?c ?a ?l] => destruct (window_of j oj fn n c l k a M) as (R & HR & -> & W & ->) end.
  destruct (C19_focal_sum E zero plus no_data nd (fun _ _ => 1) R junk ojunk (constant_halo nd) a0 a1 p0 p1 arr f HR Harr L0 L1) as (out & g & Eo & Eg & H).
  exists out, g. split; [exact Eo|]. split; [exact Eg|]. intros r c. exists (cells_of a0 a1 no_data f R (fun _ _ => negb (1 =? 0)) r c).
  split; [apply (all_cells a0 a1 no_data nd f Hnd); [apply M|exact W]|]. specialize (H r c). cbv zeta in H. rewrite (focal_values_cells a0 a1 no_data nd f Hnd) in H.
  destruct H as [H1 H2]. split; intros C; [apply H1; rewrite C; reflexivity|]. apply H2. intros K. apply C. unfold values_of in K. apply map_eq_nil in K. exact K.
Qed.
Print Assumptions C75_windowtotal.

(** windowaverage: the sum divided by the number of values *)
Theorem C75_windowaverage : forall (E : Type) (junk ojunk : Z -> E) (no_data : E -> bool) (nd zero : E) (plus : E -> E -> E) (divide : E -> Z -> E) (cell_size window_length : b64) (k : Z) a0 a1 p0 p1 arr f,
  no_data nd = true -> raster_of [a0; a1] [p0; p1] arr f ->
  odd_multiple cell_size window_length k -> k <= smallest_block a0 p0 -> k <= smallest_block a1 p1 ->
  exists out g, windowaverage junk ojunk no_data nd zero cell_size plus divide arr window_length = Ok out /\ raster_of [a0; a1] [p0; p1] out g /\
    forall r c, exists cells, window_cells a0 a1 (fun v => negb (no_data v)) f (B2R cell_size) (B2R window_length) r c cells /\
      (cells = [] -> g [r; c] = nd) /\ (cells <> [] -> g [r; c] = divide (fold_left plus (values_of f cells) zero) (Z.of_nat (length cells))).
Proof.
  intros E junk ojunk no_data nd zero plus divide cs w k a0 a1 p0 p1 arr f Hnd Harr M L0 L1. unfold windowaverage.
  match goal with |- context [window_operation ?j ?oj ?fn ?n ?c ?a ?l] => destruct (window_of j oj fn n c l k a M) as (R & HR & -> & W & ->) end.
  destruct (C19_focal_mean E zero plus divide no_data nd (fun _ _ => 1) R junk ojunk (constant_halo nd) a0 a1 p0 p1 arr f HR Harr L0 L1) as (out & g & Eo & Eg & H).
  exists out, g. split; [exact Eo|]. split; [exact Eg|]. intros r c. exists (cells_of a0 a1 no_data f R (fun _ _ => negb (1 =? 0)) r c).
  split; [apply (all_cells a0 a1 no_data nd f Hnd); [apply M|exact W]|]. specialize (H r c). cbv zeta in H. rewrite (focal_values_cells a0 a1 no_data nd f Hnd) in H.
  destruct H as [H1 H2]. split; intros C; [apply H1; rewrite C; reflexivity|]. rewrite H2 by (intros K; apply C; unfold values_of in K; apply map_eq_nil in K; exact K).
  unfold values_of. rewrite map_length. reflexivity.
Qed.
Print Assumptions C75_windowaverage.

(** windowmaximum *)
Theorem C75_windowmaximum : forall (E : Type) (junk ojunk : Z -> E) (no_data : E -> bool) (nd zero : E) (less : E -> E -> bool) (cell_size window_length : b64) (k : Z) a0 a1 p0 p1 arr f,
  (forall u v, less u v = true -> less v u = false) -> (forall u v w, less u w = true -> less u v = true \/ less v w = true) ->
  no_data nd = true -> raster_of [a0; a1] [p0; p1] arr f ->
  odd_multiple cell_size window_length k -> k <= smallest_block a0 p0 -> k <= smallest_block a1 p1 ->
  exists out g, windowmaximum junk ojunk no_data nd zero cell_size less arr window_length = Ok out /\ raster_of [a0; a1] [p0; p1] out g /\
    forall r c, exists cells, window_cells a0 a1 (fun v => negb (no_data v)) f (B2R cell_size) (B2R window_length) r c cells /\
      (cells = [] -> g [r; c] = nd) /\ (cells <> [] -> largest_of less (values_of f cells) (g [r; c])).
Proof.
  intros E junk ojunk no_data nd zero less cs w k a0 a1 p0 p1 arr f T1 T2 Hnd Harr M L0 L1. unfold windowmaximum.
  match goal with |- context [window_operation ?j ?oj ?fn ?n ?c ?a ?l] => destruct (window_of j oj fn n c l k a M) as (R & HR & -> & W & ->) end.
  destruct (C19_focal_maximum E less zero no_data nd (fun _ _ => 1) R junk ojunk (constant_halo nd) a0 a1 p0 p1 arr f T1 T2 HR Harr L0 L1) as (out & g & Eo & Eg & H).
  exists out, g. split; [exact Eo|]. split; [exact Eg|]. intros r c. exists (cells_of a0 a1 no_data f R (fun _ _ => negb (1 =? 0)) r c).
  split; [apply (all_cells a0 a1 no_data nd f Hnd); [apply M|exact W]|]. specialize (H r c). cbv zeta in H. rewrite (focal_values_cells a0 a1 no_data nd f Hnd) in H.
  destruct H as [H1 H2]. split; intros C; [apply H1; rewrite C; reflexivity|]. apply H2. intros K. apply C. unfold values_of in K. apply map_eq_nil in K. exact K.
Qed.
Print Assumptions C75_windowmaximum.

(** windowminimum *)
Theorem C75_windowminimum : forall (E : Type) (junk ojunk : Z -> E) (no_data : E -> bool) (nd zero : E) (less : E -> E -> bool) (cell_size window_length : b64) (k : Z) a0 a1 p0 p1 arr f,
  (forall u v, less u v = true -> less v u = false) -> (forall u v w, less u w = true -> less u v = true \/ less v w = true) ->
  no_data nd = true -> raster_of [a0; a1] [p0; p1] arr f ->
  odd_multiple cell_size window_length k -> k <= smallest_block a0 p0 -> k <= smallest_block a1 p1 ->
  exists out g, windowminimum junk ojunk no_data nd zero cell_size less arr window_length = Ok out /\ raster_of [a0; a1] [p0; p1] out g /\
    forall r c, exists cells, window_cells a0 a1 (fun v => negb (no_data v)) f (B2R cell_size) (B2R window_length) r c cells /\
      (cells = [] -> g [r; c] = nd) /\ (cells <> [] -> least_of less (values_of f cells) (g [r; c])).
Proof.
  intros E junk ojunk no_data nd zero less cs w k a0 a1 p0 p1 arr f T1 T2 Hnd Harr M L0 L1. unfold windowminimum.
  match goal with |- context [window_operation ?j ?oj ?fn ?n ?c ?a ?l] => destruct (window_of j oj fn n c l k a M) as (R & HR & -> & W & ->) end.
  destruct (C19_focal_minimum E less zero no_data nd (fun _ _ => 1) R junk ojunk (constant_halo nd) a0 a1 p0 p1 arr f T1 T2 HR Harr L0 L1) as (out & g & Eo & Eg & H).
  exists out, g. split; [exact Eo|]. split; [exact Eg|]. intros r c. exists (cells_of a0 a1 no_data f R (fun _ _ => negb (1 =? 0)) r c).
  split; [apply (all_cells a0 a1 no_data nd f Hnd); [apply M|exact W]|]. specialize (H r c). cbv zeta in H. rewrite (focal_values_cells a0 a1 no_data nd f Hnd) in H.
  destruct H as [H1 H2]. split; intros C; [apply H1; rewrite C; reflexivity|]. apply H2. intros K. apply C. unfold values_of in K. apply map_eq_nil in K. exact K.
Qed.
Print Assumptions C75_windowminimum.

(** windowdiversity: the number of different values, in the type of the result *)
Theorem C75_windowdiversity : forall (junk ojunk : Z -> Z) (no_data : Z -> bool) (nd : Z) (count : itype) (count_nd : Z) (cell_size window_length : b64) (k : Z) a0 a1 p0 p1 arr f,
  no_data nd = true -> raster_of [a0; a1] [p0; p1] arr f ->
  odd_multiple cell_size window_length k -> k <= smallest_block a0 p0 -> k <= smallest_block a1 p1 ->
  exists out g, windowdiversity junk ojunk no_data nd cell_size count count_nd arr window_length = Ok out /\ raster_of [a0; a1] [p0; p1] out g /\
    forall r c, exists cells, window_cells a0 a1 (fun v => negb (no_data v)) f (B2R cell_size) (B2R window_length) r c cells /\
      (cells = [] -> g [r; c] = count_nd) /\ (cells <> [] -> g [r; c] = wrap count (Z.of_nat (length (nodup Z.eq_dec (values_of f cells))))).
Proof.
  intros junk ojunk no_data nd count count_nd cs w k a0 a1 p0 p1 arr f Hnd Harr M L0 L1. unfold windowdiversity.
  match goal with |- context [window_operation ?j ?oj ?fn ?n ?c ?a ?l] => destruct (window_of j oj fn n c l k a M) as (R & HR & -> & W & ->) end.
  destruct (C19_focal_diversity count no_data count_nd (fun _ _ => 1) R junk ojunk (constant_halo nd) a0 a1 p0 p1 arr f HR Harr L0 L1) as (out & g & Eo & Eg & H).
  exists out, g. split; [exact Eo|]. split; [exact Eg|]. intros r c. exists (cells_of a0 a1 no_data f R (fun _ _ => negb (1 =? 0)) r c).
  split; [apply (all_cells a0 a1 no_data nd f Hnd); [apply M|exact W]|]. specialize (H r c). cbv zeta in H. rewrite (focal_values_cells a0 a1 no_data nd f Hnd) in H.
  destruct H as [H1 H2]. split; intros C; [apply H1; rewrite C; reflexivity|]. apply H2. intros K. apply C. unfold values_of in K. apply map_eq_nil in K. exact K.
Qed.
Print Assumptions C75_windowdiversity.

(** windowmajority: the value that occurs most often; the smallest one if there are more *)
Theorem C75_windowmajority : forall (junk ojunk : Z -> Z) (no_data : Z -> bool) (nd : Z) (cell_size window_length : b64) (k : Z) a0 a1 p0 p1 arr f,
  no_data nd = true -> raster_of [a0; a1] [p0; p1] arr f ->
  odd_multiple cell_size window_length k -> k <= smallest_block a0 p0 -> k <= smallest_block a1 p1 ->
  exists out g, windowmajority junk ojunk no_data nd cell_size arr window_length = Ok out /\ raster_of [a0; a1] [p0; p1] out g /\
    forall r c, exists cells, window_cells a0 a1 (fun v => negb (no_data v)) f (B2R cell_size) (B2R window_length) r c cells /\
      (cells = [] -> g [r; c] = nd) /\ (cells <> [] -> smallest_majority_of (values_of f cells) (g [r; c])).
Proof.
  intros junk ojunk no_data nd cs w k a0 a1 p0 p1 arr f Hnd Harr M L0 L1. unfold windowmajority.
  match goal with |- context [window_operation ?j ?oj ?fn ?n ?c ?a ?l] => destruct (window_of j oj fn n c l k a M) as (R & HR & -> & W & ->) end.
  destruct (C19_focal_majority no_data nd (fun _ _ => 1) R junk ojunk (constant_halo nd) a0 a1 p0 p1 arr f HR Harr L0 L1) as (out & g & Eo & Eg & H).
  exists out, g. split; [exact Eo|]. split; [exact Eg|]. intros r c. exists (cells_of a0 a1 no_data f R (fun _ _ => negb (1 =? 0)) r c).
  split; [apply (all_cells a0 a1 no_data nd f Hnd); [apply M|exact W]|]. specialize (H r c). cbv zeta in H. rewrite (focal_values_cells a0 a1 no_data nd f Hnd) in H.
  destruct H as [H1 H2]. split; intros C; [apply H1; rewrite C; reflexivity|]. apply H2. intros K. apply C. unfold values_of in K. apply map_eq_nil in K. exact K.
Qed.
Print Assumptions C75_windowmajority.

(** windowhighpass: twice the cell's value times the number of other values, minus their sum; [combine] does the arithmetic *)
Theorem C75_windowhighpass : forall (E : Type) (junk ojunk : Z -> E) (no_data : E -> bool) (nd zero : E) (plus : E -> E -> E) (combine : E -> Z -> E -> E) (cell_size window_length : b64) (k : Z) a0 a1 p0 p1 arr f,
  no_data nd = true -> raster_of [a0; a1] [p0; p1] arr f ->
  odd_multiple cell_size window_length k -> k <= smallest_block a0 p0 -> k <= smallest_block a1 p1 ->
  exists out g, windowhighpass junk ojunk no_data nd zero cell_size plus combine arr window_length = Ok out /\ raster_of [a0; a1] [p0; p1] out g /\
    forall r c, 0 <= r < a0 -> 0 <= c < a1 -> exists cells, other_window_cells a0 a1 (fun v => negb (no_data v)) f (B2R cell_size) (B2R window_length) r c cells /\
      (cells = [] -> g [r; c] = nd) /\ (cells <> [] -> g [r; c] = combine (f [r; c]) (Z.of_nat (length cells)) (fold_left plus (values_of f cells) zero)).
Proof.
  intros E junk ojunk no_data nd zero plus combine cs w k a0 a1 p0 p1 arr f Hnd Harr M L0 L1. unfold windowhighpass.
  match goal with |- context [window_operation ?j ?oj ?fn ?n ?c ?a ?l] => destruct (window_of j oj fn n c l k a M) as (R & HR & -> & W & ->) end.
  destruct (C19_focal_high_pass E zero plus combine no_data nd (fun _ _ => 1) R junk ojunk (constant_halo nd) a0 a1 p0 p1 arr f HR Harr L0 L1) as (out & g & Eo & Eg & H).
  exists out, g. split; [exact Eo|]. split; [exact Eg|]. intros r c Hr Hc. exists (cells_of a0 a1 no_data f R (fun dr dc => negb ((dr =? 0) && (dc =? 0)) && negb (1 =? 0)) r c).
  split; [apply (other_cells a0 a1 no_data nd f Hnd); [apply M|exact W]|]. specialize (H r c). cbv zeta in H. rewrite (focal_values_cells a0 a1 no_data nd f Hnd) in H.
  destruct H as [H1 H2]. split; intros C; [apply H1; rewrite C; reflexivity|]. rewrite H2 by (intros K; apply C; unfold values_of in K; apply map_eq_nil in K; exact K).
  unfold values_of. rewrite map_length. rewrite (raster_value a0 a1 no_data nd f Hnd). unfold in_raster. cbn [fst snd].
  replace ((0 <=? r) && (r <? a0) && (0 <=? c) && (c <? a1))%bool with true by lia. reflexivity.
Qed.
Print Assumptions C75_windowhighpass.

(** Refuted: the documentation (document/doc/pcraster/status.md:477-481) says that windowmajority gives no-data if there is no unique value that occurs most
    often.  It never gives no-data when there are values in the window. *)
Theorem C75_windowmajority_documentation_refuted : forall (junk ojunk : Z -> Z) (no_data : Z -> bool) (nd : Z) (cell_size window_length : b64) (k : Z) a0 a1 p0 p1 arr f,
  no_data nd = true -> raster_of [a0; a1] [p0; p1] arr f ->
  odd_multiple cell_size window_length k -> k <= smallest_block a0 p0 -> k <= smallest_block a1 p1 ->
  exists out g, windowmajority junk ojunk no_data nd cell_size arr window_length = Ok out /\ raster_of [a0; a1] [p0; p1] out g /\
    forall r c cells, window_cells a0 a1 (fun v => negb (no_data v)) f (B2R cell_size) (B2R window_length) r c cells -> cells <> [] -> no_data (g [r; c]) = false.
Proof.
  intros junk ojunk no_data nd cs w k a0 a1 p0 p1 arr f Hnd Harr M L0 L1. destruct (C75_windowmajority junk ojunk no_data nd cs w k a0 a1 p0 p1 arr f Hnd Harr M L0 L1) as (out & g & Eo & Eg & H).
  exists out, g. split; [exact Eo|]. split; [exact Eg|]. intros r c cells [_ C] N. destruct (H r c) as (cells' & [_ C'] & _ & H2).
  assert (N' : cells' <> []). { destruct cells as [|[x y] l]; [congruence|]. assert (I : In (x, y) cells') by (apply C', C; left; reflexivity). intros ->. destruct I. }
  specialize (H2 N'). apply majority_in in H2. unfold values_of in H2. apply in_map_iff in H2. destruct H2 as ([x y] & E & I). apply C' in I. destruct I as (_ & _ & V & _).
  cbn [fst snd] in E. rewrite <- E. apply Bool.negb_true_iff. exact V.
Qed.
Print Assumptions C75_windowmajority_documentation_refuted.

(** window4total counts the cell itself as well *)
Theorem C75_window4total : forall (E : Type) (junk ojunk : Z -> E) (no_data : E -> bool) (nd zero : E) (plus : E -> E -> E) a0 a1 p0 p1 arr f,
  no_data nd = true -> raster_of [a0; a1] [p0; p1] arr f -> 3 <= smallest_block a0 p0 -> 3 <= smallest_block a1 p1 ->
  exists out g, window4total junk ojunk no_data nd zero plus arr = Ok out /\ raster_of [a0; a1] [p0; p1] out g /\
    forall r c, exists cells, cross_cells a0 a1 (fun v => negb (no_data v)) f r c cells /\
      (cells = [] -> g [r; c] = nd) /\ (cells <> [] -> g [r; c] = fold_left plus (values_of f cells) zero).
Proof.
  intros E junk ojunk no_data nd zero plus a0 a1 p0 p1 arr f Hnd Harr L0 L1. unfold window4total, window4.
  destruct (C19_focal_sum E zero plus no_data nd (fun i j => if (i =? 1) || (j =? 1) then 1 else 0) 1 junk ojunk (constant_halo nd) a0 a1 p0 p1 arr f ltac:(lia) Harr L0 L1) as (out & g & Eo & Eg & H).
  exists out, g. split; [exact Eo|]. split; [exact Eg|]. intros r c.
  exists (cells_of a0 a1 no_data f 1 (fun dr dc => negb ((if (1 + dr =? 1) || (1 + dc =? 1) then 1 else 0) =? 0)) r c).
  split; [apply (plus_cells a0 a1 no_data nd f Hnd)|]. specialize (H r c). cbv zeta in H. rewrite (focal_values_cells a0 a1 no_data nd f Hnd) in H.
  destruct H as [H1 H2]. split; intros C; [apply H1; rewrite C; reflexivity|]. apply H2. intros K. apply C. unfold values_of in K. apply map_eq_nil in K. exact K.
Qed.
Print Assumptions C75_window4total.

(** Windows that are larger than a partition are refused. *)
Theorem C75_large_windows_refused : forall (E : Type) (junk ojunk : Z -> E) (no_data : E -> bool) (nd zero : E) (plus : E -> E -> E) (cell_size window_length : b64) (k : Z) a0 a1 p0 p1 arr f,
  raster_of [a0; a1] [p0; p1] arr f -> odd_multiple cell_size window_length k -> smallest_block a0 p0 < k \/ smallest_block a1 p1 < k ->
  windowtotal junk ojunk no_data nd zero cell_size plus arr window_length = Throw.
Proof.
  intros E junk ojunk no_data nd zero plus cs w k a0 a1 p0 p1 arr f Harr M L. unfold windowtotal.
  match goal with |- context [window_operation ?j ?oj ?fn ?n ?c ?a ?l] => destruct (window_of j oj fn n c l k a M) as (R & HR & -> & W & ->) end.
  unfold focal. rewrite FocalProofs4.radius_make. eapply C18_small_partitions_are_reported; [exact HR| |exact Harr|exact L].
  intros win. exact (FocalProofs4.sum_functor_ok R no_data nd (fun _ _ => 1) zero plus win).
Qed.
Print Assumptions C75_large_windows_refused.

(** A raster of 7 rows and 3 columns with cells of 25 m, with windows of 75 m *)
Definition ex_window {O} (operation : parray Z -> b64 -> outcome (parray O)) (length : Z) : outcome (list (list O)) :=
  obind (operation ex_array (b64_of_Z length)) (fun out => Ok (map pl_data (pa_parts out))).
Example C75_total_ex : ex_window (windowtotal (fun _ => 9) (fun _ => 9) ex_nd (-128) 0 (b64_of_Z 25) Z.add) 75 =
  Ok [[22; 36; 26; 63; 99; 69; 123; 189; 129]; [142; 238; 148; 202; 328; 208; 261; 415; 265; 221; 333; 223]].
Proof. vm_compute. reflexivity. Qed.
Example C75_majority_ex : ex_window (windowmajority (fun _ => 9) (fun _ => 9) ex_nd (-128) (b64_of_Z 25)) 75 =
  Ok [[0; 0; 1; 0; 0; 1; 10; 10; 11]; [20; 20; 21; 30; 30; 31; 60; 60; 60; 60; 60; 60]].
Proof. vm_compute. reflexivity. Qed.
Example C75_cross_ex : obind (window4total (fun _ => 9) (fun _ => 9) ex_nd (-128) 0 Z.add ex_array) (fun out => Ok (map pl_data (pa_parts out))) =
  Ok [[11; 14; 15; 41; 55; 47; 81; 105; 87]; [121; 114; 127; 120; 164; 126; 201; 213; 205; 170; 231; 172]].
Proof. vm_compute. reflexivity. Qed.
Example C75_large_ex : ex_window (windowtotal (fun _ => 9) (fun _ => 9) ex_nd (-128) 0 (b64_of_Z 25) Z.add) 125 = Throw.
Proof. vm_compute. reflexivity. Qed.
Example C75_hypotheses_ex : ex_nd (-128) = true /\ raster_of [7; 3] [3; 3] ex_array ex_raster /\ 3 <= smallest_block 7 3 /\ 3 <= smallest_block 3 3.
Proof. split; [reflexivity|]. split; [exact ex_array_holds|]. split; vm_compute; congruence. Qed.
