(** Property theorems: the numbers of workers and the array shapes of scalability experiments (C84). *)
From Verif Require Import Common PoolModel PoolProofs PoolProofs2.
Open Scope Z_scope.

(** C84.  The numbers of workers are min_size * multiplier^k, for all k for which this is not larger than max_size.  The pool that is written to JSON
    results in the same numbers when it is read again.  Other keys do not matter, whether they are present or not. *)
Theorem C84_multiplied_workers :
  forall min_size max_size multiplier incrementor size, 1 < multiplier -> 0 < min_size <= max_size ->
  exists p n, pool_of_data (PoolData (Some min_size) (Some max_size) (Some multiplier) incrementor size) = Ok p /\
    0 <= n /\ min_size * multiplier ^ n <= max_size < min_size * multiplier ^ (n + 1) /\
    pool_min_size p = min_size /\ pool_max_size p = min_size * multiplier ^ n /\
    nr_benchmarks p = Ok (n + 1) /\
    (forall k, nr_workers p k = if (0 <=? k) && (k <=? n) then Ok (min_size * multiplier ^ k) else Throw) /\
    data_of_pool p = PoolData (Some min_size) (Some (min_size * multiplier ^ n)) (Some multiplier) None None /\
    pool_of_data (data_of_pool p) = Ok p.
Proof. exact multiplied_ok. Qed.
Print Assumptions C84_multiplied_workers.

Theorem C84_incremented_workers :
  forall min_size max_size incrementor size, 1 <= incrementor -> 0 < min_size <= max_size ->
  exists p n, pool_of_data (PoolData (Some min_size) (Some max_size) None (Some incrementor) size) = Ok p /\
    0 <= n /\ min_size + n * incrementor <= max_size < min_size + (n + 1) * incrementor /\
    pool_min_size p = min_size /\ pool_max_size p = min_size + n * incrementor /\
    nr_benchmarks p = Ok (n + 1) /\
    (forall k, nr_workers p k = if (0 <=? k) && (k <=? n) then Ok (min_size + k * incrementor) else Throw) /\
    data_of_pool p = PoolData (Some min_size) (Some (min_size + n * incrementor)) None (Some incrementor) None /\
    pool_of_data (data_of_pool p) = Ok p.
Proof. exact incremented_ok. Qed.
Print Assumptions C84_incremented_workers.

Theorem C84_fixed_workers :
  forall min_size max_size size, 1 <= size ->
  exists p, pool_of_data (PoolData min_size max_size None None (Some size)) = Ok p /\
    pool_min_size p = size /\ pool_max_size p = size /\ nr_benchmarks p = Ok 1 /\
    (forall k, nr_workers p k = if k =? 0 then Ok size else Throw) /\
    data_of_pool p = PoolData None None None None (Some size) /\ pool_of_data (data_of_pool p) = Ok p.
Proof. exact fixed_ok. Qed.
Print Assumptions C84_fixed_workers.

(** All other data is refused. *)
Theorem C84_refused :
  forall d : pool_data,
  let usable := exists lo hi, pd_min_size d = Some lo /\ pd_max_size d = Some hi /\ 0 < lo <= hi in
  let accepted :=
    (exists m, pd_multiplier d = Some m /\ 1 < m /\ usable) \/
    (pd_multiplier d = None /\ exists i, pd_incrementor d = Some i /\ 1 <= i /\ usable) \/
    (pd_multiplier d = None /\ pd_incrementor d = None /\ exists size, pd_size d = Some size /\ 1 <= size) in
  ~ accepted -> pool_of_data d = Throw.
Proof.
  intros [lo hi m i size] usable accepted NA. subst usable accepted. unfold pool_of_data. cbn [pd_min_size pd_max_size pd_multiplier pd_incrementor pd_size] in *. destruct m as [m|]; [|destruct i as [i|]].
  - destruct (Z.ltb_spec 1 m); [|reflexivity]. cbn [py_assert obind]. destruct lo as [lo|]; [|reflexivity]. destruct hi as [hi|]; [|reflexivity]. cbn [key obind]. apply range_rejected. intros L. apply NA. left. exists m. split; [reflexivity|]. split; [assumption|]. exists lo, hi. auto.
  - destruct (Z.leb_spec 1 i); [|reflexivity]. cbn [py_assert obind]. destruct lo as [lo|]; [|reflexivity]. destruct hi as [hi|]; [|reflexivity]. cbn [key obind]. apply range_rejected. intros L. apply NA. right. left. split; [reflexivity|]. exists i. split; [reflexivity|]. split; [assumption|]. exists lo, hi. auto.
  - destruct size as [size|]; [|reflexivity]. cbn [key obind]. destruct (Z.leb_spec 1 size); [|reflexivity]. exfalso. apply NA. right. right. split; [reflexivity|]. split; [reflexivity|]. exists size. auto.
Qed.
Print Assumptions C84_refused.

Example C84_workers_ex :
  (exists p, pool_of_data (PoolData (Some 3) (Some 30) (Some 2) None None) = Ok p /\ nr_benchmarks p = Ok 4 /\ map (nr_workers p) [-1; 0; 1; 2; 3; 4] = [Throw; Ok 3; Ok 6; Ok 12; Ok 24; Throw] /\ pool_max_size p = 24) /\
  (exists p, pool_of_data (PoolData (Some 1) (Some 9) None (Some 4) None) = Ok p /\ nr_benchmarks p = Ok 3 /\ map (nr_workers p) [0; 1; 2; 3] = [Ok 1; Ok 5; Ok 9; Throw]) /\
  pool_of_data (PoolData (Some 5) (Some 4) None (Some 4) None) = Throw.
Proof. split; [eexists; split; [vm_compute; reflexivity|]; vm_compute; auto|]. split; [eexists; split; [vm_compute; reflexivity|]; vm_compute; auto|]. reflexivity. Qed.

(** ** Shapes *)

(** C84, in exact arithmetic.  The number of cells aimed at by shape k is that of the smallest shape, times multiplier^k (exponential), or plus k times
    multiplier - 1 times (linear).  There is a shape for each such number that is not larger than the maximum; its extents are those of the ideal shape with
    this number of cells, size^(1/rank) * extent / largest extent, rounded down, so it does not have more cells.
    Missing: that the shapes have the numbers of cells aimed at, see C84_first_shape_refuted and C84_growth_refuted; rounding. *)
Theorem C84_shapes_partial :
  forall min_shape max_nr_elements multiplier method,
  min_shape <> [] -> (forall e, In e min_shape -> 1 <= e) -> 1 < multiplier -> nr_cells min_shape <= max_nr_elements ->
  let rank := Z.of_nat (length min_shape) in
  let largest_extent := fold_left Z.max min_shape 0 in
  let nr k := match method with
              | Linear => nr_cells min_shape + k * (multiplier - 1) * nr_cells min_shape
              | Exponential => nr_cells min_shape * multiplier ^ k
              end in
  exists shapes, range_of_shapes min_shape max_nr_elements multiplier method = Ok shapes /\ shapes <> [] /\
    max_nr_elements < nr (Z.of_nat (length shapes)) /\
    forall k shape, nth_error shapes k = Some shape ->
      nr (Z.of_nat k) <= max_nr_elements /\ 0 <= nr_cells shape <= nr (Z.of_nat k) /\
      Forall2 (fun x e => 0 <= x /\ x ^ rank * largest_extent ^ rank <= nr (Z.of_nat k) * e ^ rank < (x + 1) ^ rank * largest_extent ^ rank) shape min_shape.
Proof.
  intros l hi m method N H Hm Hh rank M nr. destruct (range_ok l hi m method N H Hm Hh) as [sizes [E [A B]]]. exists (map (scaled_shape l) (nr_cells l :: sizes)).
  split; [exact E|]. split; [discriminate|]. split; [rewrite map_length; exact B|]. intros k shape Hk. rewrite nth_error_map in Hk. destruct (nth_error (nr_cells l :: sizes) k) as [size|] eqn:ES; [|discriminate Hk].
  cbn [option_map] in Hk. injection Hk as <-. destruct (A k size ES) as [-> [S1 S2]]. change (aim method (nr_cells l) m (Z.of_nat k)) with (nr (Z.of_nat k)) in *. split; [exact S2|]. split; [now apply scaled_cells|].
  destruct (shape_max l N H) as [HM [HE _]]. fold M in HM, HE. unfold scaled_shape. fold M. fold rank. assert (Hr : 1 <= rank) by (unfold rank; destruct l; [congruence|cbn; lia]).
  assert (HS : forall e, In e l -> 0 <= scaled_extent rank (nr (Z.of_nat k)) e M /\ scaled_extent rank (nr (Z.of_nat k)) e M ^ rank * M ^ rank <= nr (Z.of_nat k) * e ^ rank < (scaled_extent rank (nr (Z.of_nat k)) e M + 1) ^ rank * M ^ rank).
  { intros e He. apply scaled_spec; auto. }
  exact (scaled_forall l (nr (Z.of_nat k)) M rank HS).
Qed.
Print Assumptions C84_shapes_partial.

(** If all extents are equal, then the first shape is the smallest one. *)
Theorem C84_first_shape_partial :
  forall min_shape max_nr_elements multiplier method,
  min_shape <> [] -> (forall e, In e min_shape -> 1 <= e) -> 1 < multiplier -> nr_cells min_shape <= max_nr_elements ->
  (forall e e', In e min_shape -> In e' min_shape -> e = e') ->
  exists shapes, range_of_shapes min_shape max_nr_elements multiplier method = Ok (min_shape :: shapes).
Proof. intros l hi m method N H Hm Hh HS. destruct (range_ok l hi m method N H Hm Hh) as [sizes [E _]]. rewrite E. cbn [map]. rewrite square_first by assumption. eauto. Qed.
Print Assumptions C84_first_shape_partial.
Example C84_shapes_ex :
  nr_cells [10; 10] <= 800 /\ range_of_shapes [10; 10] 800 2 Exponential = Ok [[10; 10]; [14; 14]; [20; 20]; [28; 28]] /\
  range_of_shapes [10; 10] 400 2 Linear = Ok [[10; 10]; [14; 14]; [17; 17]; [20; 20]] /\ range_of_shapes [4; 2] 40 2 Exponential = Ok [[2; 1]; [4; 2]; [5; 2]].
Proof. vm_compute. repeat split; discriminate. Qed.

(** In general it is not: a shape of 1 x 4 cells becomes one of 0 x 2 cells. *)
Theorem C84_first_shape_refuted :
  ~ forall min_shape max_nr_elements multiplier method shapes,
    (forall e, In e min_shape -> 1 <= e) -> range_of_shapes min_shape max_nr_elements multiplier method = Ok shapes -> nth_error shapes 0 = Some min_shape.
Proof.
  intros A. specialize (A [1; 4] 8 2 Exponential [[0; 2]; [0; 2]]). assert (C : nth_error [[0; 2]; [0; 2]] 0 = Some [1; 4]); [|discriminate C].
  apply A; [intros e [<-|[<-|[]]]; lia|vm_compute; reflexivity].
Qed.
Print Assumptions C84_first_shape_refuted.

(** The next shape does not need to have more cells. *)
Theorem C84_growth_refuted :
  ~ forall min_shape max_nr_elements multiplier method s s' shapes,
    (forall e, In e min_shape -> 1 <= e) -> range_of_shapes min_shape max_nr_elements multiplier method = Ok (s :: s' :: shapes) -> nr_cells s' = multiplier * nr_cells s.
Proof.
  intros A. specialize (A [2; 2] 8 2 Exponential [2; 2] [2; 2] []). assert (C : 4 = 8); [|discriminate C].
  apply A; [intros e [<-|[<-|[]]]; lia|vm_compute; reflexivity].
Qed.
Print Assumptions C84_growth_refuted.
