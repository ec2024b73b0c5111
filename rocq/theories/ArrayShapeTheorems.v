(** Property theorems: shapes of arrays and partitions in scalability experiments (C87). *)
From Verif Require Import Common PoolModel ArrayShapeModel ArrayShapeProofs.
Open Scope Z_scope.

(** C87, in exact arithmetic.  The command for calculating array shapes returns the largest array with equal extents, such that all arrays fit in the memory
    of all nodes.  Arguments that are not positive are refused.
    Missing: rounding of the number of cells and its root, which are floating point numbers in the code. *)
Theorem C87_array_shape_partial :
  forall memory rank nr_arrays size_of_element nr_nodes,
  (0 < memory /\ 0 < rank /\ 0 < nr_arrays /\ 0 < size_of_element /\ 0 < nr_nodes ->
     exists extent, array_shape memory rank nr_arrays size_of_element nr_nodes = Ok (repeat extent (Z.to_nat rank)) /\ 0 <= extent /\
     nr_arrays * size_of_element * extent ^ rank <= nr_nodes * memory < nr_arrays * size_of_element * (extent + 1) ^ rank) /\
  (~ (0 < memory /\ 0 < rank /\ 0 < nr_arrays /\ 0 < size_of_element /\ 0 < nr_nodes) -> array_shape memory rank nr_arrays size_of_element nr_nodes = Throw).
Proof.
  intros mem r a s n. unfold array_shape. destruct (Z.ltb_spec 0 mem); [|split; [lia|reflexivity]]. destruct (Z.ltb_spec 0 r); [|split; [lia|reflexivity]]. destruct (Z.ltb_spec 0 a); [|split; [lia|reflexivity]].
  destruct (Z.ltb_spec 0 s); [|split; [lia|reflexivity]]. destruct (Z.ltb_spec 0 n); [|split; [lia|reflexivity]]. cbn [py_assert obind]. split; [intros _|lia].
  rewrite (largest_ext _ _ (fun k => a * s * k ^ r <=? n * mem)) by (intros; f_equal; ring). eexists. split; [reflexivity|]. apply array_extent; nia.
Qed.
Print Assumptions C87_array_shape_partial.
Example C87_array_shape_ex :
  array_shape 100 2 1 1 1 = Ok [10; 10] /\ array_shape 100 1 2 1 1 = Ok [50] /\ array_shape 1000 3 4 8 3 = Ok [4; 4; 4] /\ array_shape 1000 0 4 8 3 = Throw.
Proof. vm_compute. auto. Qed.

(** C87.  The range of partition shapes contains, in this order, each shape that is k steps larger than the smallest one in all dimensions, if none of its
    extents is larger than the largest shape's. *)
Theorem C87_partition_shapes :
  forall min_shape max_shape step,
  let ok := length min_shape = length max_shape /\ 0 < step /\ min_shape <> [] /\ forall l h, In (l, h) (combine min_shape max_shape) -> l <= h in
  (ok -> exists shapes, partition_shapes min_shape max_shape step = Ok shapes /\
     forall k shape, nth_error shapes k = Some shape <->
       shape = map (fun e => e + Z.of_nat k * step) min_shape /\ forall x h, In (x, h) (combine shape max_shape) -> x <= h) /\
  (~ ok -> partition_shapes min_shape max_shape step = Throw).
Proof.
  intros lo hi step ok. unfold partition_shapes, shape_ranges. destruct (Nat.eqb_spec (length lo) (length hi)) as [E|E]; [|split; [intros [X _]; congruence|reflexivity]].
  destruct (Z.ltb_spec 0 step) as [Hs|]; [|split; [intros (_ & X & _); lia|reflexivity]]. destruct (Nat.ltb_spec 0 (length lo)) as [L|L]; [|split; [intros (_ & _ & X & _); destruct lo; [congruence|cbn in L; lia]|reflexivity]].
  cbn [py_assert obind]. assert (N : lo <> []) by (intros ->; cbn in L; lia). assert (FB : forallb (fun '(l, h) => l <=? h) (combine lo hi) = true <-> forall l h, In (l, h) (combine lo hi) -> l <= h).
  { rewrite forallb_forall. split; [intros A l h H; apply Z.leb_le; exact (A (l, h) H)|intros A [l h] H; apply Z.leb_le; exact (A l h H)]. }
  destruct (forallb (fun '(l, h) => l <=? h) (combine lo hi)) eqn:F; cbn [py_assert obind].
  2: { split; [intros (_ & _ & _ & X); apply FB in X; discriminate X|reflexivity]. }
  split; [intros _|intros X; exfalso; apply X; repeat split; try assumption; apply FB; reflexivity].
  eexists. split; [reflexivity|]. intros k shape. destruct (shapes_nth step k lo hi E Hs F) as [A B]. rewrite zip_nth.
  2: { destruct lo, hi; try discriminate; congruence. }
  assert (C : forallb (fun '(l, h) => l + Z.of_nat k * step <=? h) (combine lo hi) = true <-> forall x h, In (x, h) (combine (map (fun e => e + Z.of_nat k * step) lo) hi) -> x <= h).
  { clear. revert hi. induction lo as [|l lo IH]; intros [|h hi]; cbn [combine map forallb]; try (split; [intros _ x h' []|reflexivity]). rewrite andb_true_iff, Z.leb_le, IH. split.
    - intros [X Y] x h' [Z|Z]; [injection Z as <- <-; exact X|auto].
    - intros X. split; [apply X; now left|intros; apply X; now right]. }
  rewrite <- A in C. destruct (forallb (fun r => Nat.ltb k (length r)) _).
  - rewrite B by reflexivity. split; [intros [= <-]; split; [reflexivity|apply C; reflexivity]|intros [-> _]; reflexivity].
  - split; [discriminate|]. intros [-> X]. apply C in X. discriminate X.
Qed.
Print Assumptions C87_partition_shapes.
Example C87_partition_shapes_ex :
  partition_shapes [480; 480] [500; 505] 10 = Ok [[480; 480]; [490; 490]; [500; 500]] /\ partition_shapes [4; 2] [9; 4] 2 = Ok [[4; 2]; [6; 4]] /\ partition_shapes [4; 2] [9; 1] 2 = Throw.
Proof. vm_compute. auto. Qed.

(** C87.  Multipliers are returned if, and only if, the shape is a whole number of partitions in each dimension; otherwise an exception is raised. *)
Theorem C87_multipliers :
  forall shape partition_shape,
  let ok multipliers := Forall2 (fun s '(p, m) => 0 < p /\ 0 < m /\ s = m * p) shape (combine partition_shape multipliers) /\ length multipliers = length partition_shape in
  (forall multipliers, partition_shape_multipliers shape partition_shape = Ok multipliers <-> ok multipliers) /\
  ((forall multipliers, ~ ok multipliers) -> partition_shape_multipliers shape partition_shape = Throw).
Proof.
  intros s p ok. unfold partition_shape_multipliers. assert (OK : forall ms, ok ms <->
     Nat.eqb (length p) (length s) && (forallb (fun e => 0 <? e) s && (forallb (fun e => 0 <? e) p && forallb (fun '(s, p) => s mod p =? 0) (combine s p))) = true /\ ms = map (fun '(s, p) => s / p) (combine s p)).
  { unfold ok. clear ok. revert p. induction s as [|x s IH]; intros p ms.
    - destruct p as [|y p], ms as [|m ms]; cbn [combine length map forallb Nat.eqb andb].
      + split; intros _; split; try reflexivity. constructor.
      + split; [intros [_ A]; discriminate A|intros [_ A]; discriminate A].
      + split; [intros [_ A]; discriminate A|intros [A _]; discriminate A].
      + split; [intros [A _]; inversion A|intros [A _]; discriminate A].
    - destruct p as [|y p]; [split; [intros [A _]; cbn [combine] in A; inversion A|cbn [length Nat.eqb andb]; intros [A _]; discriminate A]|].
      destruct ms as [|m ms]; [split; [intros [_ A]; discriminate A|cbn [combine map]; intros [_ A]; discriminate A]|]. cbn [combine length map forallb Nat.eqb]. specialize (IH p ms). rewrite !andb_true_iff, ?Z.ltb_lt in *. rewrite Z.eqb_eq. split.
      + intros [A B]. inversion A as [|x0 y0 l0 l1 P0 A' E0 E1]. clear A. subst. cbn in P0. destruct P0 as (P1 & P2 & P3). injection B as B. destruct (proj1 IH (conj A' B)) as [[C1 [C2 [C3 C4]]] C5]. rewrite P3. rewrite Z.mod_mul, Z.div_mul by lia.
        split; [|now f_equal]. split; [exact C1|]. split; [split; [nia|exact C2]|]. split; [split; [exact P1|exact C3]|]. split; [reflexivity|exact C4].
      + intros [[C1 [[C2 C2'] [[C3 C3'] [C4 C4']]]] C5]. injection C5 as -> C5. destruct (proj2 IH) as [A B]; [tauto|]. split; [|cbn; congruence]. constructor; [|exact A]. pose proof (Z.div_mod x y ltac:(lia)). split; [lia|]. split; [nia|nia]. }
  set (b1 := Nat.eqb _ _) in *. set (b2 := forallb _ s) in *. set (b3 := forallb _ p) in *. set (b4 := forallb _ (combine s p)) in *. split.
  - intros ms. rewrite OK. destruct b1, b2, b3, b4; cbn [py_assert obind andb]; split; intros H; try discriminate; try (destruct H; discriminate); [injection H as <-; auto|destruct H as [_ ->]; reflexivity].
  - intros N. specialize (N (map (fun '(s, p) => s / p) (combine s p))). rewrite OK in N. destruct b1, b2, b3, b4; try reflexivity. exfalso. apply N. auto.
Qed.
Print Assumptions C87_multipliers.
Example C87_multipliers_ex :
  partition_shape_multipliers [10; 10] [2; 5] = Ok [5; 2] /\ partition_shape_multipliers [10; 10] [3; 5] = Throw /\ ranges_of_multipliers [10; 10] [2; 1] [5; 10] = Ok [[5; 4; 3]; [10; 9; 8; 7; 6; 5; 4; 3; 2]].
Proof. vm_compute. auto. Qed.

(** C87.  The range of multipliers in a dimension starts at the multiplier of the smallest partition shape, and ends before that of the largest one.  A
    smallest partition shape that is larger than the largest one, and one that does not fit a whole number of times, are refused. *)
Theorem C87_multiplier_ranges :
  forall shape min_shape max_shape,
  let ordered lo hi := forall l h : Z, In (l, h) (combine lo hi) -> h <= l in
  (forall lo hi, partition_shape_multipliers shape min_shape = Ok lo -> partition_shape_multipliers shape max_shape = Ok hi -> ordered lo hi ->
     exists ranges, ranges_of_multipliers shape min_shape max_shape = Ok ranges /\
       Forall2 (fun r '(l, h) => r = map (fun k => l - k) (zseq 0 (l - h)) /\ forall m, In m r <-> h < m <= l) ranges (combine lo hi)) /\
  (forall lo hi, partition_shape_multipliers shape min_shape = Ok lo -> partition_shape_multipliers shape max_shape = Ok hi -> ~ ordered lo hi ->
     ranges_of_multipliers shape min_shape max_shape = Throw) /\
  (partition_shape_multipliers shape min_shape = Throw -> ranges_of_multipliers shape min_shape max_shape = Throw) /\
  (forall lo, partition_shape_multipliers shape min_shape = Ok lo -> partition_shape_multipliers shape max_shape = Throw -> ranges_of_multipliers shape min_shape max_shape = Throw).
Proof.
  intros s a b ordered. unfold ranges_of_multipliers. split; [|split; [|split]].
  - intros lo hi E1 E2 H. rewrite E1, E2. cbn [obind]. rewrite (proj2 (forallb_forall _ _)) by (intros [l h] Hx; apply Z.leb_le; exact (H l h Hx)). cbn [py_assert obind]. eexists. split; [reflexivity|].
    clear. induction (combine lo hi) as [|[l h] L IH]; cbn [map]; constructor; [|exact IH]. split; [reflexivity|]. intros m. unfold py_range_down, zseq. rewrite map_map, in_map_iff. split.
    + intros [k [<- Hk]]. apply in_seq in Hk. lia.
    + intros Hm. exists (Z.to_nat (l - m)). split; [lia|]. apply in_seq. lia.
  - intros lo hi E1 E2 H. rewrite E1, E2. cbn [obind]. destruct (forallb _ (combine lo hi)) eqn:F; [|reflexivity]. exfalso. apply H. rewrite forallb_forall in F. intros l h Hx. apply Z.leb_le. exact (F (l, h) Hx).
  - intros E. rewrite E. reflexivity.
  - intros lo E1 E2. rewrite E1, E2. reflexivity.
Qed.
Print Assumptions C87_multiplier_ranges.

(** The multiplier of the largest partition shape is not part of the range, although that of the smallest one is. *)
Theorem C87_largest_partition_refuted :
  ~ forall shape min_shape max_shape hi ranges,
    partition_shape_multipliers shape max_shape = Ok hi -> ranges_of_multipliers shape min_shape max_shape = Ok ranges -> Forall2 (fun r h => In h r) ranges hi.
Proof. intros A. specialize (A [10] [1] [5] [2] [[10; 9; 8; 7; 6; 5; 4; 3]] eq_refl eq_refl). inversion A as [|? ? ? ? X]. cbn in X. lia. Qed.
Print Assumptions C87_largest_partition_refuted.
