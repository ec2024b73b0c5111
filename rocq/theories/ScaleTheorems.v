(** Property theorems: the array shapes of weak scalability experiments (C86). *)
From Verif Require Import Common PoolModel ScaleModel PoolProofs PoolProofs2 ScaleProofs.
Open Scope Z_scope.

(** C86, in exact arithmetic.  An extent of a scaled array differs at most 1/2 from nr_workers^(1/rank) times the extent per worker, and the amount of work
    per worker differs less than 0.1% from the amount asked for.
    Missing: rounding of the multiplier, which is a floating point number; that there is such an array, see C86_small_arrays_refuted. *)
Theorem C86_scaled_shape_partial :
  forall shape nr_workers scaled_shape, (forall e, In e shape -> 1 <= e) -> scale_array_shape shape nr_workers = Ok scaled_shape ->
  let rank := Z.of_nat (length shape) in
  let work s := fold_right Z.mul 1 s in
  1 <= nr_workers /\
  Forall2 (fun x e => 1 <= x /\ (2 * x - 1) ^ rank <= nr_workers * (2 * e) ^ rank < (2 * x + 1) ^ rank) scaled_shape shape /\
  1000 * Z.abs (work scaled_shape - nr_workers * work shape) < nr_workers * work shape.
Proof.
  intros l nr s H E rank work. assert (N : l <> []) by (intros ->; discriminate E). assert (Hr : 1 <= rank) by (unfold rank; destruct l; [congruence|cbn [length]; lia]).
  assert (EQ : scale_array_shape l nr = obind (py_assert (1 <=? nr)) (fun _ => if nr * nr_cells l =? 0 then Throw else
     obind (py_assert (1000 * Z.abs (nr_cells (map (scaled rank nr) l) - nr * nr_cells l) <? nr * nr_cells l)) (fun _ => Ok (map (scaled rank nr) l)))) by (unfold rank; destruct l; [congruence|reflexivity]).
  rewrite EQ in E. destruct (Z.leb_spec 1 nr) as [Hn|]; [|discriminate E]. cbn [py_assert obind] in E. destruct (Z.eqb_spec (nr * nr_cells l) 0); [discriminate E|].
  destruct (Z.ltb_spec (1000 * Z.abs (nr_cells (map (scaled rank nr) l) - nr * nr_cells l)) (nr * nr_cells l)) as [B|]; [|discriminate E]. cbn [py_assert obind] in E. injection E as <-.
  split; [exact Hn|]. split; [|rewrite !nr_cells_fold in B; exact B]. clearbody rank. clear - H Hn Hr. induction l as [|e l IH]; cbn [map]; [constructor|]. constructor; [apply nearest; try assumption; apply H; now left|]. apply IH. intros; apply H; now right.
Qed.
Print Assumptions C86_scaled_shape_partial.

(** C86.  There is such an array if all extents are at least 1000 times the rank. *)
Theorem C86_large_arrays :
  forall shape nr_workers, shape <> [] -> 1 <= nr_workers -> (forall e, In e shape -> 1000 * Z.of_nat (length shape) <= e) ->
  exists scaled_shape, scale_array_shape shape nr_workers = Ok scaled_shape.
Proof.
  intros l nr N Hn H. destruct (close l nr N Hn H) as [A B]. eexists. replace (scale_array_shape l nr) with (obind (py_assert (1 <=? nr)) (fun _ => if nr * nr_cells l =? 0 then Throw else
     obind (py_assert (1000 * Z.abs (nr_cells (map (scaled (Z.of_nat (length l)) nr) l) - nr * nr_cells l) <? nr * nr_cells l)) (fun _ => Ok (map (scaled (Z.of_nat (length l)) nr) l)))) by (destruct l; [congruence|reflexivity]).
  destruct (Z.leb_spec 1 nr); [|lia]. cbn [py_assert obind]. destruct (Z.eqb_spec (nr * nr_cells l) 0) as [Z0|]; [rewrite Z0 in A; lia|].
  rewrite (proj2 (Z.ltb_lt _ _) B). cbn [py_assert obind]. reflexivity.
Qed.
Print Assumptions C86_large_arrays.

(** C86.  If the number of workers is m^rank, then all extents become m times larger, whatever the extents.  With one worker, the array does not change. *)
Theorem C86_powers :
  forall shape m, shape <> [] -> (forall e, In e shape -> 1 <= e) -> 1 <= m ->
  scale_array_shape shape (m ^ Z.of_nat (length shape)) = Ok (map (Z.mul m) shape).
Proof.
  intros l m N H Hm. set (r := Z.of_nat (length l)). assert (Hr : 1 <= r) by (unfold r; destruct l; [congruence|cbn [length]; lia]). assert (M1 : 1 <= m ^ r) by (apply pow_pos_1; lia).
  assert (EM : map (scaled r (m ^ r)) l = map (Z.mul m) l) by (apply map_ext_in; intros e He; apply nearest_exact; auto).
  assert (EP : nr_cells (map (Z.mul m) l) = m ^ r * nr_cells l /\ 1 <= nr_cells l).
  { rewrite !nr_cells_fold. unfold r. clear - H Hm. induction l as [|e l IH]; [cbn; lia|]. cbn [map fold_right length]. destruct IH as [E P]; [intros; apply H; now right|]. rewrite E, Nat2Z.inj_succ, <- Z.add_1_r, pow_1_more by apply Nat2Z.is_nonneg. specialize (H e (or_introl eq_refl)). split; [ring|nia]. }
  destruct EP as [EP P1]. assert (P0 : 1 <= m ^ r * nr_cells l) by nia.
  replace (scale_array_shape l (m ^ r)) with (obind (py_assert (1 <=? m ^ r)) (fun _ => if m ^ r * nr_cells l =? 0 then Throw else
     obind (py_assert (1000 * Z.abs (nr_cells (map (scaled r (m ^ r)) l) - m ^ r * nr_cells l) <? m ^ r * nr_cells l)) (fun _ => Ok (map (scaled r (m ^ r)) l)))) by (unfold r; destruct l; [congruence|reflexivity]).
  rewrite EM, EP, Z.sub_diag. destruct (Z.leb_spec 1 (m ^ r)); [|lia]. cbn [py_assert obind]. destruct (Z.eqb_spec (m ^ r * nr_cells l) 0) as [Z0|]; [rewrite Z0 in P0; lia|].
  rewrite (proj2 (Z.ltb_lt _ _)) by (change (1000 * Z.abs 0) with 0; lia). reflexivity.
Qed.
Print Assumptions C86_powers.

Example C86_ex :
  scale_array_shape [500; 400] 2 = Ok [707; 566] /\ scale_array_shape [500; 400] 4 = Ok [1000; 800] /\ scale_array_shape [500; 400] 1 = Ok [500; 400] /\
  scale_array_shape [100; 200; 300] 2 = Ok [126; 252; 378] /\ scale_array_shape [2000; 3000] 3 = Ok [3464; 5196].
Proof. vm_compute. auto. Qed.

(** Not for each array there is one: two workers that have 10 x 10 cells each cannot get 14 x 14 cells. *)
Theorem C86_small_arrays_refuted :
  ~ forall shape nr_workers, shape <> [] -> 1 <= nr_workers -> (forall e, In e shape -> 1 <= e) -> exists scaled_shape, scale_array_shape shape nr_workers = Ok scaled_shape.
Proof.
  intros A. destruct (A [10; 10] 2) as [s E]; [discriminate|lia|intros e [<-|[<-|[]]]; lia|]. vm_compute in E. discriminate E.
Qed.
Print Assumptions C86_small_arrays_refuted.
