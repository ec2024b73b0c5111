(** C82: the data of array partitions behaves like handles to shared buffers. *)
From Verif Require Import Common IndexModel PartDataModel PartDataSpec PartDataProofs2 PartDataProofs3.

(** Whatever the rank, the elements and the program of constructions, copies, moves, assignments and writes, as long as
    an instance that is move-assigned to does not share its (non-empty) buffer: nothing undefined happens, no assertion
    fails, and what is read back through all instances - by index and by linear index - is what the specification says. *)
Theorem C82_refines_partial (E : Type) (rank : nat) (ops : list (op E)) :
  all_allowed rank ops no_data_yet ->
  exists st, exec rank ops start = Ok st /\ shows st (expected_all rank ops no_data_yet).
Proof. apply refines. Qed.
Print Assumptions C82_refines_partial.

(** Non-trivial programs: a copy sees what is written through the original; what is moved from is empty, and can be
    assigned to again; an instance that is alone is moved to. *)
Definition shared_program : list (op Z) :=
  [New 1 [2; 2] [1; 2; 3; 4]; CopyConstruct 2 1; Write 1 3 9; MoveConstruct 3 1; Fill 1 7; New 4 [1; 3] [5; 6; 7];
   MoveAssign 1 4; CopyAssign 4 2; Write 4 0 8; Destruct 2; MoveAssign 4 4].
Example shared_program_allowed : all_allowed 2 shared_program no_data_yet.
Proof.
  cbn. unfold defined, alone. cbn. repeat split; try congruence; try lia.
  - exists [2; 2], 0. cbn. split; [reflexivity|lia].
  - intros _ shape r H. injection H as _ <-. left. reflexivity.
  - exists [2; 2], 0. cbn. split; [reflexivity|split; [lia|reflexivity]].
Qed.
Example shared_program_view : let w := expected_all 2 shared_program no_data_yet in
  map (fun v => match vw_vars w v with Some (sh, r) => (sh, vw_cells w r) | None => ([], []) end) [1; 2; 3; 4] =
  [([1; 3], [5; 6; 7]); ([], []); ([2; 2], [8; 2; 3; 9]); ([2; 2], [8; 2; 3; 9])].
Proof. reflexivity. Qed.

(** Reading what a copy refers to after the original is copy-assigned, moved from or destructed gives the elements that
    were there. *)
Theorem C82_copies_survive (E : Type) (rank : nat) (shape : list Z) (values others : list E) (i : Z) (o : op E) :
  length shape = rank -> nr_elements shape = Z.of_nat (length values) -> 0 <= i < nr_elements shape ->
  nr_elements shape = Z.of_nat (length others) ->
  In o [CopyAssign 1 3; MoveConstruct 4 1; Destruct 1] ->
  exists st d e, exec rank [New 1 shape values; CopyConstruct 2 1; New 3 shape others; o] start = Ok st /\
    st_vars st 2 = Some d /\ nth_error values (Z.to_nat i) = Some e /\
    read_span (st_heap st) d i = Ok e /\ read_linear (st_heap st) d i = Ok e.
Proof.
  intros Hr Hn Hi Ho Hin.
  assert (A : all_allowed rank [New 1 shape values; CopyConstruct 2 1; New 3 shape others; o] no_data_yet).
  { cbn in Hin. cbn -[nr_elements]. unfold defined. cbn -[nr_elements].
    destruct Hin as [<-|[<-|[<-|[]]]]; cbn -[nr_elements]; unfold defined; cbn -[nr_elements]; repeat split; congruence. }
  destruct (refines rank _ A) as (st & X & Y). specialize (Y 2). cbn -[nr_elements exec] in Y.
  assert (Z2 : vw_vars (expected rank o (View 2 (set (set (set (fun _ => None) 1 (Some (shape, 0))) 2 (Some (shape, 0))) 3 (Some (shape, 1)))
      (set (set (fun _ => []) 0 values) 1 others))) 2 = Some (shape, 0) /\
    vw_cells (expected rank o (View 2 (set (set (set (fun _ => None) 1 (Some (shape, 0))) 2 (Some (shape, 0))) 3 (Some (shape, 1)))
      (set (set (fun _ => []) 0 values) 1 others))) 0 = values).
  { cbn in Hin. destruct Hin as [<-|[<-|[<-|[]]]]; split; reflexivity. }
  destruct Z2 as [Z2 Z3].
  match type of Y with match ?t with _ => _ end => replace t with (Some (shape, 0)) in Y by (symmetry; exact Z2) end.
  destruct Y as (d & Y1 & Y2 & Y3 & Y4). destruct (Y4 i Hi) as (e & Y5 & Y6 & Y7).
  exists st, d, e. split; [exact X|]. split; [exact Y1|]. split; [|now split].
  rewrite <- Y5. f_equal. symmetry. exact Z3.
Qed.
Print Assumptions C82_copies_survive.
Example copies_survive_instance : length [1; 2] = 2%nat /\ nr_elements [1; 2] = Z.of_nat (length [7; 8]) /\ 0 <= 1 < nr_elements [1; 2].
Proof. repeat split; try reflexivity; try lia; cbn; lia. Qed.

(** Without the restriction it does not hold.  Whatever the history: when an instance [v] that shares its elements with
    [u] is move-assigned to, the elements of [u] are gone; [u] still shows its shape. *)
Theorem C82_move_to_shared_refuted (E : Type) (rank : nat) (ops : list (op E)) (v u x : Z) (shape shape' shape'' : list Z) (r r' i : Z) :
  all_allowed rank ops no_data_yet ->
  let w := expected_all rank ops no_data_yet in
  vw_vars w v = Some (shape, r) -> vw_vars w u = Some (shape', r) -> vw_vars w x = Some (shape'', r') ->
  v <> u -> v <> x -> r' <> r -> 0 <= i < nr_elements shape' ->
  exists st d, exec rank (ops ++ [MoveAssign v x]) start = Ok st /\ st_vars st u = Some d /\ d_shape d = shape' /\
    read_span (st_heap st) d i = UB /\ read_linear (st_heap st) d i = UB.
Proof. apply move_to_shared. Qed.
Print Assumptions C82_move_to_shared_refuted.
(** ... and moving from an instance to one that shares its elements fails an assertion. *)
Theorem C82_move_from_shared_refuted (E : Type) (rank : nat) (ops : list (op E)) (v x : Z) (shape shape' : list Z) (r : Z) :
  all_allowed rank ops no_data_yet ->
  let w := expected_all rank ops no_data_yet in
  vw_vars w v = Some (shape, r) -> vw_vars w x = Some (shape', r) -> v <> x -> vw_cells w r <> [] ->
  exec rank (ops ++ [MoveAssign v x]) start = UB.
Proof. apply move_from_shared. Qed.
Print Assumptions C82_move_from_shared_refuted.
Example shared_instance : let ops := [New 1 [2] [1; 2]; CopyConstruct 2 1; New 3 [1] [5]] : list (op Z) in
  all_allowed 1 ops no_data_yet /\
  exec 1 (ops ++ [MoveAssign 1 2]) start = UB /\
  exists st d, exec 1 (ops ++ [MoveAssign 1 3]) start = Ok st /\ st_vars st 2 = Some d /\ read_span (st_heap st) d 1 = UB.
Proof.
  split; [cbn; unfold defined; cbn; repeat split; congruence|]. split; [reflexivity|].
  do 2 eexists. split; [reflexivity|]. split; reflexivity.
Qed.
