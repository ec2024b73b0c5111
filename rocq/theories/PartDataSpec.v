(** What a user of the data of partitions relies on: variables refer to buffers with elements, copies refer to the same
    buffer, moves hand over the buffer and leave an empty one. *)
From Verif Require Import Common IndexModel PartDataModel.

Section Spec.
Context {E : Type} (rank : nat).

Record view := View { vw_next : Z; vw_vars : Z -> option (list Z * Z);   (* shape and buffer of a variable *)
                      vw_cells : Z -> list E }.                          (* elements of a buffer *)

Definition set {T} (f : Z -> T) (i : Z) (v : T) : Z -> T := fun j => if j =? i then v else f j.
Definition put_at (l : list E) (i : Z) (e : E) : list E := firstn (Z.to_nat i) l ++ e :: skipn (Z.to_nat i + 1) l.
Definition empty_shape : list Z := repeat 0 rank.

Definition expected (o : op E) (w : view) : view :=
  let n := vw_next w in
  let s := vw_vars w in
  let c := vw_cells w in
  match o with
  | Default v => View (n + 1) (set s v (Some (empty_shape, n))) (set c n [])
  | New v shape values => View (n + 1) (set s v (Some (shape, n))) (set c n values)
  | CopyConstruct v x | CopyAssign v x => View n (set s v (s x)) c
  | MoveConstruct v x => View (n + 1) (set (set s x (Some (empty_shape, n))) v (s x)) (set c n [])
  | MoveAssign v x => if v =? x then w else View (n + 1) (set (set s v (s x)) x (Some (empty_shape, n))) (set c n [])
  | Destruct v => View n (set s v None) c
  | Write v i e => match s v with Some (_, r) => View n s (set c r (put_at (c r) i e)) | None => w end
  | Fill v e => match s v with Some (_, r) => View n s (set c r (repeat e (length (c r)))) | None => w end
  end.
Fixpoint expected_all (ops : list (op E)) (w : view) : view :=
  match ops with [] => w | o :: ops => expected_all ops (expected o w) end.
Definition no_data_yet : view := View 0 (fun _ => None) (fun _ => []).

(** Variables are defined once at a time and used while they are defined; shapes have the rank of the type and belong to
    the elements passed in; indices are valid.  [alone]: variable [v] is the only one that refers to its buffer, or the
    buffer is empty. *)
Definition defined (w : view) (v : Z) : Prop := vw_vars w v <> None.
Definition alone (w : view) (v : Z) : Prop :=
  forall shape r, vw_vars w v = Some (shape, r) -> vw_cells w r = [] \/ forall u shape', u <> v -> vw_vars w u <> Some (shape', r).
Definition allowed (w : view) (o : op E) : Prop :=
  match o with
  | Default v => ~ defined w v
  | New v shape values => ~ defined w v /\ length shape = rank /\ nr_elements shape = Z.of_nat (length values)
  | CopyConstruct v x | MoveConstruct v x => ~ defined w v /\ defined w x
  | CopyAssign v x => defined w v /\ defined w x
  | MoveAssign v x => defined w v /\ defined w x /\ (v <> x -> alone w v)
  | Destruct v | Fill v _ => defined w v
  | Write v i _ => exists shape r, vw_vars w v = Some (shape, r) /\ 0 <= i < Z.of_nat (length (vw_cells w r))
  end.
Fixpoint all_allowed (ops : list (op E)) (w : view) : Prop :=
  match ops with [] => True | o :: ops => allowed w o /\ all_allowed ops (expected o w) end.

(** What can be observed through the instances is what is expected. *)
Definition shows (st : state E) (w : view) : Prop :=
  forall v, match vw_vars w v with
  | None => st_vars st v = None
  | Some (shape, r) => exists d, st_vars st v = Some d /\ d_shape d = shape /\
      nr_elements shape = Z.of_nat (length (vw_cells w r)) /\
      forall i, 0 <= i < nr_elements shape -> exists e, nth_error (vw_cells w r) (Z.to_nat i) = Some e /\
        read_span (st_heap st) d i = Ok e /\ read_linear (st_heap st) d i = Ok e
  end.
End Spec.
