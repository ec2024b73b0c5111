(** Specification of the order in which calls of to_lue and from_lue take place (C41, C42). *)
From Verif Require Import Common IOOrderModel.

(** ** Tasks that use a serializer *)
Definition requests (es : list task_event) : list nat := concat (map (fun e => match e with Request g => [g] | Run _ => [] end) es).
(** Generations start at one and each is asked for once. *)
Definition well_numbered (es : list task_event) : Prop := NoDup (requests es) /\ ~ In 0%nat (requests es).

(** ** Calls *)
Definition is_write (call : io_call) : bool := match fst call with ToLue => true | FromLue => false end.

(** All localities are done with the call *)
Definition done_everywhere (nr_localities : nat) (s : io_state) (c : nat) : Prop := forall l, (l < nr_localities)%nat -> s c l = Closed.
Definition all_done (nr_localities : nat) (calls : list io_call) (s : io_state) : Prop :=
  forall c, (c < length calls)%nat -> done_everywhere nr_localities s c.
(** A locality has been sent the task of the call. *)
Definition under_way (s : io_state) (c l : nat) : Prop := s c l <> NotStarted.

(** Between a read of a time step and the read before it there is a write. *)
Definition reads_apart (calls : list io_call) : Prop :=
  forall c1 c2 v, (c1 < c2)%nat -> nth_error calls c1 = Some (FromLue, v) -> nth_error calls c2 = Some (FromLue, VariableValue) ->
    exists w u, (c1 < w < c2)%nat /\ nth_error calls w = Some (ToLue, u).

(** ** Contents of the file.  [effect c l]: what the task of call [c] at locality [l] does to the file; accessing the file is one step. *)
Section Contents.
Context {F : Type} (thread_safe : bool) (nr_localities : nat) (calls : list io_call) (effect : nat -> nat -> F -> F).

(** A history: the phases, the file, and what the tasks that read have seen. *)
Definition access (c l : nat) (s : io_state) (x : F * list (nat * nat * F)) : F * list (nat * nat * F) :=
  match s c l, nth_error calls c with
  | Opened, Some (ToLue, _) => (effect c l (fst x), snd x)
  | Opened, Some (FromLue, _) => (fst x, (c, l, fst x) :: snd x)
  | _, _ => x
  end.
Fixpoint history (es : list (nat * nat)) (s : io_state) (x : F * list (nat * nat * F)) : option (io_state * (F * list (nat * nat * F))) :=
  match es with
  | [] => Some (s, x)
  | (c, l) :: es' => match io_step thread_safe nr_localities calls c l s with Some s' => history es' s' (access c l s x) | None => None end
  end.

(** The file when the first [c] calls are executed one after the other, at one locality after the other. *)
Definition sequentially (c : nat) (f : F) : F :=
  fold_left (fun f c' => match nth_error calls c' with
                         | Some (ToLue, _) => fold_left (fun f l => effect c' l f) (seq 0 nr_localities) f
                         | _ => f
                         end) (seq 0 c) f.
End Contents.
