(** Model of how calls of to_lue and from_lue to the same dataset are ordered: framework/io/include/lue/framework/io/{serializer,to_lue,from_lue}.hpp
    and framework/io/source/lue.cpp.  Serial I/O (parallel_io is false, lue.hpp:33-42). *)
From Verif Require Import Common.

(** ** Serializer: serializer.hpp:66-213, for one key.  The generations that are present are 0 .. length - 1 (the loop of 110-114 adds all generations up
    to the one asked for; generation 0 is ready, 99-106).  [g_promise]: the promise was not handed out yet; [g_ready]: its value has been set. *)
Record generation : Type := Generation { g_promise : bool; g_ready : bool }.
Definition serializer := list generation.

Definition add_generations (s : serializer) (g : nat) : serializer :=
  let s := match s with [] => [Generation false true] | _ => s end in
  s ++ repeat (Generation true false) (g + 1 - length s).

Fixpoint set_generation (k : nat) (v : generation) (s : serializer) : serializer :=
  match s, k with
  | [], _ => []
  | _ :: s', O => v :: s'
  | x :: s', S k' => x :: set_generation k' v s'
  end.

(** promise_for: 84-124.  The second component: the promise can be used.  Generation zero: an assertion (86). *)
Definition promise_for (s : serializer) (g : nat) : outcome (serializer * bool) :=
  match g with
  | O => UB
  | _ =>
      let s := add_generations s g in
      match nth_error s g with
      | Some x => Ok (set_generation g (Generation false (g_ready x)) s, g_promise x)
      | None => UB
      end
  end.

(** when_done: 181-193; the future of a generation that is not present: assertions (185, 187) *)
Definition when_done (s : serializer) (g : nat) : outcome bool :=
  match nth_error s g with Some x => Ok (g_ready x) | None => UB end.
(** when_predecessor_done: 141-147 *)
Definition when_predecessor_done (s : serializer) (g : nat) : outcome bool := match g with O => UB | S g' => when_done s g' end.

(** A task as in the documentation of the class (32-62): it asks for the promise and for the future; once the future is ready it runs, and sets
    the value of the promise.  [t_runs]: the generations of the tasks that ran, in order. *)
Record tasks_state : Type := TasksState { t_serializer : serializer; t_waiting : list nat; t_runs : list nat; t_useless : bool }.
Inductive task_event : Type := Request (g : nat) | Run (g : nat).

Definition task_step (e : task_event) (s : tasks_state) : outcome (option tasks_state) :=
  match e with
  | Request g =>
      obind (promise_for (t_serializer s) g) (fun '(z, useful) =>
      obind (when_predecessor_done z g) (fun _ =>
      Ok (Some (TasksState z (g :: t_waiting s) (t_runs s) (t_useless s || negb useful)))))
  | Run g =>
      if existsb (Nat.eqb g) (t_waiting s) then
        obind (when_predecessor_done (t_serializer s) g) (fun ready =>
        if ready then Ok (Some (TasksState (set_generation g (Generation false true) (t_serializer s)) (filter (fun h => negb (h =? g)%nat) (t_waiting s)) (t_runs s ++ [g]) (t_useless s)))
        else Ok None)
      else Ok None
  end.

(** [None]: not a possible event *)
Fixpoint task_run (es : list task_event) (s : tasks_state) : outcome (option tasks_state) :=
  match es with
  | [] => Ok (Some s)
  | e :: es' => obind (task_step e s) (fun o => match o with Some s' => task_run es' s' | None => Ok None end)
  end.
Definition tasks_init : tasks_state := TasksState [] [] [] false.

(** ** Calls of to_lue and from_lue *)
Inductive io_operation : Type := FromLue | ToLue.
Inductive io_variability : Type := ConstantValue | VariableValue.   (* the overload without, with a time step *)
Definition io_call : Type := io_operation * io_variability.

(** What the task of a call at a locality has done. *)
Inductive io_phase : Type := NotStarted | Started | Opened | Accessed | Closed.
Definition phase_nr (p : io_phase) : nat := match p with NotStarted => 0 | Started => 1 | Opened => 2 | Accessed => 3 | Closed => 4 end.

(** Phase of each call (by position in the program) at each locality *)
Definition io_state := nat -> nat -> io_phase.
Definition io_init : io_state := fun _ _ => NotStarted.
Definition set_phase (s : io_state) (c l : nat) (p : io_phase) : io_state := fun c' l' => if (c' =? c)%nat && (l' =? l)%nat then p else s c' l'.

Definition is_operation (o : io_operation) (call : io_call) : bool :=
  match o, fst call with FromLue, FromLue => true | ToLue, ToLue => true | _, _ => false end.

(** The previous call of from_lue, to_lue (to_lue_order, from_lue_order: lue.cpp:33-104) *)
Fixpoint previous (o : io_operation) (calls : list io_call) (c : nat) : option nat :=
  match c with
  | O => None
  | S c' => match nth_error calls c' with
            | Some call => if is_operation o call then Some c' else previous o calls c'
            | None => previous o calls c'
            end
  end.

Section Order.
(** Whether HDF5 is thread-safe (serial_io_thread_safe, serial_io_non_thread_safe: lue.hpp:38-42), the number of localities (each array has a
    partition at each locality, create_partitioned_array.hpp:482-489) and the program. *)
Context (thread_safe : bool) (nr_localities : nat) (calls : list io_call).

Definition reached (p : io_phase) (s : io_state) (o : option nat) (l : nat) : bool :=
  match o with None => true | Some c => (phase_nr p <=? phase_nr (s c l))%nat end.

(** to_lue_finished, from_lue_finished: lue.cpp:188-247; to_lue.hpp:703-705, 846-848: when the last locality has finished; from_lue.hpp:630-635, 793-797:
    when all localities have finished *)
Definition finished (s : io_state) (o : option nat) : bool := forallb (reached Closed s o) (seq 0 nr_localities).

(** The task is sent to the locality.  to_lue.hpp:636-687, 762-820: once previous calls are finished, one locality after the other.
    from_lue.hpp:517-541, 560-586, 672-702, 724-751: once previous calls are finished, to all localities. *)
Definition can_start (s : io_state) (c l : nat) (call : io_call) : bool :=
  match fst call with
  | ToLue => match l with
             | O => finished s (previous ToLue calls c) && finished s (previous FromLue calls c)
             | S l' => reached Closed s (Some c) l'
             end
  | FromLue => finished s (previous ToLue calls c) && (thread_safe || finished s (previous FromLue calls c))
  end.

(** The task opens the dataset.  to_lue.hpp:203-240, 309-313 (constant), 357-423, 561-563 (variable: no dependencies in case of serial I/O);
    from_lue.hpp:148-207, 249-251 (constant), 288-367, 478-480 (variable).  That the partitions are ready is not modelled. *)
Definition can_open (s : io_state) (c l : nat) (call : io_call) : bool :=
  match call with
  | (ToLue, ConstantValue) => reached Closed s (previous FromLue calls c) l && reached Opened s (previous ToLue calls c) l
  | (ToLue, VariableValue) => true
  | (FromLue, ConstantValue) => reached Closed s (previous ToLue calls c) l && reached Opened s (previous FromLue calls c) l
  | (FromLue, VariableValue) => if thread_safe then reached Opened s (previous FromLue calls c) l else true
  end.

(** The task closes the dataset.  to_lue.hpp:289-308, 508-535; from_lue.hpp:229-247, 421-448 *)
Definition can_close (s : io_state) (c l : nat) (call : io_call) : bool :=
  match call with
  | (ToLue, ConstantValue) => reached Closed s (previous ToLue calls c) l
  | (FromLue, ConstantValue) => reached Closed s (previous FromLue calls c) l
  | (_, VariableValue) => true
  end.

Definition next_phase (p : io_phase) : io_phase := match p with NotStarted => Started | Started => Opened | Opened => Accessed | Accessed | Closed => Closed end.

(** One step of the task of call [c] at locality [l]; None: it is waiting, or it is done. *)
Definition io_step (c l : nat) (s : io_state) : option io_state :=
  match nth_error calls c with
  | Some call =>
      if (l <? nr_localities)%nat then
        if match s c l with
           | NotStarted => can_start s c l call
           | Started => can_open s c l call
           | Opened => true
           | Accessed => can_close s c l call
           | Closed => false
           end
        then Some (set_phase s c l (next_phase (s c l))) else None
      else None
  | None => None
  end.

Fixpoint io_run (es : list (nat * nat)) (s : io_state) : option io_state :=
  match es with
  | [] => Some s
  | (c, l) :: es' => match io_step c l s with Some s' => io_run es' s' | None => None end
  end.

(** The assertions in the tasks that concern the order of calls, in the state in which the task takes its next step: to_lue.hpp:227-232,
    383-396, 519; from_lue.hpp:174-179, 331-347, 432. *)
Definition assertions (c l : nat) (s : io_state) : bool :=
  match nth_error calls c with
  | Some call =>
      match s c l, call with
      | Started, (ToLue, ConstantValue) => reached Closed s (previous FromLue calls c) l
      | Started, (ToLue, VariableValue) => reached Closed s (previous FromLue calls c) l && reached Closed s (previous ToLue calls c) l
      | Started, (FromLue, ConstantValue) => reached Closed s (previous ToLue calls c) l
      | Started, (FromLue, VariableValue) => reached Closed s (previous ToLue calls c) l && (thread_safe || reached Opened s (previous FromLue calls c) l)
      | Accessed, (ToLue, VariableValue) => reached Closed s (previous ToLue calls c) l
      | Accessed, (FromLue, VariableValue) => reached Closed s (previous FromLue calls c) l
      | _, _ => true
      end
  | None => true
  end.
End Order.
