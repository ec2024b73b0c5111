(** Model of framework/model/include/lue/framework/model/simulate.hpp.  Line numbers are those of that file. *)
From Verif Require Import Common ArrayModel.

(** Calls of the functions that the caller's model and progressor provide *)
Inductive call : Type :=
| InitializeProgressor | InitializeModel | FinalizeModel | FinalizeProgressor
| PreprocessProgressor (sample : Z) | PreprocessModel (sample : Z) | PostprocessModel | PostprocessProgressor
| SimulateModel (time_step : Z) | SimulateProgressor (time_step : Z).

(** What the thread that calls the functions in this file does.  SimulateModel returns before the time step has finished. *)
Inductive command : Type :=
| Call (c : call)
| MakeSemaphore (max_difference lower_limit : Z)   (* 78-79 *)
| StartTimeStep (time_step : Z)                    (* 91-96: simulate(model, ...) and attach_signaller *)
| WaitSemaphore (time_step : Z)                    (* 100 *)
| WaitState                                        (* 110 *)
| DropSemaphore.                                   (* end of scope *)

(** One iteration of the loop, 89-113 *)
Definition time_step_commands (last_time_step t : Z) : list command :=
  [StartTimeStep t; WaitSemaphore t; Call (SimulateProgressor t)] ++ (if t =? last_time_step then [WaitState] else []).

(** simulate, 58-115.  UB: the assertions of lines 66-67 and 74. *)
Definition simulate (first_time_step last_time_step rate_limit : Z) : outcome (list command) :=
  if (rate_limit <? 0) || (last_time_step <? first_time_step) then UB
  else
    let nr_time_steps := last_time_step - first_time_step + 1 in
    let rate_limit := if 0 <? rate_limit then rate_limit else nr_time_steps in
    Ok (MakeSemaphore (rate_limit - 1) first_time_step :: flat_map (time_step_commands last_time_step) (zseq first_time_step nr_time_steps) ++ [DropSemaphore]).

(** run_deterministic, 118-133 *)
Definition run_deterministic (nr_time_steps rate_limit : Z) : outcome (list command) :=
  obind (if 0 <? nr_time_steps then simulate 1 nr_time_steps rate_limit else Ok []) (fun time_steps =>
  Ok ([Call InitializeProgressor; Call InitializeModel] ++ time_steps ++ [Call FinalizeModel; Call FinalizeProgressor])).

(** run_stochastic, 136-153 *)
Definition run_stochastic (nr_samples nr_time_steps rate_limit : Z) : outcome (list command) :=
  obind (sequence (map (fun s => obind (run_deterministic nr_time_steps rate_limit) (fun r =>
    Ok ([Call (PreprocessProgressor s); Call (PreprocessModel s)] ++ r ++ [Call PostprocessModel; Call PostprocessProgressor]))) (zseq 1 nr_samples))) (fun samples =>
  Ok (concat samples)).

(** Execution.  [ss_started]: the time steps started by the running call of simulate, in order; [ss_finished]: those whose state became ready;
    [ss_signalled]: the number of continuations (13-37) that have run.  Continuation k is run once continuation k - 1 has run and time step k has
    finished.  [ss_dangling]: a continuation used a semaphore that did not exist, or a semaphore was dropped while continuations referred to it. *)
Record sim_state : Type := SimState {
  ss_todo : list command; ss_log : list call;
  ss_semaphore : option (Z * Z);   (* maximum difference, lower limit *)
  ss_started : list Z; ss_finished : list Z; ss_signalled : nat; ss_dangling : bool }.

Inductive event : Type := Main | Finish (time_step : Z) | Signal.

Definition is_in (t : Z) (l : list Z) : bool := existsb (Z.eqb t) l.

(** The next command of the calling thread; None: it is blocked (or done).  hpx::sliding_semaphore::wait blocks while upper - max_difference > lower_limit. *)
Definition step_main (s : sim_state) : option sim_state :=
  match ss_todo s with
  | [] => None
  | c :: todo =>
      match c with
      | Call c => Some (SimState todo (ss_log s ++ [c]) (ss_semaphore s) (ss_started s) (ss_finished s) (ss_signalled s) (ss_dangling s))
      | MakeSemaphore d l => Some (SimState todo (ss_log s) (Some (d, l)) [] [] 0 (ss_dangling s))
      | StartTimeStep t => Some (SimState todo (ss_log s ++ [SimulateModel t]) (ss_semaphore s) (ss_started s ++ [t]) (ss_finished s) (ss_signalled s) (ss_dangling s))
      | WaitSemaphore t =>
          match ss_semaphore s with
          | Some (d, l) => if l <? t - d then None else Some (SimState todo (ss_log s) (ss_semaphore s) (ss_started s) (ss_finished s) (ss_signalled s) (ss_dangling s))
          | None => None
          end
      | WaitState =>
          if (ss_signalled s =? length (ss_started s))%nat then Some (SimState todo (ss_log s) (ss_semaphore s) (ss_started s) (ss_finished s) (ss_signalled s) (ss_dangling s))
          else None
      | DropSemaphore => Some (SimState todo (ss_log s) None (ss_started s) (ss_finished s) (ss_signalled s) (ss_dangling s || negb (ss_signalled s =? length (ss_started s))%nat))
      end
  end.

(** hpx::sliding_semaphore::signal sets the lower limit to the largest of the current and the new one. *)
Definition step_signal (s : sim_state) : option sim_state :=
  match nth_error (ss_started s) (ss_signalled s) with
  | Some t =>
      if is_in t (ss_finished s) then
        match ss_semaphore s with
        | Some (d, l) => Some (SimState (ss_todo s) (ss_log s) (Some (d, Z.max t l)) (ss_started s) (ss_finished s) (S (ss_signalled s)) (ss_dangling s))
        | None => Some (SimState (ss_todo s) (ss_log s) None (ss_started s) (ss_finished s) (S (ss_signalled s)) true)
        end
      else None
  | None => None
  end.

Definition sim_step (e : event) (s : sim_state) : option sim_state :=
  match e with
  | Main => step_main s
  | Finish t => if is_in t (ss_started s) && negb (is_in t (ss_finished s)) then
      Some (SimState (ss_todo s) (ss_log s) (ss_semaphore s) (ss_started s) (t :: ss_finished s) (ss_signalled s) (ss_dangling s)) else None
  | Signal => step_signal s
  end.

Definition sim_init (program : list command) : sim_state := SimState program [] None [] [] 0 false.

Fixpoint sim_run (es : list event) (s : sim_state) : option sim_state :=
  match es with
  | [] => Some s
  | e :: es' => match sim_step e s with Some s' => sim_run es' s' | None => None end
  end.
