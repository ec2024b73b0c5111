(** What should be called when a model is run. *)
From Verif Require Import Common SimulateModel RunnerModel.

(** A call of a method of the user model, with what currentTimeStep() and currentSampleNumber() return meanwhile *)
Record user_call : Type := UserCall { uc_method : user_method; uc_time_step : Z; uc_sample : Z }.

(** The effect of a sequence of calls of user code; an exception ends it *)
Fixpoint effect {S : Type} (user : user_method -> attributes -> S -> outcome S) (calls : list user_call) (s : S) : outcome S :=
  match calls with
  | [] => Ok s
  | c :: calls => obind (user (uc_method c) (Attributes (uc_time_step c) (uc_sample c)) s) (effect user calls)
  end.

(** initial, and dynamic for each of the time steps *)
Definition simulation (before sample n : Z) : list user_call :=
  UserCall Initial before sample :: map (fun t => UserCall Dynamic t sample) (zseq 1 n).

(** The program was executed to its end, with time steps that finished in some order: these are the calls that it made. *)
Definition calls_of (program : list command) (calls : list call) : Prop :=
  exists es st, sim_run es (sim_init program) = Some st /\ ss_todo st = [] /\ ss_log st = calls.

(** What user code did to its state in the end *)
Definition outcome_of {S : Type} (r : outcome (attributes * S)) : outcome S := obind r (fun '(_, s) => Ok s).

(** PCRaster's Monte Carlo runs: premcloop once, before the samples; postmcloop once, after these. *)
Definition monte_carlo (samples n : Z) : list user_method :=
  [PreLoop] ++ concat (map (fun _ => Initial :: map (fun _ => Dynamic) (zseq 1 n)) (zseq 1 samples)) ++ [PostLoop].

(** The calls in the samples of a run: the loops' methods, initial and dynamic.  [before]: the time step before the sample *)
Definition sample_calls (before sample n : Z) (pre post : user_method) : list user_call :=
  UserCall pre before sample :: simulation before sample n ++ [UserCall post n sample].
