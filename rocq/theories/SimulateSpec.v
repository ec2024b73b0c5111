(** Specification vocabulary for simulations. *)
From Verif Require Import Common SimulateModel.

(** Time steps that were started and did not finish yet *)
Definition in_flight (s : sim_state) : list Z := filter (fun t => negb (is_in t (ss_finished s))) (ss_started s).

(** The rate limit that applies: the number of time steps if it is not passed in *)
Definition effective_limit (nr_time_steps rate_limit : Z) : Z := if 0 <? rate_limit then rate_limit else nr_time_steps.

(** Calls of the model's and progressor's functions by a run with [n] time steps *)
Definition expected_steps (n : Z) : list call := flat_map (fun t => [SimulateModel t; SimulateProgressor t]) (zseq 1 n).
Definition expected_deterministic (n : Z) : list call :=
  [InitializeProgressor; InitializeModel] ++ expected_steps n ++ [FinalizeModel; FinalizeProgressor].
Definition expected_stochastic (samples n : Z) : list call :=
  flat_map (fun s => [PreprocessProgressor s; PreprocessModel s] ++ expected_deterministic n ++ [PostprocessModel; PostprocessProgressor]) (zseq 1 samples).
