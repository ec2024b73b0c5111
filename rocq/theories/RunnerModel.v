(** Model of the classes that run Python models: framework/python/framework/support.py (S) and framework/python/pcraster/framework/__init__.py (P), on top
    of the model of run_deterministic and run_stochastic (SimulateModel.v).  Not modelled: progressors, and reports to the file system by user code. *)
From Verif Require Import Common SimulateModel.

(** The classes of user models: StaticModel; DynamicModel; both DynamicModel and MonteCarloModel *)
Inductive model_kind : Type := StaticKind | DynamicKind | StochasticKind.

(** What user models define: P:36-37, 86-90, 138-145 *)
Inductive user_method : Type := Initial | Dynamic | PreLoop | PostLoop.

(** Attributes _current_time_step (S:62) and _current_sample_nr (S:116), that currentTimeStep() (P:66-67) and currentSampleNumber() (P:155-156) return *)
Record attributes : Type := Attributes { current_time_step : Z; current_sample : Z }.
(** DynamicModel.__init__ and MonteCarloModel.__init__: S:59-62, 113-116 *)
Definition new_model : attributes := Attributes 0 1.
(** MonteCarloModelRunner.__init__ calls set_sample_nrs(1, nr_samples): S:123-126, 237 *)
Definition prepared_for_samples (m : attributes) : attributes := Attributes (current_time_step m) 1.

Section Run.
Context {S : Type} (user : user_method -> attributes -> S -> outcome S).

(** The methods of the user model that a call by the C++ code ends up in.  PyModel: python/source/model/model.cpp:16-52;
    DynamicModel: S:64-76; StaticModel: S:45-46; pre_monte_carlo: P:135-136; post_monte_carlo: P:141-142 (it calls premcloop);
    Model's own functions do nothing: model/source/model.cpp. *)
Definition dispatch (kind : model_kind) (c : call) (m : attributes) (s : S) : outcome (attributes * S) :=
  let invoke method m := obind (user method m s) (fun s => Ok (m, s)) in
  match c, kind with
  | PreprocessModel sample, StochasticKind => invoke PreLoop (Attributes (current_time_step m) sample)
  | InitializeModel, _ => invoke Initial m
  | SimulateModel t, (DynamicKind | StochasticKind) => invoke Dynamic (Attributes t (current_sample m))
  | PostprocessModel, StochasticKind => invoke PreLoop m
  | _, _ => Ok (m, s)
  end.

(** The calls that the C++ code makes, one after the other; an exception in user code ends the run. *)
Fixpoint perform (kind : model_kind) (calls : list call) (m : attributes) (s : S) : outcome (attributes * S) :=
  match calls with
  | [] => Ok (m, s)
  | c :: calls => obind (dispatch kind c m s) (fun '(m, s) => perform kind calls m s)
  end.
End Run.

(** StaticModelRunner.run: S:53-55 *)
Definition run_static (rate_limit : Z) : outcome (list command) :=
  if rate_limit <? 0 then Throw else run_deterministic 0 rate_limit.

(** DynamicModelRunner: the assertions of __init__ (S:94-103) and run (S:105-109) *)
Definition run_dynamic (first_time_step last_time_step rate_limit : Z) : outcome (list command) :=
  if negb (first_time_step =? 1) || negb ((1 <=? first_time_step) && (first_time_step <=? last_time_step)) then Throw
  else if rate_limit <? 0 then Throw
  else run_deterministic last_time_step rate_limit.

(** MonteCarloModelRunner: __init__ (S:233-239) and run (S:241-253).  A model that is not a MonteCarloModel has no set_sample_nrs, a StaticModelRunner has
    no first_time_step: AttributeError.  StaticKind is a model that is both a StaticModel and a MonteCarloModel here. *)
Definition run_monte_carlo (kind : model_kind) (nr_samples last_time_step rate_limit : Z) : outcome (list command) :=
  if rate_limit <? 0 then Throw
  else match kind with
       | StaticKind | DynamicKind => Throw
       | StochasticKind => run_stochastic nr_samples last_time_step rate_limit
       end.

(** ** Directories of samples *)

(** What a name in the working directory refers to *)
Inductive entry (C : Type) : Type := Nothing | AFile | ADirectory (contents : list C).
Arguments Nothing {C}. Arguments AFile {C}. Arguments ADirectory {C}.

(** initialize_sample_directories: S:221-231; names are sample numbers; os.mkdir fails if the name is in use *)
Definition make_directory {C : Type} (remove : bool) (e : entry C) : outcome (entry C) :=
  match e with
  | Nothing => Ok (ADirectory [])
  | AFile => Throw
  | ADirectory c => Ok (if remove then ADirectory [] else ADirectory c)
  end.
Fixpoint make_directories {C : Type} (remove : bool) (samples : list Z) (names : Z -> entry C) : outcome (Z -> entry C) :=
  match samples with
  | [] => Ok names
  | n :: samples =>
      obind (make_directory remove (names n)) (fun e =>
      make_directories remove samples (fun m => if m =? n then e else names m))
  end.
(** range(first_sample_nr, last_sample_nr + 1) with numbers from set_sample_nrs(1, nr_samples) *)
Definition initialize_sample_directories {C : Type} (nr_samples : Z) (remove : bool) (names : Z -> entry C) : outcome (Z -> entry C) :=
  make_directories remove (zseq 1 nr_samples) names.

(** ** The state of a time step *)

(** DynamicFramework (P:96-114) replaces dynamic by a function that returns lfr.as_state(None): a state that is ready
    (python/source/hpx.cpp:124-126), whatever the work that dynamic started.  [pw_work]: time steps with work that has not finished. *)
Record pcr_state : Type := PcrState { pw_sim : sim_state; pw_work : list Z }.
Inductive pcr_event : Type := PcrMain | PcrSignal | WorkDone (time_step : Z).
Definition pcr_step (e : pcr_event) (s : pcr_state) : option pcr_state :=
  match e with
  | PcrMain =>
      match sim_step Main (pw_sim s) with
      | Some s' =>
          match ss_todo (pw_sim s) with
          | StartTimeStep t :: _ => match sim_step (Finish t) s' with Some s'' => Some (PcrState s'' (t :: pw_work s)) | None => None end
          | _ => Some (PcrState s' (pw_work s))
          end
      | None => None
      end
  | PcrSignal => match sim_step Signal (pw_sim s) with Some s' => Some (PcrState s' (pw_work s)) | None => None end
  | WorkDone t => if is_in t (pw_work s) then Some (PcrState (pw_sim s) (filter (fun u => negb (u =? t)) (pw_work s))) else None
  end.
Fixpoint pcr_run (es : list pcr_event) (s : pcr_state) : option pcr_state :=
  match es with
  | [] => Some s
  | e :: es => match pcr_step e s with Some s => pcr_run es s | None => None end
  end.
