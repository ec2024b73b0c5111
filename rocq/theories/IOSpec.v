(** Specification vocabulary for arrays in files. *)
From Coq Require Import Permutation.
From Verif Require Import Common CoreSpec DecompSpec ArraySpec IndexModel DecompModel ArrayModel IOModel.

(** The array in the file has shape [n] and cell [y] holds [F y]. *)
Definition file_holds {E} (d : dataset E) (n : list Z) (F : list Z -> E) : Prop := ds_shape d = n /\ block_holds n (ds_cells d) F.

(** The cell of the file in which cell [x] of the array of a time step is stored (None: the array does not change through time). *)
Definition stored_at (time_step : option Z) (x : list Z) : list Z := match time_step with None => x | Some t => 0 :: t :: x end.

(** The box that starts at [start] and has extents [count] lies within shape [n]. *)
Fixpoint box_within (start count n : list Z) : Prop :=
  match start, count, n with
  | [], [], [] => True
  | s :: start', c :: count', e :: n' => 0 <= s /\ s + c <= e /\ box_within start' count' n'
  | _, _, _ => False
  end.

(** The file has room for the box, at the time step. *)
Definition room_for (time_step : option Z) (start count n : list Z) : Prop :=
  match time_step with
  | None => box_within start count n
  | Some t => exists nr_locations nr_time_steps n', n = nr_locations :: nr_time_steps :: n' /\ 0 < nr_locations /\ 0 <= t < nr_time_steps /\ box_within start count n'
  end.

Definition origin (a : list Z) : list Z := map (fun _ => 0) a.
