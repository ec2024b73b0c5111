(** Model of kinematic_wave: definition/kinematic_wave.hpp, relative to
    source/framework/algorithm/include/lue/framework/algorithm.

    Floating point elements are modelled as real numbers or NaN; NaN is what the default policies use as no-data value.
    Rounding, infinities and overflow are not modelled.  The C++ is a template over float and double: what depends on the format are
    the smallest positive number [min_discharge] and the root finder.  The root finder is Boost's newton_raphson_iterate, which is not part
    of the repository: it is a parameter [solve], given the equation and the guess (the bracket [0, max], the number of digits and the maximum
    number of iterations, 10, are the same in all calls). *)
From Coq Require Import Reals.
From Verif Require Import Common RouterModel.
Local Open Scope R_scope.

(** Comparisons of numbers *)
Definition r_lt (a b : R) : bool := if Rlt_dec a b then true else false.
Definition r_le (a b : R) : bool := if Rle_dec a b then true else false.
Definition r_eq (a b : R) : bool := if Req_EM_T a b then true else false.

(** std::pow, for a base that is not negative and results that are numbers; pow(0, negative) and pow(negative, -) are UB: they are not
    called ("pow(0, -) is not defined") *)
Definition c_pow (x y : R) : outcome R :=
  if r_lt 0 x then Ok (Rpower x y)
  else if r_lt x 0 then UB
  else if r_eq y 0 then Ok 1 else if r_lt 0 y then Ok 0 else UB.

(** lue_hpx_assert *)
Definition r_assert (b : bool) : outcome unit := if b then Ok tt else UB.

(** definition/kinematic_wave.hpp:14-17, 119-142: NonLinearKinematicWave *)
Record wave := Wave {
  w_upstream : R; w_current : R; w_lateral : R; w_alpha : R; w_beta : R; w_alpha_beta : R; w_duration : R;
  w_duration_over_length : R; w_known : R }.
(** definition/kinematic_wave.hpp:19-51: the constructor *)
Definition make_wave (upstream current lateral alpha beta duration length : R) : outcome wave :=
  obind (r_assert (r_le 0 upstream)) (fun _ => obind (r_assert (r_le 0 current)) (fun _ =>
  obind (r_assert (r_lt 0 (upstream + current + lateral))) (fun _ =>
  obind (r_assert (r_lt 0 alpha)) (fun _ => obind (r_assert (r_lt 0 beta)) (fun _ =>
  obind (r_assert (r_lt 0 duration)) (fun _ => obind (r_assert (r_lt 0 length)) (fun _ =>
  obind (c_pow current beta) (fun power =>
  Ok (Wave upstream current lateral alpha beta (alpha * beta) duration (duration / length)
        (duration / length * upstream + alpha * power + duration * lateral)))))))))).
(** definition/kinematic_wave.hpp:55-92: guess *)
Definition guess (min_discharge : R) (w : wave) : outcome R :=
  obind (if negb (r_eq (w_current w + w_upstream w) 0) || r_le 1 (w_beta w) then
           obind (c_pow ((w_current w + w_upstream w) / 2) (w_beta w - 1)) (fun power =>
           let a_b_pq := w_alpha_beta w * power in
           let numerator := w_duration_over_length w * w_upstream w + a_b_pq * w_current w + w_duration w * w_lateral w in
           let denominator := w_duration_over_length w + a_b_pq in
           (* 0 / 0 is NaN, for which the assertion in line 83 fails; x / 0 is infinite *)
           if r_eq denominator 0 then UB else Ok (Rmax (numerator / denominator) min_discharge))
         else Ok min_discharge) (fun g =>
  obind (r_assert (r_lt 0 g)) (fun _ => Ok g)).
(** definition/kinematic_wave.hpp:101-107: fq *)
Definition fq (w : wave) (q : R) : outcome R :=
  obind (r_assert (r_lt 0 q)) (fun _ => obind (c_pow q (w_beta w)) (fun power =>
  Ok (w_duration_over_length w * q + w_alpha w * power - w_known w))).
(** definition/kinematic_wave.hpp:110-116: dfq *)
Definition dfq (w : wave) (q : R) : outcome R :=
  obind (r_assert (r_lt 0 q)) (fun _ => obind (c_pow q (w_beta w - 1)) (fun power =>
  Ok (w_duration_over_length w + w_alpha_beta w * power))).

(** definition/kinematic_wave.hpp:145-254: iterate_to_new_discharge *)
Definition iterate_to_new_discharge (min_discharge : R) (solve : wave -> R -> R) (upstream current lateral alpha beta duration length : R) : outcome R :=
  obind (r_assert (r_le 0 upstream)) (fun _ => obind (r_assert (r_le 0 current)) (fun _ =>
  obind (r_assert (r_le 0 alpha)) (fun _ => obind (r_assert (r_le 0 beta)) (fun _ =>
  obind (r_assert (r_lt 0 duration)) (fun _ => obind (r_assert (r_lt 0 length)) (fun _ =>
  obind (if r_lt 0 (upstream + current) || r_lt 0 lateral then
           let inflow := if r_le 0 lateral then lateral else 0 in
           obind (make_wave upstream current inflow alpha beta duration length) (fun w =>
           obind (guess min_discharge w) (fun g => Ok (solve w g)))
         else Ok 0) (fun discharge =>
  let new_discharge := if r_lt lateral 0 then discharge - Rmin (length * Rabs lateral) discharge else discharge in
  obind (r_assert (r_le 0 new_discharge)) (fun _ => Ok new_discharge)))))))).

(** The arguments of a cell, definition/kinematic_wave.hpp:417-425: current outflow, inflow, alpha, beta, time step duration, channel length.  Arguments that are
    the same for all cells (scalars) are rasters with equal values: to_value, definition/accumulating_router.hpp *)
Record cell_args := CellArgs { ka_current : option R; ka_inflow : option R; ka_alpha : option R; ka_beta : option R; ka_duration : option R; ka_length : option R }.

(** The domain policies: value_policies/kinematic_wave.hpp:9-21, default_policies/kinematic_wave.hpp:9-11 *)
Definition value_domain (current inflow length : R) : bool := r_le 0 current && r_le 0 inflow && r_lt 0 length.
Definition any_domain (current inflow length : R) : bool := true.

Section Kinematic.
Context (min_discharge : R) (solve : wave -> R -> R) (within_domain : R -> R -> R -> bool).

(** definition/kinematic_wave.hpp:389-407 *)
Definition kw_enter_inter (outflow inflow : option R) : outcome (option R) :=
  match inflow with None => Ok None | Some i => match outflow with None => Ok None | Some o => Ok (Some (i + o)) end end.
(** definition/kinematic_wave.hpp:416-456 *)
Definition kw_enter_cell (a : cell_args) (outflow : option R) : outcome (option R) :=
  match outflow with
  | None => Ok None
  | Some o =>
      match ka_current a, ka_inflow a, ka_alpha a, ka_beta a, ka_duration a, ka_length a with
      | Some current, Some inflow, Some alpha, Some beta, Some duration, Some length =>
          if negb (within_domain current inflow length) then Ok None
          else obind (r_assert (r_le 0 o)) (fun _ => obind (r_assert (r_le 0 inflow)) (fun _ =>
               obind (iterate_to_new_discharge min_discharge solve o current inflow alpha beta duration length) (fun q => Ok (Some q))))
      | _, _, _, _, _, _ => Ok None
      end
  end.
(** definition/kinematic_wave.hpp:459-485 *)
Definition kw_leave_cell (outflow inflow : option R) : outcome (option R) :=
  match inflow with
  | None => Ok None
  | Some i => match outflow with None => Ok None | Some o => obind (r_assert (r_le 0 o)) (fun _ => Ok (Some (i + o))) end
  end.
(** The initial value is zero: definition/accumulating_router.hpp:1486-1491 and core/array.hpp:66-76 (make_unique<Element[]> value-initializes) *)
Definition kinematic : accumulator cell_args (option R) (option R) :=
  Accumulator (Some 0) None kw_enter_cell kw_leave_cell kw_enter_inter (fun x => x).
End Kinematic.
