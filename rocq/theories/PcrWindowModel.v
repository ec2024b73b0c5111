(** Model of the window operations of lue.pcraster: framework/python/pcraster/__init__.py (P).  Lengths and the cell size are Python floats.
    Not modelled: window lengths that are no numbers; memory for windows that are larger than the memory. *)
From Flocq Require Import BinarySingleNaN.
From Verif Require Import Common LocalModel ArrayModel GridModel FocalModel FocalFunctorsModel Float64.
Open Scope Z_scope.

(** Python's / for floats: ZeroDivisionError *)
Definition py_divide (x y : b64) : outcome b64 := match y with B754_zero _ => Throw | _ => Ok (b64_div x y) end.
(** The integer that a float is, if it is one: x % 1 == 0 (not for infinities and NaN), int(x) *)
Definition as_integer (x : b64) : option Z :=
  match x with
  | B754_zero _ => Some 0
  | B754_finite s m e _ =>
      let z := if s then Zneg m else Zpos m in
      if 0 <=? e then Some (z * 2 ^ e) else if z mod 2 ^ (- e) =? 0 then Some (z / 2 ^ (- e)) else None
  | _ => None
  end.
(** translate_window_length: P:394-417.  The result of Python's % has the sign of the divisor, as Coq's. *)
Definition translate_window_length (cell_size pcraster_window_length : b64) : outcome Z :=
  obind (py_divide pcraster_window_length cell_size) (fun q =>
  match as_integer q with
  | None => Throw
  | Some n => if negb (n mod 2 =? 1) then Throw else if 0 <? n then Ok n else Throw
  end).

(** np.full((window_length, window_length), 1, dtype=np.uint8), converted to a kernel: python/source/algorithm/focal_operation/array_to_kernel.hpp:8-42 *)
Definition window (n : Z) : kernel Z := gmake n n (fun _ _ => 1).

Section Operations.
Context {E O : Type} (junk : Z -> E) (ojunk : Z -> O).

(** The functions of value_policies fill the halo with no-data: algorithm/value_policies/focal_sum.hpp:22-28, ... *)
Definition window_operation (functor : kernel Z -> grid E -> outcome O) (nd : E) (cell_size : b64) (arr : parray E) (window_length : b64) : outcome (parray O) :=
  obind (translate_window_length cell_size window_length) (fun n => focal functor (window n) junk ojunk (constant_halo nd) arr).
End Operations.

Section Arithmetic.
Context {E : Type} (junk ojunk : Z -> E) (no_data : E -> bool) (nd zero : E) (cell_size : b64).

(** windowtotal: P:1315-1319 *)
Definition windowtotal (plus : E -> E -> E) : parray E -> b64 -> outcome (parray E) :=
  window_operation junk ojunk (fun k => focal_sum_functor no_data nd k zero plus) nd cell_size.
(** windowaverage: P:1273-1277 *)
Definition windowaverage (plus : E -> E -> E) (divide : E -> Z -> E) : parray E -> b64 -> outcome (parray E) :=
  window_operation junk ojunk (fun k => focal_mean_functor no_data nd k zero plus divide) nd cell_size.
(** windowmaximum: P:1301-1305 *)
Definition windowmaximum (less : E -> E -> bool) : parray E -> b64 -> outcome (parray E) :=
  window_operation junk ojunk (fun k => focal_maximum_functor no_data nd k less zero) nd cell_size.
(** windowminimum: P:1308-1312 *)
Definition windowminimum (less : E -> E -> bool) : parray E -> b64 -> outcome (parray E) :=
  window_operation junk ojunk (fun k => focal_minimum_functor no_data nd k less zero) nd cell_size.
(** windowhighpass: P:1287-1291 *)
Definition windowhighpass (plus : E -> E -> E) (combine : E -> Z -> E -> E) : parray E -> b64 -> outcome (parray E) :=
  window_operation junk ojunk (fun k => focal_high_pass_functor no_data nd k zero plus combine) nd cell_size.
(** window4total: P:1258-1270 *)
Definition window4 : kernel Z := gmake 3 3 (fun i j => if (i =? 1) || (j =? 1) then 1 else 0).
Definition window4total (plus : E -> E -> E) (arr : parray E) : outcome (parray E) :=
  focal (fun k => focal_sum_functor no_data nd k zero plus) window4 junk ojunk (constant_halo nd) arr.
End Arithmetic.

Section Integers.
Context (junk ojunk : Z -> Z) (no_data : Z -> bool) (nd : Z) (cell_size : b64).

(** windowmajority: P:1294-1298 *)
Definition windowmajority : parray Z -> b64 -> outcome (parray Z) :=
  window_operation junk ojunk (fun k => focal_majority_functor no_data nd k) nd cell_size.
(** windowdiversity: P:1280-1284.  [count]: the type of the result, with its no-data value *)
Definition windowdiversity (count : itype) (count_nd : Z) : parray Z -> b64 -> outcome (parray Z) :=
  window_operation junk ojunk (fun k => focal_diversity_functor count no_data count_nd k) nd cell_size.
End Integers.
