(** Model of the operations in lue.pcraster that are more than a call of one LUE operation: cover, max, min, ifthen, ifthenelse, boolean, defined.
    PY: framework/python; ALG: framework/algorithm/include/lue/framework/algorithm.
    Simplifications: element types are PCRaster's (pcraster/__init__.py:18-22); names of files as arguments (read_if_necessary, 390-391) are not
    modelled, nor is a configuration without partition shape (then LUE's default is used, also when reading rasters). *)
From Verif Require Import Common IndexModel DecompModel ArrayModel LocalModel.

(** The types of elements: pcraster/__init__.py:20-22, 145-148 *)
Inductive dtype : Type := U8 | I32 | F32.
Definition dtype_eq_dec : forall t s : dtype, {t = s} + {t <> s}.
Proof. decide equality. Defined.

(** float32 ([F]) and Python's float ([P]) as far as these operations look at these: std::isnan; the NaN that marks no-data; C++'s
    comparisons; conversions; [f_trunc]: Python's int() of a numpy.float32; [p_nonzero]: != 0 in Python *)
Record float_ops (F P : Type) := FloatOps {
  f_nan : F -> bool; f_mark : F; f_ge : F -> F -> bool; f_le : F -> F -> bool; f_ne : F -> F -> bool;
  f_of_Z : Z -> F; f_of_py : P -> F; f_trunc : F -> option Z; p_nonzero : P -> bool
}.
Arguments f_nan {F P}. Arguments f_mark {F P}. Arguments f_ge {F P}. Arguments f_le {F P}. Arguments f_ne {F P}.
Arguments f_of_Z {F P}. Arguments f_of_py {F P}. Arguments f_trunc {F P}. Arguments p_nonzero {F P}.

(** Numbers that can be passed: pcraster/__init__.py:320-340; bool is a subclass of int.  Not modelled: other floats than these. *)
Inductive pyvalue (F P : Type) : Type :=
| PyBool (b : bool) | PyInt (z : Z) | PyFloat (d : P) | NpU8 (z : Z) | NpI32 (z : Z) | NpF32 (f : F) | NpF64 (d : P)
| NpOtherInt (z : Z).
Arguments PyBool {F P}. Arguments PyInt {F P}. Arguments PyFloat {F P}. Arguments NpU8 {F P}. Arguments NpI32 {F P}.
Arguments NpF32 {F P}. Arguments NpF64 {F P}. Arguments NpOtherInt {F P}.

Section Pcr.
Context {F P : Type} (fo : float_ops F P).

Definition elt (t : dtype) : Type := match t with F32 => F | _ => Z end.
Definition u8 : itype := IType 8 false.
Definition i32 : itype := IType 32 true.

(** DefaultInputNoDataPolicy and DefaultOutputNoDataPolicy: ALG/policy/default_policies.hpp *)
Definition no_data (t : dtype) : elt t -> bool :=
  match t with
  | U8 => fun v => v =? no_data_value u8
  | I32 => fun v => v =? no_data_value i32
  | F32 => f_nan fo
  end.
Definition mark (t : dtype) : elt t :=
  match t with U8 => no_data_value u8 | I32 => no_data_value i32 | F32 => f_mark fo end.
Definition of_Z (t : dtype) (z : Z) : elt t := match t with F32 => f_of_Z fo z | _ => z end.

(** An argument: an array (spatial), a scalar (non-spatial) or a number: pcraster/__init__.py:293-340 *)
Inductive expr : Type := Arg (t : dtype) (x : where_arg (elt t)) | Value (v : pyvalue F P).

(** numpy_scalar_type for numbers: pcraster/__init__.py:151-168; KeyError for other types *)
Definition numpy_scalar_type (v : pyvalue F P) : outcome dtype :=
  match v with
  | PyBool _ | NpU8 _ => Ok U8
  | PyInt _ | NpI32 _ => Ok I32
  | PyFloat _ | NpF32 _ | NpF64 _ => Ok F32
  | NpOtherInt _ => Throw
  end.

(** pybind11's conversion of a Python number to an integer type: a Python float (numpy.float64 is one) and a number out of range are refused *)
Definition load_integer (t : itype) (v : pyvalue F P) : outcome Z :=
  let checked z := if in_range t z then Ok z else Throw in
  match v with
  | PyBool b => checked (Z.b2z b)
  | PyInt z | NpU8 z | NpI32 z | NpOtherInt z => checked z
  | PyFloat _ | NpF64 _ => Throw
  | NpF32 f => match f_trunc fo f with Some z => checked z | None => Throw end
  end.
(** ... and to float *)
Definition load_float (v : pyvalue F P) : outcome F :=
  Ok (match v with
      | PyBool b => f_of_Z fo (Z.b2z b)
      | PyInt z | NpU8 z | NpI32 z | NpOtherInt z => f_of_Z fo z
      | PyFloat d | NpF64 d => f_of_py fo d
      | NpF32 f => f
      end).
(** create_scalar: PY/source/core/scalar.cpp:13-16; the same conversion is done for arguments of bound functions *)
Definition load (t : dtype) : pyvalue F P -> outcome (elt t) :=
  match t with U8 => load_integer u8 | I32 => load_integer i32 | F32 => load_float end.

(** isinstance of the specialization for type [t] *)
Definition arg_as (t : dtype) (e : expr) : option (where_arg (elt t)) :=
  match e with
  | Arg s x => match dtype_eq_dec s t with left H => Some (eq_rect s (fun t => where_arg (elt t)) x t H) | right _ => None end
  | Value _ => None
  end.
(** What an argument of a bound function that takes an array, a scalar or a number of type [t] receives *)
Definition receive (t : dtype) (e : expr) : outcome (where_arg (elt t)) :=
  match e with
  | Arg _ _ => match arg_as t e with Some x => Ok x | None => Throw end
  | Value v => obind (load t v) (fun v => Ok (WScalar v))
  end.

(** The result of harmonize_types: two arguments of the same type that are not numbers *)
Record pair_of_args : Type := PairOfArgs { pr_type : dtype; pr_1 : where_arg (elt pr_type); pr_2 : where_arg (elt pr_type) }.

(** harmonize_types: pcraster/__init__.py:357-387 *)
Definition harmonize_types (e1 e2 : expr) : outcome pair_of_args :=
  obind (match e1, e2 with
         | Value v1, Value _ => obind (numpy_scalar_type v1) (fun t => obind (load t v1) (fun v => Ok (Arg t (WScalar v))))
         | _, _ => Ok e1
         end) (fun e1 =>
  match e1, e2 with
  | Arg t x1, Value _ => obind (receive t e2) (fun x2 => Ok (PairOfArgs t x1 x2))
  | Value _, Arg t x2 => obind (receive t e1) (fun x1 => Ok (PairOfArgs t x1 x2))
  | Arg t x1, Arg _ _ => match arg_as t e2 with Some x2 => Ok (PairOfArgs t x1 x2) | None => Throw end
  | Value _, Value _ => Throw
  end).

(** class Configuration: pcraster/__init__.py:52-73; [cfg_localities]: the number of localities *)
Record configuration : Type := Configuration { cfg_shape : list Z; cfg_partition : list Z; cfg_localities : Z }.

(** [junk]: the contents of freshly allocated buffers *)
Context (junk : forall t, Z -> elt t).

(** create_array2_py: PY/source/core/create_partitioned_array.cpp:480-552, with InstantiateFilled:
    ALG/create_partitioned_array.hpp:658-700 *)
Definition create_array (cfg : configuration) {t : dtype} (fill_value : elt t) : outcome (parray (elt t)) :=
  obind (partition_shapes (cfg_shape cfg) (cfg_partition cfg)) (fun '(sip, _) =>
  obind (instantiate_individually (cfg_localities cfg)
           (fun _ _ shape => repeat fill_value (Z.to_nat (nr_elements shape))) (cfg_shape cfg) (cfg_partition cfg)) (fun parts =>
  Ok (PArray (cfg_shape cfg) sip parts))).

(** non_spatial_to_spatial: pcraster/__init__.py:343-354; not modelled: the template, which is not used *)
Definition non_spatial_to_spatial (cfg : configuration) (e : expr) : outcome expr :=
  obind (match e with
         | Value v => obind (numpy_scalar_type v) (fun t => obind (load t v) (fun v => Ok (Arg t (WScalar v))))
         | Arg _ _ => Ok e
         end) (fun e =>
  match e with
  | Arg t (WScalar v) => obind (create_array cfg v) (fun x => Ok (Arg t (WArray x)))
  | _ => Throw
  end).

(** ** Comparison: ALG/greater_than_equal_to.hpp, less_than_equal_to.hpp, not_equal_to.hpp and ALG/value_policies *)
Inductive comparison_op : Type := GreaterEqual | LessEqual | NotEqual.
Definition compare_elements (op : comparison_op) (t : dtype) : elt t -> elt t -> bool :=
  match t with
  | F32 => match op with GreaterEqual => f_ge fo | LessEqual => f_le fo | NotEqual => f_ne fo end
  | U8 | I32 => match op with GreaterEqual => Z.geb | LessEqual => Z.leb | NotEqual => fun a b => negb (a =? b) end
  end.
Definition compare_policies (t : dtype) : binary_policies (elt t) (elt t) Z :=
  BinaryPolicies (no_data t) (no_data t) (fun _ _ => true) (fun _ => mark U8) (fun _ _ _ => true).
Definition compare_functor (op : comparison_op) (t : dtype) (a b : elt t) : Z := Z.b2z (compare_elements op t a b).

(** binary_local_operation(scalar, scalar): ALG/definition/binary_local_operation.hpp:562-606 *)
Definition binary_scalar {I1 I2 O} (pol : binary_policies I1 I2 O) (functor : I1 -> I2 -> O) (old : O) (a : I1) (b : I2) : O :=
  if b_no_data1 pol a || b_no_data2 pol b || negb (b_domain pol a b) then b_mark pol old
  else
    let result := functor a b in
    if negb (b_range pol a b result) then b_mark pol result else result.

(** The operators of arrays and scalars in Python: PY/include/lue/py/framework/core/partitioned_array.hpp:136-152, 170-186, 204-220 and
    scalar.hpp:106-116, 130-140, 154-164.  A scalar has no operator for arrays: Python calls the reflected one of the array. *)
Definition reflected (op : comparison_op) : comparison_op :=
  match op with GreaterEqual => LessEqual | LessEqual => GreaterEqual | NotEqual => NotEqual end.
Definition compare (op : comparison_op) {t : dtype} (x y : where_arg (elt t)) : outcome (where_arg Z) :=
  match x, y with
  | WArray x, WArray y => obind (binary_local_operation (compare_policies t) (compare_functor op t) (junk U8) x y) (fun r => Ok (WArray r))
  | WArray x, WScalar y => obind (binary_local_operation_scalar2 (compare_policies t) (compare_functor op t) (junk U8) x y) (fun r => Ok (WArray r))
  | WScalar x, WArray y =>
      obind (binary_local_operation_scalar2 (compare_policies t) (compare_functor (reflected op) t) (junk U8) y x) (fun r => Ok (WArray r))
  | WScalar x, WScalar y => Ok (WScalar (binary_scalar (compare_policies t) (compare_functor op t) (junk U8 0) x y))
  end.

(** ** where, valid and cast *)

(** policy::where::DefaultValuePolicies: ALG/value_policies/where.hpp:10-14 *)
Definition default_where (t : dtype) : where_policies (elt t) := WherePolicies (no_data U8) (no_data t) (no_data t) (fun _ => mark t).

(** The condition must be an array of uint8 (BooleanElement): PY/source/algorithm/local_operation/where.cpp:21 *)
Definition condition_array (e : expr) : outcome (parray Z) :=
  match e with Arg U8 (WArray x) => Ok x | _ => Throw end.

(** where(condition, x): where.cpp:25-36.  A scalar: binary_local_operation(array, scalar), ALG/definition/where.hpp:680-692 *)
Definition py_where2 (condition : expr) {t : dtype} (x : where_arg (elt t)) : outcome expr :=
  obind (condition_array condition) (fun c =>
  obind (match x with
         | WArray x => where2 (default_where t) (junk t) c x
         | WScalar v => binary_local_operation_scalar2 (where2_policies (default_where t)) (fun _ v => v) (junk t) c v
         end) (fun r => Ok (Arg t (WArray r)))).

(** where(condition, x, y) with x an array or a scalar: where.cpp:38-86.  There is no overload for a scalar and a number. *)
Definition py_where3 (condition : expr) {t : dtype} (x : where_arg (elt t)) (y : expr) : outcome expr :=
  obind (condition_array condition) (fun c =>
  obind (match x, y with WScalar _, Value _ => Throw | _, _ => receive t y end) (fun y =>
  obind (where3 (default_where t) (junk t) c x y) (fun r => Ok (Arg t (WArray r))))).

(** valid: ALG/value_policies/valid.hpp:13-41, ALG/valid.hpp:9-27 *)
Definition valid_policies (t : dtype) : unary_policies (elt t) Z :=
  UnaryPolicies (no_data t) (fun _ => true) (fun _ => 0) (fun _ _ => true).
Definition py_valid {t : dtype} (x : where_arg (elt t)) : outcome (where_arg Z) :=
  match x with
  | WArray x => obind (unary_local_operation (valid_policies t) (fun _ => 1) (junk U8) x) (fun r => Ok (WArray r))
  | WScalar v => Ok (WScalar (unary_scalar (valid_policies t) (fun _ => 1) (junk U8 0) v))
  end.

(** ** The operations *)

(** cover: pcraster/__init__.py:660-674 *)
Definition cover_with (t : dtype) (x : where_arg (elt t)) (y : expr) : outcome expr :=
  obind (py_valid x) (fun v => py_where3 (Arg U8 v) x y).
Definition cover (cfg : configuration) (e1 e2 : expr) (es : list expr) : outcome expr :=
  obind (harmonize_types e1 e2) (fun '(PairOfArgs t x1 x2) =>
  obind (match x1 with
         | WScalar _ => non_spatial_to_spatial cfg (Arg t x1)
         | WArray _ => Ok (Arg t x1)
         end) (fun e1 =>
  match arg_as t e1 with
  | Some (WArray x1) =>
      obind (cover_with t (WArray x1) (Arg t x2)) (fun r =>
      fold_left (fun result e =>
        obind result (fun result => match arg_as t result with Some x => cover_with t x e | None => Throw end)) es (Ok r))
  | _ => Throw
  end)).

(** max and min of two: pcraster/__init__.py:942-951, 959-968 *)
Definition select2 (op : comparison_op) (cfg : configuration) (e1 e2 : expr) : outcome expr :=
  obind (harmonize_types e1 e2) (fun '(PairOfArgs t x1 x2) =>
  obind (compare op x1 x2) (fun condition =>
  obind (match condition with
         | WScalar _ => non_spatial_to_spatial cfg (Arg U8 condition)
         | WArray _ => Ok (Arg U8 condition)
         end) (fun condition => py_where3 condition x1 (Arg t x2)))).
(** max and min: pcraster/__init__.py:937-968; without arguments: TypeError (harmonize_types takes two) *)
Fixpoint select (op : comparison_op) (cfg : configuration) (es : list expr) : outcome expr :=
  match es with
  | [] => Throw
  | [e] => Ok e
  | e :: es => obind (select op cfg es) (fun r => select2 op cfg e r)
  end.
Definition pcr_max := select GreaterEqual.
Definition pcr_min := select LessEqual.

(** The start of ifthen and ifthenelse: pcraster/__init__.py:763-766, 778-781 *)
Definition spatial_condition (cfg : configuration) (condition : expr) : outcome expr :=
  match condition with
  | Arg _ (WArray _) => Ok condition
  | Arg _ (WScalar _) => non_spatial_to_spatial cfg condition
  | Value v => obind (load U8 v) (fun v => non_spatial_to_spatial cfg (Arg U8 (WScalar v)))
  end.
(** pcraster/__init__.py:768-771, 783-791 *)
Definition scalar_if_value (e : expr) : outcome expr :=
  match e with
  | Value v => obind (numpy_scalar_type v) (fun t => obind (load t v) (fun v => Ok (Arg t (WScalar v))))
  | Arg _ _ => Ok e
  end.

(** ifthen: pcraster/__init__.py:761-773 *)
Definition ifthen (cfg : configuration) (condition e : expr) : outcome expr :=
  obind (spatial_condition cfg condition) (fun condition =>
  obind (scalar_if_value e) (fun e =>
  match e with Arg t x => py_where2 condition x | Value _ => Throw end)).

(** ifthenelse: pcraster/__init__.py:776-793 *)
Definition ifthenelse (cfg : configuration) (condition e1 e2 : expr) : outcome expr :=
  obind (spatial_condition cfg condition) (fun condition =>
  obind (scalar_if_value e1) (fun e1 =>
  obind (scalar_if_value e2) (fun e2 =>
  match e1 with Arg t x => py_where3 condition x e2 | Value _ => Throw end))).

(** != 0 of a Python number *)
Definition py_nonzero (v : pyvalue F P) : bool :=
  match v with
  | PyBool b => b
  | PyInt z | NpU8 z | NpI32 z | NpOtherInt z => negb (z =? 0)
  | PyFloat d | NpF64 d => p_nonzero fo d
  | NpF32 f => f_ne fo f (f_of_Z fo 0)
  end.

(** boolean: pcraster/__init__.py:612-627.  [first] is the element type of the first overload of where that accepts numpy.uint8; it
    depends on how LUE is configured (https://github.com/computationalgeography/lue/issues/687). *)
Definition boolean (first : itype) (fresh_first : Z -> Z) (e : expr) : outcome expr :=
  match e with
  | Arg U8 _ => Ok e
  | Arg t (WArray x) =>
      obind (compare NotEqual (WArray x) (WScalar (of_Z t 0))) (fun condition =>
      obind (condition_array (Arg U8 condition)) (fun c =>
      obind (where3 (WherePolicies (no_data U8) (fun v => v =? no_data_value first) (fun v => v =? no_data_value first) (fun _ => no_data_value first))
               fresh_first c (WScalar 1) (WScalar 0)) (fun r =>
      obind (unary_local_operation (cast_policies first u8) (cast_functor u8) (junk U8) r) (fun r => Ok (Arg U8 (WArray r))))))
  | Arg t (WScalar v) => obind (compare NotEqual (WScalar v) (WScalar (of_Z t 0))) (fun r => Ok (Arg U8 r))
  | Value v => Ok (Arg U8 (WScalar (Z.b2z (py_nonzero v))))
  end.

(** defined: pcraster/__init__.py:677-680, of an array or a scalar *)
Definition defined (e : expr) : outcome expr :=
  match e with Arg t x => obind (py_valid x) (fun r => Ok (Arg U8 r)) | Value _ => Throw end.
End Pcr.
