(** Model of local operations: unary and binary local operations, where, reclassify,
    and the policies of integer arithmetic and cast. *)
From Flocq Require Import BinarySingleNaN.
From Verif Require Import Common Float64 IndexModel DecompModel ArrayModel.

(** ** Policies: algorithm/policy/policies.hpp, mark_no_data_by_value.hpp,
    mark_no_data_by_nan.hpp, dont_mark_no_data.hpp.  [mark] is mark_no_data on an element. *)
Record unary_policies (I O : Type) := UnaryPolicies {
  u_no_data : I -> bool; u_domain : I -> bool; u_mark : O -> O; u_range : I -> O -> bool
}.
Arguments UnaryPolicies {I O}. Arguments u_no_data {I O}. Arguments u_domain {I O}.
Arguments u_mark {I O}. Arguments u_range {I O}.

Record binary_policies (I1 I2 O : Type) := BinaryPolicies {
  b_no_data1 : I1 -> bool; b_no_data2 : I2 -> bool; b_domain : I1 -> I2 -> bool;
  b_mark : O -> O; b_range : I1 -> I2 -> O -> bool
}.
Arguments BinaryPolicies {I1 I2 O}. Arguments b_no_data1 {I1 I2 O}. Arguments b_no_data2 {I1 I2 O}.
Arguments b_domain {I1 I2 O}. Arguments b_mark {I1 I2 O}. Arguments b_range {I1 I2 O}.

(** ** unary_local_operation: algorithm/definition/unary_local_operation.hpp *)

(** Loop body, lines 41-59; [old] is output_partition_data[element_idx] before. *)
Definition unary_cell {I O} (pol : unary_policies I O) (functor : I -> O) (input : I) (old : O) : O :=
  if u_no_data pol input then u_mark pol old
  else if negb (u_domain pol input) then u_mark pol old
  else
    let result := functor input in
    if negb (u_range pol input result) then u_mark pol result else result.

(** unary_local_operation_partition, lines 14-66 *)
Definition unary_partition {I O} (pol : unary_policies I O) (functor : I -> O) (junk : Z -> O)
    (q : placed (list I)) : outcome (placed (list O)) :=
  let n := nr_elements (pl_shape q) in
  obind
    (for_elements n
       (fun i old => obind (at_z (pl_data q) i) (fun input => Ok (unary_cell pol functor input old)))
       (fresh junk n))
    (fun data => Ok (Placed (pl_locality q) (pl_offset q) (pl_shape q) data)).

(** unary_local_operation(array), lines 84-116 *)
Definition unary_local_operation {I O} (pol : unary_policies I O) (functor : I -> O) (junk : Z -> O)
    (arr : parray I) : outcome (parray O) :=
  obind (sequence (map (unary_partition pol functor junk) (pa_parts arr)))
    (fun parts => Ok (PArray (pa_shape arr) (pa_sip arr) parts)).

(** unary_local_operation(scalar), lines 120-157 *)
Definition unary_scalar {I O} (pol : unary_policies I O) (functor : I -> O) (junk : O) (input : I) : O :=
  if u_no_data pol input || negb (u_domain pol input) then u_mark pol junk
  else
    let result := functor input in
    if negb (u_range pol input result) then u_mark pol result else result.

(** ** binary_local_operation: algorithm/definition/binary_local_operation.hpp *)

(** detail::verify_compatible: algorithm/detail/verify_compatible.hpp:23-43 *)
Definition shape_eqb (a b : list Z) : bool :=
  if list_eq_dec Z.eq_dec a b then true else false.
Definition verify_compatible {A B} (x : parray A) (y : parray B) : outcome unit :=
  if negb (shape_eqb (pa_shape x) (pa_shape y)) then Throw
  else if negb (shape_eqb (pa_sip x) (pa_sip y)) then Throw else Ok tt.

(** Loop body (partition, partition), lines 84-110 *)
Definition binary_cell {I1 I2 O} (pol : binary_policies I1 I2 O) (functor : I1 -> I2 -> O)
    (a : I1) (b : I2) (old : O) : O :=
  if b_no_data1 pol a || b_no_data2 pol b then b_mark pol old
  else if negb (b_domain pol a b) then b_mark pol old
  else
    let result := functor a b in
    if negb (b_range pol a b result) then b_mark pol result else result.

(** OverloadPicker(partition, partition), lines 46-122.  The assert on line 82 that both
    partitions have the same number of elements fails as UB. *)
Definition binary_partition {I1 I2 O} (pol : binary_policies I1 I2 O) (functor : I1 -> I2 -> O)
    (junk : Z -> O) (q1 : placed (list I1)) (q2 : placed (list I2)) : outcome (placed (list O)) :=
  let n := nr_elements (pl_shape q1) in
  if nr_elements (pl_shape q2) =? n then
    obind
      (for_elements n
         (fun i old => obind (at_z (pl_data q1) i) (fun a => obind (at_z (pl_data q2) i) (fun b =>
            Ok (binary_cell pol functor a b old))))
         (fresh junk n))
      (fun data => Ok (Placed (pl_locality q1) (pl_offset q1) (pl_shape q1) data))
  else UB.

(** binary_local_operation(array, array), lines 386-450 *)
Definition binary_local_operation {I1 I2 O} (pol : binary_policies I1 I2 O) (functor : I1 -> I2 -> O)
    (junk : Z -> O) (x : parray I1) (y : parray I2) : outcome (parray O) :=
  obind (verify_compatible x y) (fun _ =>
  obind (sequence (map2 (binary_partition pol functor junk) (pa_parts x) (pa_parts y)))
    (fun parts => Ok (PArray (pa_shape x) (pa_sip x) parts))).

(** Loop body (partition, scalar), lines 186-220: the scalar is tested once. *)
Definition binary_cell_scalar2 {I1 I2 O} (pol : binary_policies I1 I2 O) (functor : I1 -> I2 -> O)
    (a : I1) (b : I2) (old : O) : O :=
  if b_no_data2 pol b then b_mark pol old
  else if b_no_data1 pol a then b_mark pol old
  else if negb (b_domain pol a b) then b_mark pol old
  else
    let result := functor a b in
    if negb (b_range pol a b result) then b_mark pol result else result.

(** OverloadPicker(partition, scalar), lines 146-229, and
    binary_local_operation(array, scalar), lines 454-505. *)
Definition binary_local_operation_scalar2 {I1 I2 O} (pol : binary_policies I1 I2 O) (functor : I1 -> I2 -> O)
    (junk : Z -> O) (x : parray I1) (b : I2) : outcome (parray O) :=
  obind (sequence (map (fun q =>
    let n := nr_elements (pl_shape q) in
    obind
      (for_elements n
         (fun i old => obind (at_z (pl_data q) i) (fun a => Ok (binary_cell_scalar2 pol functor a b old)))
         (fresh junk n))
      (fun data => Ok (Placed (pl_locality q) (pl_offset q) (pl_shape q) data))) (pa_parts x)))
    (fun parts => Ok (PArray (pa_shape x) (pa_sip x) parts)).

(** Loop body (scalar, partition), lines 291-325 *)
Definition binary_cell_scalar1 {I1 I2 O} (pol : binary_policies I1 I2 O) (functor : I1 -> I2 -> O)
    (a : I1) (b : I2) (old : O) : O :=
  if b_no_data1 pol a then b_mark pol old
  else if b_no_data2 pol b then b_mark pol old
  else if negb (b_domain pol a b) then b_mark pol old
  else
    let result := functor a b in
    if negb (b_range pol a b result) then b_mark pol result else result.

(** OverloadPicker(scalar, partition), lines 247-335, and
    binary_local_operation(scalar, array), lines 509-558. *)
Definition binary_local_operation_scalar1 {I1 I2 O} (pol : binary_policies I1 I2 O) (functor : I1 -> I2 -> O)
    (junk : Z -> O) (a : I1) (y : parray I2) : outcome (parray O) :=
  obind (sequence (map (fun q =>
    let n := nr_elements (pl_shape q) in
    obind
      (for_elements n
         (fun i old => obind (at_z (pl_data q) i) (fun b => Ok (binary_cell_scalar1 pol functor a b old)))
         (fresh junk n))
      (fun data => Ok (Placed (pl_locality q) (pl_offset q) (pl_shape q) data))) (pa_parts y)))
    (fun parts => Ok (PArray (pa_shape y) (pa_sip y) parts)).

(** ** where: algorithm/definition/where.hpp *)

Record where_policies (E : Type) := WherePolicies {
  w_no_data1 : Z -> bool; w_no_data2 : E -> bool; w_no_data3 : E -> bool; w_mark : E -> E
}.
Arguments WherePolicies {E}. Arguments w_no_data1 {E}. Arguments w_no_data2 {E}.
Arguments w_no_data3 {E}. Arguments w_mark {E}.

(** Loop body, lines 101-138 (array, array) and 212-246 (array, scalar): policy 2 for the
    true value, policy 3 for the false value.  The domain policy is always true (where.hpp:28). *)
Definition where_cell {E} (pol : where_policies E) (condition : Z) (t f : E) (old : E) : E :=
  if w_no_data1 pol condition then w_mark pol old
  else if negb (condition =? 0) then (if w_no_data2 pol t then w_mark pol old else t)
  else (if w_no_data3 pol f then w_mark pol old else f).

(** Loop body, lines 318-352 (scalar, array) and 425-459 (scalar, scalar): the code tests
    the true value with policy 3 and the false value with policy 2. *)
Definition where_cell_swapped {E} (pol : where_policies E) (condition : Z) (t f : E) (old : E) : E :=
  if w_no_data1 pol condition then w_mark pol old
  else if negb (condition =? 0) then (if w_no_data3 pol t then w_mark pol old else t)
  else (if w_no_data2 pol f then w_mark pol old else f).

(** The argument of a where overload: an array or a scalar. *)
Inductive where_arg (E : Type) := WArray (x : parray E) | WScalar (v : E).
Arguments WArray {E}. Arguments WScalar {E}.

Definition where_arg_compatible {E} (c : parray Z) (x : where_arg E) : outcome unit :=
  match x with WArray x => verify_compatible c x | WScalar _ => Ok tt end.
Definition where_arg_part {E} (x : where_arg E) (k : nat) : outcome (option (placed (list E)) * option E) :=
  match x with
  | WArray x => match nth_error (pa_parts x) k with Some q => Ok (Some q, None) | None => UB end
  | WScalar v => Ok (None, Some v)
  end.
Definition where_arg_at {E} (n i : Z) (x : option (placed (list E)) * option E) : outcome E :=
  match x with
  | (Some q, _) => if nr_elements (pl_shape q) =? n then at_z (pl_data q) i else UB
  | (None, Some v) => Ok v
  | _ => UB
  end.

(** OverloadPicker, lines 43-475, and the four three-argument overloads of where, lines
    487-652.  verify_compatible is called with (condition, true) and (true, false) when both
    are arrays (lines 505, 546, 587); comparing condition and false directly is the same. *)
Definition where3 {E} (pol : where_policies E) (junk : Z -> E) (condition : parray Z) (t f : where_arg E)
  : outcome (parray E) :=
  obind (where_arg_compatible condition t) (fun _ =>
  obind (where_arg_compatible condition f) (fun _ =>
  let cell := match t with WArray _ => where_cell pol | WScalar _ => where_cell_swapped pol end in
  obind
    (sequence (map (fun k =>
       match nth_error (pa_parts condition) k with
       | None => UB
       | Some q =>
           obind (where_arg_part t k) (fun tq => obind (where_arg_part f k) (fun fq =>
           let n := nr_elements (pl_shape q) in
           obind
             (for_elements n
                (fun i old =>
                   obind (at_z (pl_data q) i) (fun c =>
                   obind (where_arg_at n i tq) (fun tv =>
                   obind (where_arg_at n i fq) (fun fv => Ok (cell c tv fv old)))))
                (fresh junk n))
             (fun data => Ok (Placed (pl_locality q) (pl_offset q) (pl_shape q) data))))
       end) (seq 0 (length (pa_parts condition)))))
    (fun parts => Ok (PArray (pa_shape condition) (pa_sip condition) parts)))).

(** where(condition, true) with arrays, lines 655-665: a binary local operation with the
    functor that returns the true value, and the domain policy of where.hpp:22-27. *)
Definition where2_policies {E} (pol : where_policies E) : binary_policies Z E E :=
  BinaryPolicies (w_no_data1 pol) (w_no_data2 pol) (fun c _ => negb (c =? 0)) (w_mark pol) (fun _ _ _ => true).
Definition where2 {E} (pol : where_policies E) (junk : Z -> E) (condition : parray Z) (t : parray E)
  : outcome (parray E) :=
  binary_local_operation (where2_policies pol) (fun _ t => t) junk condition t.

(** ** reclassify: algorithm/definition/reclassify.hpp *)

(** LookupTable is a std::unordered_map: algorithm/reclassify.hpp:10; a key occurs at most
    once.  find: definition/reclassify.hpp:54. *)
Definition lookup {V} (table : list (Z * V)) (key : Z) : option V :=
  option_map snd (find (fun e => fst e =? key) table).

(** Loop body, lines 44-64 *)
Definition reclassify_cell {V} (no_data : Z -> bool) (mark : V -> V) (table : list (Z * V)) (input : Z) (old : V) : V :=
  if no_data input then mark old
  else match lookup table input with None => mark old | Some v => v end.

(** reclassify_partition, lines 13-70 and reclassify, lines 84-116 *)
Definition reclassify {V} (no_data : Z -> bool) (mark : V -> V) (junk : Z -> V) (table : list (Z * V))
    (arr : parray Z) : outcome (parray V) :=
  obind (sequence (map (fun q =>
    let n := nr_elements (pl_shape q) in
    obind
      (for_elements n
         (fun i old => obind (at_z (pl_data q) i) (fun input => Ok (reclassify_cell no_data mark table input old)))
         (fresh junk n))
      (fun data => Ok (Placed (pl_locality q) (pl_offset q) (pl_shape q) data))) (pa_parts arr)))
    (fun parts => Ok (PArray (pa_shape arr) (pa_sip arr) parts)).

(** ** Integer element types, their functors and range policies *)

(** A built-in integer type with [bits] bits. *)
Record itype := IType { bits : Z; signed : bool }.
Definition imin (t : itype) : Z := if signed t then - 2 ^ (bits t - 1) else 0.
Definition imax (t : itype) : Z := if signed t then 2 ^ (bits t - 1) - 1 else 2 ^ bits t - 1.

(** Default no-data value: policy/detect_no_data_by_value.hpp:38-58 *)
Definition no_data_value (t : itype) : Z := if signed t then imin t else imax t.

(** Storing an integer in a variable of type [t]: modulo 2^bits. Signed overflow in the
    functors happens before the range policy is asked; it is modelled as wrapping, which is
    what the conversion to a narrow type does and what the targeted compilers do. *)
Definition wrap (t : itype) (z : Z) : Z := (z - imin t) mod 2 ^ bits t + imin t.

Definition in_range (t : itype) (z : Z) : bool := (imin t <=? z) && (z <=? imax t).

(** Policies of the arithmetic operations for element type [t]: value_policies/add.hpp,
    subtract.hpp, multiply.hpp, divide.hpp, modulus.hpp; out_of_range.hpp:24-175, where
    boost::safe<T> throws exactly when the exact result is not representable in T. *)
Definition int_policies (t : itype) (domain : Z -> Z -> bool) (range : Z -> Z -> Z -> bool) : binary_policies Z Z Z :=
  BinaryPolicies (fun v => v =? no_data_value t) (fun v => v =? no_data_value t) domain
    (fun _ => no_data_value t) range.

Inductive arith_op := Add | Subtract | Multiply | Divide | Modulus.

(** The functors: add.hpp:20-26, subtract.hpp:20-26, multiply.hpp:20-26, divide.hpp:22-27,
    modulus.hpp:23-36.  C++ / and % truncate. *)
Definition arith_functor (t : itype) (op : arith_op) (a b : Z) : Z :=
  wrap t (match op with
          | Add => a + b | Subtract => a - b | Multiply => a * b
          | Divide => Z.quot a b | Modulus => Z.rem a b
          end).

Definition arith_policies (t : itype) (op : arith_op) : binary_policies Z Z Z :=
  match op with
  | Add => int_policies t (fun _ _ => true) (fun a b _ => in_range t (a + b))
  | Subtract => int_policies t (fun _ _ => true) (fun a b _ => in_range t (a - b))
  | Multiply => int_policies t (fun _ _ => true) (fun a b _ => in_range t (a * b))
  | Divide => int_policies t (fun _ b => negb (b =? 0)) (fun _ _ _ => true)
  | Modulus => int_policies t (fun _ b => negb (b =? 0)) (fun _ _ _ => true)
  end.

(** abs and negate for signed integers: abs.hpp, negate.hpp, value_policies/abs.hpp:13-27
    (std::is_signed_v), value_policies/negate.hpp:11-15. *)
Definition abs_policies (t : itype) : unary_policies Z Z :=
  UnaryPolicies (fun v => v =? no_data_value t) (fun _ => true) (fun _ => no_data_value t)
    (fun v _ => if signed t then negb (v =? imin t) else true).
Definition abs_functor (t : itype) (v : Z) : Z := wrap t (Z.abs v).
Definition negate_policies (t : itype) : unary_policies Z Z :=
  UnaryPolicies (fun v => v =? no_data_value t) (fun _ => true) (fun _ => no_data_value t) (fun _ _ => true).
Definition negate_functor (t : itype) (v : Z) : Z := wrap t (- v).

(** cast between integer types: value_policies/cast.hpp:46-122.  Brace initialisation
    To{from} is narrowing unless To represents all values of From. *)
Definition is_narrowing (from to : itype) : bool :=
  negb ((imin to <=? imin from) && (imax from <=? imax to)).
Definition cast_range (from to : itype) (argument : Z) : bool :=
  if signed from && signed to && is_narrowing from to then
    (imin to <=? argument) && (argument <=? imax to)
  else if negb (signed from) && negb (signed to) && is_narrowing from to then argument <=? imax to
  else if signed from && negb (signed to) then
    if bits from <=? bits to then 0 <=? argument else (0 <=? argument) && (argument <=? imax to)
  else if negb (signed from) && signed to && (bits to <=? bits from) then argument <=? imax to
  else true.
Definition cast_policies (from to : itype) : unary_policies Z Z :=
  UnaryPolicies (fun v => v =? no_data_value from) (fun _ => true) (fun _ => no_data_value to)
    (fun v _ => cast_range from to v).
Definition cast_functor (to : itype) (v : Z) : Z := wrap to v.

(** cast from double to an integer type: value_policies/cast.hpp:109-117 and cast.hpp:19-22.
    static_cast of a value whose truncation is not representable gives [unspecified] (it is
    evaluated before the range policy is asked: unary_local_operation.hpp:52-57). *)
Definition cast_f64_range (to : itype) (argument : b64) : bool :=
  Bleb (b64_of_Z (imin to)) argument && Bleb argument (b64_of_Z (imax to)).
Definition cast_f64_policies (to : itype) : unary_policies b64 Z :=
  UnaryPolicies is_nan (fun _ => true) (fun _ => no_data_value to) (fun v _ => cast_f64_range to v).
Definition cast_f64_functor (unspecified : b64 -> Z) (to : itype) (v : b64) : Z :=
  if is_finite v && in_range to (Btrunc v) then Btrunc v else unspecified v.
