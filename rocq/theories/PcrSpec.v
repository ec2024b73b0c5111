(** What the operations of lue.pcraster should give. *)
From Verif Require Import Common CoreSpec DecompSpec ArraySpec ArrayModel ArrayRep LocalModel PcrModel.

Section Spec.
Context {F P : Type} (fo : float_ops F P).

(** An argument stands for a raster of elements of type [t]: an array that contains it, or a scalar or a number that all cells have. *)
Inductive stands_for (a p : list Z) (t : dtype) : expr -> (list Z -> @elt F t) -> Prop :=
| an_array x f : raster_of a p x f -> stands_for a p t (Arg t (WArray x)) f
| a_scalar v f : (forall c, f c = v) -> stands_for a p t (Arg t (WScalar v)) f
| a_number n v f : load fo t n = Ok v -> (forall c, f c = v) -> stands_for a p t (Value n) f.

(** Not both are numbers, or the first is a number with that type. *)
Definition typed (t : dtype) (e1 e2 : @expr F P) : Prop :=
  match e1, e2 with Value n, Value _ => numpy_scalar_type n = Ok t | _, _ => True end.

(** The type of a raster with a number in each cell: booleans and numpy.uint8 give 8 bits, integers 32 bits, floating point numbers float32 *)
Inductive type_of_number : pyvalue F P -> dtype -> Prop :=
| of_bool b : type_of_number (PyBool b) U8
| of_uint8 z : type_of_number (NpU8 z) U8
| of_int z : type_of_number (PyInt z) I32
| of_int32 z : type_of_number (NpI32 z) I32
| of_float d : type_of_number (PyFloat d) F32
| of_float32 f : type_of_number (NpF32 f) F32
| of_float64 d : type_of_number (NpF64 d) F32.
(** The smallest and largest value of the type *)
Definition within (t : dtype) (z : Z) : Prop := match t with U8 => 0 <= z <= 255 | I32 => - 2147483648 <= z <= 2147483647 | F32 => True end.

(** No-data in rasters and scalars *)
Definition missing (t : dtype) (v : @elt F t) : Prop := no_data fo t v = true.

(** The value is that of the first raster that has one. *)
Definition first_valid (t : dtype) (fs : list (list Z -> @elt F t)) (c : list Z) (v : @elt F t) : Prop :=
  (forall before f after, fs = before ++ f :: after -> (forall b, In b before -> missing t (b c)) -> ~ missing t (f c) -> v = f c) /\
  ((forall f, In f fs -> missing t (f c)) -> missing t v).

(** Missing as soon as one is missing; else one of the values, that all are related to. *)
Definition extreme (R : forall t, @elt F t -> @elt F t -> Prop) (t : dtype) (fs : list (list Z -> @elt F t)) (c : list Z) (v : @elt F t) : Prop :=
  ((exists f, In f fs /\ missing t (f c)) -> missing t v) /\
  ((forall f, In f fs -> ~ missing t (f c)) -> (exists f, In f fs /\ v = f c) /\ forall f, In f fs -> R t v (f c)).

Definition at_least (t : dtype) : @elt F t -> @elt F t -> Prop :=
  match t with F32 => fun a b => f_ge fo a b = true | _ => fun a b => (a >= b)%Z end.
Definition at_most (t : dtype) : @elt F t -> @elt F t -> Prop :=
  match t with F32 => fun a b => f_le fo a b = true | _ => fun a b => (a <= b)%Z end.

(** The value of the first where the condition is true, of the second where it is false; missing where the condition or that value is. *)
Definition chosen (t : dtype) (fc : list Z -> Z) (f1 f2 g : list Z -> @elt F t) (c : list Z) : Prop :=
  (missing U8 (fc c) -> missing t (g c)) /\
  (~ missing U8 (fc c) -> fc c <> 0 -> (missing t (f1 c) -> missing t (g c)) /\ (~ missing t (f1 c) -> g c = f1 c)) /\
  (~ missing U8 (fc c) -> fc c = 0 -> (missing t (f2 c) -> missing t (g c)) /\ (~ missing t (f2 c) -> g c = f2 c)).

Definition is_zero (t : dtype) : @elt F t -> Prop :=
  match t with F32 => fun v => f_ne fo v (f_of_Z fo 0) = false | _ => fun v => v = 0 end.
(** False for zero, true for other values, missing for no-data *)
Definition truth (t : dtype) (v : @elt F t) (b : Z) : Prop :=
  (missing t v -> missing U8 b) /\ (~ missing t v -> is_zero t v -> b = 0) /\ (~ missing t v -> ~ is_zero t v -> b = 1).

(** What is known about float: NaN marks no-data; other numbers are totally ordered. *)
Record proper_floats : Prop := {
  pf_mark : f_nan fo (f_mark fo) = true;
  pf_le_ge : forall a b, f_le fo a b = f_ge fo b a;
  pf_total : forall a b, f_nan fo a = false -> f_nan fo b = false -> f_ge fo a b = false -> f_ge fo b a = true;
  pf_refl : forall a, f_nan fo a = false -> f_ge fo a a = true;
  pf_trans : forall a b c, f_ge fo a b = true -> f_ge fo b c = true -> f_ge fo a c = true;
  pf_ne : forall a b, f_ne fo a b = negb (f_ge fo a b && f_ge fo b a);
  pf_zero : f_nan fo (f_of_Z fo 0) = false
}.

(** The clone: its shape and partition shape, with at least as many partitions as localities. *)
Definition clone (cfg : configuration) (a p : list Z) : Prop :=
  cfg_shape cfg = a /\ cfg_partition cfg = p /\ length a = 2%nat /\ partition_fits a p /\
  0 < cfg_localities cfg <= nr_parts a p /\ cfg_localities cfg * nr_parts a p <= 2 ^ 50.
End Spec.
