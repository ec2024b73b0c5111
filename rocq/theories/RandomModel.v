(** Model of uniform (ALG/definition/uniform.hpp), normal (ALG/definition/normal.hpp), zonal_uniform (ALG/definition/zonal_uniform.hpp) and
    zonal_normal (ALG/definition/zonal_normal.hpp), where ALG is source/framework/algorithm/include/lue/framework/algorithm, with the policies in
    ALG/value_policies.  Not modelled: the Mersenne Twister (the engine is any transition system) and the normal distribution's algorithm; of the
    standard library, std::uniform_real_distribution is modelled as in libstdc++, std::uniform_int_distribution by its contract. *)
From Flocq Require Import Core.
From Flocq Require Import IEEE754.BinarySingleNaN.
From Verif Require Import Common IndexModel DecompModel ArrayModel LocalModel UniqueModel.

(** A distribution of the standard library, with two parameters of type [V], that takes its bits from an engine in a state in [G].  [d_accepts]: the
    precondition of its constructor; when it does not hold the behaviour is undefined.  [d_draw]: operator(), which returns a value and advances the engine. *)
Record distribution (G V : Type) := Distribution { d_accepts : V -> V -> bool; d_draw : V -> V -> G -> V * G }.
Arguments Distribution {G V}. Arguments d_accepts {G V}. Arguments d_draw {G V}.

Section Random.
Context {G V : Type} (dist : distribution G V).

(** std::generate: uniform.hpp:86-93, 296-302; normal.hpp:85-92, 258-265 *)
Fixpoint generate (p1 p2 : V) (n : nat) (g : G) : list V :=
  match n with
  | O => []
  | S n => let '(v, g) := d_draw dist p1 p2 g in v :: generate p1 p2 n g
  end.

(** The no-data policies of the two parameters, the domain policy, and mark_no_data *)
Context (no_data : V -> bool) (within_domain : V -> V -> bool) (mark : V -> V) (junk : Z -> V).
(** The engine of the partition at an offset, seeded with a value from std::random_device: uniform.hpp:68-72, 227-230, 277-281; normal.hpp:76-80, 209-212, 250-254 *)
Context (seeded : list Z -> G).

(** uniform_partition: uniform.hpp:22-102, where no domain policy is used (all is within the domain); normal_partition: normal.hpp:20-101 *)
Definition random_partition {I} (p1 p2 : V) (q : placed (list I)) : outcome (placed (list V)) :=
  let n := nr_elements (pl_shape q) in
  let marked := for_elements n (fun _ old => Ok (mark old)) (fresh junk n) in
  obind
    (if no_data p1 || no_data p2 then marked
     else if negb (within_domain p1 p2) then marked
     else if d_accepts dist p1 p2 then Ok (generate p1 p2 (Z.to_nat n) (seeded (pl_offset q)))
     else UB)
    (fun data => Ok (Placed (pl_locality q) (pl_offset q) (pl_shape q) data)).
(** uniform(policies, array, min_value, max_value): uniform.hpp:124-177; normal(policies, array, mean, stddev): normal.hpp:116-167 *)
Definition random_like {I} (arr : parray I) (p1 p2 : V) : outcome (parray V) :=
  obind (sequence (map (random_partition p1 p2) (pa_parts arr))) (fun parts => Ok (PArray (pa_shape arr) (pa_sip arr) parts)).

(** uniform(policies, min_value, max_value): uniform.hpp:190-251; normal(policies, mean, stddev): normal.hpp:174-224; neither uses the domain policy *)
Definition random_scalar (p1 p2 : V) : outcome V :=
  if no_data p1 || no_data p2 then Ok (mark (junk 0))
  else if d_accepts dist p1 p2 then Ok (fst (d_draw dist p1 p2 (seeded []))) else UB.

(** uniform(policies, array_shape, partition_shape, min_value, max_value): uniform.hpp:260-305, 345-375 and 393-413; normal: normal.hpp:233-268,
    308-335 and 346-364; neither uses the no-data policies nor the domain policy *)
Definition random_array (nr_localities : Z) (array_shape partition_shape : list Z) (p1 p2 : V) : outcome (parray V) :=
  obind (partition_shapes array_shape partition_shape) (fun '(sip, _) =>
  obind (instantiate_individually nr_localities
           (fun _ offset shape => if d_accepts dist p1 p2 then Ok (generate p1 p2 (Z.to_nat (nr_elements shape)) (seeded offset)) else UB)
           array_shape partition_shape) (fun parts =>
  obind (sequence (map (fun q => obind (pl_data q) (fun data => Ok (Placed (pl_locality q) (pl_offset q) (pl_shape q) data))) parts)) (fun parts =>
  Ok (PArray array_shape sip parts)))).

(** The map of zones and values: zonal_uniform.hpp:52-83, zonal_normal.hpp:35-66.  std::transform visits the zones from small to large; the engine is
    part of the function that is called. *)
Fixpoint zone_value_map (p1 p2 : V) (zones : list Z) (g : G) : list (Z * V) :=
  match zones with
  | [] => []
  | zone :: zones => let '(v, g) := d_draw dist p1 p2 g in (zone, v) :: zone_value_map p1 p2 zones g
  end.
(** zonal_uniform: zonal_uniform.hpp:13-93; zonal_normal: zonal_normal.hpp:13-76.  [p1] and [p2] are 0 and 1.  Zones are integral. *)
Definition zonal_random (zone_no_data : Z -> bool) (p1 p2 : V) (zones : parray Z) : outcome (parray V) :=
  obind (unique zone_no_data zones) (fun unique_zones =>
  if d_accepts dist p1 p2 then reclassify zone_no_data mark junk (zone_value_map p1 p2 unique_zones (seeded [])) zones else UB).
End Random.

(** Policies of uniform: ALG/value_policies/uniform.hpp:8-14 *)
Definition all_within_domain {V} (_ _ : V) : bool := true.

(** std::uniform_int_distribution; [draw]: the library's algorithm *)
Definition uniform_int {G} (draw : Z -> Z -> G -> Z * G) : distribution G Z := Distribution Z.leb draw.

Section Floats.
(** [prec] and [emax] are the format's: 24 and 128 for float, 53 and 1024 for double. *)
Context (prec emax : Z) (Hprec : Prec_gt_0 prec) (Hemax : Prec_lt_emax prec emax).
Notation element := (binary_float prec emax).
Context {G : Type} (canonical : G -> element * G).
(** std::uniform_real_distribution in libstdc++ (bits/random.h): __aurng() * (b - a) + a, where __aurng() is std::generate_canonical, here [canonical].
    Its precondition: a <= b and b - a <= the largest number. *)
Definition uniform_real : distribution G element :=
  Distribution (fun a b => Bleb a b && is_finite (Bminus mode_NE b a))
    (fun a b g => let '(u, g) := canonical g in (Bplus mode_NE (Bmult mode_NE u (Bminus mode_NE b a)) a, g)).
(** std::normal_distribution; [draw]: the library's algorithm *)
Definition normal_real (draw : element -> element -> G -> element * G) : distribution G element :=
  Distribution (fun _ stddev => Bltb (B754_zero false) stddev) draw.
(** policy::normal::DomainPolicy: ALG/value_policies/normal.hpp:8-19 *)
Definition normal_domain (mean stddev : element) : bool := Bltb (B754_zero false) stddev.
End Floats.
