(** Model of zonal_sum and zonal_mean for floating point elements: definition/zonal_sum.hpp:34-69 and definition/zonal_mean.hpp:40-89
    (paths are relative to source/framework/algorithm/include/lue/framework/algorithm), on zonal_operation.hpp ([ZonalModel]).
    [prec] and [emax] are the format's: 24 and 128 for float, 53 and 1024 for double. *)
From Flocq Require Import Core.
From Flocq Require Import IEEE754.BinarySingleNaN.
From Verif Require Import Common ArrayModel ZonalModel.

Section ZonalFloat.
Context (prec emax : Z) (Hprec : Prec_gt_0 prec) (Hemax : Prec_lt_emax prec emax).
Notation element := (binary_float prec emax).
(** policy/default_value_policies.hpp:17-27: a floating point value is no-data if it is NaN, and NaN marks no-data; value_policies/zonal_sum.hpp and
    value_policies/zonal_mean.hpp: all values are in the domain.  [zone_no_data] is the test for the zones, which are integers.
    Simplified: the count of ZonalMean is not wrapped to CountElement (uint64_t by default). *)
Definition float_zonal_policies (zone_no_data : Z -> bool) : zonal_policies element element :=
  ZonalPolicies is_nan zone_no_data (fun _ _ => true) (fun _ => B754_nan).
(** ZonalSum::Aggregator, zonal_sum.hpp:34-69: a zone that is not there yet gets the value (38), another one has the value added (42) *)
Definition float_sum_add (old : option element) (v : element) : element :=
  match old with None => v | Some s => Bplus mode_NE s v end.
Definition float_sum_aggregator : aggregator element element element := Aggregator float_sum_add float_sum_add (fun s => s).
(** sum / count, zonal_mean.hpp:88: the count is converted to the type of the sum *)
Definition float_divide_count (s : element) (count : Z) : element :=
  Bdiv mode_NE s (binary_normalize prec emax Hprec Hemax mode_NE count 0 false).
(** ZonalMean::Aggregator, zonal_mean.hpp:40-89 *)
Definition float_mean_aggregator : aggregator element (element * Z) element := zonal_mean_aggregator (Bplus mode_NE) float_divide_count.
(** zonal_sum and zonal_mean with the default value policies.  [iter] is the order in which a hash map's entries are visited, [junk] the content of
    a freshly allocated buffer. *)
Definition float_zonal_sum iter zone_no_data junk (values : parray element) (zones : parray Z) : outcome (parray element) :=
  zonal_operation iter (float_zonal_policies zone_no_data) float_sum_aggregator junk values zones.
Definition float_zonal_mean iter zone_no_data junk (values : parray element) (zones : parray Z) : outcome (parray element) :=
  zonal_operation iter (float_zonal_policies zone_no_data) float_mean_aggregator junk values zones.
End ZonalFloat.
