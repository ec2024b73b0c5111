{
 "claims": [
  {
   "property": "C01",
   "status": "proved",
   "theorems": [
    "C01_partitions_tile_the_array"
   ],
   "note": ""
  },
  {
   "property": "C02",
   "status": "proved",
   "theorems": [
    "C02_rejected_iff_ill_formed",
    "C02_partition_extents"
   ],
   "note": ""
  },
  {
   "property": "C03",
   "status": "proved",
   "theorems": [
    "C03_indices_roundtrip",
    "C03_linear_roundtrip",
    "C03_row_major_order",
    "C03_index_functions_agree"
   ],
   "note": ""
  },
  {
   "property": "C04",
   "status": "proved",
   "theorems": [
    "C04_hilbert_visits_each_cell_once"
   ],
   "note": ""
  },
  {
   "property": "C05",
   "status": "proved",
   "theorems": [
    "C05_linear_curve_row_major"
   ],
   "note": ""
  },
  {
   "property": "C06",
   "status": "proved",
   "theorems": [
    "C06_localities_contiguous_and_balanced"
   ],
   "note": ""
  },
  {
   "property": "C07",
   "status": "proved",
   "theorems": [
    "C07_batches_equal_individual"
   ],
   "note": ""
  },
  {
   "property": "C08",
   "status": "proved",
   "theorems": [
    "C08_array_from_buffer"
   ],
   "note": ""
  },
  {
   "property": "C09",
   "status": "proved",
   "theorems": [
    "C09_visit_array"
   ],
   "note": ""
  },
  {
   "property": "C10",
   "status": "proved",
   "theorems": [
    "C10_erase_removes_exactly_the_slab"
   ],
   "note": ""
  },
  {
   "property": "C11",
   "status": "partial",
   "theorems": [
    "C11_max_partition_shape_partial",
    "C11_max_partition_shape_refuted"
   ],
   "note": "The statement as given is false for the code: an extent smaller than nr_partitions_per_dimension gives an empty partition extent (refuted with {1,100}, 4). Proved for extents of at least that number."
  },
  {
   "property": "C12",
   "status": "partial",
   "theorems": [
    "C12_default_partition_shape_accepted_partial",
    "C12_default_partition_shape_refuted"
   ],
   "note": "The statement as given is false for elongated large arrays (refuted with {1,10^9}, 2 threads). Proved for one thread, arrays with less than 4e6 cells per thread, and arrays with all extents at least the default partition extent."
  },
  {
   "property": "C13",
   "status": "partial",
   "theorems": [
    "C13_unary_cellwise",
    "C13_binary_cellwise",
    "C13_binary_array_scalar_cellwise",
    "C13_binary_scalar_array_cellwise",
    "C13_binary_partitioning_irrelevant",
    "C13_different_shapes_rejected",
    "C13_unequal_partitions_not_rejected_refuted"
   ],
   "note": "Proved for unary and binary operations (array/array, array/scalar, scalar/array) with any policies whose marker is a constant. The part that incompatible arguments are rejected is proved for different shapes and refuted for equal shapes with differently sized partitions in equal numbers."
  },
  {
   "property": "C14",
   "status": "partial",
   "theorems": [
    "C14_minimum_maximum",
    "C14_sum_partial",
    "C14_sum_depends_on_partitioning_refuted"
   ],
   "note": "minimum and maximum: proved for any element type with a strict weak order. sum: proved for integers when the sum of the absolute values stays below the largest value of the type; false in general (refuted): the sum of a partition that equals the no-data marker is dropped, so the result depends on the partitioning. Rounding of floating point sums is not modelled."
  },
  {
   "property": "C15",
   "status": "proved",
   "theorems": [
    "C15_all_any_none"
   ],
   "note": ""
  },
  {
   "property": "C16",
   "status": "proved",
   "theorems": [
    "C16_zonal_sum_float",
    "C16_zonal_sum_of_whole_numbers",
    "C16_zonal_mean_float",
    "C16_zonal_mean_of_whole_numbers",
    "C16_zonal_sum",
    "C16_zonal_minimum",
    "C16_zonal_maximum",
    "C16_zonal_mean_exact_arithmetic",
    "C16_zonal_diversity",
    "C16_zonal_area"
   ],
   "note": "sum and area proved modulo 2^bits of the element type (the code does not check for overflow); sums and means of floating point numbers: the rounding error is bounded whatever the partitioning and the order of merging; whole numbers of units of size 2^e are added exactly, and their mean is the exact mean rounded once. Not covered: sums that overflow the format, infinite values, and a count above 2^prec."
  },
  {
   "property": "C17",
   "status": "proved",
   "theorems": [
    "C17_zonal_majority"
   ],
   "note": ""
  },
  {
   "property": "C18",
   "status": "proved",
   "theorems": [
    "C18_focal_windows",
    "C18_small_partitions_are_reported"
   ],
   "note": ""
  },
  {
   "property": "C19",
   "status": "proved",
   "theorems": [
    "C19_focal_sum",
    "C19_focal_sum_of_integers",
    "C19_focal_mean",
    "C19_focal_minimum",
    "C19_focal_maximum",
    "C19_focal_diversity",
    "C19_focal_majority",
    "C19_focal_high_pass",
    "C19_convolve"
   ],
   "note": ""
  },
  {
   "property": "C20",
   "status": "partial",
   "theorems": [
    "C20_inflow_count_partial",
    "C20_single_row_refuted"
   ],
   "note": "Proved for partitions with at least two rows and two columns, by induction over cells and partitions. Refuted for partitions of one row (cells are handled as north and as south border cells, so counted twice)."
  },
  {
   "property": "C21",
   "status": "partial",
   "theorems": [
    "C21_accu_partial",
    "C21_routing_finishes",
    "C21_single_row_refuted"
   ],
   "note": "Proved for partitions with at least two rows and columns, all acyclic valid networks and all interleavings; amounts are exact rationals (rounding is not modelled). Refuted for partitions of one row: the result is wrong."
  },
  {
   "property": "C22",
   "status": "partial",
   "theorems": [
    "C22_accu_conserves_mass_partial"
   ],
   "note": "Proved for partitions with at least two rows and columns and exact rational amounts; see C21 for what goes wrong otherwise."
  },
  {
   "property": "C23",
   "status": "partial",
   "theorems": [
    "C23_accu_threshold_partial",
    "C23_accu_capacity_partial",
    "C23_accu_fraction_partial",
    "C23_accu_trigger_partial"
   ],
   "note": "Proved for the four operations, for partitions with at least two rows and columns and exact rational amounts."
  },
  {
   "property": "C24",
   "status": "proved",
   "theorems": [
    "C24_downstream",
    "C24_upstream",
    "C24_small_partitions_are_reported"
   ],
   "note": ""
  },
  {
   "property": "C25",
   "status": "partial",
   "theorems": [
    "C25_visits_unique",
    "C25_decreasing_order_integers",
    "C25_decreasing_order_global_integers_partial",
    "C25_decreasing_order_global_refuted",
    "C25_decreasing_order_floats_partial",
    "C25_decreasing_order_floats_refuted"
   ],
   "note": "Proved for integers, with zones; without zones if there is a valid cell (C25_decreasing_order_global_refuted: otherwise the first element of an empty collection is accessed). For doubles proved if no value is smaller than the smallest positive normal number: zones with smaller values (zero, negative numbers) are walked incorrectly because std::numeric_limits<double>::min() is taken for the lowest value (C25_decreasing_order_floats_refuted)."
  },
  {
   "property": "C26",
   "status": "partial",
   "theorems": [
    "C26_first_n_partial",
    "C26_first_n_after_results_never_fails",
    "C26_decreasing_order_routes_can_be_walked",
    "C26_first_n_refuted"
   ],
   "note": "Proved: bounded number of tasks, and the result once no task is left, for all schedules. A call to result_partition fails if it runs after the partition was walked to the end (refuted: nothing in the code orders these); proved never to fail when results are asked for first."
  },
  {
   "property": "C27",
   "status": "partial",
   "theorems": [
    "C27_downscale_partial",
    "C27_zero_count_is_reported",
    "C27_downscale_refuted"
   ],
   "note": "downscale (assign strategy, element type unchanged) with the binary64 quotient that picks the source partition. Proved for counts >= 1 when the remainder after the last whole partition fits; the full claim is refuted: with a wide last partition (count * (extent mod partition) >= 2 partitions, or exactly one) the offset in the last source partition is wrong."
  },
  {
   "property": "C28",
   "status": "partial",
   "theorems": [
    "C28_clump_partial",
    "C28_one_partition",
    "C28_clump_refuted",
    "C28_policies_refuted"
   ],
   "note": "Proved in full for arrays in one partition. In general proved: the operation ends without a failing assertion, no-data maps to the mark, IDs in range, equal IDs imply connected, connected cells in the same piece of a partition or in a clump of at most three pieces get equal IDs. The full statement is false of the code (refuted): the single pass that merges sets of IDs is not transitively closed, so clumps that cross several partitions can be split. Also refuted: policies of zones that mark possible IDs as no-data."
  },
  {
   "property": "C29",
   "status": "partial",
   "theorems": [
    "C29_where_selects_partial",
    "C29_where_scalar_policies_swapped_refuted",
    "C29_where_without_false_selects"
   ],
   "note": "False as stated when the true argument is a scalar: the code swaps the no-data policies of the true and false argument (refuted). Proved when the policies agree or the true argument is an array."
  },
  {
   "property": "C30",
   "status": "proved",
   "theorems": [
    "C30_reclassify_maps_by_table"
   ],
   "note": ""
  },
  {
   "property": "C31",
   "status": "proved",
   "theorems": [
    "C31_unique",
    "C31_unique_id"
   ],
   "note": ""
  },
  {
   "property": "C32",
   "status": "partial",
   "theorems": [
    "C32_rate_limit_partial",
    "C32_rate_limit_refuted",
    "C32_calls_in_order",
    "C32_time_steps_finish_first",
    "C32_run_ends"
   ],
   "note": "The order of calls and that all time steps have finished at the end are proved. The rate limit is exceeded by one until the first time step has finished (C32_rate_limit_refuted); from then on it holds, and it is never exceeded by more than one (C32_rate_limit_partial)."
  },
  {
   "property": "C33",
   "status": "proved",
   "theorems": [
    "C33_buffers_not_shared",
    "C33_buffers_in_use_stay_allocated",
    "C33_destroying_releases_once"
   ],
   "note": ""
  },
  {
   "property": "C34",
   "status": "proved",
   "theorems": [
    "C34_write",
    "C34_read",
    "C34_round_trip",
    "C34_other_time_steps",
    "C34_no_room_is_reported"
   ],
   "note": ""
  },
  {
   "property": "C35",
   "status": "proved",
   "theorems": [
    "C35_hyperslab_centered",
    "C35_hyperslab_rejected",
    "C35_contained_iff"
   ],
   "note": ""
  },
  {
   "property": "C36",
   "status": "proved",
   "theorems": [
    "C36_clamped_shape_is_next_multiple"
   ],
   "note": ""
  },
  {
   "property": "C37",
   "status": "proved",
   "theorems": [
    "C37_integer_arithmetic_exact_or_no_data",
    "C37_abs_negate_exact_or_no_data"
   ],
   "note": ""
  },
  {
   "property": "C38",
   "status": "partial",
   "theorems": [
    "C38_integer_cast_exact_or_no_data",
    "C38_float_cast_truncates_or_no_data_partial",
    "C38_float_cast_accepts_too_large_refuted"
   ],
   "note": "Proved between all integer types, and from binary64 to integer types of at most 53 bits. Refuted for binary64 to 64-bit integers (2^63 is accepted)."
  },
  {
   "property": "C39",
   "status": "proved",
   "theorems": [
    "C39_kernels"
   ],
   "note": ""
  },
  {
   "property": "C40",
   "status": "partial",
   "theorems": [
    "C40_focal_mean_propagates_no_data_refuted"
   ],
   "note": "False of the code: the documentation of focal_mean says no-data focal cells are propagated, the functor treats the focal cell like its neighbours; the refutation exhibits a no-data focal cell that gets the mean of its neighbours."
  },
  {
   "property": "C41",
   "status": "proved",
   "theorems": [
    "C41_in_order",
    "C41_no_deadlock"
   ],
   "note": ""
  },
  {
   "property": "C42",
   "status": "partial",
   "theorems": [
    "C42_sequential_partial",
    "C42_exclusive_partial",
    "C42_assertions_partial",
    "C42_no_deadlock",
    "C42_sequential_refuted"
   ],
   "note": "Full statement is false: with thread-safe HDF5 a write waits for the last read only, and a read of a time step closes without waiting for the one before it (C42_sequential_refuted, an execution of read, read, write). Proved for non-thread-safe HDF5 and for programs in which each read of a time step is separated from the read before it by a write; absence of deadlock is proved for all programs and builds. Parallel I/O is not modelled."
  },
  {
   "property": "C43",
   "status": "partial",
   "theorems": [
    "C43_range_partial",
    "C43_range_refuted"
   ],
   "note": "Proved for arrays whose partitions in a row of partitions are equally wide, or with one row or column of partitions. False in all other cases (C43_range_refuted): the width of the first partition of the row is used for all of them, so numbers are duplicated."
  },
  {
   "property": "C44",
   "status": "proved",
   "theorems": [
    "C44_mesh_grid",
    "C44_mesh_grid_of_a_vector"
   ],
   "note": ""
  },
  {
   "property": "C45",
   "status": "partial",
   "theorems": [
    "C45_cell_index_partial",
    "C45_cell_index_refuted"
   ],
   "note": "Proved when there is one partition in the dimension, or when the other extent of the first partition equals the partition extent in the dimension. False in all other cases (C45_cell_index_refuted): the extent of the wrong dimension is used for the offset of partitions."
  },
  {
   "property": "C46",
   "status": "proved",
   "theorems": [
    "C46_array_like"
   ],
   "note": ""
  },
  {
   "property": "C47",
   "status": "proved",
   "theorems": [
    "C47_d8_flow_direction",
    "C47_flow_directions_are_a_network"
   ],
   "note": ""
  },
  {
   "property": "C48",
   "status": "proved",
   "theorems": [
    "C48_downstream_distance"
   ],
   "note": ""
  },
  {
   "property": "C49",
   "status": "partial",
   "theorems": [
    "C49_slope_partial",
    "C49_inclined_plane_partial",
    "C49_border_refuted"
   ],
   "note": "In exact arithmetic (rounding not modelled), and for cells that are not at the border: there, and next to no-data, missing cells count as 0, as the documentation warns (C49_border_refuted: flat terrain has a slope). C49_slope_partial says what the result is in all cells."
  },
  {
   "property": "C50",
   "status": "partial",
   "theorems": [
    "C50_aspect_refuted"
   ],
   "note": "False of the code for every inclined plane (C50_aspect_refuted): the direction in which the plane rises is returned instead of the one in which it dips, and the tangent is inverted, so the angle is also wrong unless the plane rises along a row, column or diagonal. Exact arithmetic."
  },
  {
   "property": "C51",
   "status": "partial",
   "theorems": [
    "C51_getitem_partial",
    "C51_getitem_single_partial",
    "C51_wrong_indices",
    "C51_backward_refuted"
   ],
   "note": "Slices with a negative step that select more than one element are excluded: the step ends up in an unsigned variable and HDF5's contract is violated (C51_backward_refuted). CPython's slice arithmetic and HDF5's hyperslabs are modelled as contracts."
  },
  {
   "property": "C52",
   "status": "partial",
   "theorems": [
    "C52_setitem_partial",
    "C52_setitem_single_partial",
    "C52_read_back_partial",
    "C52_wrong_number_partial",
    "C52_fill_partial",
    "C52_fill_refuted",
    "C52_row_refuted",
    "C52_shape_refuted"
   ],
   "note": "As C51. False of the code: a[::k] = number fails for k > 1 (C52_fill_refuted), a[i] = values reads outside of values when there are too few of them (C52_row_refuted), and values of another shape but the same number are accepted (C52_shape_refuted)."
  },
  {
   "property": "C53",
   "status": "partial",
   "theorems": [
    "C53_write_bytes_partial",
    "C53_write_unicode_refuted",
    "C53_write_part_refuted",
    "C53_read_refuted",
    "C53_read_one_partial"
   ],
   "note": "Only byte strings assigned to the whole array, and reading a single string, work. Unicode strings: the first is stored everywhere (C53_write_unicode_refuted); assigning to part of the array reads outside of a buffer (C53_write_part_refuted); when reading n strings, element j is string j/4 or empty (C53_read_refuted)."
  },
  {
   "property": "C54",
   "status": "proved",
   "theorems": [
    "C54_same_shape_values",
    "C54_one_array"
   ],
   "note": "HDF5's datasets (creating, resizing, hyperslabs) are modelled by their contract. Numbers of object arrays fit in 64 bits."
  },
  {
   "property": "C55",
   "status": "partial",
   "theorems": [
    "C55_objects",
    "C55_untouched",
    "C55_python_rank_2_partial",
    "C55_python_rank_1_refuted",
    "C55_python_rank_1_always_refuted",
    "C55_python_rank_3_refuted",
    "C55_failed_expand_refuted",
    "C55_two_instances_refuted"
   ],
   "note": "For a program that uses one instance at a time (it may open the value again) and does not use IDs twice. False of the code: from Python, shapes with one dimension result in a read outside of the shapes and shapes with three or more are truncated to two (C55_python_rank_1_refuted, C55_python_rank_3_refuted); the number of objects is wrong after an expansion that failed halfway (C55_failed_expand_refuted) and when the value is open twice (C55_two_instances_refuted)."
  },
  {
   "property": "C56",
   "status": "partial",
   "theorems": [
    "C56_value_arrays",
    "C56_objects_through_time",
    "C56_untouched",
    "C56_objects_untouched",
    "C56_failed_time_refuted"
   ],
   "note": "As C55. False of the code: after an expand for a location in time that failed because of a duplicate ID, the location in time can never be stored (C56_failed_time_refuted)."
  },
  {
   "property": "C57",
   "status": "proved",
   "theorems": [
    "C57_objects",
    "C57_dataset",
    "C57_warnings"
   ],
   "note": "Discretization of the presence in space domains is not modelled. Valid: as far as the code looks, see C58 for what it misses."
  },
  {
   "property": "C58",
   "status": "partial",
   "theorems": [
    "C58_read_same_shape_constant_shape",
    "C58_read_same_shape_variable_shape",
    "C58_read_different_shape_constant_shape",
    "C58_static_values",
    "C58_ids_belong_to_a_set_refuted",
    "C58_own_array_refuted",
    "C58_missing_indices_refuted",
    "C58_no_undefined_behaviour_partial",
    "C58_variable_shapes_refuted",
    "C58_time_cells_refuted",
    "C58_collection_refuted",
    "C58_collection_partial",
    "C58_discretization_refuted"
   ],
   "note": "The values can be read (four theorems). False of the code: IDs before the first set are accepted (C58_ids_belong_to_a_set_refuted), two values may share an object array (C58_own_array_refuted), missing active object indices make the validator read outside of a vector (C58_missing_indices_refuted; otherwise it does not: C58_no_undefined_behaviour_partial), the contents of values with variable shapes per object are not looked at (C58_variable_shapes_refuted), sums of counts wrap around (C58_time_cells_refuted), collections may lack an object (C58_collection_refuted), and the counts of a discretization through time are never tested (C58_discretization_refuted)."
  },
  {
   "property": "C59",
   "status": "partial",
   "theorems": [
    "C59_written",
    "C59_overlapping_boxes_refuted"
   ],
   "note": "Time boxes must not overlap: C59_overlapping_boxes_refuted."
  },
  {
   "property": "C60",
   "status": "partial",
   "theorems": [
    "C60_small_values",
    "C60_large_values_partial",
    "C60_large_values_limit_partial",
    "C60_too_large_refuted",
    "C60_too_small_refuted",
    "C60_undefined_refuted",
    "C60_empty_values_refuted"
   ],
   "note": "Holds for small values (any number of dimensions). Larger values: the extents are right up to four dimensions, and the limit of 1 MiB holds for one and two dimensions. False of the code: four dimensions of which two have an extent of one give a chunk of 16 GiB (C60_too_large_refuted), four large dimensions a chunk of 2 KiB (C60_too_small_refuted), five or eight dimensions undefined behaviour (C60_undefined_refuted), and so do values without elements (C60_empty_values_refuted)."
  },
  {
   "property": "C61",
   "status": "partial",
   "theorems": [
    "C61_accu_rounding_partial",
    "C61_accu_whole_numbers_partial",
    "C61_reproducible_refuted"
   ],
   "note": "Proved for partitions with at least two rows and columns (see C21_single_row_refuted for others) and without infinite amounts. False of the code: results do not depend on the order of tasks (C61_reproducible_refuted: double precision, 4 x 4 cells)."
  },
  {
   "property": "C62",
   "status": "partial",
   "theorems": [
    "C62_sum_rounding",
    "C62_sum_of_whole_numbers",
    "C62_partitioning_refuted",
    "C62_infinities_refuted"
   ],
   "note": "Proved for arrays without infinities. False of the code: the sum is the same for all partitionings (C62_partitioning_refuted), and with infinities: a partition whose sum is NaN (inf - inf) is taken for a partition without values and dropped (C62_infinities_refuted)."
  },
  {
   "property": "C63",
   "status": "partial",
   "theorems": [
    "C63_blocks_tile",
    "C63_compare_partial",
    "C63_metadata",
    "C63_second_block_refuted",
    "C63_strips_refuted",
    "C63_partial_blocks_refuted",
    "C63_nan_refuted"
   ],
   "note": "Proved for rasters made up of k by k whole blocks (k = 1: one block). False of the code otherwise: the arguments of shape_in_valid_cells are swapped, so blocks are skipped or iterators are out of range, and the valid cells of a partial block are not at its start (C63_second_block_refuted, C63_strips_refuted, C63_partial_blocks_refuted). A NaN that is not no-data differs from itself (C63_nan_refuted)."
  },
  {
   "property": "C64",
   "status": "partial",
   "theorems": [
    "C64_import_partial",
    "C64_import_strips_refuted",
    "C64_import_tile_refuted",
    "C64_export_partial",
    "C64_export_strips_refuted",
    "C64_round_trip_partial",
    "C64_export_bands_refuted",
    "C64_export_first_band_partial",
    "C64_import_bands_partial",
    "C64_geo_partial",
    "C64_geo_refuted"
   ],
   "note": "Proved for bands whose natural block is the whole raster; geo-transforms in exact arithmetic. False of the code otherwise: blocks of ten by ten natural blocks are used with functions that read or write a single natural block (C64_import_strips_refuted, C64_import_tile_refuted, C64_export_strips_refuted); only the first band is exported (C64_export_bands_refuted); rotated and south-up rasters (C64_geo_refuted)."
  },
  {
   "property": "C65",
   "status": "partial",
   "theorems": [
    "C65_read",
    "C65_read_part",
    "C65_outside_is_reported",
    "C65_write",
    "C65_round_trip",
    "C65_one_mark",
    "C65_no_data_partial",
    "C65_valid_cells_refuted",
    "C65_clone_is_checked",
    "C65_failed_write_refuted"
   ],
   "note": "Reading, writing and round trips are proved. False of the code: a valid value of the band that is LUE's no-data value (byte 255) becomes no-data (C65_valid_cells_refuted; proved otherwise in C65_no_data_partial); a clone of another shape is reported after the existing raster has been overwritten (C65_failed_write_refuted). Not modelled: conversion between types of band and array."
  },
  {
   "property": "C66",
   "status": "partial",
   "theorems": [
    "C66_integrate_partial",
    "C66_decreasing_order_visits_once",
    "C66_integrate_refuted"
   ],
   "note": "All of it, for every addition (so also a rounding one), except that a partition may not become ready: as for first_n (C26), result_partition for a partition that has been walked already sets the promise twice (C66_integrate_refuted). That the routes made by decreasing_order visit a cell once is C66_decreasing_order_visits_once."
  },
  {
   "property": "C67",
   "status": "partial",
   "theorems": [
    "C67_one_solution",
    "C67_monotone",
    "C67_extraction_partial",
    "C67_kinematic_wave_partial",
    "C67_balance_partial",
    "C67_domain_refuted",
    "C67_extraction_refuted"
   ],
   "note": "Proved in real arithmetic, for partitions of at least 2 x 2 cells (as C21) and positive alpha, beta and duration. Boost's newton_raphson_iterate is a parameter that finds the root up to a relative error eps <= 1: its code is not in the repository, and the repository notes that its 10 iterations are not always enough. That the equation has one solution, its bounds, and that dfq is the derivative of fq are proved (C67_one_solution, C67_monotone). C67_domain_refuted: alpha = 0 is not marked as no-data but fails an assertion. C67_extraction_refuted: negative inflow (extraction) is implemented in iterate_to_new_discharge, but cannot be reached: the value policies make it no-data, the default policies fail an assertion."
  },
  {
   "property": "C68",
   "status": "partial",
   "theorems": [
    "C68_from_numpy",
    "C68_refused",
    "C68_to_numpy",
    "C68_element_types",
    "C68_there_and_back",
    "C68_back_and_there_partial",
    "C68_back_and_there_refuted"
   ],
   "note": "NumPy's addressing and C_CONTIGUOUS flag are taken from its documentation. False of the code: a NumPy array that contains LUE's own no-data value (byte 255) as a valid value comes back with the passed no-data value in its place (C68_back_and_there_refuted; proved otherwise in C68_back_and_there_partial)."
  },
  {
   "property": "C69",
   "status": "partial",
   "theorems": [
    "C69_cover",
    "C69_maximum",
    "C69_minimum",
    "C69_ifthen",
    "C69_ifthenelse",
    "C69_boolean",
    "C69_boolean_scalar",
    "C69_defined",
    "C69_different_types_refused",
    "C69_type_of_numbers",
    "C69_integers",
    "C69_order_of_numbers_refuted",
    "C69_number_beside_floats_refuted"
   ],
   "note": "pybind11's choice between overloads and its conversions of numbers, and Python's dispatch of reflected operators, are taken from their documentation. Names of files as arguments are not modelled. False of the code: of two numbers the first decides about the type, so max(1, 2.5) is an error (C69_order_of_numbers_refuted); a whole number is accepted beside a raster of floats by cover, max and min, but not by ifthenelse (C69_number_beside_floats_refuted)."
  },
  {
   "property": "C70",
   "status": "partial",
   "theorems": [
    "C70_static",
    "C70_dynamic",
    "C70_dynamic_accepted",
    "C70_samples_partial",
    "C70_postmcloop_refuted",
    "C70_time_step_in_initial_refuted",
    "C70_static_samples_refuted",
    "C70_rate_limit_refuted",
    "C70_sample_directories",
    "C70_sample_directories_refused"
   ],
   "note": "Proved for static and dynamic models and for what is called in each sample. False of the code: postmcloop is never called, premcloop is called before and after each sample instead (C70_postmcloop_refuted); in initial of later samples currentTimeStep() is that of the sample before (C70_time_step_in_initial_refuted); static stochastic models can not be run (C70_static_samples_refuted); with DynamicFramework a rate limit has no effect (C70_rate_limit_refuted)."
  },
  {
   "property": "C71",
   "status": "partial",
   "theorems": [
    "C71_time_steps",
    "C71_accepted",
    "C71_samples_partial",
    "C71_directory_of_sample",
    "C71_absolute_refuted",
    "C71_up_refuted"
   ],
   "note": "Paths as in CPython's pathlib up to 3.13, symbolic links not considered. False of the code for absolute names (C71_absolute_refuted: os.path.join drops the directory of the sample) and names that contain '..' (C71_up_refuted)."
  },
  {
   "property": "C72",
   "status": "partial",
   "theorems": [
    "C72_names_partial",
    "C72_slash_refuted",
    "C72_two_datasets_refuted",
    "C72_nameless_refused",
    "C72_nul_refuted"
   ],
   "note": "Proved for names without slashes and NULs, not empty and not '.', and one opened dataset at a time. Names with slashes are not refused by the code: an item can be gone once the dataset is opened again, or the dataset cannot be opened anymore (C72_slash_refuted); two opened datasets can add a property with the same name twice (C72_two_datasets_refuted). Descriptions, domains and shared trackers are not modelled. Names that are empty, '.', only slashes, or start with NUL are refused (proved); the part of a name after NUL is lost when the dataset is opened again (refuted)."
  },
  {
   "property": "C73",
   "status": "partial",
   "theorems": [
    "C73_programs",
    "C73_valid",
    "C73_valid_views_only",
    "C73_constant_opens",
    "C73_variable_opens",
    "C73_other_views_refuted",
    "C73_valid_refuted",
    "C73_reserved_names_refuted",
    "C73_grid_shapes_refuted",
    "C73_three_dimensions_refuted"
   ],
   "note": "Proved for all programs in which grid shapes have two extents and layers do not have the names of the discretization properties. Refuted: views that exist already do not see layers added through other ones; a varying raster for an object with another ID than 5, or a raster for more objects, gives a dataset that is rejected by the validation; reserved names are accepted for layers; shapes with other numbers of extents; property sets with boxes in three dimensions are said to be rasters, after which opening them is undefined. Clocks and types of values are not modelled."
  },
  {
   "property": "C74",
   "status": "partial",
   "theorems": [
    "C74_taken_apart",
    "C74_same_file",
    "C74_put_together",
    "C74_refused",
    "C74_unambiguous",
    "C74_within_dataset",
    "C74_no_dataset_refuted",
    "C74_trailing_slash_refuted"
   ],
   "note": "Proved for all texts. Refuted: a pathname without dataset is not refused, it refers to the root directory; a slash at the end shifts the names."
  },
  {
   "property": "C75",
   "status": "partial",
   "theorems": [
    "C75_window_lengths",
    "C75_calculated_lengths_refuted",
    "C75_windowtotal",
    "C75_windowaverage",
    "C75_windowmaximum",
    "C75_windowminimum",
    "C75_windowdiversity",
    "C75_windowmajority",
    "C75_windowhighpass",
    "C75_windowmajority_documentation_refuted",
    "C75_window4total",
    "C75_large_windows_refused"
   ],
   "note": "Proved for window lengths that are an odd multiple of the cell size and that are not larger than a partition (larger ones are refused). Refuted: lengths that are calculated (3 * 0.1) or written in decimals (0.3) are refused because the quotient is rounded; the documentation says that windowmajority gives no-data for ties, it gives the smallest value; window4total includes the cell itself."
  },
  {
   "property": "C76",
   "status": "partial",
   "theorems": [
    "C76_raster",
    "C76_number",
    "C76_refused",
    "C76_cache",
    "C76_written_again_refuted",
    "C76_before_first_refuted",
    "C76_time_of_line_refuted",
    "C76_empty_title_refuted",
    "C76_many_columns_refuted"
   ],
   "note": "Proved for files in the documented format, with float() as a parameter. Refuted: a file that is written again is not read again until setclone is called; time step 0 and negative time steps give the last lines; the time step in the first column is not used; a blank first line (an empty title) shifts the header silently; arrays with identifiers of a type that cannot represent all column numbers are refused, whatever the identifiers are."
  },
  {
   "property": "C77",
   "status": "partial",
   "theorems": [
    "C77_arguments",
    "C77_met_partial",
    "C77_unmet_nothing_allocated",
    "C77_productions_zero",
    "C77_allocated_refuted",
    "C77_fractions_refuted",
    "C77_no_data_refuted"
   ],
   "note": "Mostly refuted. Proved for all schedules: the number of tasks is bounded, tasks fail only if results are asked for after they were delivered, and when no task is left all partitions have been delivered. If in a zone the demand exceeds the production, no crop is allocated anywhere (the test of keep_walking is inverted); if all demands are met all route cells are visited and get grass only, if inputs are valid and nothing is irrigated. Whether demand is met is a lexicographic comparison of vectors. The productions returned are always zero. Fractions can add up to more than 1 and less than 1, because the extra fractions of the previous cell are still counted. A cell without value ends the fragment."
  },
  {
   "property": "C78",
   "status": "partial",
   "theorems": [
    "C78_successive_draws",
    "C78_uniform_integers",
    "C78_uniform_floats_partial",
    "C78_half_open_refuted",
    "C78_no_data",
    "C78_shape_no_data_refuted",
    "C78_limits_refuted",
    "C78_no_data_cells_refuted",
    "C78_normal_array",
    "C78_normal_refuted",
    "C78_zonal",
    "C78_zonal_partitions",
    "C78_zonal_uniform"
   ],
   "note": "Proved for all engines: cells hold successive draws of the engine of their partition; integers lie in the closed interval and are never no-data; floating point numbers lie in the closed interval, for all formats, in spite of rounding; zonal_uniform results in [0, 1), zonal values do not depend on the partitions; no-data and the domain of normal for arrays like another one. Refuted: the half open interval (with libstdc++, uniform(array, 1, 2) can result in 2), no-data and domain checks in the overload that is given a shape and in normal(mean, stddev), limits in the wrong order are not detected, no-data in the cells of the array is ignored. std::uniform_int_distribution, std::generate_canonical and std::normal_distribution are assumed to meet their contracts."
  },
  {
   "property": "C79",
   "status": "partial",
   "theorems": [
    "C79_numbers_partial",
    "C79_negative_unsigned_refuted",
    "C79_lists",
    "C79_lists_accepted",
    "C79_malformed_lists_refuted",
    "C79_shapes",
    "C79_entries",
    "C79_application_entries",
    "C79_empty_text_refuted"
   ],
   "note": "Proved for well-formed texts of all types, for the presence of entries and for the section of the application; C79_lists_accepted says exactly which texts are accepted as list and with which values. False of the code: the regular expression of lists is searched for instead of matched, so -200 is read as 200, 1.5 as 5 and words are skipped (C79_malformed_lists_refuted); boost::lexical_cast accepts negative numbers for unsigned types (C79_negative_unsigned_refuted); an entry that is set to the empty text counts as missing (C79_empty_text_refuted). HPX's configuration is a map; its expansion of references is not modelled. boost::lexical_cast and std::regex are modelled by their documentation, in the C locale."
  },
  {
   "property": "C80",
   "status": "partial",
   "theorems": [
    "C80_classes_partial",
    "C80_same_class_partial",
    "C80_order_refuted",
    "C80_confluence_refuted"
   ],
   "note": "Proved for partitions of at least two rows and columns, as in C21: C80_classes_partial says for each cell which class it gets, for all schedules; C80_same_class_partial that two runs agree, except in cells that receive water of another partition directly and also by way of a neighbour in their own partition. For these the claim is false: the class depends on which of the two arrives last (C80_order_refuted), and no cell ever gets the documented class of confluences (C80_confluence_refuted), since the class is overwritten when the last stream arrives. Missing: partitions of a single row or column, for which accu itself is wrong (C21_single_row_refuted)."
  },
  {
   "property": "C81",
   "status": "partial",
   "theorems": [
    "C81_no_failure",
    "C81_reference_counts",
    "C81_reference_count",
    "C81_open_while_held",
    "C81_closed_at_most_once",
    "C81_all_closed",
    "C81_effects",
    "C81_others",
    "C81_self_move_refuted",
    "C81_borrowed_refuted"
   ],
   "note": "Proved for all programs in which identifiers are wrapped with a function that closes them. False: an instance that is moved to itself loses its object (C81_self_move_refuted); copies of data types that are not closed upon destruction (Datatype{id}, with an id that counts as valid) leak references and trip an assertion in debug builds (C81_borrowed_refuted). HDF5's table of identifiers is modelled by a counter per identifier; close functions do not fail; single thread."
  },
  {
   "property": "C82",
   "status": "partial",
   "theorems": [
    "C82_refines_partial",
    "C82_copies_survive",
    "C82_move_to_shared_refuted",
    "C82_move_from_shared_refuted"
   ],
   "note": "Proved for all programs in which an instance that is move-assigned to does not share its non-empty buffer (C82_refines_partial). Without this it is false: move-assignment clears the array that the instance referred to, also when other instances refer to it (C82_move_to_shared_refuted, for any history), and moving between instances that share their elements fails an assertion (C82_move_from_shared_refuted). Not modelled: reshape, erase, slice, serialization, rank 0, concurrent use."
  },
  {
   "property": "C83",
   "status": "partial",
   "theorems": [
    "C83_count_unique_partial",
    "C83_borders_refuted",
    "C83_locality_id",
    "C83_timestamp"
   ],
   "note": "locality_id and timestamp: proved for all shapes. partition_count_unique: proved for arrays of which all partitions have the same shape (C83_count_unique_partial), false for all other arrays (C83_borders_refuted): the index of a partition is calculated by dividing its offset by its own shape instead of by the shape of the partitions that are not at the border. Values are integers. partition_count_unique and timestamp are modelled for two dimensions ({1, 1} in the code)."
  },
  {
   "property": "C84",
   "status": "partial",
   "theorems": [
    "C84_multiplied_workers",
    "C84_incremented_workers",
    "C84_fixed_workers",
    "C84_refused",
    "C84_shapes_partial",
    "C84_first_shape_partial",
    "C84_first_shape_refuted",
    "C84_growth_refuted"
   ],
   "note": "Pools: proved in full, for integers in the JSON data. Shapes: in exact arithmetic (the code uses floating point numbers). The numbers of cells aimed at and the maximum are proved (C84_shapes_partial), and that the range starts at the smallest shape if its extents are all equal (C84_first_shape_partial). In general it does not: [1, 4] results in [0, 2] (C84_first_shape_refuted). Because extents are rounded down, the next shape does not need to have more cells (C84_growth_refuted)."
  },
  {
   "property": "C85",
   "status": "proved",
   "theorems": [
    "C85_jobs",
    "C85_jobs_fit",
    "C85_shell"
   ],
   "note": "Proved in full for the numbers in the scripts of strong and weak scalability experiments. The text of the scripts is not modelled; the array shapes of weak scalability experiments are (C86)."
  },
  {
   "property": "C86",
   "status": "partial",
   "theorems": [
    "C86_scaled_shape_partial",
    "C86_large_arrays",
    "C86_powers",
    "C86_small_arrays_refuted"
   ],
   "note": "In exact arithmetic: the code calculates the multiplier with floating point numbers. The bound of 1000 times the rank is proved (C86_large_arrays). Smaller arrays can be refused: [10, 10] for two workers (C86_small_arrays_refuted)."
  },
  {
   "property": "C87",
   "status": "partial",
   "theorems": [
    "C87_array_shape_partial",
    "C87_partition_shapes",
    "C87_multipliers",
    "C87_multiplier_ranges",
    "C87_largest_partition_refuted"
   ],
   "note": "The array shape is proved in exact arithmetic (C87_array_shape_partial; the code uses floating point numbers). Partition shapes and multipliers are proved in full. The multiplier of the largest partition shape is not in the range of multipliers (C87_largest_partition_refuted; Python's range excludes its end)."
  }
 ]
}