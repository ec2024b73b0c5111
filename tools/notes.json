{
 "C11": {
  "note": "The statement as given is false for the code: an extent smaller than nr_partitions_per_dimension gives an empty partition extent (refuted with {1,100}, 4). Proved for extents of at least that number."
 },
 "C12": {
  "note": "The statement as given is false for elongated large arrays (refuted with {1,10^9}, 2 threads). Proved for one thread, arrays with less than 4e6 cells per thread, and arrays with all extents at least the default partition extent."
 },
 "C13": {
  "note": "Proved for unary and binary operations (array/array, array/scalar, scalar/array) with any policies whose marker is a constant. The part that incompatible arguments are rejected is proved for different shapes and refuted for equal shapes with differently sized partitions in equal numbers."
 },
 "C29": {
  "note": "False as stated when the true argument is a scalar: the code swaps the no-data policies of the true and false argument (refuted). Proved when the policies agree or the true argument is an array."
 },
 "C38": {
  "note": "Proved between all integer types, and from binary64 to integer types of at most 53 bits. Refuted for binary64 to 64-bit integers (2^63 is accepted)."
 },
 "C14": {
  "note": "minimum and maximum: proved for any element type with a strict weak order. sum: proved for integers when the sum of the absolute values stays below the largest value of the type; false in general (refuted): the sum of a partition that equals the no-data marker is dropped, so the result depends on the partitioning. Rounding of floating point sums is not modelled."
 },
 "C16": {
  "note": "sum and area proved modulo 2^bits of the element type (the code does not check for overflow); sums and means of floating point numbers: the rounding error is bounded whatever the partitioning and the order of merging; whole numbers of units of size 2^e are added exactly, and their mean is the exact mean rounded once. Not covered: sums that overflow the format, infinite values, and a count above 2^prec."
 },
 "C40": {
  "note": "False of the code: the documentation of focal_mean says no-data focal cells are propagated, the functor treats the focal cell like its neighbours; the refutation exhibits a no-data focal cell that gets the mean of its neighbours.",
  "status": "partial"
 },
 "C20": {
  "note": "Proved for partitions with at least two rows and two columns, by induction over cells and partitions. Refuted for partitions of one row (cells are handled as north and as south border cells, so counted twice)."
 },
 "C21": {
  "note": "Proved for partitions with at least two rows and columns, all acyclic valid networks and all interleavings; amounts are exact rationals (rounding is not modelled). Refuted for partitions of one row: the result is wrong."
 },
 "C22": {
  "note": "Proved for partitions with at least two rows and columns and exact rational amounts; see C21 for what goes wrong otherwise."
 },
 "C23": {
  "note": "Proved for the four operations, for partitions with at least two rows and columns and exact rational amounts."
 },
 "C26": {
  "note": "Proved: bounded number of tasks, and the result once no task is left, for all schedules. A call to result_partition fails if it runs after the partition was walked to the end (refuted: nothing in the code orders these); proved never to fail when results are asked for first."
 },
 "C27": {
  "note": "downscale (assign strategy, element type unchanged) with the binary64 quotient that picks the source partition. Proved for counts >= 1 when the remainder after the last whole partition fits; the full claim is refuted: with a wide last partition (count * (extent mod partition) >= 2 partitions, or exactly one) the offset in the last source partition is wrong.",
  "status": "partial"
 },
 "C42": {
  "note": "Full statement is false: with thread-safe HDF5 a write waits for the last read only, and a read of a time step closes without waiting for the one before it (C42_sequential_refuted, an execution of read, read, write). Proved for non-thread-safe HDF5 and for programs in which each read of a time step is separated from the read before it by a write; absence of deadlock is proved for all programs and builds. Parallel I/O is not modelled."
 },
 "C28": {
  "note": "Proved in full for arrays in one partition. In general proved: the operation ends without a failing assertion, no-data maps to the mark, IDs in range, equal IDs imply connected, connected cells in the same piece of a partition or in a clump of at most three pieces get equal IDs. The full statement is false of the code (refuted): the single pass that merges sets of IDs is not transitively closed, so clumps that cross several partitions can be split. Also refuted: policies of zones that mark possible IDs as no-data."
 },
 "C43": {
  "note": "Proved for arrays whose partitions in a row of partitions are equally wide, or with one row or column of partitions. False in all other cases (C43_range_refuted): the width of the first partition of the row is used for all of them, so numbers are duplicated."
 },
 "C45": {
  "note": "Proved when there is one partition in the dimension, or when the other extent of the first partition equals the partition extent in the dimension. False in all other cases (C45_cell_index_refuted): the extent of the wrong dimension is used for the offset of partitions."
 },
 "C49": {
  "note": "In exact arithmetic (rounding not modelled), and for cells that are not at the border: there, and next to no-data, missing cells count as 0, as the documentation warns (C49_border_refuted: flat terrain has a slope). C49_slope_partial says what the result is in all cells."
 },
 "C50": {
  "note": "False of the code for every inclined plane (C50_aspect_refuted): the direction in which the plane rises is returned instead of the one in which it dips, and the tangent is inverted, so the angle is also wrong unless the plane rises along a row, column or diagonal. Exact arithmetic."
 },
 "C51": {
  "note": "Slices with a negative step that select more than one element are excluded: the step ends up in an unsigned variable and HDF5's contract is violated (C51_backward_refuted). CPython's slice arithmetic and HDF5's hyperslabs are modelled as contracts."
 },
 "C52": {
  "note": "As C51. False of the code: a[::k] = number fails for k > 1 (C52_fill_refuted), a[i] = values reads outside of values when there are too few of them (C52_row_refuted), and values of another shape but the same number are accepted (C52_shape_refuted)."
 },
 "C53": {
  "note": "Only byte strings assigned to the whole array, and reading a single string, work. Unicode strings: the first is stored everywhere (C53_write_unicode_refuted); assigning to part of the array reads outside of a buffer (C53_write_part_refuted); when reading n strings, element j is string j/4 or empty (C53_read_refuted)."
 },
 "C54": {
  "note": "HDF5's datasets (creating, resizing, hyperslabs) are modelled by their contract. Numbers of object arrays fit in 64 bits."
 },
 "C55": {
  "note": "For a program that uses one instance at a time (it may open the value again) and does not use IDs twice. False of the code: from Python, shapes with one dimension result in a read outside of the shapes and shapes with three or more are truncated to two (C55_python_rank_1_refuted, C55_python_rank_3_refuted); the number of objects is wrong after an expansion that failed halfway (C55_failed_expand_refuted) and when the value is open twice (C55_two_instances_refuted)."
 },
 "C56": {
  "note": "As C55. False of the code: after an expand for a location in time that failed because of a duplicate ID, the location in time can never be stored (C56_failed_time_refuted)."
 },
 "C57": {
  "note": "Discretization of the presence in space domains is not modelled. Valid: as far as the code looks, see C58 for what it misses."
 },
 "C58": {
  "note": "The values can be read (four theorems). False of the code: IDs before the first set are accepted (C58_ids_belong_to_a_set_refuted), two values may share an object array (C58_own_array_refuted), missing active object indices make the validator read outside of a vector (C58_missing_indices_refuted; otherwise it does not: C58_no_undefined_behaviour_partial), the contents of values with variable shapes per object are not looked at (C58_variable_shapes_refuted), sums of counts wrap around (C58_time_cells_refuted), collections may lack an object (C58_collection_refuted), and the counts of a discretization through time are never tested (C58_discretization_refuted)."
 },
 "C59": {
  "note": "Time boxes must not overlap: C59_overlapping_boxes_refuted."
 },
 "C60": {
  "note": "Holds for small values (any number of dimensions). Larger values: the extents are right up to four dimensions, and the limit of 1 MiB holds for one and two dimensions. False of the code: four dimensions of which two have an extent of one give a chunk of 16 GiB (C60_too_large_refuted), four large dimensions a chunk of 2 KiB (C60_too_small_refuted), five or eight dimensions undefined behaviour (C60_undefined_refuted), and so do values without elements (C60_empty_values_refuted)."
 },
 "C61": {
  "note": "Proved for partitions with at least two rows and columns (see C21_single_row_refuted for others) and without infinite amounts. False of the code: results do not depend on the order of tasks (C61_reproducible_refuted: double precision, 4 x 4 cells)."
 },
 "C62": {
  "note": "Proved for arrays without infinities. False of the code: the sum is the same for all partitionings (C62_partitioning_refuted), and with infinities: a partition whose sum is NaN (inf - inf) is taken for a partition without values and dropped (C62_infinities_refuted)."
 },
 "C63": {
  "note": "Proved for rasters made up of k by k whole blocks (k = 1: one block). False of the code otherwise: the arguments of shape_in_valid_cells are swapped, so blocks are skipped or iterators are out of range, and the valid cells of a partial block are not at its start (C63_second_block_refuted, C63_strips_refuted, C63_partial_blocks_refuted). A NaN that is not no-data differs from itself (C63_nan_refuted)."
 },
 "C64": {
  "note": "Proved for bands whose natural block is the whole raster; geo-transforms in exact arithmetic. False of the code otherwise: blocks of ten by ten natural blocks are used with functions that read or write a single natural block (C64_import_strips_refuted, C64_import_tile_refuted, C64_export_strips_refuted); only the first band is exported (C64_export_bands_refuted); rotated and south-up rasters (C64_geo_refuted)."
 },
 "C65": {
  "note": "Reading, writing and round trips are proved. False of the code: a valid value of the band that is LUE's no-data value (byte 255) becomes no-data (C65_valid_cells_refuted; proved otherwise in C65_no_data_partial); a clone of another shape is reported after the existing raster has been overwritten (C65_failed_write_refuted). Not modelled: conversion between types of band and array."
 },
 "C66": {
  "note": "All of it, for every addition (so also a rounding one), except that a partition may not become ready: as for first_n (C26), result_partition for a partition that has been walked already sets the promise twice (C66_integrate_refuted). That the routes made by decreasing_order visit a cell once is C66_decreasing_order_visits_once."
 },
 "C67": {
  "note": "Proved in real arithmetic, for partitions of at least 2 x 2 cells (as C21) and positive alpha, beta and duration. Boost's newton_raphson_iterate is a parameter that finds the root up to a relative error eps <= 1: its code is not in the repository, and the repository notes that its 10 iterations are not always enough. That the equation has one solution, its bounds, and that dfq is the derivative of fq are proved (C67_one_solution, C67_monotone). C67_domain_refuted: alpha = 0 is not marked as no-data but fails an assertion. C67_extraction_refuted: negative inflow (extraction) is implemented in iterate_to_new_discharge, but cannot be reached: the value policies make it no-data, the default policies fail an assertion."
 },
 "C68": {
  "note": "NumPy's addressing and C_CONTIGUOUS flag are taken from its documentation. False of the code: a NumPy array that contains LUE's own no-data value (byte 255) as a valid value comes back with the passed no-data value in its place (C68_back_and_there_refuted; proved otherwise in C68_back_and_there_partial)."
 },
 "C69": {
  "note": "pybind11's choice between overloads and its conversions of numbers, and Python's dispatch of reflected operators, are taken from their documentation. Names of files as arguments are not modelled. False of the code: of two numbers the first decides about the type, so max(1, 2.5) is an error (C69_order_of_numbers_refuted); a whole number is accepted beside a raster of floats by cover, max and min, but not by ifthenelse (C69_number_beside_floats_refuted)."
 },
 "C70": {
  "note": "Proved for static and dynamic models and for what is called in each sample. False of the code: postmcloop is never called, premcloop is called before and after each sample instead (C70_postmcloop_refuted); in initial of later samples currentTimeStep() is that of the sample before (C70_time_step_in_initial_refuted); static stochastic models can not be run (C70_static_samples_refuted); with DynamicFramework a rate limit has no effect (C70_rate_limit_refuted)."
 },
 "C71": {
  "note": "Paths as in CPython's pathlib up to 3.13, symbolic links not considered. False of the code for absolute names (C71_absolute_refuted: os.path.join drops the directory of the sample) and names that contain '..' (C71_up_refuted)."
 },
 "C72": {
  "note": "Proved for names without slashes and NULs, not empty and not '.', and one opened dataset at a time. Names with slashes are not refused by the code: an item can be gone once the dataset is opened again, or the dataset cannot be opened anymore (C72_slash_refuted); two opened datasets can add a property with the same name twice (C72_two_datasets_refuted). Descriptions, domains and shared trackers are not modelled. Names that are empty, '.', only slashes, or start with NUL are refused (proved); the part of a name after NUL is lost when the dataset is opened again (refuted)."
 },
 "C73": {
  "note": "Proved for all programs in which grid shapes have two extents and layers do not have the names of the discretization properties. Refuted: views that exist already do not see layers added through other ones; a varying raster for an object with another ID than 5, or a raster for more objects, gives a dataset that is rejected by the validation; reserved names are accepted for layers; shapes with other numbers of extents; property sets with boxes in three dimensions are said to be rasters, after which opening them is undefined. Clocks and types of values are not modelled."
 },
 "C74": {
  "note": "Proved for all texts. Refuted: a pathname without dataset is not refused, it refers to the root directory; a slash at the end shifts the names."
 },
 "C75": {
  "note": "Proved for window lengths that are an odd multiple of the cell size and that are not larger than a partition (larger ones are refused). Refuted: lengths that are calculated (3 * 0.1) or written in decimals (0.3) are refused because the quotient is rounded; the documentation says that windowmajority gives no-data for ties, it gives the smallest value; window4total includes the cell itself."
 },
 "C76": {
  "note": "Proved for files in the documented format, with float() as a parameter. Refuted: a file that is written again is not read again until setclone is called; time step 0 and negative time steps give the last lines; the time step in the first column is not used; a blank first line (an empty title) shifts the header silently; arrays with identifiers of a type that cannot represent all column numbers are refused, whatever the identifiers are."
 },
 "C77": {
  "note": "Mostly refuted. Proved for all schedules: the number of tasks is bounded, tasks fail only if results are asked for after they were delivered, and when no task is left all partitions have been delivered. If in a zone the demand exceeds the production, no crop is allocated anywhere (the test of keep_walking is inverted); if all demands are met all route cells are visited and get grass only, if inputs are valid and nothing is irrigated. Whether demand is met is a lexicographic comparison of vectors. The productions returned are always zero. Fractions can add up to more than 1 and less than 1, because the extra fractions of the previous cell are still counted. A cell without value ends the fragment."
 },
 "C78": {
  "note": "Proved for all engines: cells hold successive draws of the engine of their partition; integers lie in the closed interval and are never no-data; floating point numbers lie in the closed interval, for all formats, in spite of rounding; zonal_uniform results in [0, 1), zonal values do not depend on the partitions; no-data and the domain of normal for arrays like another one. Refuted: the half open interval (with libstdc++, uniform(array, 1, 2) can result in 2), no-data and domain checks in the overload that is given a shape and in normal(mean, stddev), limits in the wrong order are not detected, no-data in the cells of the array is ignored. std::uniform_int_distribution, std::generate_canonical and std::normal_distribution are assumed to meet their contracts."
 },
 "C79": {
  "note": "Proved for well-formed texts of all types, for the presence of entries and for the section of the application; C79_lists_accepted says exactly which texts are accepted as list and with which values. False of the code: the regular expression of lists is searched for instead of matched, so -200 is read as 200, 1.5 as 5 and words are skipped (C79_malformed_lists_refuted); boost::lexical_cast accepts negative numbers for unsigned types (C79_negative_unsigned_refuted); an entry that is set to the empty text counts as missing (C79_empty_text_refuted). HPX's configuration is a map; its expansion of references is not modelled. boost::lexical_cast and std::regex are modelled by their documentation, in the C locale."
 },
 "C25": {
  "note": "Proved for integers, with zones; without zones if there is a valid cell (C25_decreasing_order_global_refuted: otherwise the first element of an empty collection is accessed). For doubles proved if no value is smaller than the smallest positive normal number: zones with smaller values (zero, negative numbers) are walked incorrectly because std::numeric_limits<double>::min() is taken for the lowest value (C25_decreasing_order_floats_refuted)."
 },
 "C32": {
  "note": "The order of calls and that all time steps have finished at the end are proved. The rate limit is exceeded by one until the first time step has finished (C32_rate_limit_refuted); from then on it holds, and it is never exceeded by more than one (C32_rate_limit_partial)."
 },
 "C80": {
  "note": "Proved for partitions of at least two rows and columns, as in C21: C80_classes_partial says for each cell which class it gets, for all schedules; C80_same_class_partial that two runs agree, except in cells that receive water of another partition directly and also by way of a neighbour in their own partition. For these the claim is false: the class depends on which of the two arrives last (C80_order_refuted), and no cell ever gets the documented class of confluences (C80_confluence_refuted), since the class is overwritten when the last stream arrives. Missing: partitions of a single row or column, for which accu itself is wrong (C21_single_row_refuted)."
 },
 "C81": {
  "note": "Proved for all programs in which identifiers are wrapped with a function that closes them. False: an instance that is moved to itself loses its object (C81_self_move_refuted); copies of data types that are not closed upon destruction (Datatype{id}, with an id that counts as valid) leak references and trip an assertion in debug builds (C81_borrowed_refuted). HDF5's table of identifiers is modelled by a counter per identifier; close functions do not fail; single thread."
 },
 "C82": {
  "note": "Proved for all programs in which an instance that is move-assigned to does not share its non-empty buffer (C82_refines_partial). Without this it is false: move-assignment clears the array that the instance referred to, also when other instances refer to it (C82_move_to_shared_refuted, for any history), and moving between instances that share their elements fails an assertion (C82_move_from_shared_refuted). Not modelled: reshape, erase, slice, serialization, rank 0, concurrent use."
 },
 "C83": {
  "note": "locality_id and timestamp: proved for all shapes. partition_count_unique: proved for arrays of which all partitions have the same shape (C83_count_unique_partial), false for all other arrays (C83_borders_refuted): the index of a partition is calculated by dividing its offset by its own shape instead of by the shape of the partitions that are not at the border. Values are integers. partition_count_unique and timestamp are modelled for two dimensions ({1, 1} in the code)."
 },
 "C84": {
  "note": "Pools: proved in full, for integers in the JSON data. Shapes: in exact arithmetic (the code uses floating point numbers). The numbers of cells aimed at and the maximum are proved (C84_shapes_partial), and that the range starts at the smallest shape if its extents are all equal (C84_first_shape_partial). In general it does not: [1, 4] results in [0, 2] (C84_first_shape_refuted). Because extents are rounded down, the next shape does not need to have more cells (C84_growth_refuted)."
 },
 "C85": {
  "note": "Proved in full for the numbers in the scripts of strong and weak scalability experiments. The text of the scripts is not modelled; the array shapes of weak scalability experiments are (C86)."
 },
 "C86": {
  "note": "In exact arithmetic: the code calculates the multiplier with floating point numbers. The bound of 1000 times the rank is proved (C86_large_arrays). Smaller arrays can be refused: [10, 10] for two workers (C86_small_arrays_refuted)."
 },
 "C87": {
  "note": "The array shape is proved in exact arithmetic (C87_array_shape_partial; the code uses floating point numbers). Partition shapes and multipliers are proved in full. The multiplier of the largest partition shape is not in the range of multipliers (C87_largest_partition_refuted; Python's range excludes its end)."
 }
}