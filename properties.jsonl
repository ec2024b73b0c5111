{"id": "C01", "title": "Partitions tile the array", "statement": "Creating a partitioned array from an accepted (array shape, partition shape) pair yields partitions whose cell ranges, placed at the offsets the partitions carry, are non-empty, stay inside the array, and cover every cell of the array exactly once.", "quantifier": "all ranks, all array shapes and partition shapes accepted by the array constructor", "why_tests_cant": "Array and partition extents are unbounded, and the enlarged last partition makes every (extent, partition extent) residue a different case.", "anchors": ["source/framework/core/include/lue/framework/core/domain_decomposition.hpp: partition_shapes", "source/framework/algorithm/include/lue/framework/algorithm/create_partitioned_array.hpp: InstantiatePartitionsBase"]}
{"id": "C02", "title": "Ill-formed decompositions are rejected, well-formed ones are not", "statement": "Array creation reports an error exactly when the array is empty, the partition is empty, or the partition does not fit in the array in some dimension; otherwise the number of partitions per dimension is floor(array/partition), all but the last partition per dimension have the requested extent, and the last one has at least the requested extent and less than twice that.", "quantifier": "all ranks and all pairs of shapes", "why_tests_cant": "unbounded set of shapes", "anchors": ["source/framework/core/include/lue/framework/core/domain_decomposition.hpp: partition_shapes, shape_in_partitions"]}
{"id": "C03", "title": "Linear and multi-dimensional indices are inverse", "statement": "Converting a linear (row-major) index to indices per dimension and back is the identity in both directions, results are always in range, and the conversion is a bijection between [0, nr_elements) and the cells of the shape.", "quantifier": "all ranks, all non-empty shapes and all indices", "why_tests_cant": "unbounded shapes", "anchors": ["source/framework/core/include/lue/framework/core/index_util.hpp: linear_idx_to_idxs, idxs_to_linear_idx", "source/framework/core/include/lue/framework/core/array_visitor.hpp: linear_idx"]}
{"id": "C04", "title": "The space-filling curve visits each partition exactly once", "statement": "Walking a two-dimensional shape along the Hilbert curve calls the visitor for each cell of the shape exactly once, never with a cell outside the shape, so every partition of a 2D array is instantiated once and only once.", "quantifier": "all two-dimensional shapes", "why_tests_cant": "The recursion splits on the parity and aspect ratio of every sub-rectangle; the set of reachable sub-rectangles is unbounded.", "anchors": ["source/framework/core/include/lue/framework/core/hilbert_curve.hpp: HilbertCurve<2>", "source/framework/algorithm/include/lue/framework/algorithm/create_partitioned_array.hpp"]}
{"id": "C05", "title": "The linear curve visits cells in row-major order", "statement": "Walking a shape along the linear curve calls the visitor with every cell once, in the order of the cells' linear indices.", "quantifier": "all shapes of rank 1, 2 and 3", "why_tests_cant": "unbounded shapes", "anchors": ["source/framework/core/include/lue/framework/core/linear_curve.hpp"]}
{"id": "C06", "title": "Partitions are spread over all localities in contiguous, balanced runs", "statement": "Given at least as many partitions as localities, each partition is assigned to an existing locality, assignment is monotone along the curve (so each locality gets one contiguous run), and with more partitions than localities each locality gets at least one partition.", "quantifier": "all numbers of partitions and localities", "why_tests_cant": "unbounded counts", "anchors": ["source/framework/algorithm/include/lue/framework/algorithm/create_partitioned_array.hpp: LocalityIdxByPartitionIdx", "source/framework/core/include/lue/framework/core/math.hpp: map_to_range"]}
{"id": "C07", "title": "Instantiating partitions one by one or in per-locality batches is equivalent", "statement": "Creating an array partition by partition and creating it by batches of partitions per locality give every partition the same locality, offset and shape, and every partition is created exactly once.", "quantifier": "all shapes, numbers of localities and visiting orders", "why_tests_cant": "unbounded shapes and batch boundaries", "anchors": ["source/framework/algorithm/include/lue/framework/algorithm/create_partitioned_array.hpp: InstantiatePartition, InstantiatePartitions"]}
{"id": "C08", "title": "An array created from a buffer equals the buffer", "statement": "After creating a partitioned array from a row-major buffer, each array cell read back holds the buffer element with the cell's linear index, or is no-data iff that element equals the given no-data value.", "quantifier": "all buffers, shapes and partition shapes", "why_tests_cant": "unbounded shapes", "anchors": ["source/framework/algorithm/include/lue/framework/algorithm/create_partitioned_array.hpp: InstantiateFromBuffer"]}
{"id": "C09", "title": "Visiting a hyperslab touches exactly its cells in row-major order", "statement": "Visiting an array with a hyperslab calls the visitor exactly once for each cell in the hyperslab, in row-major order, and for no other cell.", "quantifier": "all ranks, shapes and contained hyperslabs", "why_tests_cant": "unbounded shapes and ranks", "anchors": ["source/framework/core/include/lue/framework/core/array_visitor.hpp: visit_array", "source/framework/core/include/lue/framework/core/hyperslab.hpp"]}
{"id": "C10", "title": "Erasing a slab removes exactly the slab", "statement": "Erasing indices [begin, end) along a dimension from an array removes exactly those cells and leaves all other cells in their relative order, with the array's extent along that dimension reduced by the number of erased indices.", "quantifier": "all shapes, dimensions and ranges", "why_tests_cant": "unbounded shapes", "anchors": ["source/framework/core/include/lue/framework/core/erase.hpp: erase", "source/framework/core/include/lue/framework/core/array.hpp"]}
{"id": "C11", "title": "Maximum partition shape honours the requested minimum number of partitions", "statement": "Given a minimum number of partitions not larger than the number of elements, the returned partition shape is usable (non-empty, fits in the array) and splits the array in at least the requested number of partitions.", "quantifier": "all shapes and all minimum counts allowed by the documented precondition", "why_tests_cant": "unbounded shapes", "anchors": ["source/framework/core/include/lue/framework/core/domain_decomposition.hpp: max_partition_shape"]}
{"id": "C12", "title": "The default partition shape can be used to create the array", "statement": "For each non-empty array shape, the default partition shape chosen when the user does not pass one is accepted by array creation.", "quantifier": "all array shapes and all numbers of worker threads", "why_tests_cant": "depends on the number of worker threads of the machine and on unbounded array extents", "anchors": ["source/framework/core/include/lue/framework/core/domain_decomposition.hpp: default_partition_shape"]}
{"id": "C13", "title": "Local operations are cell-wise, propagate no-data and ignore the partitioning", "statement": "A local operation's result in each cell depends only on the argument values in that cell: no-data if any array or scalar argument is no-data or outside of the operation's domain or if the result is out of range, and the functor's value otherwise; repartitioning the arguments does not change it.", "quantifier": "all functors, domains, ranges, arrays and partitionings", "why_tests_cant": "unbounded arrays and functors", "anchors": ["source/framework/algorithm/include/lue/framework/algorithm/definition/unary_local_operation.hpp", "source/framework/algorithm/include/lue/framework/algorithm/definition/binary_local_operation.hpp", "source/framework/algorithm/include/lue/framework/algorithm/definition/ternary_local_operation.hpp"]}
{"id": "C14", "title": "Global aggregates do not depend on the partitioning", "statement": "sum, minimum and maximum over an array equal the fold over all cells that are not no-data (no-data if there are none), however the array is partitioned.", "quantifier": "all arrays, all partitionings", "why_tests_cant": "partitionings and cell values are unbounded, and the interesting values (a partial result equal to the no-data marker) are rare", "anchors": ["source/framework/algorithm/include/lue/framework/algorithm/unary_aggregate_operation.hpp", "source/framework/algorithm/include/lue/framework/algorithm/definition/sum.hpp", "source/framework/algorithm/include/lue/framework/algorithm/definition/minimum.hpp", "source/framework/algorithm/include/lue/framework/algorithm/definition/maximum.hpp"]}
{"id": "C15", "title": "all / any / none agree with each other and with the cells", "statement": "all is true iff all valid cells are non-zero, any is true iff some valid cell is non-zero, none is the negation of any, however the array is partitioned.", "quantifier": "all arrays and partitionings", "why_tests_cant": "unbounded arrays and partitionings", "anchors": ["source/framework/algorithm/include/lue/framework/algorithm/all.hpp", "source/framework/algorithm/include/lue/framework/algorithm/any.hpp", "source/framework/algorithm/include/lue/framework/algorithm/none.hpp"]}
{"id": "C16", "title": "Zonal statistics do not depend on the partitioning", "statement": "For zonal sum, minimum, maximum, mean, diversity and area every cell with a valid zone gets the statistic of all cells of its zone (in any partition) that have a valid value, and every other cell gets no-data; the order in which partial results are merged does not matter, except for the rounding of floating point additions, whose error is bounded.", "quantifier": "all arrays, zones, partitionings and merge orders", "why_tests_cant": "merge order depends on task scheduling; unbounded arrays", "anchors": ["source/framework/algorithm/include/lue/framework/algorithm/definition/zonal_operation.hpp", "source/framework/algorithm/include/lue/framework/algorithm/definition/zonal_sum.hpp", "source/framework/algorithm/include/lue/framework/algorithm/definition/zonal_mean.hpp", "source/framework/algorithm/include/lue/framework/algorithm/definition/zonal_area.hpp", "source/framework/algorithm/include/lue/framework/algorithm/definition/zonal_diversity.hpp"]}
{"id": "C17", "title": "Zonal majority returns a most frequent value", "statement": "zonal_majority assigns to every cell of a zone a value that occurs in the zone at least as often as any other value.", "quantifier": "all arrays, zones and partitionings", "why_tests_cant": "unbounded arrays", "anchors": ["source/framework/algorithm/include/lue/framework/algorithm/definition/zonal_majority.hpp"]}
{"id": "C18", "title": "Focal operations see the same neighbourhood whatever the partitioning", "statement": "Each output cell of a focal operation is computed from exactly the kernel-sized window around that cell in the whole array, with the border policy's values outside of the array, for every partitioning whose partitions are at least as large as the kernel; for a partitioning with smaller partitions the operation reports an error.", "quantifier": "all array shapes, partitionings, kernel radii and halo values", "why_tests_cant": "nine kinds of partition position times nine kinds of cell position, for unbounded extents", "anchors": ["source/framework/algorithm/include/lue/framework/algorithm/definition/focal_operation.hpp", "source/framework/algorithm/include/lue/framework/algorithm/detail/halo_partition.hpp"]}
{"id": "C19", "title": "Focal statistics follow their definition", "statement": "focal_sum / mean / minimum / maximum / diversity / majority / high_pass and convolve, per cell, use exactly the cells of its window that are selected by the kernel and are not no-data, and give no-data when there is none (majority: the smallest of the most frequent values).", "quantifier": "all windows, kernels and no-data patterns", "why_tests_cant": "unbounded windows", "anchors": ["source/framework/algorithm/include/lue/framework/algorithm/definition/focal_sum.hpp", "source/framework/algorithm/include/lue/framework/algorithm/definition/focal_mean.hpp", "source/framework/algorithm/include/lue/framework/algorithm/definition/focal_minimum.hpp", "source/framework/algorithm/include/lue/framework/algorithm/definition/focal_maximum.hpp", "source/framework/algorithm/include/lue/framework/algorithm/definition/focal_diversity.hpp", "source/framework/algorithm/include/lue/framework/algorithm/definition/focal_majority.hpp", "source/framework/algorithm/include/lue/framework/algorithm/definition/focal_high_pass.hpp", "source/framework/algorithm/include/lue/framework/algorithm/definition/convolve.hpp"]}
{"id": "C20", "title": "inflow_count counts the upstream neighbours", "statement": "inflow_count gives for each cell with a valid flow direction the number of its (at most eight) neighbours that drain into it, including neighbours in other partitions, and no-data elsewhere.", "quantifier": "all flow direction arrays and partitionings", "why_tests_cant": "unbounded arrays; every partition border configuration", "anchors": ["source/framework/algorithm/include/lue/framework/algorithm/detail/inflow_count.hpp", "source/framework/algorithm/include/lue/framework/algorithm/definition/inflow_count.hpp"]}
{"id": "C21", "title": "Flow accumulation does not depend on partitioning or scheduling", "statement": "For each acyclic flow direction network, accu computes for each cell the sum of the inflow of all cells whose flow path passes through it (no-data if one of those is no-data or negative); all partitions finish without an assertion failing or a channel being misused, and the result is the same for each partitioning and each interleaving of intra- and inter-partition tasks.", "quantifier": "all acyclic flow direction networks, partitionings and task/message interleavings", "why_tests_cant": "the order in which messages between partitions arrive depends on the scheduler; unbounded networks", "anchors": ["source/framework/algorithm/include/lue/framework/algorithm/definition/accumulating_router.hpp", "source/framework/algorithm/include/lue/framework/algorithm/definition/accu.hpp"]}
{"id": "C22", "title": "accu conserves mass", "statement": "If no cell is no-data, the sum of the flux over the sinks of the network equals the sum of the inflow over all cells.", "quantifier": "all acyclic networks and inflows", "why_tests_cant": "unbounded networks", "anchors": ["source/framework/algorithm/include/lue/framework/algorithm/definition/accu.hpp"]}
{"id": "C23", "title": "Routing with storage keeps the water balance in each cell", "statement": "In accu_threshold, accu_capacity, accu_fraction and accu_trigger each valid cell's outflow plus what is stored in the cell equals its own inflow plus the outflow of its upstream neighbours, and outflow and storage obey the operation's rule.", "quantifier": "all networks, inflows and parameters", "why_tests_cant": "unbounded networks and inputs", "anchors": ["source/framework/algorithm/include/lue/framework/algorithm/definition/accu_threshold.hpp", "source/framework/algorithm/include/lue/framework/algorithm/definition/accu_capacity.hpp", "source/framework/algorithm/include/lue/framework/algorithm/definition/accu_fraction.hpp", "source/framework/algorithm/include/lue/framework/algorithm/definition/accu_trigger.hpp"]}
{"id": "C24", "title": "downstream and upstream look at the right neighbour", "statement": "downstream gives each cell the value of the cell it drains into (its own value for a sink), and upstream gives each cell the sum over the cells that drain into it, across partition borders.", "quantifier": "all flow direction arrays and partitionings", "why_tests_cant": "unbounded arrays", "anchors": ["source/framework/algorithm/include/lue/framework/algorithm/definition/downstream.hpp", "source/framework/algorithm/include/lue/framework/algorithm/definition/upstream.hpp"]}
{"id": "C25", "title": "decreasing_order visits cells from high to low, each once", "statement": "The route of a zone returned by decreasing_order visits distinct valid cells of that zone in non-increasing order of value, contains min(max_nr_cells, number of valid cells) cells, and never skips a cell with a higher value than a visited one, whatever the partitioning.", "quantifier": "all arrays, zones, partitionings and maximum lengths", "why_tests_cant": "the route hops between partitions depending on the values; unbounded number of hops", "anchors": ["source/framework/algorithm/include/lue/framework/algorithm/definition/decreasing_order.hpp"]}
{"id": "C26", "title": "first_n marks the first n cells of each route", "statement": "first_n marks exactly the first min(n, length) cells of each route and leaves all other cells no-data, and every partition's result becomes ready.", "quantifier": "all routes, values of n and task interleavings", "why_tests_cant": "routes of different IDs are walked concurrently", "anchors": ["source/framework/algorithm/include/lue/framework/algorithm/definition/first_n.hpp"]}
{"id": "C27", "title": "Downscaling copies each source cell to its target cells", "statement": "downscale(array, count) gives an array count times as large in each dimension in which target cell (i, j) holds the value of source cell (i / count, j / count), or no-data if that is no-data.", "quantifier": "all arrays, partitionings and counts", "why_tests_cant": "the offset in the source partition depends on the residues of the partition index", "anchors": ["source/framework/algorithm/include/lue/framework/algorithm/definition/resample.hpp", "source/framework/algorithm/include/lue/framework/algorithm/detail/resample.hpp"]}
{"id": "C28", "title": "Clumps are the connected components", "statement": "Two valid cells get the same clump ID iff they are connected by a path of neighbouring cells (4 or 8 neighbours) with equal values; no-data cells get no-data; across partition borders too.", "quantifier": "all arrays and partitionings", "why_tests_cant": "components can span any number of partitions in any shape", "anchors": ["source/framework/algorithm/include/lue/framework/algorithm/definition/clump.hpp"]}
{"id": "C29", "title": "where selects cell-wise", "statement": "where(condition, true, false) gives for each cell the true value if the condition is non-zero, the false value if it is zero, no-data if the condition or the selected value is no-data; the value that is not selected has no influence.", "quantifier": "all arrays, scalars and partitionings", "why_tests_cant": "unbounded arrays", "anchors": ["source/framework/algorithm/include/lue/framework/algorithm/definition/where.hpp"]}
{"id": "C30", "title": "reclassify maps by the lookup table", "statement": "reclassify gives each valid cell whose value is a key of the lookup table the table's value, and no-data to all other cells.", "quantifier": "all tables and arrays", "why_tests_cant": "unbounded tables and arrays", "anchors": ["source/framework/algorithm/include/lue/framework/algorithm/definition/reclassify.hpp"]}
{"id": "C31", "title": "unique returns the set of values; unique_id assigns distinct IDs", "statement": "unique returns exactly the set of valid values in the array however it is partitioned; unique_id gives each cell a different ID.", "quantifier": "all arrays and partitionings", "why_tests_cant": "partitionings and merge orders are unbounded", "anchors": ["source/framework/algorithm/include/lue/framework/algorithm/definition/unique.hpp", "source/framework/algorithm/include/lue/framework/algorithm/definition/unique_id.hpp"]}
{"id": "C32", "title": "The rate limit bounds the number of time steps in flight", "statement": "While a model is simulated with rate limit r, at most r time steps are started but unfinished when the next one starts, progress is reported in order, and the simulation returns only after all time steps have finished, in whichever order the time steps' tasks finish.", "quantifier": "all numbers of time steps, rate limits and completion orders", "why_tests_cant": "time steps finish asynchronously in any order", "anchors": ["source/framework/model/include/lue/framework/model/simulate.hpp"]}
{"id": "C33", "title": "Recycled buffers are never shared", "statement": "The partition allocator never hands out a buffer that is still in use, hands out buffers of at least the requested size, and frees nothing twice, for each history of allocate and deallocate calls.", "quantifier": "all call histories", "why_tests_cant": "unbounded histories", "anchors": ["source/framework/core/include/lue/framework/core/partition_allocator.hpp"]}
{"id": "C34", "title": "What is written to a dataset is what is read back", "statement": "Reading a partitioned array (or a subset hyperslab) back from a dataset with any partitioning gives the values written, partitions write disjoint hyperslabs that together cover the array, and time steps do not overwrite each other.", "quantifier": "all shapes, partitionings for writing and reading, subsets and time steps", "why_tests_cant": "unbounded shapes and partitionings", "anchors": ["source/framework/io/include/lue/framework/io/util.hpp", "source/framework/io/include/lue/framework/io/from_lue.hpp", "source/framework/io/include/lue/framework/io/to_lue.hpp"]}
{"id": "C35", "title": "Centred hyperslabs", "statement": "A hyperslab constructed around a centre cell starts half its extent before the centre in each dimension and keeps the requested extents; it is rejected with an error exactly when it would start before the first cell; is_contained_by holds exactly when all its cells are cells of the array.", "quantifier": "all ranks, centres, shapes and array shapes", "why_tests_cant": "Odd and even extents, and centres near the array edge, in any number of dimensions.", "anchors": ["source/framework/core/include/lue/framework/core/hyperslab.hpp: Hyperslab(center, shape), is_contained_by"]}
{"id": "C36", "title": "Clamping an area shape to whole partitions", "statement": "clamp_area_shape returns in each dimension the smallest multiple of the partition extent that is not smaller than the area extent, and shape_in_partitions the number of partitions it holds, although both are computed in double precision.", "quantifier": "all ranks, area extents below 2^53 and partition extents up to 2^53", "why_tests_cant": "Rounding of double(a)/double(p) could lose the fraction for some pair of extents; there are too many pairs to try.", "anchors": ["source/framework/core/include/lue/framework/core/domain_decomposition.hpp: shape_in_partitions, clamp_area_shape"]}
{"id": "C37", "title": "Integer arithmetic is exact or no-data", "statement": "add, subtract, multiply, divide, modulus, abs and negate on integer arrays with the default value policies give in each cell the mathematically exact result (truncated quotient and remainder), or no-data if an argument is no-data, a divisor is zero, or the exact result is not representable in the element type; wrapped values are never visible.", "quantifier": "all integer element types, array shapes, partition shapes and cell values", "why_tests_cant": "Tests check a few values near the limits; the claim ranges over all pairs of values of all element types.", "anchors": ["source/framework/algorithm/include/lue/framework/algorithm/policy/out_of_range.hpp", "source/framework/algorithm/include/lue/framework/algorithm/value_policies/add.hpp", "source/framework/algorithm/include/lue/framework/algorithm/value_policies/divide.hpp", "source/framework/algorithm/include/lue/framework/algorithm/definition/binary_local_operation.hpp:binary_local_operation"]}
{"id": "C38", "title": "Casting preserves the value or gives no-data", "statement": "cast<To>(array) with the default value policies gives each valid cell the same value (truncated towards zero when casting from floating point to integer) if To can represent it, and no-data otherwise.", "quantifier": "all pairs of element types, array shapes, partition shapes and cell values", "why_tests_cant": "The range conditions must be right for every value of every pair of types, including the values just outside the range.", "anchors": ["source/framework/algorithm/include/lue/framework/algorithm/value_policies/cast.hpp:RangePolicy", "source/framework/algorithm/include/lue/framework/algorithm/cast.hpp:Cast"]}
{"id": "C39", "title": "Predefined kernels select the documented cells", "statement": "box_kernel(radius, value) gives every cell of the (2 radius + 1)^2 window the value; circle_kernel(radius, value) gives it to exactly the cells whose squared distance to the centre is at most radius squared, and zero to the others.", "quantifier": "all radii and values", "why_tests_cant": "unbounded radii", "anchors": ["source/framework/algorithm/include/lue/framework/algorithm/kernel.hpp: box_kernel, circle_kernel, Kernel"]}
{"id": "C40", "title": "focal_mean propagates no-data in the focal cell", "statement": "As documented with focal_mean, a no-data focal cell results in a no-data output cell, whatever its neighbours are.", "quantifier": "all arrays, kernels and no-data patterns", "why_tests_cant": "all no-data patterns; documentation and code disagree", "anchors": ["source/framework/algorithm/include/lue/framework/algorithm/definition/focal_mean.hpp: FocalMean, focal_mean"]}
{"id": "C41", "title": "Serialised tasks run in the order of their generation", "statement": "Tasks that obtain a promise and a predecessor future from a Serializer run one after the other in the order of their generation, whatever the order in which the promises are asked for; no promise is handed out twice, and once all generations up to n have been asked for, all of them eventually can run.", "quantifier": "all numbers of tasks, all orders of asking and running", "why_tests_cant": "every interleaving of requests and runs", "anchors": ["source/framework/io/include/lue/framework/io/serializer.hpp: Serializer::promise_for, when_predecessor_done, when_done"]}
{"id": "C42", "title": "Asynchronous reads and writes of a dataset have the effect of the program order", "statement": "With serial I/O, from_lue and to_lue return before the file has been accessed, but each read sees the effect of exactly the writes that precede it in the program, the file ends up as if calls were executed one after the other, a call only touches the dataset once all localities are done with earlier calls it conflicts with, and no sequence of calls deadlocks.", "quantifier": "all programs of reads and writes, numbers of localities and interleavings, thread-safe HDF5 or not", "why_tests_cant": "depends on how tasks are scheduled at all localities", "anchors": ["source/framework/io/include/lue/framework/io/to_lue.hpp", "source/framework/io/include/lue/framework/io/from_lue.hpp", "source/framework/io/source/lue.cpp"]}
{"id": "C43", "title": "range numbers cells in row-major order", "statement": "range(array, start) assigns to each cell of the array the start value plus the cell's row-major position in the whole array, independent of how the array is partitioned; values wrap around in unsigned and small integer types.", "quantifier": "all array and partition shapes, integer types and start values for which no signed overflow occurs", "why_tests_cant": "depends on how the extents of the array divide into partitions; tests use regular partitions", "anchors": ["source/framework/algorithm/include/lue/framework/algorithm/range.hpp: range, detail::range_partition"]}
{"id": "C44", "title": "mesh_grid returns coordinates", "statement": "mesh_grid returns, for each dimension, an array that is partitioned like the input and in which each cell contains the first value plus the step times the cell's index in that dimension of the whole array.", "quantifier": "all array and partition shapes, first values and steps", "why_tests_cant": "all ways in which an array can be partitioned", "anchors": ["source/framework/algorithm/include/lue/framework/algorithm/mesh_grid.hpp: mesh_grid, detail::mesh_grid_partition"]}
{"id": "C45", "title": "cell_index returns array indices of true cells", "statement": "cell_index(condition, dimension) contains, for each cell where the condition is true, the cell's index in the dimension of the whole array, and no-data elsewhere.", "quantifier": "all conditions, array and partition shapes, dimensions and integer types", "why_tests_cant": "depends on shapes of all partitions; tests use one partition or square partitions", "anchors": ["source/framework/algorithm/include/lue/framework/algorithm/definition/cell_index.hpp: cell_index, detail::cell_index::cell_index_partition"]}
{"id": "C46", "title": "array_like fills an array with the same partitions", "statement": "array_like returns an array with the shape, partitions and localities of the input, all of whose cells contain the fill value.", "quantifier": "all ranks, array and partition shapes and fill values", "why_tests_cant": "all ways in which an array can be partitioned", "anchors": ["source/framework/algorithm/include/lue/framework/algorithm/array_like.hpp: array_like, detail::array_like_partition"]}
{"id": "C47", "title": "Flow directions point to the largest drop and never form loops", "statement": "d8_flow_direction assigns to each cell with a valid elevation the direction of the neighbour with the largest drop in elevation (a nearer neighbour in case of ties with a diagonal one), or a sink if no neighbour is lower; cells without elevation have no flow direction. The result is a valid network without loops, whatever the elevations, so that flow accumulation over it finishes.", "quantifier": "all floating point elevations (pits, flats, infinities, NaN), array and partition shapes with at least three rows and columns per partition", "why_tests_cant": "all elevation surfaces; absence of loops is a global property", "anchors": ["source/framework/algorithm/include/lue/framework/algorithm/definition/d8_flow_direction.hpp: D8FlowDirection, d8_flow_direction", "source/framework/algorithm/include/lue/framework/algorithm/value_policies/d8_flow_direction.hpp"]}
{"id": "C48", "title": "Downstream distance follows from the flow direction", "statement": "downstream_distance is zero in sinks, the cell size in cells that drain along a row or column, and the square root of two times the cell size in cells that drain diagonally; no-data is propagated.", "quantifier": "all flow directions, array and partition shapes, cell sizes", "why_tests_cant": "all networks and partitionings", "anchors": ["source/framework/algorithm/include/lue/framework/algorithm/definition/downstream_distance.hpp: DownstreamDistance, downstream_distance"]}
{"id": "C49", "title": "Slope of a terrain", "statement": "slope returns Horn's slope: of an inclined plane, the length of its gradient divided by the cell size, in all cells of the array.", "quantifier": "all planes, array and partition shapes, cell sizes", "why_tests_cant": "all terrains and partitionings", "anchors": ["source/framework/algorithm/include/lue/framework/algorithm/definition/slope.hpp: slope", "source/framework/algorithm/include/lue/framework/algorithm/definition/gradients.hpp: gradients"]}
{"id": "C50", "title": "Aspect of a terrain", "statement": "aspect returns the direction in which the terrain dips, in radians clockwise from the north.", "quantifier": "all inclined planes, array and partition shapes", "why_tests_cant": "all terrains; the unit test does not compare its result", "anchors": ["source/framework/algorithm/include/lue/framework/algorithm/definition/aspect.hpp: Aspect, aspect"]}
{"id": "C51", "title": "Reading dataset arrays from Python follows NumPy's indexing", "statement": "array[index], with integers (also negative), slices with a start, stop and step, and fewer indices than dimensions, returns an array with the shape and values that NumPy would return for the same index. Indices out of range, a step of zero, too many indices and other objects are refused.", "quantifier": "all array shapes, values and indices", "why_tests_cant": "all combinations of shapes and indices", "anchors": ["source/data_model/python/source/core/array.cpp: update_hyperslab_by_index, update_hyperslab_by_slice, create_hyperslab, __getitem__", "source/data_model/hdf5/source/dataset.cpp: Dataset::read"]}
{"id": "C52", "title": "Writing dataset arrays from Python changes exactly the selected cells", "statement": "array[index] = values stores the values in the cells that array[index] would return and changes no other cells; assigning a number gives all of these cells that value. An array of another shape is refused.", "quantifier": "all array shapes, values and indices", "why_tests_cant": "all combinations of shapes, indices and values", "anchors": ["source/data_model/python/source/core/array.cpp: set_item, write_to_array, __setitem__", "source/data_model/hdf5/source/dataset.cpp: Dataset::write, Dataset::fill", "source/data_model/hdf5/source/hyperslab.cpp: Hyperslab::nr_elements"]}
{"id": "C53", "title": "Strings survive being stored in a dataset", "statement": "An array of strings that is assigned to an array of a dataset can be read back: each string is the string that was written.", "quantifier": "all arrays of byte or Unicode strings, all slices", "why_tests_cant": "all strings and slices", "anchors": ["source/data_model/python/source/core/array.cpp: __setitem__ for strings, create_array for strings"]}
{"id": "C54", "title": "Values of objects with the same shape: last write wins", "statement": "For values whose object arrays all have the same shape: after any sequence of expand and write calls, the number of object arrays is the sum of the expansions, and reading a range of object arrays returns for each of them the values that were written to it last, or the fill value. Expanding keeps what was written. Reading or writing beyond the end fails and has no effect.", "quantifier": "all shapes, all sequences of expansions and writes", "why_tests_cant": "all histories", "anchors": ["source/data_model/cxx/source/array/same_shape/value.cpp", "source/data_model/cxx/source/array/same_shape/constant_shape/value.cpp", "source/data_model/hdf5/source/dataset.cpp: resize, read, write"]}
{"id": "C55", "title": "Values of objects with different shapes: an independent array per object", "statement": "For values with a shape per object: after any sequence of expand calls and writes, every object that was added has an array with the shape that was asked for and the values written last; objects that were not added do not exist; the number of objects is the number of objects added. Whatever happens, the array of an object does not change unless it is written itself.", "quantifier": "all object IDs, shapes, histories of expansions and writes, numbers of instances", "why_tests_cant": "all histories and shapes", "anchors": ["source/data_model/cxx/source/array/different_shape/value.cpp", "source/data_model/python/source/different_shape/value.cpp"]}
{"id": "C56", "title": "Values that vary through time: an independent value array per object or location in time", "statement": "For values with an array per object and room for a number of locations in time, for values with an array per location in time and room for a number of objects, and for values with an array per object and location in time: each of these arrays behaves as in C54 and C55, independently of the others, and the number of objects or locations in time is the number that was added.", "quantifier": "all histories", "why_tests_cant": "all histories and shapes", "anchors": ["source/data_model/cxx/source/array/different_shape/constant_shape/value.cpp", "source/data_model/cxx/source/array/same_shape/variable_shape/value.cpp", "source/data_model/cxx/source/array/different_shape/variable_shape/value.cpp"]}
{"id": "C57", "title": "The validator accepts exactly the valid datasets", "statement": "assert_is_valid accepts a dataset if and only if: IDs of objects are unique; the sets of active objects of successive locations in time are stored one after the other, without duplicates within a set and with known objects only; and all value arrays, space domains and time domains have exactly the number of items that the objects, the active objects or the locations in time ask for. Refusing warnings makes it stricter only.", "quantifier": "all datasets: numbers of universes, phenomena, property sets, properties, objects and locations in time", "why_tests_cant": "all datasets, including corrupt ones", "anchors": ["source/data_model/cxx/source/validate.cpp: validate_object_tracker, validate_active_ids, validate_active_object_idxs, validate_value, validate_property_set, validate_phenomenon, assert_is_valid"]}
{"id": "C58", "title": "The values in an accepted dataset can be read", "statement": "In a dataset that was accepted by the validator, for every location in time and every object that is active then, the value of each property is found at the place the administration of objects tells; every active ID belongs to a location in time; no two of them share an object array; the discretization of time and the number of time cells match the number of locations in time.", "quantifier": "all accepted datasets, locations in time, objects", "why_tests_cant": "all accepted datasets", "anchors": ["source/data_model/cxx/source/validate.cpp: validate_value, validate_time_cell, validate_property, validate_phenomenon"]}
{"id": "C59", "title": "Datasets that are written as documented are accepted", "statement": "When for each location in time the start of the set of active objects, the IDs of these objects (without duplicates) and the number of times they were active before are stored, and values for exactly these objects and an increasing time domain are written, the validator finds no errors.", "quantifier": "all sets of objects per location in time, all kinds of values", "why_tests_cant": "all histories of active objects", "anchors": ["source/data_model/cxx/source/validate.cpp", "source/data_model/cxx/source/object/identity/object_tracker.cpp"]}
{"id": "C60", "title": "Chunks of values have a sensible size", "statement": "The chunk in which values are stored consists of a number of whole values or of a part of one value, and contains at most 1 MiB: for values of at most 1 MiB as many values as fit in 1 MiB, and for larger values a part of at most 1 MiB with extents between one and those of the value.", "quantifier": "all shapes of values, all element sizes, any order of dimensions with the same extent, any accurate power function", "why_tests_cant": "all shapes; the intermediate results are rounded doubles", "anchors": ["source/data_model/hdf5/source/chunk.cpp: chunk_shape, upper_chunk_size_limit, lower_chunk_size_limit", "source/data_model/hdf5/source/shape.cpp: size_of_shape"]}
{"id": "C61", "title": "Flow accumulation in floating point: bounded rounding error for every order of tasks", "statement": "For float and double, the accumulated amount of a cell with n cells upstream (itself included) differs from the exact total by at most ((1+u)^(n-1) - 1) times the total (u = half the machine epsilon), unless the total is about as large as the largest number; it is no-data exactly where a cell upstream has no or a negative amount; and amounts that are whole numbers of units 2^e are accumulated exactly, as long as there are at most 2^prec units. The routing completes without failing assertions, for every order of tasks.", "quantifier": "all floating point formats, networks, amounts, partitionings and interleavings of tasks", "why_tests_cant": "the order of additions depends on the schedule; results differ between runs (and this is a refuted part of the property)", "anchors": ["source/framework/algorithm/include/lue/framework/algorithm/definition/accu.hpp: Accu::CellAccumulator", "source/framework/algorithm/include/lue/framework/algorithm/value_policies/accu.hpp: DomainPolicy", "source/framework/algorithm/include/lue/framework/algorithm/definition/accumulating_router.hpp: solve_inter_partition_stream_cells"]}
{"id": "C62", "title": "Sums of floating point numbers: bounded rounding error for every partitioning", "statement": "The sum over an array of floats or doubles differs from the exact sum of its n numbers by at most ((1+u)^(n-1) - 1) times the sum of their magnitudes, if that does not overflow, is exact if the numbers are whole numbers of units 2^e and their magnitudes add up to at most 2^prec units, and is no-data if there are no numbers; however the array is partitioned.", "quantifier": "all floating point formats, arrays without infinities, partitionings", "why_tests_cant": "the order of additions depends on the partitioning; all numbers and sizes", "anchors": ["source/framework/algorithm/include/lue/framework/algorithm/definition/sum.hpp: detail::Sum", "source/framework/algorithm/include/lue/framework/algorithm/unary_aggregate_operation.hpp"]}
{"id": "C63", "title": "Two rasters without reported differences are the same", "statement": "compare_rasters of two raster files returns no differences exactly if the rasters contain the same information: shape, element type, geo-transform, and per band the no-data value and all cells (NaN being equal to NaN where NaN is the no-data value). The blocks of a band tile the raster: each cell is a valid cell of exactly one block.", "quantifier": "all raster shapes, block shapes, element types, no-data settings, contents", "why_tests_cant": "test rasters fit in a single block; whether a cell is compared depends on the shapes of raster and blocks, and what GDAL stores outside of the raster", "anchors": ["source/data_model/gdal/source/compare_rasters.cpp: compare_rasters", "source/data_model/gdal/source/blocks.cpp: Blocks"]}
{"id": "C64", "title": "Importing and exporting rasters keeps all cells", "statement": "lue_translate import of a raster gives a dataset with one layer per band with the same cells and no-data value, export of a layer gives a raster with the same cells and no-data value, importing what was exported gives the layer back, and the geo-transform of a north-up raster survives.", "quantifier": "all raster shapes, natural block shapes, contents, numbers of bands", "why_tests_cant": "depends on how the format divides the raster in blocks; all shapes", "anchors": ["source/data_model/translate/source/format/gdal.cpp: lue_to_gdal, gdal_to_lue, translate_lue_dataset_to_gdal_raster, translate_gdal_raster_dataset_to_lue"]}
{"id": "C65", "title": "What is read from and written to rasters with GDAL is what they contain", "statement": "from_gdal gives an array with the values of the band of a raster, or of the requested part of it, with LUE's no-data value where the band has its no-data value and nowhere else; a part that extends beyond the raster is reported. to_gdal gives a raster with the values of the array, its no-data value set, and the georeference of the clone; reading it back gives the same array. A failing call leaves an existing raster alone.", "quantifier": "all raster shapes, parts, partition shapes, numbers of localities, element types, no-data values, and all orders in which partitions become ready", "why_tests_cant": "the order in which partitions become ready, and hence are written, differs between runs; all shapes and values", "anchors": ["source/framework/io/source/gdal.cpp.in: from_gdal, to_gdal, read_partition_per_locality, verify_compatibility", "source/framework/core/include/lue/framework/core/hyperslab.hpp: Hyperslab"]}
{"id": "C66", "title": "integrate accumulates values along routes", "statement": "In each of the first n cells of a route, integrate delivers the sum of the valid values from the start of the route up to and including that cell, in the order of the route; it delivers no-data in a cell whose own value is no-data and in all cells that are not among the first n of a route, and every partition's result becomes ready.", "quantifier": "all routes that visit a cell at most once, values, no-data cells, values of n, element types and additions, and task interleavings", "why_tests_cant": "routes of different IDs are walked concurrently, and a route hops between partitions; the order in which partitions are asked for and walked differs between runs", "anchors": ["source/framework/image_land/include/lue/framework/algorithm/definition/integrate.hpp: integrate, server::Walk", "source/framework/algorithm/include/lue/framework/algorithm/routing/walk/accumulator.hpp"]}
{"id": "C67", "title": "kinematic_wave solves the kinematic wave equation in each cell and loses no water", "statement": "The discharge that kinematic_wave delivers in a cell is the one nonnegative solution of the discretised kinematic wave equation, with the delivered discharges of the cells that drain into it as inflow from upstream; it is between the discharge at the start and what enters the cell, more water never results in less discharge, and the change of the amount of water in the channels is what is added minus what leaves the network. It is no-data in cells without flow direction or with unusable arguments, and downstream of those. The result does not depend on the partitioning or the order in which tasks do their work, and no arguments make it fail.", "quantifier": "all acyclic flow direction networks, discharges, inflows and parameters, partitionings and task interleavings", "why_tests_cant": "each cell solves a nonlinear equation whose inflow is the outcome of the equations upstream; networks, amounts, parameters and schedules are unbounded", "anchors": ["source/framework/algorithm/include/lue/framework/algorithm/definition/kinematic_wave.hpp: kinematic_wave, NonLinearKinematicWave, iterate_to_new_discharge, KinematicWave::CellAccumulator", "source/framework/algorithm/include/lue/framework/algorithm/value_policies/kinematic_wave.hpp: DomainPolicy"]}
{"id": "C68", "title": "NumPy arrays survive the conversion to LUE arrays and back", "statement": "from_numpy makes an array that holds the values of the NumPy array, whatever the partition shape and number of localities, with no-data in the cells that are equal to the no-data value that is passed in; changing the NumPy array after the call has no effect on the array, even when its partitions have not been created yet. Arrays that are not in row-major order or do not have two dimensions are refused. to_numpy makes a NumPy array of its own with the values of the array and the no-data value that is passed in for no-data. Converting there and back gives the original values.", "quantifier": "all two-dimensional arrays, views on memory, no-data values, element types, partition shapes, numbers of localities and later changes of the memory", "why_tests_cant": "arrays, partition shapes, memory layouts and moments at which partitions are created are unbounded", "anchors": ["source/framework/python/source/numpy/from_numpy.cpp: from_numpy_py", "source/framework/python/source/numpy/to_numpy.cpp: to_numpy", "source/framework/algorithm/include/lue/framework/algorithm/create_partitioned_array.hpp: InstantiateFromBuffer"]}
{"id": "C69", "title": "PCRaster's operations on rasters, scalars and numbers", "statement": "In lue.pcraster, cover gives in each cell the value of the first argument that has one there; max and min give the largest and the smallest of the values of any number of arguments, and no-data if one of these is no-data; ifthen keeps the values where the condition is true and ifthenelse chooses between two, with no-data where the condition or the chosen value is no-data; boolean gives false for zero, true for other values and no-data for no-data; defined tells which cells have a value. Arguments can be arrays, scalars and Python numbers, in any mixture that has one type of elements; the result is an array with the clone's shape. Rasters with different types of elements are refused.", "quantifier": "all clones, partition shapes, rasters, scalars, numbers and mixtures of these, numbers of arguments, and contents of freshly allocated memory", "why_tests_cant": "rasters, partition shapes, numbers of arguments and mixtures of kinds of arguments are unbounded; a mixture that is not tested can take another overload", "anchors": ["source/framework/python/pcraster/__init__.py: cover, max, min, ifthen, ifthenelse, boolean, defined, harmonize_types, non_spatial_to_spatial", "source/framework/python/source/algorithm/local_operation/where.cpp: bind_where", "source/framework/algorithm/include/lue/framework/algorithm/definition/where.hpp"]}
{"id": "C70", "title": "Running a model calls its methods in the documented order", "statement": "Running a static model calls initial once; running a dynamic model for n time steps calls initial once and then dynamic for time steps 1 to n, in order, while currentTimeStep() returns the number of the time step; Monte Carlo runs do this for each sample, in order, while currentSampleNumber() returns the number of the sample, call premcloop once before and postmcloop once after all samples; an exception in the user's code ends the run; a rate limit bounds the number of time steps with unfinished work. Each sample has a directory of its own before the run, emptied if and only if that is asked for.", "quantifier": "all user models, numbers of time steps and samples, rate limits, orders in which time steps finish, and contents of the working directory", "why_tests_cant": "numbers of time steps and samples, user code and orders in which time steps finish are unbounded", "anchors": ["source/framework/python/framework/support.py: StaticModelRunner, DynamicModel, DynamicModelRunner, MonteCarloModel, MonteCarloModelRunner", "source/framework/python/pcraster/framework/__init__.py: DynamicFramework, MonteCarloModel", "source/framework/model/include/lue/framework/model/simulate.hpp: run_deterministic, run_stochastic"]}
{"id": "C71", "title": "Time steps and samples have files of their own", "statement": "generateNameT, generateNameS and generateNameST give different files for different names, time steps and samples, in the directory of the sample; names with an extension, empty names and time steps below one are refused, all others are accepted.", "quantifier": "all names, time steps and samples", "why_tests_cant": "names and numbers are unbounded, and a collision means that results are silently overwritten", "anchors": ["source/framework/python/pcraster/framework/__init__.py: generateNameT, generateNameS, generateNameST"]}
{"id": "C72", "title": "Names in a dataset are unique and survive", "statement": "Adding a universe, phenomenon, property-set or property to a dataset succeeds if and only if what it is part of exists and its name is not taken (a property's name not by a property of any kind in the same property-set); otherwise an exception is thrown and nothing changes. The names reported by the dataset are those of the items added, each once, and opening the dataset again gives the same items.", "quantifier": "all sequences of additions and reopenings, all names", "why_tests_cant": "sequences and names are unbounded; file and opened dataset are two representations that must agree after each of them", "anchors": ["source/data_model/cxx/include/lue/core/collection.hpp: Collection", "source/data_model/cxx/source/object/property/properties.cpp: Properties", "source/data_model/cxx/source/object/dataset.cpp, universe.cpp, phenomena.cpp, phenomenon.cpp, property_sets.cpp, property/property_set.cpp", "source/data_model/hdf5/source/group.cpp: create_group, group_exists, group_names"]}
{"id": "C73", "title": "Raster views show what was stored through them", "statement": "A raster (constant or varying through time) that is created in a dataset, or that contains_raster reports and is opened, is shown by its view with the object, box, grid shape, time box and number of time steps it was created with, and with its layers; creating a raster or a layer that exists already is refused and changes nothing; a new layer holds the no-data value (or zeros) and a layer holds what was written last; the resulting dataset is accepted by the validation.", "quantifier": "all programs that create and open any number of views on any number of rasters and add, write and read layers; all shapes, boxes, names and values; for contains_raster: all datasets", "why_tests_cant": "programs, names and shapes are unbounded; views cache what is in the file, so they must agree with it after any history", "anchors": ["source/data_model/hl/source/raster_view.cpp: create_raster_view, open_raster_view, RasterView::add_layer, RasterView::layer, contains_raster", "source/data_model/hl/include/lue/data_model/hl/raster_view.hpp", "source/data_model/cxx/source/object/property/properties.cpp", "source/data_model/cxx/source/info/property/property_group.cpp", "source/data_model/cxx/source/validate.cpp"]}
{"id": "C74", "title": "Array pathnames name a dataset and an array", "statement": "A pathname made as <dataset>/<phenomenon>/<property_set>/<property> is taken apart into what it was made from, with a dataset pathname that refers to the same file; what is found in a pathname accounts for all of the pathname; different arrays have different pathnames; pathnames are refused exactly if they have too few parts.", "quantifier": "all texts as pathnames; all dataset pathnames, absolute or relative, with any number and series of slashes; all names without slashes", "why_tests_cant": "texts are unbounded; tests use a few tidy pathnames", "anchors": ["source/data_model/hl/source/util.cpp: parse_array_pathname, parse_array_pathname3", "source/framework/io/include/lue/framework/io/from_lue.hpp", "source/framework/io/include/lue/framework/io/to_lue.hpp", "source/framework/python/source/io/read_array.cpp", "source/framework/python/source/io/write_array.cpp"]}
{"id": "C75", "title": "PCRaster's windows have a length in the unit of the map", "statement": "windowtotal, windowaverage, windowmaximum, windowminimum, windowdiversity, windowmajority and windowhighpass give, for each cell, the statistic of the values of the cells that are, in both directions, not further than half of the window length away (row by row, cells without value and cells outside of the raster don't count), whatever the partitioning; a window length that is an odd multiple of the cell size is accepted, and only those are.", "quantifier": "all rasters, partition shapes, cell sizes and window lengths (binary64); all cells", "why_tests_cant": "window lengths and cell sizes are floating point numbers; tests use a single raster and a length of three times a cell size that is an integer", "anchors": ["source/framework/python/pcraster/__init__.py: translate_window_length, windowtotal, windowaverage, windowmaximum, windowminimum, windowdiversity, windowmajority, windowhighpass, window4total", "source/framework/python/source/algorithm/focal_operation/array_to_kernel.hpp", "document/doc/pcraster/status.md"]}
{"id": "C76", "title": "Time series as input of a model", "statement": "timeinputscalar gives the value in the k-th column of the line of the time step, for a number k and for each cell with identifier k of a raster; cells with another identifier or without identifier get no-data; numbers that are no column, time steps after the last line, values that are no number and files that don't exist are refused; and the answer doesn't depend on calls before it.", "quantifier": "all files in the documented format (line ends, blank lines and spaces anywhere), time steps, rasters with identifiers, partition shapes, sequences of calls", "why_tests_cant": "formats of files vary and results are cached between calls; tests use one file and a couple of calls", "anchors": ["source/framework/python/pcraster/__init__.py: timeinputscalar, configuration, setclone", "source/framework/python/source/algorithm/global_operation/reclassify.cpp", "source/framework/algorithm/include/lue/framework/algorithm/definition/reclassify.hpp"]}
{"id": "C77", "title": "Allocating crops along routes", "statement": "integrate_and_allocate walks along the routes of the zones until the demand of the crops is met: whatever the order in which tasks run, the number of tasks is bounded, each partition of the results is delivered once, in each cell that is visited the fractions of the crops and the irrigated fraction add up to 1, cells that are not visited have no value, and the productions that are returned are those of the fractions that are returned.", "quantifier": "all routes, partition shapes, numbers of crops and zones, demands, productions and values in the arrays, and all orders of tasks", "why_tests_cant": "components of partitions call each other asynchronously; the tests of the code check no result", "anchors": ["source/framework/image_land/include/lue/framework/algorithm/definition/integrate_and_allocate.hpp: Data, server::Walk, integrate_and_allocate", "source/framework/algorithm/include/lue/framework/algorithm/walk.hpp"]}
{"id": "C78", "title": "Random values lie between the limits, and zones have one value", "statement": "uniform gives each cell of the array that results a value of its own: an integer from min_value up to and including max_value, or a floating point number from min_value up to but not including max_value; normal gives each cell a number drawn from the normal distribution. Parameters without data or outside of the domain result in no-data. zonal_uniform and zonal_normal draw one value per zone: cells in the same zone have the same value, whichever partition they are in, and cells without a zone have no value.", "quantifier": "all rasters, array and partition shapes, limits, states of the random number engine and values drawn", "why_tests_cant": "the values are random: tests see a few draws, never the extreme ones, and zones that cross partitions are many", "anchors": ["source/framework/algorithm/include/lue/framework/algorithm/definition/uniform.hpp: uniform, uniform_partition, InstantiateUniform", "source/framework/algorithm/include/lue/framework/algorithm/definition/normal.hpp: normal, normal_partition, InstantiateNormal", "source/framework/algorithm/include/lue/framework/algorithm/definition/zonal_uniform.hpp: zonal_uniform", "source/framework/algorithm/include/lue/framework/algorithm/definition/zonal_normal.hpp: zonal_normal", "source/framework/algorithm/include/lue/framework/algorithm/value_policies/normal.hpp: DomainPolicy"]}
{"id": "C79", "title": "Configuration entries are what is written in the configuration, or refused", "statement": "A configuration entry that is read as an integer, a list of integers or a shape has the value that its text spells in decimal notation (for lists: between brackets, separated by commas, with white space around numbers; for shapes: two numbers). A text that does not spell such a value, or a value the type can not represent, is an error. A required entry that is missing is an error; an optional entry has its default value only if it is missing. Without section, entries are those of the section application.<name of the program's file>.", "quantifier": "all configurations, sections, keys, texts and types (32 and 64 bit, signed and unsigned)", "why_tests_cant": "all texts: the tests try three lists; what matters is which of the infinitely many malformed texts get through", "anchors": ["source/framework/core/source/configuration_entry.cpp: cast, cast_list, trim_vector, application_section, required_configuration_entry, optional_configuration_entry", "source/framework/core/include/lue/framework/core/configuration_entry.hpp"]}
{"id": "C80", "title": "accu_info: each cell gets the class that belongs to its position in the network and in its partition", "statement": "accu_info ends without failure and results in an array in which each cell has a class that is determined by the flow directions and the partitioning only: no-data where the flow direction is no-data, ridge cell if no cell drains into it, sink cell if it does not drain, partition output cell if it drains into another partition, partition input (output) cell if water of another partition flows into it (and out of it), inter-partition stream cell if water passes it that comes from another partition, intra-partition stream cell otherwise, confluence cell if multiple cells drain into it. The class does not depend on the order in which partitions do their work or in which messages arrive.", "quantifier": "all networks, array shapes, partition shapes and orders of tasks and messages", "why_tests_cant": "the order of the tasks and messages differs per run and all orders can not be tried; the tests have no case for most classes", "anchors": ["source/framework/algorithm/include/lue/framework/algorithm/definition/accu_info.hpp: AccuInfo, CellAccumulator", "source/framework/algorithm/include/lue/framework/algorithm/accu_info.hpp", "source/framework/algorithm/include/lue/framework/algorithm/definition/accumulating_router.hpp"]}
{"id": "C81", "title": "HDF5 objects stay open while they are referred to, and are closed once", "statement": "Each open HDF5 object has as many references as there are Identifier instances that identify it. Copying, moving, assigning and destroying instances keeps this so: an object is open as long as some instance identifies it, is closed exactly once, when the last instance goes, and no instance that is not involved in an operation changes. No operation fails or trips an assertion. Instances of objects that HDF5 has closed by itself become invalid and are never closed again.", "quantifier": "all programs: sequences of constructions, copies, moves, assignments and destructions of any number of instances of any number of objects, in debug and release builds", "why_tests_cant": "all histories: the tests look at one copy and one move", "anchors": ["source/data_model/hdf5/source/identifier.cpp: Identifier", "source/data_model/hdf5/include/lue/hdf5/identifier.hpp", "source/data_model/hdf5/source/datatype.cpp: Datatype::Datatype(hid_t)"]}
{"id": "C82", "title": "Data of array partitions: copies share elements, moves hand them over", "statement": "Instances of ArrayPartitionData are handles to buffers with elements. A copy refers to the same elements as the original: what is written through one is read back through the other, by index and by linear index. The elements stay available as long as an instance refers to them. Moving from an instance makes the other instance refer to the elements and leaves an empty instance behind, without affecting other instances. No operation reads or writes memory that has been freed, and no assertion fails.", "quantifier": "all ranks, element types, shapes and values; all programs: sequences of constructions, copies, moves, assignments, destructions, writes and fills of any number of instances", "why_tests_cant": "all histories: the tests construct, copy and move single instances; aliasing of several instances is not looked at", "anchors": ["source/framework/partitioned_array/include/lue/framework/partitioned_array/array_partition_data.hpp: ArrayPartitionData", "source/framework/partitioned_array/include/lue/framework/partitioned_array/shared_buffer.hpp: SharedBuffer", "source/framework/core/include/lue/framework/core/array.hpp: Array"]}
{"id": "C83", "title": "Operations with one value per partition give an array with a cell per partition", "statement": "partition_count_unique, locality_id and timestamp return an array of which the shape is the number of partitions in each dimension of the argument, and which has a partition of one cell for each partition of the argument, at the index of that partition and on the same locality. The cell contains the number of different valid values in the partition (or no-data if there are none), the identification of the locality of the partition, and the time at which the task for the partition ran.", "quantifier": "all array shapes and partition shapes, including the ones with larger partitions at the border; all distributions over localities; all values, no-data policies and result types that can represent the number of cells in a partition", "why_tests_cant": "all shapes, values and distributions: the tests use 60 x 40 cells in partitions of 10 x 10 cells", "anchors": ["source/framework/algorithm/include/lue/framework/algorithm/partition_operation.hpp: partition_operation, offset_in_partitions", "source/framework/algorithm/include/lue/framework/algorithm/partition_count_unique.hpp: partition_count_unique", "source/framework/algorithm/include/lue/framework/algorithm/locality_id.hpp: locality_id", "source/framework/algorithm/include/lue/framework/algorithm/timestamp.hpp: timestamp"]}
{"id": "C84", "title": "Scalability experiments use the numbers of workers and array shapes asked for", "statement": "A pool of workers with a multiplier (incrementor) results in one benchmark for each number min_size * multiplier^k (min_size + k * incrementor) that is not larger than max_size, and a pool with a size in one benchmark; other pools are refused, and a pool written to JSON and read again results in the same benchmarks. The range of array shapes starts at the smallest shape, the numbers of cells grow with the multiplier, and no shape has more cells than the maximum.", "quantifier": "all minimum and maximum numbers of workers, multipliers, incrementors and sizes, all combinations of keys being present; all ranks and smallest shapes, multipliers, maximum numbers of cells and both growth methods", "why_tests_cant": "all numbers and shapes: the tests contain a few ranges", "anchors": ["source/quality_assurance/scalability/command/scalability/experiment/pool.py: Pool, MultipliedWorkerRange, IncrementedWorkerRange, EmptyWorkerRange", "source/quality_assurance/scalability/command/scalability/experiment/worker.py: Worker.nr_benchmarks, Worker.nr_workers", "source/quality_assurance/scalability/command/scalability/experiment/shape.py: range_of_shapes"]}
{"id": "C85", "title": "Jobs of a scalability experiment fit in the cluster", "statement": "A strong or weak scalability experiment is accepted if, and only if, the pool of workers results in at least two numbers of workers and the largest one is not larger than what is available in the cluster (cores, NUMA nodes, or cluster nodes, depending on the type of the workers). The jobs that are submitted then contain one run for each number of workers, with the documented numbers of processes and threads, and they do not ask for more nodes, hardware threads or memory than there are. Without a scheduler the same runs result.", "quantifier": "all descriptions of clusters with at least one of each part, all types of workers and processes, and all pools (multiplied, incremented, fixed, or refused)", "why_tests_cant": "all clusters and pools; there are no tests of the generated scripts", "anchors": ["source/quality_assurance/scalability/command/scalability/experiment/cluster.py: Cluster, ClusterNode, Package, NUMANode", "source/quality_assurance/scalability/command/scalability/experiment/worker.py: Worker", "source/quality_assurance/scalability/command/scalability/experiment/benchmark.py: Benchmark", "source/quality_assurance/scalability/command/scalability/experiment/job.py: memory_requirements, create_slurm_script, create_slurm_script2", "source/quality_assurance/scalability/command/scalability/experiment/strong_scalability/generate_script.py: generate_script", "source/quality_assurance/scalability/command/scalability/experiment/weak_scalability/generate_script.py: generate_script"]}
{"id": "C86", "title": "Weak scalability experiments scale the array with the number of workers", "statement": "Given the array shape per worker, scale_array_shape returns, for each number of workers, an array of which each extent is nr_workers^(1/rank) times the extent per worker, rounded to the nearest integer, and of which the number of cells per worker differs less than 0.1% from the number of cells of the shape per worker; otherwise an exception is raised. With one worker the shape does not change, and for m^rank workers the extents are m times larger. No exception is raised if all extents are at least 1000 times the rank.", "quantifier": "all ranks, extents of at least one cell and numbers of workers", "why_tests_cant": "all shapes and numbers of workers; there are no tests of this function", "anchors": ["source/quality_assurance/scalability/command/scalability/experiment/weak_scalability/generate_script.py: scale_array_shape, work_scale_multiplier"]}
{"id": "C87", "title": "Shapes of arrays and partitions for scalability experiments", "statement": "The command for calculating an array shape returns the largest array with equal extents for which all arrays fit in the memory of all nodes. The range of partition shapes contains each shape that is a number of steps larger than the smallest one in all dimensions and not larger than the largest one. The multipliers of a partition shape are returned if, and only if, the array consists of whole partitions; the range of multipliers starts at that of the smallest partition shape and ends at that of the largest one. Other arguments are refused.", "quantifier": "all amounts of memory, ranks, numbers of arrays and nodes and sizes of elements; all shapes, steps and ranks", "why_tests_cant": "all numbers and shapes: the tests contain a few of them, with equal extents", "anchors": ["source/quality_assurance/scalability/command/scalability/experiment/shape.py: array_shape, partition_shape_multipliers, ranges_of_partition_shape_multipliers, shape_ranges, partition_shapes", "source/quality_assurance/scalability/command/scalability/cli/array_shape.py: main"]}
