# Formal model of LUE in Rocq (Coq 8.16.1)

The model lives in `rocq/theories`. For each area `X`:

* `XModel.v` - executable Gallina definitions, each citing the file and lines in /repo it models; no proofs.
* `XSpec.v` - small specification vocabulary, independent of the model.
* `XProofs*.v` - lemmas.
* `XTheorems.v` - the property theorems (short proofs that apply lemmas), each followed by `Print Assumptions`, and by an
  `Example` with a concrete case that meets the hypotheses.

Names that end in `_partial` prove part of a property, names that end in `_refuted` prove that (part of) a property as a user
would state it is false of the code, by a concrete witness run through the model. What is missing or false is said in the comment
above the theorem and in the note in `MANIFEST.json`.

## Conventions

* `Index` and `Count` are 64-bit integers in the code; the model uses unbounded `Z`. Element types with a fixed width are
  modelled with their range where the property is about it (C37, C38, and the sums of C14 and C16).
* Outcomes: `Ok`, `Throw` (an exception or a failed future), `UB` (undefined behaviour, or an assertion that is compiled out in
  release builds, or - where loops carry a bound - a loop that does not end within the bound). Theorems that conclude `= Ok ..`
  hence include that none of these is reached.
* HPX futures are modelled by their dependencies. Where the order of tasks is not fixed by dependencies, the model is a
  transition relation that admits every interleaving, or takes an oracle for the order, and theorems quantify over it.
* A partitioned array *holds* a raster (`ArraySpec`, `raster_of`): partitions in row-major order, each with offset, extents and
  values of the raster. Theorems about algorithms relate the raster of the input to the raster of the output.
* binary64 is Flocq's `binary64` with the operations of IEEE 754, round to nearest even (`Float64.v`). binary32 is not modelled, except in C47, which is for floats of any precision.

## Plan per property

| ID | What is modelled, and simplifications | How it is proved |
|----|------------------|------------------|
| C01 | `partition_shapes` and partition offsets, any rank | arithmetic per dimension, lists per rank |
| C02 | error results and extents of `partition_shapes` | case analysis, division lemmas |
| C03 | `linear_idx_to_idxs`, `idxs_to_linear_idx`, `linear_idx` | induction on rank |
| C04 | `HilbertCurve<2>` recursion over signed axis vectors | well-founded induction over rectangles in a signed basis |
| C05 | linear curve loops | induction |
| C06 | `map_to_range`, in binary64 as the code computes it | error bound of the binary64 quotient, monotonicity |
| C07 | both instantiation visitors as folds over the curve's visit sequence | fold invariant |
| C08 | buffer copy loops per partition | induction on loops, C01 |
| C09 | cursor-based `visit_array` | induction on rank |
| C10 | `erase` on row-major buffers | induction on number of slabs |
| C11 | `max_partition_shape` loop | refuted in general; proved for extents of at least the number of partitions asked for |
| C12 | `default_partition_shape` | refuted in general; proved in three common cases |
| C13 | unary and binary local operation loops with policies (the ternary one is dead code and skipped) | induction over cells; refutation for equally many partitions of unequal shape |
| C14 | partition and array level aggregation with markers; public API has one element type for input and output | fold fusion; refutation for marker collisions |
| C15 | all / any / none on the same machinery | instances of the lemma for C14 |
| C16 | zonal aggregators, merge over partitions, reclassification; sums modulo 2^bits; sums and means of IEEE-754 numbers of any format with a bound on the rounding error, exact for whole numbers | merging is a homomorphism; the rounding errors of any order of additions |
| C17 | majority aggregator | invariant on count maps |
| C18 | halo construction, assembly of 3x3 partitions, inner, side and corner windows; one input array; exceptions in a task fail the operation | coordinate arithmetic |
| C19 | focal functors as folds over windows | induction |
| C20 | partition-local count and border exchange; partitions with at least two rows and columns (refuted for one row) | coordinate case analysis |
| C21 | message-passing transition system of flow accumulation: partitions, channels, tasks; atomic steps; amounts are exact rationals, `None` is no-data; arguments of the operation as one array of tuples; partitions as in C20 | invariants, progress measure |
| C22 | sum over the cells of the result of C21's specification | induction over a topological order |
| C23 | cell functors of accu_threshold, _capacity, _fraction, _trigger in exact arithmetic | algebra per cell, C21 |
| C24 | `downstream`, `upstream` functors through the focal machinery; both arguments zipped into one array; the assertion on sinks dropped; halo flow directions point outward and halo material is zero; partitions with fewer than three rows or columns give `Throw` | reuse of C18 |
| C25 | decreasing_order: sort per partition and zone, merging of maxima, route fragments; atomic tasks; end of a fragment set when it is added; the variant without zones is a single zone 0 (UB if no cell is valid, `.front()` at line 1607); NaN excluded; the code's use of `numeric_limits<float>::min()` as lowest value is refuted | invariants over the merge |
| C26 | `walk` over route fragments as transition system; component maps of downstream localities not modelled: lookups by partition; setting a promise twice is `Throw` | invariant, measure |
| C27 | `downscale`: assignment per partition; negative counts not modelled | coordinate arithmetic; refutation for enlarged last partitions |
| C28 | clump: span flood fill per partition, borders, corners, sets of IDs, their merge, reclassification; IDs are unbounded integers; one definition for both connectivities, with a case distinction where the two functions of the code differ; partition keys are row-major positions | reachability; invariants of the sets; exact for one partition, refuted in general |
| C29 | where | induction over cells; refutation: policies swapped for a scalar |
| C30 | reclassify | induction over cells |
| C31 | unique, unique_id; overflow of the ID type is UB; the order in which results become ready is an oracle | sets, arithmetic |
| C32 | simulation loop and `hpx::sliding_semaphore` (wait while upper - max_difference > lower; signal takes the maximum) as transition system; exceptions not modelled | invariant over interleavings |
| C33 | recycle bin as state machine; contracts of std::allocator and of callers assumed | invariant over histories |
| C34 | hyperslab computation for write and read, any rank; HDF5 selections assumed: row-major, outside the extent is `Throw`; same element type in file and memory; arrays by ID of object not modelled; order of partitions is an arbitrary permutation | C01, coordinates |
| C35 | hyperslab functions | arithmetic |
| C36 | `clamp_area_shape` | arithmetic |
| C37 | integer functors and their policies | case analysis on ranges |
| C38 | cast functor between integer types and from binary64 | case analysis; bounds in binary64 |
| C39 | circle and box kernels | arithmetic |
| C40 | focal_mean functor | refuted by witness |
| C41 | serialiser of tasks: generations, per-locality counters, as transition system | invariant over interleavings, measure |
| C42 | order of asynchronous I/O calls on a dataset; effects are atomic per call and locality; parallel I/O, readiness of partitions and QA builds not modelled; all localities take part, as creating an array throws if there are fewer partitions than localities, and by C06 | invariant, measure; refutation for reads by non-thread-safe builds |
| C43 | range for integral elements: values threaded through the loops over partitions; tasks run when spawned | loop invariant; refutation in all cases the partial theorem excludes |
| C44 | mesh_grid for ranks 1 and 2; arithmetic of the element type is a parameter | induction over cells |
| C45 | cell_index with policies of condition and result | induction over cells; refutation in all cases the partial theorem excludes |
| C46 | array_like, any rank | induction over cells |
| C47 | d8_flow_direction through the focal machinery, floats of any precision (Flocq), differences rounded | order of floats; loop invariant; elevations decrease along paths; composed with C21 |
| C48 | downstream_distance | case analysis |
| C49 | gradients (convolutions and division), slope; exact real arithmetic | C19, C13, algebra; borders excluded for planes |
| C50 | aspect; exact real arithmetic | trigonometry; refuted for all planes |
| C51 | Python __getitem__ of dataset arrays: slices (CPython contract), hyperslabs with strides, reading (HDF5 contract) | arithmetic progressions; row-major order with removed dimensions; backward slices refuted |
| C52 | Python __setitem__: arrays, numbers | same; three refuted claims |
| C53 | Python __getitem__/__setitem__ of strings | list algebra; refuted in general |
| C54 | same_shape::Value, same_shape::constant_shape::Value on an HDF5 dataset (contract) | invariant over histories: the dataset is the concatenation of what was written last |
| C55 | different_shape::Value (C++ and Python), several instances of a value on the same file | invariant over histories of a group with named arrays; six theorems of which four refute the general claim |
| C56 | different_shape::constant_shape::Value, same_shape::variable_shape::Value, different_shape::variable_shape::Value | generic invariant over groups of items, instantiated with C54 and C55 |
| C57 | the validator of datasets (validate.cpp), on the value arrays of C54-C56 | equivalence with an independent specification, per level |
| C58 | same | corollaries of C57 and C54; seven refuted claims |
| C59 | same | invariants of the collections that a program writes |
| C60 | chunk_shape, in binary64 (Flocq); std::pow is any accurate (or, for counterexamples, correctly rounded) function | error analysis with relative errors; loop invariant; computed counterexamples |
| C61 | the accumulator of accu for floating point numbers (Flocq, any precision), routed by the router of C21 | three-way simulation: floating point, exact and counting routing take the same steps; error analysis of each addition; two computed runs as counterexample |
| C62 | the sum functor for floating point numbers (Flocq, any precision) on the machinery of C14 | the aggregation lemma of C14 with the error bound as invariant; computed counterexamples |
| C63 | gdal::Blocks, reading and writing of blocks of a band, compare_rasters; GDAL itself is a record of what LUE observes of a band (shape, block shape, cells, unspecified elements outside of the raster) | tiling by division with remainder; loop over blocks by induction; refutations for all shapes of a class |
| C64 | utility::blocks, lue_to_gdal, gdal_to_lue, the loops over bands, space box and geo-transform (rationals) of lue_translate | unfolding of the loop for one, at most ten and more strips; Qc field arithmetic |
| C65 | from_gdal, to_gdal: verification of the hyperslab, translation of no-data, reading per locality, the loop over partitions that are ready (any order that hpx::when_any reports); RasterIO reads and writes boxes of cells | C07 for batches; the loop writes a permutation of the partitions, by induction on the number left; writing of boxes as for C34 |
| C66 | integrate: as C26, with values by route id that travel with the walk, and the partitions of the integrand; any element type and addition | simulation: each step of integrate is a step of first_n, so the invariant of C26 holds; along it the travelling value is the sum of the cells visited |
| C67 | kinematic_wave: the constructor, guess, fq, dfq and iterate_to_new_discharge over the real numbers with std::pow, the accumulator, the domain policies; the root finder is a parameter with a relative error | real analysis: intermediate value theorem, strict monotonicity; routing by relating the accumulator (RouterSim) to a total one, to which the theorem of C21 applies; the balance by summing over the network |
| C68 | from_numpy and to_numpy on a memory of blocks in which NumPy arrays are strided views; the tasks that create the partitions read the memory of a later moment | contiguity by induction over dimensions; rows by index arithmetic; induction over the partitions, each cell being written with its own value |
| C69 | lue.pcraster's cover, max, min, ifthen, ifthenelse, boolean and defined, over the model of where and the comparison operators, with arguments that are arrays, scalars or numbers | the theorems about local operations per cell, induction over the arguments; float's order from Flocq |
| C70 | classes that run Python models, over the model of run_deterministic and run_stochastic (C32); user code is a parameter that may fail | induction over time steps and samples, composed with C32; refutation by an execution for each number of time steps and rate limit |
| C71 | generateNameT, generateNameS, generateNameST with pathlib's parsing and printing of paths | parsing is the inverse of printing; the last underscore separates name and number; decimal numbers from the standard library |
| C72 | HDF5 groups as locations in a file, with HDF5's rules for names of links; collections that are opened from the file and kept in memory; one definition for all levels of the hierarchy | induction over the address of the new item: opening the extended file gives the updated dataset, as opening only looks at what is below a location; then induction over histories |
| C73 | property sets with the arrays, groups and links that views create and look at (value arrays of ValueModel, maps of CatalogModel); views as what is cached; programs with any number of views; validation of ValidateModel | a translation from abstract rasters to what is stored for them, which all operations commute with; induction over programs; validity through C57 |
| C74 | boost's split and std::filesystem::path's append for POSIX on texts | texts are a part, or a part, a slash and a text: induction over that; appending the parts again removes series of slashes |
| C75 | translate_window_length in binary64 (Flocq), Python's division and remainder; window operations as focal operations of C18 and C19 | the quotient of an exact multiple is exact; cells in the window as a sorted list characterised by real distances; composition with C19 |
| C76 | the text of the file as characters: lines, rstrip, split, int, slices; the table; reclassify of C30; the cache in the configuration as state of a program | grammar of files as inductive predicates; parsing is shown to give the lines of the grammar; invariant of the cache (entries agree with files) over programs |
| C77 | demand, production and whether demand is met, per zone; the computation per cell in binary64 as in the code; components per partition with tasks in any order, as for C26 | forward simulation of the walks by those of first_n, with a maximum of 0 or of more cells than routes have; per cell computation when demand is met; invariant of the productions; runs for the refutations |
| C78 | partitions with an engine each (any transition system), the distribution's draw function; std::uniform_real_distribution as in libstdc++, in any binary format; zones by the models of unique and reclassify | induction over draws; cell positions invert the tiling; rounding analysis of u * (b - a) + a by Flocq; C30 and C31 for zones; computed counterexamples |
| C79 | texts as lists of characters; the two regular expressions and std::regex_search as functions on these; boost::lexical_cast; HPX's configuration as a map | spans of characters; what is found in a part between commas does not depend on what follows; induction over parts; decimal notation by induction |
| C80 | the hooks of accu_info in the state machine of RouterModel, the bookkeeping shared with accu (C21) | the invariant of the router (RouterProofs) extended with a description of the class of each cell while it is being solved; classes of streams by induction over the walk along a stream |
| C81 | HDF5's table of identifiers as a counter per identifier; programs as lists of operations on variables; assertions and exceptions as outcomes, with and without NDEBUG | invariant: counter = number of instances, closed = counter is zero; preserved by each operation, induction over programs |
| C82 | a heap with arrays (shared_ptr) and blocks of memory (unique_ptr); instances as records with shape, pointer, data handle and the shape of the span; programs as lists of operations; assertions and use of freed memory as UB | invariant relating instances to views (same buffer iff same array, for non-empty buffers); preserved by each operation, induction over programs |
| C83 | the loops over partitions and cells; the functor as the set of values; integer division of offsets, with and without assertions; the clock as a function of the partition | reuse of the lemmas for unique and for linear indices; for borders: arithmetic on the offset of the last partition |
| C84 | pool.py's three ranges, with the keys of the JSON data as options, and exceptions for assertions and missing keys; worker.py's use of them; range_of_shapes with exact roots | induction on the loops, with powers (1 < multiplier) and sums; monotonicity of powers for the extents; concrete counterexamples |
| C85 | the cluster as six numbers; worker.py, benchmark.py, job.py and generate_script.py of strong_scalability and weak_scalability with exceptions for assertions; jobs and job steps as records of the numbers in the script | the numbers of workers from C84; the assertions decided by the largest number of workers; nonlinear arithmetic for what fits |
| C86 | nr_workers^(1/rank) * extent rounded to the nearest integer, as an inequality between powers (exact) | bounds on each extent, multiplied over the dimensions; Bernoulli's inequality for the number of cells |
| C87 | the functions of shape.py with exceptions for assertions; Python's range and zip; exact roots | the largest number with a property; elements of ranges and of zipped ranges by index; induction over the dimensions |

## Parts of the code that are not modelled

The data model on top of HDF5 (except hyperslab selections, the value arrays of C54-C56, the validator of C57-C59, the chunks of C60, the indexing of dataset arrays in Python, C51-C53, and the collections, raster views and pathnames of C72-C74),
HDF5 and GDAL themselves (their datasets, groups and bands are modelled by their contract), the command line utilities except for the raster translations of C64, the rest of the Python bindings,
visualisation, the HPX runtime and serialisation, build configuration, binary32 arithmetic, rounding in sums of binary64 values (except accu, C61, and sum, C62),
the parts of the routing algorithms for materials of more than one kind, benchmarks and tests.

## Trusted base

Coq's kernel (8.16.1), the VM conversion used by some examples, and Flocq's definition of binary64. The fidelity of the model to the code is by reading: each definition
cites the lines it models.

`Print Assumptions` is in the source after each theorem. It prints "Closed under the global context" for all theorems except for those that rest on Flocq's
binary64 and hence on the axioms of the standard library's real numbers:

    ClassicalDedekindReals.sig_not_dec, ClassicalDedekindReals.sig_forall_dec,
    FunctionalExtensionality.functional_extensionality_dep, Classical_Prop.classic

These theorems are: C01_partitions_tile_the_array, C02_rejected_iff_ill_formed, C02_partition_extents,
C06_localities_contiguous_and_balanced, C07_batches_equal_individual, C08_array_from_buffer, C11_max_partition_shape_partial,
C11_max_partition_shape_refuted, C25_decreasing_order_floats_partial, C25_decreasing_order_floats_refuted,
C27_downscale_partial, C27_downscale_refuted, C34_read, C34_round_trip, C34_other_time_steps,
C36_clamped_shape_is_next_multiple, C38_float_cast_truncates_or_no_data_partial, C38_float_cast_accepts_too_large_refuted,
C47_d8_flow_direction, C47_flow_directions_are_a_network, C49_slope_partial, C49_inclined_plane_partial, C49_border_refuted, C50_aspect_refuted, C65_read, C65_read_part, C65_round_trip, C65_no_data_partial, C65_valid_cells_refuted, C68_from_numpy, C68_element_types, C68_there_and_back, C68_back_and_there_partial, C68_back_and_there_refuted, and all theorems of C60, C61, C62, C67, C69, C75 (except C75_window4total), C77 and C78 (except C78_no_data, C78_zonal and C78_zonal_partitions).

No axioms, functors or module types are defined, and no kernel check is switched off.

## Tests of the theorems

`tools/mutate.py` edits the model as a bug would edit the program, rebuilds, and logs to `seeded/LOG.jsonl` which theorems fail.
