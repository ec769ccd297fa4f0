{"id": "C01", "title": "Checksum work is partitioned", "statement": "When a subset of N file entries is checksummed with T worker threads, every entry index in 0..N-1 is processed by exactly one worker, the workers' ranges are contiguous, in order and non-empty, and nothing outside 0..N-1 is touched.", "quantifier": "all N >= 0 and all T >= 1", "why_tests_cant": "The claim ranges over unboundedly many inputs; tests sample a few sizes.", "anchors": ["src/eumopps/catalogue/dataset.py:CatalogueDataSubset.compute_checksum_thread_indices"]}
{"id": "C02", "title": "Checksum thread count", "statement": "Checksumming never starts more than the configured number of workers. (False as stated: with N=127 and T=64, 127 workers start; what does hold is fewer than 2*T workers, and exactly N when N < 2*T.)", "quantifier": "all N and T", "why_tests_cant": "The claim ranges over unboundedly many inputs; tests sample a few sizes.", "anchors": ["src/eumopps/catalogue/dataset.py:CatalogueDataSubset.compute_checksum_thread_indices", "src/eumopps/catalogue/dataset.py:CHECKSUM_NUM_THREADS"]}
{"id": "C03", "title": "Batch scheduling covers every operation exactly once", "statement": "For a module with n operations and batch size b > 0, commandcount reports ceil(n/b) batches, and the command lines (batch, index) with batch < ceil(n/b), index < b address each operation 0..n-1 exactly once; the surplus command lines of the last batch are refused and run nothing.", "quantifier": "all n >= 0, b >= 1", "why_tests_cant": "The claim ranges over unboundedly many inputs; tests sample a few sizes.", "anchors": ["src/eumopps/catalogue/commandrun.py:commandrun", "src/eumopps/catalogue/fileio/formatnetcdf.py:CatalogueReaderNetCDF.operationcount", "src/eumopps/catalogue/jinja/batches.py:BatchSpecification"]}
{"id": "C04", "title": "Command run argument checks", "statement": "commandrun with a batch size requires a batch number and without one refuses a batch number; an operation index at or beyond the number of operations is refused with an error and no operation runs. (A negative index is not refused: it wraps round, as in Python list indexing, and runs an operation from the end.) (Further findings: batch size 0 is taken as no batch size; an operation without any per-operation parameter is run for every index; an operation whose run module is a class is never run because its run method is not found.)", "quantifier": "all argument combinations and catalogues", "why_tests_cant": "The claim ranges over unboundedly many inputs; tests sample a few sizes.", "anchors": ["src/eumopps/catalogue/commandrun.py:commandrun", "src/eumopps/catalogue/operationparameters.py:OperationParameterList.resolve_single"]}
{"id": "C05", "title": "Toolchain gate", "statement": "commandrun never runs an operation when the toolchain recorded in the catalogue for that operation differs from the running one, unless the caller explicitly allows it; with the list-only option it never runs an operation at all.", "quantifier": "all catalogues, recorded and current toolchains, and flags", "why_tests_cant": "Requires all combinations of flags and toolchain lists, including unequal lengths.", "anchors": ["src/eumopps/catalogue/commandrun.py:commandrun", "src/eumopps/catalogue/operation.py:Operation.current_runtime_toolchain"]}
{"id": "C06", "title": "Multiple-command batch", "statement": "multiplecommandsrun runs exactly the operations batch*size .. batch*size+size-1, once each, in increasing order, and hands the results in that order to the outer function; if any of them is out of range it raises and the outer function is not called. (Consequence, a finding: the final batch never succeeds when the operation count is not a multiple of the batch size.) (Second finding: the list option still runs the inner operations.)", "quantifier": "all operation counts, batch sizes and batch numbers", "why_tests_cant": "The claim ranges over unboundedly many inputs; tests sample a few sizes.", "anchors": ["src/eumopps/catalogue/multiplecommandsrun.py:multiple_commands_run", "src/eumopps/catalogue/commandrun.py:commandrun"]}
{"id": "C07", "title": "LSF submission covers every task once", "statement": "Submitting a module with n tasks in batches of b creates job arrays whose one-based index ranges are disjoint, consecutive and together cover exactly 1..n; the grouped version likewise covers exactly the jobs 1..ceil(n/tasks_per_job). Together with the job scripts and commandrun, every operation 0..n-1 is run exactly once with its own parameters.", "quantifier": "all n >= 1, b >= 1 (grouped: all tasks_per_job, jobs_per_batch >= 1)", "why_tests_cant": "The claim ranges over unboundedly many inputs; tests sample a few sizes.", "anchors": ["src/roses/fullstace/advanced_standard/lsf_submission.py:submit_eumopps_jobs", "src/roses/fullstace/advanced_standard/lsf_submission_group.py:submit_eumopps_jobs_grouped"]}
{"id": "C08", "title": "Daily step round trip", "statement": "A daily step from start to end has one step for every whole day from start up to and including the day of end; time_at_index is strictly increasing, and index_at_time(time_at_index(i)) = i for every step index i; any time within the 24 hours after the step's time maps to that step.", "quantifier": "all start and end times and all indices", "why_tests_cant": "The claim ranges over unboundedly many inputs; tests sample a few sizes.", "anchors": ["src/eumopps/catalogue/step.py:StepDaily", "src/eumopps/timeutils/timebase.py:TimeBaseDays"]}
{"id": "C09", "title": "Daily step before start", "statement": "Times before the start of a daily step are never attributed to a step. (False as stated: any time in the open 24 hours before start is attributed to step 0, because the day number is truncated toward zero; times at least one day before are attributed to a negative index.)", "quantifier": "all start times and query times", "why_tests_cant": "The claim ranges over unboundedly many inputs; tests sample a few sizes.", "anchors": ["src/eumopps/catalogue/step.py:StepDaily.index_at_time", "src/eumopps/timeutils/timebase.py:TimeBaseDays.datetime_to_number"]}
{"id": "C10", "title": "Data reference integer codec", "statement": "Writing a list of (dataset, subset, entry) references as a flat integer list and reading it back gives the same list, for references of any value including the missing marker -1; a flat list whose length is not a multiple of three is rejected.", "quantifier": "all reference lists and all integer lists", "why_tests_cant": "The claim ranges over unboundedly many inputs; tests sample a few sizes.", "anchors": ["src/eumopps/catalogue/datareference.py:reference_list_to_integers", "src/eumopps/catalogue/datareference.py:reference_integers_to_list"]}
{"id": "C11", "title": "Input references are valid and match the step", "statement": "Every input reference produced for an operation names an existing dataset, subset and entry of the catalogue, whose file was matched to that operation's step; a step with no matching entry gives, according to the missing-data policy, an error (not_allowed), the missing marker (allowed), or a skip request (skip). (Finding: a policy value that is none of the three is accepted and behaves like an empty list.)", "quantifier": "all catalogues, steps and policies", "why_tests_cant": "Depends on every possible catalogue content, including duplicate and missing days.", "anchors": ["src/eumopps/catalogue/placeholder.py:InputFileList.find_references"]}
{"id": "C12", "title": "Skipped steps are removed consistently", "statement": "After references of an operation are resolved with some steps skipped, every per-step parameter (input references, time stamps, step indices, output references) has the same length, equal to the reported operation count, and its k-th item refers to the k-th step that was not skipped.", "quantifier": "all numbers of steps, all sets of skipped steps, all parameter sets", "why_tests_cant": "The claim ranges over unboundedly many inputs; tests sample a few sizes.", "anchors": ["src/eumopps/catalogue/operation.py:Operation.resolve_operation_references", "src/eumopps/catalogue/operationparameters.py:OperationParameterList.restrict_to_subset"]}
{"id": "C13", "title": "Output entries are unique and referenced", "statement": "After output resolution a subset holds no two entries of the same name; each operation's output reference points at the entry whose name is the output pattern filled with that operation's time; two operations share an output entry only if their pattern gives the same name.", "quantifier": "all patterns, step lists and skip sets", "why_tests_cant": "The claim ranges over unboundedly many inputs; tests sample a few sizes.", "anchors": ["src/eumopps/catalogue/placeholder.py:OutputFile.operation_output_resolve"]}
{"id": "C14", "title": "Outputs go only to a new empty subset", "statement": "Output resolution fails, leaving the catalogue's datasets unchanged, when the named dataset or subset does not exist or already has entries; so entries created for one operation are never mixed with those of another.", "quantifier": "all catalogues", "why_tests_cant": "The claim ranges over unboundedly many inputs; tests sample a few sizes.", "anchors": ["src/eumopps/catalogue/placeholder.py:OutputFile.operation_output_resolve"]}
{"id": "C15", "title": "Catalogue updates preserve history", "statement": "Over any sequence of catalogue builder calls none of which overwrites it, each update keeps every data set and operation already in the catalogue, at the same index, and every subset that had entries with the same entries, so that operations stored earlier are run with the same parameters (apart from the catalogue identifier). (Findings: a subset that had no entries can be filled by a later update, so content is not strictly preserved; and an update may reuse an operation name, after which neither operation can be run by name.)", "quantifier": "all histories of update operations", "why_tests_cant": "A history property; tests exercise one or two updates.", "anchors": ["src/eumopps/catalogue/build.py:build", "src/eumopps/catalogue/operation.py:Operation.resolve_operation_references"]}
{"id": "C16", "title": "Existing catalogue protected", "statement": "Building a catalogue writes the output path only if it did not exist, or the caller asked for update or overwrite; otherwise the call fails and the file system is unchanged; an update fails if there is nothing to update. (Finding: with a data set filter the call always fails.)", "quantifier": "all flag combinations and file system states", "why_tests_cant": "The claim ranges over unboundedly many inputs; tests sample a few sizes.", "anchors": ["src/eumopps/catalogue/build.py:build_from_json_file"]}
{"id": "C17", "title": "Grouping by matched name fields", "statement": "Files found by a two-level name pattern are grouped together only if all the fields captured from the directory pattern agree. (False as stated: fields are concatenated without a separator to form the group key, so ('ab','c') and ('a','bc') are merged; it does hold when captured fields have fixed widths.)", "quantifier": "all lists of candidates and captured field values", "why_tests_cant": "The claim ranges over unboundedly many inputs; tests sample a few sizes.", "anchors": ["src/eumopps/catalogue/namepatterns.py:hash_string_list", "src/eumopps/catalogue/namepatterns.py:nested_search_patterns"]}
{"id": "C18", "title": "Catalogue file round trip", "statement": "An object saved to a NetCDF catalogue and loaded again, at any depth of nesting, has the same classes, values and positions: text, numbers, times (to the second), lists of these, integer reference lists of different lengths, tables of records of one class, and lists of objects. Members that are None or empty stay absent. This is for lists without None, names that do not clash with generated ones, and records with equal members. (Findings outside these limits: a None in a list or column of numbers moves later values up; None text becomes empty text; text rows of a table are padded; records take class and members of the first; text rows as direct member, such as archive_unused, and two number-list columns can never be saved.)", "quantifier": "all values of that kind, of any size and nesting depth", "why_tests_cant": "The claim ranges over unboundedly many inputs; tests sample a few sizes.", "anchors": ["src/eumopps/netcdfobjects/netcdfobjects.py:save_list_of_simple_python_objects", "src/eumopps/netcdfobjects/netcdfobjects.py:load_object", "src/eumopps/netcdfobjects/netcdfobjects.py:read_variable"]}
{"id": "C19", "title": "Time stamps: seconds base", "statement": "A time stored as 64-bit seconds since a base date and read back gives the original time, truncated to whole seconds; order of times is preserved.", "quantifier": "all times with year 1..9999", "why_tests_cant": "The claim ranges over unboundedly many inputs; tests sample a few sizes.", "anchors": ["src/eumopps/timeutils/timebase.py:TimeBaseSeconds"]}
{"id": "C20", "title": "Time stamps: days base", "statement": "The number of days since the base date is strictly increasing in time and whole days round-trip. (False when microseconds are present: they are added as millionths of a day, so 0.9 s counts as 21.6 hours and order is not preserved; holds for whole seconds.)", "quantifier": "all times", "why_tests_cant": "The claim ranges over unboundedly many inputs; tests sample a few sizes.", "anchors": ["src/eumopps/timeutils/timebase.py:TimeBaseDays.datetime_to_number"]}
{"id": "C21", "title": "Numeric date strings", "statement": "Formatting a date-time as a 14-digit number string and parsing it back gives the same date-time to the second, the string always has 14 digits, and string order is time order.", "quantifier": "all date-times with year 1..9999", "why_tests_cant": "The claim ranges over unboundedly many inputs; tests sample a few sizes.", "anchors": ["src/eumopps/timeutils/datetime_numeric.py:build", "src/eumopps/timeutils/datetime_numeric.py:parse"]}
{"id": "C22", "title": "Grid cell index", "statement": "A grid axis gives a coordinate the number of the interval it lies in, and that number is within the axis; the flat latitude/longitude number is a bijection between pairs of valid indices and 0..nlat*nlon-1; a coordinate at or beyond the upper edge is refused unless wrapping is on, where those less than one cell beyond the edge get the first cell. One refused coordinate refuses the whole array. (Findings: coordinates less than one cell below the start are accepted as cell 0; the command line also wraps the latitude axis, so that the north pole falls in the southernmost row.)", "quantifier": "all axis definitions and all coordinates", "why_tests_cant": "The claim ranges over unboundedly many inputs; tests sample a few sizes.", "anchors": ["src/eustace/satgrid/grid.py:GridAxis.compute_indices", "src/eustace/satgrid/grid.py:GridLatLon.compute_indices"]}
{"id": "C23", "title": "Aggregation is exact per cell", "statement": "After aggregating any sequence of files the count, sum, minimum and maximum held for each grid cell are those of exactly the observations mapped to that cell; totals over cells equal totals over observations; the result does not depend on how observations are split over files nor on their order.", "quantifier": "all observation sequences, splits and permutations", "why_tests_cant": "Order and split independence quantifies over all permutations and splits.", "anchors": ["src/eustace/satgrid/aggregate_grid.py:AggregateGridCountSumMinMax", "src/eustace/satgrid/aggregate.c", "src/eustace/satgrid_iris/gridbin/operation/sumcountmaxmin.pyx"]}
{"id": "C24", "title": "Two-pass variance", "statement": "The variance obtained by the two-pass aggregation (sum and count, then squared deviations about the cell mean) equals the sample variance of the observations in the cell, for every cell with at least two observations.", "quantifier": "all observation sequences", "why_tests_cant": "The claim ranges over unboundedly many inputs; tests sample a few sizes.", "anchors": ["src/eustace/satgrid/aggregate_grid.py:AggregateGridSumDevSq", "src/eustace/satgrid/file_aggregate_grid.py"]}
{"id": "C25", "title": "Per-cell value array", "statement": "Recording observations in a fixed number of slots per cell keeps them in arrival order and never disturbs other cells. (False once a cell receives more observations than slots: the surplus lands in the next cell's slots; holds while no cell exceeds the limit.) The reported largest value leaves out observations equal to zero.", "quantifier": "all observation sequences", "why_tests_cant": "The claim ranges over unboundedly many inputs; tests sample a few sizes.", "anchors": ["src/eustace/satgrid/aggregate_grid.py:AggregateGridArray"]}
{"id": "C26", "title": "Quality filter", "statement": "Satellite observations used are exactly those whose quality flag, restricted to the mask bits, equals the required value; the rejected and the used observations partition the input.", "quantifier": "all flag arrays, masks and required values", "why_tests_cant": "The claim ranges over unboundedly many inputs; tests sample a few sizes.", "anchors": ["src/eustace/satgrid/satellite_file.py:SatelliteFile.find_qc_flag_indices"]}
{"id": "C27", "title": "Raw binary observation round trip", "statement": "Observations written to a raw binary day file and read back are the same records in the same order, for any number of observations and of locally correlated error terms; the observation count obtained from the file size equals the number written; a trailing partial record is ignored.", "quantifier": "all observation lists and error-term counts", "why_tests_cant": "The claim ranges over unboundedly many inputs; tests sample a few sizes.", "anchors": ["src/eustace/analysis/fileio/observationsource_rawbinary.py:ObservationRawBinaryWriter", "src/eustace/analysis/fileio/observationsource_rawbinary.py:ObservationRawBinaryReader"]}
{"id": "C28", "title": "Day file holds only that day's valid observations", "statement": "The file written for a day holds exactly the observations that are not masked and whose time lies in that day, in their original order. (False for day 0: times are truncated towards zero, so observations of the day before are put in the file too.)", "quantifier": "all observation sets and days", "why_tests_cant": "The claim ranges over unboundedly many inputs; tests sample a few sizes.", "anchors": ["src/eustace/analysis/fileio/observationsource_rawbinary.py:ObservationRawBinaryWriter.write_day"]}
{"id": "C29", "title": "Location lookup identity", "statement": "Observations are only ever combined with the location table they were written against. (False: the identifier in the observation file is read but never compared with that of the table. What holds: a day prepared from fixed locations carries the identifier of the reference table, and is written only if the coordinates of the locations used agree with it to within 0.0001. A day with no observations cannot be prepared.)", "quantifier": "all pairs of observation file and location table", "why_tests_cant": "The claim ranges over unboundedly many inputs; tests sample a few sizes.", "anchors": ["src/eustace/analysis/fileio/observationsource_rawbinary.py:ObservationRawBinaryReader.read_contents"]}
{"id": "C30", "title": "Location pointer index", "statement": "Following a location's pointer list gives, for every location, the byte positions of exactly the observations made there, in file order, and reading the record at that position gives that observation. (The reader as it stands never succeeds: it uses a module it does not import.)", "quantifier": "all observation files and locations", "why_tests_cant": "The claim ranges over unboundedly many inputs; tests sample a few sizes.", "anchors": ["src/eustace/analysis/fileio/locationpointers.py:LocationPointersRawBinaryWriter", "src/eustace/analysis/fileio/locationpointers.py:LocationPointersRawBinaryReader"]}
{"id": "C31", "title": "Break point policies", "statement": "The hard cut-off policy keeps exactly the break points with likelihood at or above the threshold, together with their station and time, in order; re-applying it changes nothing; a higher threshold keeps a subset. The kernel policy keeps exactly those whose kernel value reaches the threshold. Other policy names are refused.", "quantifier": "all break point sets and thresholds", "why_tests_cant": "The claim ranges over unboundedly many inputs; tests sample a few sizes.", "anchors": ["src/eustace/analysis/observationsource.py:ObservationsBreakPoints"]}
{"id": "C32", "title": "Combining minimum and maximum temperature", "statement": "The mean of two observation sets has, at each location they share, the arithmetic mean of the measurements and the root mean square of the errors; it is masked where either is masked; sets whose shared locations come in different orders, or with different times, are refused; appending keeps all observations in order. (False: with one time per observation the mean keeps all times; a refused append leaves the set inconsistent.)", "quantifier": "all pairs of observation sets", "why_tests_cant": "The claim ranges over unboundedly many inputs; tests sample a few sizes.", "anchors": ["src/eustace/analysis/observationsource.py:Observations.mean", "src/eustace/analysis/observationsource.py:Observations.append"]}
{"id": "C33", "title": "Station bias effect alignment", "statement": "Each reporting station with a later break is associated with the bias parameter of its next break, and stations without later breaks get none. (Holds when station indices are sorted and unique and breaks are ordered by station and time; false for unsorted station indices, and an error when a station reports twice.)", "quantifier": "all station lists, break lists and times", "why_tests_cant": "The claim ranges over unboundedly many inputs; tests sample a few sizes.", "anchors": ["src/eustace/analysis/advanced_standard/fileio/observation_source_surface_effects.py:insitu_land_covariate_effect"]}
{"id": "C34", "title": "Each component is fitted to the residual of the others", "statement": "When a component is updated at a time, the measurement it sees is the observation minus the sum of the expected values of all other components, its own expected value not being subtracted, for any number and order of components.", "quantifier": "all component lists, observation values and time steps", "why_tests_cant": "The claim ranges over unboundedly many inputs; tests sample a few sizes.", "anchors": ["src/eustace/analysis/advanced_standard/analysissystem.py:AnalysisSystem.update_component_time"]}
{"id": "C35", "title": "Measurement accumulation is order independent", "statement": "The information accumulated for a space-time component over any list of days and observation sources does not depend on the order of processing nor on how sources are split, and equals that of all observations stacked together.", "quantifier": "all lists of measurement updates and permutations", "why_tests_cant": "Ranges over all permutations and groupings of updates.", "anchors": ["src/eustace/analysis/advanced_standard/components/spacetime.py:SpaceTimeComponentSolution.update", "src/eustace/analysis/advanced_standard/linalg/linearsystem.py:MeasurementUpdate.append"]}
{"id": "C36", "title": "Merging stored measurements does not disturb them", "statement": "Merging the stored measurement updates of a space-time component leaves the stored values unchanged, so that merging twice gives the same result. (False: the first stored update is modified in place; a second merge counts the others twice.)", "quantifier": "all sets of stored updates and repetition counts", "why_tests_cant": "The claim ranges over unboundedly many inputs; tests sample a few sizes.", "anchors": ["src/eustace/analysis/advanced_standard/components/spacetime.py:SpaceTimeComponentSolution.merge_updates", "src/eustace/analysis/advanced_standard/components/storage_inmemory.py"]}
{"id": "C37", "title": "State storage read-after-write", "statement": "A component storage returns, for each quantity and time, the value most recently written for it, under any sequence of writes and reads; for file lists the file for a time is the one paired with it, the last one winning when a time is repeated, and an unknown time is refused. (For the storage with one file per quantity this needs reading and writing to use the same file: with different files, as between iterations, the option to keep a copy in memory changes what is read. Its stored measurements cannot be read back at all.)", "quantifier": "all histories of reads and writes", "why_tests_cant": "A history property over arbitrary interleavings of keys.", "anchors": ["src/eustace/analysis/advanced_standard/components/storage_inmemory.py", "src/eustace/analysis/advanced_standard/components/storage_files_batch.py"]}
{"id": "C38", "title": "Combined hyperparameters round trip", "statement": "Setting the hyperparameters of a combination element from an array and reading them back gives the same array, each sub-element receiving its own consecutive slice; the element ranges partition the parameter indices; an array of a wrong length is refused and changes nothing. (The last sub-element must have parameters: otherwise the hyperparameters can be read but not set.)", "quantifier": "all lists of sub-elements with any numbers of parameters", "why_tests_cant": "The claim ranges over unboundedly many inputs; tests sample a few sizes.", "anchors": ["src/eustace/analysis/advanced_standard/elements/combination.py:CombinationHyperparameters"]}
{"id": "C39", "title": "Combined design equals the sum of parts", "statement": "For a combination of elements the state splits into the consecutive states of its elements, the combined prediction is the sum of the element predictions, and the combined Jacobian applied to a state increment is the sum of the element Jacobians applied to their parts. (Not when one of the elements is a space-time factor element: then every prediction is refused.)", "quantifier": "all lists of elements, dimensions and states", "why_tests_cant": "The claim ranges over unboundedly many inputs; tests sample a few sizes.", "anchors": ["src/eustace/analysis/advanced_standard/elements/combination.py:CombinationDesign"]}
{"id": "C40", "title": "Combined prior derivative", "statement": "The prior precision of a combination is block diagonal in the element precisions, and its derivative with respect to a global hyperparameter index is block diagonal with the derivative of the owning element in its block and zero elsewhere, which is the derivative of the precision. (An index outside all elements silently gives a zero derivative.)", "quantifier": "all lists of elements and parameter indices", "why_tests_cant": "The claim ranges over unboundedly many inputs; tests sample a few sizes.", "anchors": ["src/eustace/analysis/advanced_standard/elements/combination.py:CombinationPrior"]}
{"id": "C41", "title": "Precision derivative is the derivative of the precision", "statement": "For the spherical SPDE prior each entry of the matrix returned as derivative with respect to a hyperparameter is the derivative of that entry of the matrix returned as precision, for every order alpha, every mesh and every design of the parameters.", "quantifier": "all alpha, meshes, parameter designs and parameter values", "why_tests_cant": "Quantifies over all matrices and all orders of recursion.", "anchors": ["src/eustace/analysis/advanced_standard/stats/spde/spherical.py:SphereMeshSPDE.build_Q_native", "src/eustace/analysis/advanced_standard/stats/spde/spherical.py:SphereMeshSPDE.build_dQdp_native"]}
{"id": "C42", "title": "Precision order", "statement": "The SPDE precision follows the recursion Q_1 = K, Q_2 = K C^-1 K, Q_a = K C^-1 Q_(a-2) C^-1 K. (False for every alpha above 2: the loop stops one step early, so alpha gives the matrix of alpha - 2.)", "quantifier": "all alpha >= 1", "why_tests_cant": "The claim ranges over unboundedly many inputs; tests sample a few sizes.", "anchors": ["src/eustace/analysis/advanced_standard/stats/spde/spherical.py:SphereMeshSPDE.build_Q_native"]}
{"id": "C43", "title": "Lattice node numbering and search", "statement": "On a lattice of any dimension node numbers and index tuples are in bijection, node coordinates follow the numbering, and the neighbours returned for a location are valid nodes; with wrapping the neighbour index is taken modulo the dimension.", "quantifier": "all dimensions and lattice sizes", "why_tests_cant": "The claim ranges over unboundedly many inputs; tests sample a few sizes.", "anchors": ["src/eustace/analysis/advanced_standard/stats/spde/lattice.py"]}
{"id": "C44", "title": "Icosahedral mesh size", "statement": "After n subdivisions of the icosahedron the mesh has 10*4^n+2 points, 30*4^n edges and 20*4^n triangles, so points - edges + triangles = 2.", "quantifier": "all subdivision levels n up to 28, any sorting procedure, any midpoint function", "why_tests_cant": "Unbounded level; tests check levels up to about 5.", "anchors": ["src/eustace/analysis/mesh/mesh.py:MeshIcosahedronSubdivision.build", "src/eustace/analysis/mesh/mesh.py:MeshIcosahedronSubdivision.subdivide"]}
{"id": "C45", "title": "Triangle identifiers are row numbers", "statement": "At every level, row i of the triangle table has identifier i shifted left by 58-2*level, so the row of a triangle is found by shifting its identifier; rows 4i to 4i+3 of the next level are the three corner parts and the middle part of row i, so the row's parent is row i/4 of the previous level.", "quantifier": "all subdivision levels up to 28", "why_tests_cant": "Needs induction on level; identifiers feed all later look-ups.", "anchors": ["src/eustace/analysis/mesh/mesh.py:MeshIcosahedronSubdivision.subdivide", "src/eustace/analysis/advanced_standard/stats/spde/spherical.py:SphereMeshSPDE.build_A"]}
{"id": "C46", "title": "Mesh is a closed consistent surface", "statement": "At every level each edge belongs to exactly two different triangles, each (triangle, side) pair occurs exactly once in the edge table, and the end points of each edge are the vertices of its two triangles, traversed in opposite directions; no edge or triangle repeats a point.", "quantifier": "all subdivision levels up to 28", "why_tests_cant": "Needs induction on level.", "anchors": ["src/eustace/analysis/mesh/mesh.py:MeshIcosahedronSubdivision.subdivide"]}
{"id": "C47", "title": "Triangle location by barycentric subdivision", "statement": "Every point inside a triangle is assigned exactly one of the four sub-triangles, contains-relation is respected (its barycentric coordinates within the chosen sub-triangle are non-negative and sum to the same total), and the coordinates map back to the original point.", "quantifier": "all barycentric coordinates and all depths", "why_tests_cant": "The claim ranges over unboundedly many inputs; tests sample a few sizes.", "anchors": ["src/eustace/analysis/mesh/locator.py:TriangleLocatorHierarchical"]}
{"id": "C48", "title": "Quality mask semantics", "statement": "An output value is masked exactly when, for some (required, forbidden) flag specification in force, all required flags are set and no forbidden flag is set; with the production list this means: any of the uncertainty, areal, extreme or location flags, or missing-data without the marine exemption, or (years after 2012) the marine flag.", "quantifier": "all 16-bit flag values and all specification lists", "why_tests_cant": "65536 flag words times all specification lists.", "anchors": ["src/eustace/postprocess/apply_mask.py:compute_mask", "src/eustace/postprocess/apply_mask.py:FLAGS_TO_MASK", "src/eustace/postprocess/flags.py"]}
{"id": "C49", "title": "Flag merging", "statement": "Merging the flags of two quality checks keeps every flag set by the first, adds the flags of the second, and is idempotent. (Finding: the areal-low flag of the second input is rewritten as the marine flag, so it is lost.)", "quantifier": "all pairs of 16-bit flag words", "why_tests_cant": "The claim ranges over unboundedly many inputs; tests sample a few sizes.", "anchors": ["src/eustace/postprocess/merge_flag_files.py:merged_flags"]}
{"id": "C50", "title": "Window constraint flags", "statement": "The prior (post) window flag of a day is set exactly when fewer than the threshold of the available days before (after) it in the window are constrained; no other flag bit of the day changes; days whose files cannot be read count as unconstrained.", "quantifier": "all window sizes, thresholds, flag histories and sets of missing files", "why_tests_cant": "The claim ranges over unboundedly many inputs; tests sample a few sizes.", "anchors": ["src/eustace/postprocess/window_check.py:local_window_constraint_checks"]}
{"id": "C51", "title": "Monthly post-processing operations partition time", "statement": "With a reference date on the first of a month, operations 0..count-1 process every calendar day of the period exactly once, in order. (False for reference days after the 28th: month arithmetic clamps and days are lost or repeated.)", "quantifier": "all reference months and year ranges", "why_tests_cant": "Calendar arithmetic over all years.", "anchors": ["src/eustace/postprocess/operation_count.py:operation_dates", "src/eustace/postprocess/operation_count.py:operation_count"]}
{"id": "C52", "title": "Windowed statistics cover the grid", "statement": "Blocked computation of windowed means, medians and quartiles assigns every grid cell exactly once and gives the same result as the unblocked computation. (False for the mean when a dimension is smaller than 10: result is all zero.)", "quantifier": "all grid shapes and window sizes", "why_tests_cant": "The claim ranges over unboundedly many inputs; tests sample a few sizes.", "anchors": ["src/eustace/postprocess/outlier_check.py:compute_window_mean", "src/eustace/postprocess/outlier_check.py:compute_window_median_quartiles"]}
{"id": "C53", "title": "Latitude block quartiles cover all latitudes", "statement": "Block-wise quartiles are assigned to every latitude row. (False when the number of latitudes is not a multiple of the block size: trailing rows are left undefined.)", "quantifier": "all grid heights and block sizes", "why_tests_cant": "The claim ranges over unboundedly many inputs; tests sample a few sizes.", "anchors": ["src/eustace/postprocess/outlier_check.py:block_iqr_by_range"]}
{"id": "C54", "title": "Flag metadata matches flag bits", "statement": "The flag meanings written to the output file name, in bit order, the flags whose masks are written beside them. (False: 13 masks and 15 meanings are written, and from bit 11 onwards meanings are shifted by one.)", "quantifier": "all bits", "why_tests_cant": "The lists are constants, but the relation to the code setting the bits is semantic.", "anchors": ["src/eustace/postprocess/flags.py", "src/eustace/postprocess/apply_mask.py:save_flag_file"]}
{"id": "C55", "title": "Blocked projection equals whole projection", "statement": "Computing projected samples in blocks of rows visits every output row exactly once, in order, and equals the unblocked result; regridding in blocks of latitudes likewise covers each latitude exactly once. (Finding: fewer outputs than blocks raises a division error.)", "quantifier": "all numbers of outputs and block settings", "why_tests_cant": "The claim ranges over unboundedly many inputs; tests sample a few sizes.", "anchors": ["src/eustace/analysis/advanced_standard/fileio/output_projector.py", "src/eustace/analysis/advanced_standard/fileio/output_structure_rectilinear.py:Regridder.compute_gridded_expected_value"]}
{"id": "C56", "title": "Missing sources are dropped with their correlations", "statement": "When some source files are missing for a day, merging keeps the remaining sources in order, and the correlation list keeps exactly the coefficients of pairs of remaining sources, in the pair order expected by the merge.", "quantifier": "all numbers of sources and all sets of missing ones", "why_tests_cant": "The claim ranges over unboundedly many inputs; tests sample a few sizes.", "anchors": ["src/eustace/outputformats/filesmerger.py:clean_list_of_outputs_to_merge"]}
{"id": "C57", "title": "Merged uncertainty formula", "statement": "The merged squared uncertainty of a cell with n contributing sources is (sum_i u_i^2 + 2 sum_(i<j) r_ij u_i u_j) / n^2, i.e. the quadratic form of the symmetric correlation matrix; missing sources contribute nothing.", "quantifier": "all numbers of sources, correlations and uncertainties", "why_tests_cant": "The claim ranges over unboundedly many inputs; tests sample a few sizes.", "anchors": ["src/eustace/outputformats/filesmerger.py:FilesMerger.build_triangular_correlation_matrix", "src/eustace/outputformats/filesmerger.py:FilesMerger.propagate_uncertainty"]}
{"id": "C58", "title": "Generated iteration descriptors are well ordered", "statement": "In the generated list of operations for n iterations, each operation reads only data sets produced by operations earlier in the list, each data set is produced by one operation only, and each component is fitted using the latest available solutions of the other components.", "quantifier": "all numbers of iterations n >= 1", "why_tests_cant": "The claim ranges over unboundedly many inputs; tests sample a few sizes.", "anchors": ["src/eumopps/catalogue/jsonfiller.py:FullstaceJsonFiller.fill_descriptor", "src/eumopps/catalogue/jsonfiller.py:FullstaceJsonFiller.fill_batch_descriptor"]}
{"id": "C59", "title": "Optional inputs that are missing can be read", "statement": "When an operation's input may be missing and no file exists for its step, the operation is run with 'no file' for that input. (Finding: this holds only if the subset has at least one file for some other step; for a subset with no files the catalogue is built but reading the operation's parameters fails.)", "quantifier": "all catalogues, data sets and subsets, including empty ones", "why_tests_cant": "The failure needs a subset with no entries at all; the tests use data sets with some.", "anchors": ["src/eumopps/catalogue/fileio/formatnetcdf.py:CatalogueReaderNetCDF.load_data_pathnames", "src/eumopps/catalogue/placeholder.py:InputFileList.find_references"]}
{"id": "C60", "title": "A failed build leaves the existing catalogue intact", "statement": "If building or updating a catalogue fails, the catalogue file that was there before is unchanged; if it succeeds the file holds the complete new catalogue. (Finding: true of every failure before saving starts, but saving empties the file first, so a failure while writing destroys the existing catalogue.)", "quantifier": "all builder calls and all points of failure", "why_tests_cant": "Tests do not inject failures while the file is written.", "anchors": ["src/eumopps/catalogue/build.py:build", "src/eumopps/netcdfobjects/netcdfobjects.py:nc_open_for_save"]}
{"id": "C61", "title": "Operations of different days write different files", "statement": "With daily steps, the output files of two different operations have different names whenever the name patterns show year, month and day. (Finding: the check used to decide whether patterns show the date looks at the concatenated path components, so a directive split across two components, or components discarded by a later absolute component, pass it although different days then share a file.)", "quantifier": "all start and end times, all pattern lists, all pairs of days", "why_tests_cant": "Tests use one or two patterns and a handful of days; the claim is about every pattern list and every pair of days.", "anchors": ["src/eumopps/catalogue/step.py:StepDaily", "src/eumopps/catalogue/step.py:StepDaily.is_uniquely_defined_by", "src/eumopps/catalogue/namepatterns.py", "src/eumopps/timeutils/datetime_numeric.py"]}
{"id": "C62", "title": "Epoch-based daily steps cover the period", "statement": "With daily steps numbered from the epoch, every time from the start to the end of the period has a step number in 0..count-1 and the time of each such step lies in the period. (Finding: the count is the length of the period but numbers start at 1850, so this is false for every period that begins more than its own length after the epoch; it holds for periods that begin at the epoch.)", "quantifier": "all start and end times and all times between them", "why_tests_cant": "Tests compare numbers for single dates and never put count and numbering together.", "anchors": ["src/eustace/analysis/advanced_standard/fileio/step.py:StepDailyEpoch"]}
{"id": "C63", "title": "Monthly and annual steps follow the calendar", "statement": "The step of a time is the number of calendar months (years) between it and the start, and the time of a step is the beginning of that month (year). (Finding: the last second of every year is attributed to the following year, because fractions of a year are rounded to 24 bits.)", "quantifier": "all start times and all times before the year 9999", "why_tests_cant": "The rounding only shows in one second per year.", "anchors": ["src/eustace/analysis/advanced_standard/examples/step.py:StepAnnual", "src/eustace/analysis/advanced_standard/examples/step.py:StepMonthly", "src/eumopps/timeutils/timebase.py:TimeBaseAnnual"]}
{"id": "C64", "title": "Mid-month steps round trip", "statement": "A file dated at the time of a mid-month step is found again for that step, and the time of a step is the middle of its calendar month. (Finding: true only for epochs in January; for other epochs every file is attributed to an earlier step.)", "quantifier": "all epochs and all steps", "why_tests_cant": "Tests use a January epoch.", "anchors": ["src/eustace/analysis/advanced_standard/examples/stepmidmonth.py"]}
{"id": "C65", "title": "Outputs of a step are found again with their time", "statement": "A file written for a step under its output patterns (one pattern, or a directory pattern ending in a slash and a file pattern, without text fields and showing year, month and day) is found by a later search with the same patterns and is given the date of the step, and the time of day as far as the patterns show it; for daily steps starting at midnight it is therefore attributed to the same step. (Finding: without the slash at the end of the directory pattern the outputs are never found.)", "quantifier": "all patterns of that kind, times, lists of other files and dictionary orders", "why_tests_cant": "Tests search for a handful of literal names.", "anchors": ["src/eumopps/catalogue/namepatterns.py:nested_search_patterns", "src/eumopps/catalogue/dataset.py:CatalogueDataSet.search", "src/eumopps/timeutils/datetime_dictionary.py", "src/eumopps/catalogue/placeholder.py"]}
{"id": "C66", "title": "Every file found is accounted for", "statement": "After a search each file below the data set path is either in the list of unmatched files or listed by some subset as match or date error, never both, and at most once per subset.", "quantifier": "all lists of files, pattern lists and dictionary orders", "why_tests_cant": "Tests use fixed directory contents.", "anchors": ["src/eumopps/catalogue/dataset.py:CatalogueDataSet.search", "src/eumopps/catalogue/namepatterns.py:nested_search_patterns"]}
{"id": "C67", "title": "Dates come from the captured fields", "statement": "A file whose name shows year, month and day is catalogued with that calendar date or listed as a date error; missing month and day mean the first. (Findings: a day without a month is ignored; date fields without a year abort the whole search.)", "quantifier": "all captured field values", "why_tests_cant": "Tests use a few literal dates.", "anchors": ["src/eumopps/timeutils/datetime_dictionary.py:parse", "src/eumopps/catalogue/dataset.py:CatalogueDataSet.search"]}
{"id": "C68", "title": "Two gridding programs agree", "statement": "The two programs that grid satellite observations (satgrid and satgrid_iris), given the same files, axes and quality masks, produce the same fields in every cell - counts, mean, minimum, maximum, uncertainties, variance - where the second program's mask corresponds to the first program's flag value, as long as no pixel that passes the test is masked or without coordinates. (Findings: a pixel without coordinates stops the first program and is skipped by the second; a masked pixel is binned by the first and not by the second.)", "quantifier": "all grids, quality masks and file contents", "why_tests_cant": "Equivalence of two programs ranges over all inputs; tests of each program use separate small inputs.", "anchors": ["src/eustace/satgrid/file_aggregate_grid.py:SatelliteFileAggregator.run", "src/eustace/satgrid_iris/pipeline.py:GridBinPipelineSatellite.run", "src/eustace/satgrid_iris/gridbin/gridbin.py:GridBins.compute_input_map"]}
{"id": "C69", "title": "Times without observations", "statement": "A time at which no source has observations does not affect the states at other times and leaves the state at that time as it was. (True for spatial components; false for space-time components with measurements in memory: the solution fails as soon as one time is empty.)", "quantifier": "all systems, lists of times and patterns of empty times", "why_tests_cant": "Tests use times that all have data; which times are empty is arbitrary.", "anchors": ["src/eustace/analysis/advanced_standard/components/spacetime.py:SpaceTimeComponentSolution.update_time_step", "src/eustace/analysis/advanced_standard/components/spatial.py:SpatialComponentSolution.update_time_step", "src/eustace/analysis/advanced_standard/analysissystem.py:AnalysisSystem.update_component_time"]}
{"id": "C70", "title": "Batch of times equals one by one", "statement": "Processing several times in one call gives the same states as processing them one by one. (True for spatial components and for linear space-time components; false for delayed spatial components, where all times are added together under the last one.)", "quantifier": "all systems, lists of times and observations", "why_tests_cant": "Ranges over all lists of times and all systems.", "anchors": ["src/eustace/analysis/advanced_standard/analysissystem.py:AnalysisSystem.update_component_times"]}
{"id": "C71", "title": "Delayed solution equals immediate solution", "statement": "A delayed spatial component, which stores the measurements of each time and solves later, arrives at the states that the immediate spatial component computes. (True for linear elements; with a nonlinear element the delayed solution always fails.)", "quantifier": "all linear elements, systems, times and observations", "why_tests_cant": "Ranges over all systems and observation sequences.", "anchors": ["src/eustace/analysis/advanced_standard/components/spatialdelayed.py:DelayedSpatialComponentSolution.update", "src/eustace/analysis/advanced_standard/components/spatial.py:SpatialComponentSolution.update_time_step"]}
{"id": "C72", "title": "Prediction is the sum of components", "statement": "The expected value the analysis reports at any set of locations is the sum of the expected values of its components, independent of their order, and is consistent with the residuals used in fitting: observation = residual of a component + prediction - contribution of that component.", "quantifier": "all systems, locations and states", "why_tests_cant": "Ranges over arbitrarily many components.", "anchors": ["src/eustace/analysis/advanced_standard/analysissystem.py:AnalysisSystem.evaluate_pointwise_expected_value", "src/eustace/analysis/advanced_standard/analysissystem.py:AnalysisSystem.update_component_time"]}
{"id": "C73", "title": "Seasonal element: design and prior agree", "statement": "The seasonal model predicts, at each observation, the sum over mean, sine and cosine of each order of the harmonic at that time multiplied by its own spatial field; the prior precision has one block for each of these fields in the same order, with the hyperparameters of its order (shared by sine and cosine), as many rows as the state has entries, and its derivative with respect to each hyperparameter is the derivative of the precision.", "quantifier": "all numbers of harmonics, with and without mean, all hyperparameters, meshes and states", "why_tests_cant": "Tests use one or two harmonics; the indexing must be right for every number and both settings.", "anchors": ["src/eustace/analysis/advanced_standard/elements/seasonal.py:SeasonalElementDesign", "src/eustace/analysis/advanced_standard/elements/seasonal.py:SeasonalElementPrior"]}
{"id": "C74", "title": "Bias element", "statement": "The bias element predicts for each observation the sum of the biases that the covariate effect lists for it and zero for observations it does not list; an effect with an observation or bias number too large is refused. (Negative numbers are not refused but count from the end.)", "quantifier": "all numbers of observations and biases, all effect lists and states", "why_tests_cant": "Ranges over arbitrary effect lists, with repetitions and in any order.", "anchors": ["src/eustace/analysis/advanced_standard/elements/bias.py:BiasDesign", "src/eustace/analysis/advanced_standard/elements/bias_insitu_land.py:InsituLandBiasDesign"]}
{"id": "C75", "title": "Space-time products", "statement": "The Kronecker element predicts the sum over functions of time of their value times the spatial field of their block of the state; the factor element predicts the product of a spatial field and a function of time, and its Jacobian is exact up to the product of the two changes.", "quantifier": "all numbers of observations, spatial and time variables and all states and increments", "why_tests_cant": "Ranges over all states and increments; a wrong Jacobian term passes on special states.", "anchors": ["src/eustace/analysis/advanced_standard/elements/kronecker.py:SpaceTimeKroneckerDesign", "src/eustace/analysis/advanced_standard/elements/factor.py:SpaceTimeFactorDesign"]}
{"id": "C76", "title": "Mesh matrices and a valid precision", "statement": "On every mesh of triangles the mass matrix is diagonal and sums to the total area, the stiffness matrix is symmetric, gives constant fields no energy and measures the squared gradient of a field, and the precision built from them is symmetric and positive definite for every order alpha, so that the prior is a proper distribution.", "quantifier": "all meshes with positive areas that use every node, all alpha, all positive kappa and tau fields", "why_tests_cant": "Definiteness is a statement about all vectors, and it must hold on every mesh.", "anchors": ["src/eustace/analysis/advanced_standard/stats/spde/spherical.py:SphereMeshSPDE.build_Q_C_tilde", "src/eustace/analysis/advanced_standard/stats/spde/spherical.py:SphereMeshSPDE.build_Q_G", "src/eustace/analysis/advanced_standard/stats/spde/spherical.py:SphereMeshSPDE.build_Q_native"]}
{"id": "C77", "title": "Lattice precision links neighbouring nodes", "statement": "The precision on a lattice links a node with exactly its neighbours in each dimension, also over the edge of a dimension that wraps, in the numbering of the node coordinates and of the design matrix; it is symmetric, and what is returned as its derivative is its derivative. (False in two or more dimensions: the precision numbers nodes with the last index fastest, coordinates and design matrix with the first. The derivative ignores wrapping.)", "quantifier": "all lattice sizes, wrappings, scales and parameters", "why_tests_cant": "Tests use one lattice; square lattices hide the numbering.", "anchors": ["src/eustace/analysis/advanced_standard/stats/spde/lattice.py:LatticeSPDE.build_Q_native", "src/eustace/analysis/advanced_standard/stats/spde/lattice.py:LatticeSPDE.build_dQdp_native", "src/eustace/analysis/advanced_standard/stats/spde/lattice.py:LatticeMesh"]}
{"id": "C78", "title": "Priors of space-time elements", "statement": "The prior of the Kronecker element links latent variables with the product of the entries of the precisions in time and in space, that of the factor element is block diagonal, and for both the derivative with respect to each of the three hyperparameters is the derivative of the precision.", "quantifier": "all meshes, time lattices, orders and hyperparameter values", "why_tests_cant": "Derivatives and all sizes; a test at one parameter value by differences has a tolerance.", "anchors": ["src/eustace/analysis/advanced_standard/elements/kronecker.py:SpaceTimeKroneckerPrior", "src/eustace/analysis/advanced_standard/elements/factor.py:SpaceTimeFactorPrior"]}
{"id": "C79", "title": "Stationary and expanded parameters", "statement": "With stationary parameters every node has the same kappa and tau; with expanded parameters each node has those of its own log sigma and log rho; equal values at all nodes give the stationary precision.", "quantifier": "all numbers of nodes, orders, parameters and meshes", "why_tests_cant": "Ranges over all mesh sizes and parameter vectors.", "anchors": ["src/eustace/analysis/advanced_standard/stats/spde/spherical.py:SphereMeshSPDE.build_Q_stationary", "src/eustace/analysis/advanced_standard/stats/spde/spherical.py:SphereMeshSPDE.build_Q_expanded"]}
{"id": "C80", "title": "Lattice design matrix", "statement": "The row of the design matrix of a location has, for every node, the value of the basis function at the displacement between location and node; in a dimension that wraps this is the displacement to the nearest image of the node, and locations a whole number of periods apart have the same row. The search for nearby nodes misses none where the basis function is not zero.", "quantifier": "all lattices, basis functions that vanish outside their span, locations", "why_tests_cant": "A missed node shows only for some location, span and lattice.", "anchors": ["src/eustace/analysis/advanced_standard/stats/spde/lattice.py:LatticeMesh.build_A", "src/eustace/analysis/advanced_standard/stats/spde/lattice.py:LatticeMesh.locate_nearby_basis_indices"]}
{"id": "C81", "title": "Piecewise linear lattices interpolate", "statement": "With piecewise linear basis functions of the width of the node spacing the design matrix interpolates values at nodes linearly in each dimension: weights lie between 0 and 1, sum to 1 for every location inside the lattice, reproduce coordinates, and pick a single node at a node.", "quantifier": "all lattices, all locations inside", "why_tests_cant": "Ranges over all locations, including cell borders and the seam of a wrapped dimension.", "anchors": ["src/eustace/analysis/advanced_standard/stats/spde/lattice.py:PiecewiseLinearBasis", "src/eustace/analysis/advanced_standard/stats/spde/lattice.py:LatticeMesh.build_A"]}
{"id": "C82", "title": "Covariates are interpolated on the globe", "statement": "A covariate on a regular grid of latitudes and longitudes is interpolated bilinearly between its grid points, continuing from the last to the first longitude; at grid points it is the covariate itself. Beyond the first and last latitude it tends to the mean of that row. Grids with different spacings are refused. (False: the mean counts the first and last column twice; and the order of the latitudes is ignored, so that a grid that starts in the north is mirrored.)", "quantifier": "all regular grids, covariates and locations", "why_tests_cant": "Interpolation error shows at some locations only; a symmetric covariate hides mirroring.", "anchors": ["src/eustace/analysis/advanced_standard/elements/geography_based.py:GeographyBasedCovariateFunction.bilinear_interpolation"]}
{"id": "C83", "title": "Rows of coarser triangles", "statement": "The rows of the mesh that lie in a given triangle of a coarser level are exactly those that descend from it, so the coarser triangles partition the rows; the neighbourhood of a triangle at a coarser level is exactly the rows inside the triangles that share a corner with it; the number of local views equals the number of triangles of their level.", "quantifier": "all levels up to 28, all coarser levels and triangles", "why_tests_cant": "Ranges over all pairs of levels; a wrong shift shows only at some of them.", "anchors": ["src/eustace/analysis/advanced_standard/stats/spde/spherical.py:SphereMeshSPDE.super_triangle_at_level", "src/eustace/analysis/advanced_standard/stats/spde/spherical.py:SphereMeshSPDE.neighbours_at_level", "src/eustace/analysis/advanced_standard/stats/spde/spherical.py:SphereMeshSPDE.n_triangles_at_level"]}
{"id": "C84", "title": "Every location is found in the mesh", "statement": "For every point of the sphere and every level the locator returns the identifier of a triangle of the mesh of that level that contains the point, with the weights of its corners; the location at a finer level lies in that at a coarser one. So the row of the design matrix of a location has, at the three corners of the triangle that contains it, weights that are not negative, sum to 1 and give the direction of the location, and zeros elsewhere.", "quantifier": "all latitudes and longitudes, all levels up to 28", "why_tests_cant": "Every direction must fall in one of 20 triangles, including borders; the locator and the mesh build their triangles separately and must agree at every level.", "anchors": ["src/eustace/analysis/mesh/locator.py:TriangleLocatorHierarchical.locate_vector_hierarchical", "src/eustace/analysis/advanced_standard/stats/spde/spherical.py:SphereMeshSPDE.build_A", "src/eustace/analysis/mesh/geometry.py:polar2d_to_cartesian"]}
{"id": "C85", "title": "Calendar day constraint flags", "statement": "For a date and a range of years, the prior (post) calendar flag is added where on this day of the year no earlier (later) year of the range is constrained by observations, the missing data flag where fewer than three years of the range are; 29 February is compared with 28 February in other years; years whose file cannot be read count as not constrained, and no other bit changes.", "quantifier": "all year ranges, dates, target flags, flag histories and sets of missing files", "why_tests_cant": "The claim ranges over all histories of files and over the calendar.", "anchors": ["src/eustace/postprocess/calendar_check.py:calendar_constraint_checks"]}
{"id": "C86", "title": "Persistent outlier flag", "statement": "The persistent outlier flag is added exactly where at least the threshold of the days of the window, the day itself included, carry an areal or extreme value flag; no other bit changes.", "quantifier": "all windows, thresholds, flag histories and sets of missing files", "why_tests_cant": "The claim ranges over unboundedly many histories.", "anchors": ["src/eustace/postprocess/outlier_window_check.py:persistant_outlier_check"]}
{"id": "C87", "title": "Checks may run in place", "statement": "When a check writes its flags into the directory it reads from, the result for each date is the one obtained from the original files, whatever the order of the dates and however often a date is repeated; other files stay as they are.", "quantifier": "all lists of dates, all histories, all targets that do not contain flags set by the check itself", "why_tests_cant": "Files written earlier are read again for later dates; only an invariant over the whole history of writes shows that this does no harm.", "anchors": ["src/eustace/postprocess/window_check.py:flagging_operation", "src/eustace/postprocess/calendar_check.py:flagging_operation", "src/eustace/postprocess/outlier_window_check.py:flagging_operation"]}
{"id": "C88", "title": "One mask for all products of a day", "statement": "Masking a day writes the global product and the climatology, large scale and local components in this order; every variable hides the values of the field it was read from exactly where the one mask of the day is set, and ensemble variable i holds member i. A failure leaves a prefix of these files; for an iteration without a version nothing is written.", "quantifier": "all flags, fields, ensemble sizes and orders, all sets of missing files", "why_tests_cant": "All shapes, all orders of the ensemble and every point of failure.", "anchors": ["src/eustace/postprocess/apply_mask.py:apply_mask"]}
{"id": "C89", "title": "Percentiles of a window", "statement": "The quartiles used by the checks are the values at positions 25, 50 and 75 per cent of the sorted values, interpolated linearly: they are ordered, lie between two of the values, equal the value if all are the same, do not depend on the order of the values, and move with them when a constant is added; the ends are the minimum and the maximum.", "quantifier": "all non-empty lists of values and all percentages", "why_tests_cant": "All lists of every length.", "anchors": ["src/eustace/postprocess/outlier_check.py:compute_window_median_quartiles", "src/eustace/postprocess/cell_percentile_calculation.py:cell_percentile_calculation"]}
{"id": "C90", "title": "Outlier flags of a date", "statement": "The areal low (high) flag is set exactly in the cells within two rows and two columns, going round in longitude, of a cell whose temperature reduced to sea level is below the lower (above the upper) quartile of the values around it by more than four times the distance to the median; the extreme flags likewise for values below 193.15 or above 333.15. No other bit is set. A uniform field has no areal flags, adding a constant changes none, and a day that cannot be read fails.", "quantifier": "all global fields, all search ranges", "why_tests_cant": "The claim is about every cell of every field, at the poles and across the date line.", "anchors": ["src/eustace/postprocess/outlier_check.py:areal_checks", "src/eustace/postprocess/outlier_check.py:extremes_checks", "src/eustace/postprocess/outlier_check.py:block_iqr_by_range", "src/eustace/postprocess/outlier_check.py:flagging_operation"]}
{"id": "C91", "title": "Threshold flags of a date", "statement": "The climatology uncertainty, large scale uncertainty and day flags are set exactly where the mean over the 13 x 13, 17 x 17 and 5 x 5 cells around is above (for the influence, below) its threshold, the marine flag exactly where the corrected coastal map is entirely sea; no other bit is set; all three fields must be readable.", "quantifier": "all global fields and thresholds", "why_tests_cant": "The claim is about every cell of every field.", "anchors": ["src/eustace/postprocess/threshold_check.py:climatology_uncertainty_checks", "src/eustace/postprocess/threshold_check.py:large_scale_uncertainty_checks", "src/eustace/postprocess/threshold_check.py:local_influence_checks", "src/eustace/postprocess/threshold_check.py:get_marine_flag"]}
{"id": "C92", "title": "Location thresholds and calendar days", "statement": "The location flags are set exactly where the value is more than eight quartile distances from the median of its calendar day. The twelve monthly batches compute each of the 366 calendar days once, so the percentiles needed by any date exist and come from one batch; each is computed from that day of every year of the period, 29 February from 28 February in the other years.", "quantifier": "all fields, all dates, all periods of years", "why_tests_cant": "All dates and periods, with leap years.", "anchors": ["src/eustace/postprocess/cell_percentile_threshold.py:location_threshold_checks", "src/eustace/postprocess/cell_percentile_calculation.py:cell_percentile_calculation", "src/eustace/postprocess/cell_percentile_calculation.py:cell_percentile_calculation_month"]}
{"id": "C93", "title": "Merged field values", "statement": "A merged primary field has in each cell the mean of the sources that have a value there and is masked exactly where none has one. Uncertainties can be merged only if every source has masked cells or none has: otherwise the day fails.", "quantifier": "all numbers of sources, all fields and masks", "why_tests_cant": "All combinations of missing values in every number of sources.", "anchors": ["src/eustace/outputformats/filesmerger.py:FilesMerger.compute_mean_fields", "src/eustace/outputformats/filesmerger.py:FilesMerger.compute_propagated_uncertainties"]}
{"id": "C94", "title": "Contents of merged files", "statement": "The files are divided among days without overlap or gap. For a day of several sources the merged primary file has the mean fields and the uncertainties for independent errors, the merged ancillary file has the ancillary uncertainties, each with its own list of correlations, and the original fields of every source; all files have one date.", "quantifier": "all lists of days and sources, all contents of the files", "why_tests_cant": "All numbers of days, sources and variables.", "anchors": ["src/eustace/outputformats/filesmerger.py:FilesMerger.merge_outputs_from_multiple_daily_sources", "src/eustace/outputformats/filesmerger.py:FilesMerger.merge_multiple_files", "src/eustace/outputformats/filesmerger.py:FilesMerger.append_original_fields"]}
{"id": "C95", "title": "Interrupted merges", "statement": "Wherever a merge is interrupted, either all inputs are intact or both merged files are complete; a single source is found under its old or its new name. A second run after a finished one does nothing; after an interruption during the deletion of the inputs it fails.", "quantifier": "all inputs and every point of interruption", "why_tests_cant": "Every crash point of merges of every number of sources.", "anchors": ["src/eustace/outputformats/filesmerger.py:FilesMerger.merge_outputs_from_single_day", "src/eustace/outputformats/filesmerger.py:FilesMerger.update_single_file", "src/eustace/outputformats/merge_multiple_outputs.py:merge_single_day_outputs"]}
{"id": "C96", "title": "Names of merged files", "statement": "The name of a merged file is that of the first input without the label of its source. If all names have the same number of parts and the ancillary file carries the label, no output is one of the inputs; if the ancillary file does not carry it, the merged ancillary file is deleted with the inputs.", "quantifier": "all file names", "why_tests_cant": "All names.", "anchors": ["src/eustace/outputformats/filesmerger.py:FilesMerger.merge_outputs_from_single_day"]}
{"id": "C97", "title": "Cell means of projected values", "statement": "The values a projector gives on a grid are, cell by cell and latitude by latitude, the area-weighted means of the values of the component at the sample points within the cell. The sample points lie inside the cell at equal distances with the centre as their mean; one sample per cell gives the value at the centre; constants keep their value and means lie within the bounds of the samples.", "quantifier": "all grids, numbers of samples, components, times and states", "why_tests_cant": "All grids, sample numbers and states.", "anchors": ["src/eustace/analysis/advanced_standard/fileio/output_projector.py:Projector.evaluate_design_matrix", "src/eustace/analysis/advanced_standard/fileio/output_projector.py:Projector.weight_array", "src/eustace/analysis/advanced_standard/fileio/output_structure_rectilinear.py:OutputRectilinearGridStructure.location_polar_coordinates"]}
{"id": "C98", "title": "Cell means of regridded fields", "statement": "Regridding a component gives, for latitudes in ascending order, the area-weighted mean of the requested field over the points of each cell, in the order of the cells, whatever order the sort gives to equal keys. An unknown field is refused. Latitudes in descending order give values at the wrong cells (finding).", "quantifier": "all grids, numbers of points per cell, fields and block lengths", "why_tests_cant": "All grids, block lengths and sorting orders of equal keys.", "anchors": ["src/eustace/analysis/advanced_standard/fileio/output_structure_rectilinear.py:Regridder", "src/eustace/analysis/advanced_standard/fileio/output_structure_rectilinear.py:RegriddingRectilinearGridStructure"]}
{"id": "C99", "title": "Reuse of a projector", "statement": "In any sequence of setting components, changing the time, evaluating, saving and loading, a projector that has its time set, then its component, and is then evaluated gives the values of that component at that time. The design matrix may be kept for components and times with the same rows. Changing the time after setting the component combines the state of one time with the design of another (finding).", "quantifier": "all histories of calls, components, times and states", "why_tests_cant": "Every sequence of calls.", "anchors": ["src/eustace/analysis/advanced_standard/fileio/output_projector.py:Projector.set_component", "src/eustace/analysis/advanced_standard/fileio/output_projector.py:Projector.update_time_index", "src/eustace/analysis/advanced_standard/fileio/output_projector.py:Projector.save_projection", "src/eustace/analysis/advanced_standard/fileio/output_projector.py:Projector.project_expected_value"]}
{"id": "C100", "title": "Ranges of iterations join", "statement": "The operations generated for a range of iterations are those of its first part followed by those of the rest; a later range relies, besides the data sets named by the templates, only on the three states of the iteration before it; and the iterations are the same as in the descriptor of the whole analysis. A range can be made whenever the templates can be filled. Ranges for processing day by day always raise an exception (finding).", "quantifier": "all templates, settings, ranges and points of division", "why_tests_cant": "All ranges and divisions.", "anchors": ["src/eustace/analysis/advanced_standard/examples/jsonfiller.py:FullstaceJsonFiller.fill_batch_descriptor", "src/eustace/analysis/advanced_standard/examples/jsonfiller.py:FullstaceJsonFiller.fill_descriptor", "src/eustace/analysis/advanced_standard/examples/jsonfiller.py:FullstaceJsonFiller.fill_batch_output_gridding"]}
{"id": "C101", "title": "File names of generated data sets", "statement": "Every data set declared in a generated descriptor has a file name for every day, data sets of different names never share a file, and data sets of the daily kinds have different files on different days; for names without directory separator and date field. With a date field in a name two data sets can share a file (finding).", "quantifier": "all templates, names, numbers of iterations and days", "why_tests_cant": "All names, numbers of iterations and days.", "anchors": ["src/eumopps/catalogue/jsonfiller.py:FullstaceJsonFiller.return_output_patterns", "src/eumopps/catalogue/jsonfiller.py:FullstaceJsonFiller.fill_primary_keys", "src/eumopps/catalogue/step.py"]}
{"id": "C102", "title": "Check of generated descriptors", "statement": "The check of a descriptor fails with ValueError exactly if a null occurs somewhere in it. The file is written before the check: it holds the new descriptor even if the check fails, and its former content if the descriptor could not be made. Of the sources of observations in a template exactly those with the five known names are kept, in order. With the shipped template for batches the check can never pass (finding).", "quantifier": "all JSON values, templates, settings and numbers of iterations", "why_tests_cant": "All JSON values of any depth and all templates.", "anchors": ["src/eumopps/catalogue/jsonfiller.py:FullstaceJsonFiller.check_none", "src/eumopps/catalogue/jsonfiller.py:FullstaceJsonFiller.create_descriptor", "src/eumopps/catalogue/jsonfiller.py:FullstaceJsonFiller.create_batch_descriptor", "src/eumopps/catalogue/jsonfiller.py:FullstaceJsonFiller.restrict_inputs"]}
{"id": "C103", "title": "Settings of generated operations", "statement": "In every generated descriptor, operations that solve run once and have neither sources of observations nor times; all others run from the start date to the end date with the kind of steps of their template, and those that take observations take them from exactly the five known sources of the template. Samples and prior samples are computed exactly in the operations that have a file to write them to, as many as asked for. Bias switches, method and uncertainties are the same in all operations. File names carry no date exactly for operations that run once, the month for monthly ones and the day for all others. Operations have pairwise different names if the commands are named apart; each entry for files has the placeholder class of its kind; operations are told the index of their day, or the indices of the days of their batch, wherever they use states of single days; and the four outputs of a gridding operation each stand under their own entry.", "quantifier": "all templates, settings, numbers of iterations and operations", "why_tests_cant": "All templates, settings, numbers of iterations and every operation.", "anchors": ["src/eumopps/catalogue/jsonfiller.py:FullstaceJsonFiller.fill_primary_keys", "src/eumopps/catalogue/jsonfiller.py:FullstaceJsonFiller.add_sample_information", "src/eumopps/catalogue/jsonfiller.py:FullstaceJsonFiller.add_prior_sample_information", "src/eumopps/catalogue/jsonfiller.py:FullstaceJsonFiller.fill_single_solution", "src/eumopps/catalogue/jsonfiller.py:FullstaceJsonFiller.fill_posterior_solution", "src/eumopps/catalogue/jsonfiller.py:FullstaceJsonFiller.fill_prior_solution", "src/eumopps/catalogue/jsonfiller.py:FullstaceJsonFiller.fill_output_gridding", "src/eumopps/catalogue/jsonfiller.py:FullstaceJsonFiller.fill_batch_output_gridding", "src/eumopps/catalogue/jsonfiller.py:FullstaceJsonFiller.return_output_patterns"]}
{"id": "C104", "title": "The days of a period are dealt out to annual operations, each day once", "statement": "For every period (given in whole seconds, within the calendar), the k-th annual operation is given exactly the days of the period in its k-th calendar year; laid end to end the lists are the days of the period, each once and in order; the times given are the midnights of those days, position by position; every operation has a day unless the period ends in the last second of a year, in which case one more operation without days is made. The day numbers given to daily operations are the days of the period if it begins in 1850 or later; before 1850 a first day that does not begin at midnight is left out.", "quantifier": "all starts and ends of periods", "why_tests_cant": "Year lengths, leap years and ends of years make infinitely many cases; a test fixes one period.", "anchors": ["src/eustace/analysis/advanced_standard/examples/placeholder.py:AnalysisAnnualBatchDayIndices, AnalysisAnnualBatchDayTimes, AnalysisStepIndex"]}
{"id": "C105", "title": "Annual operations get the file of each of their days", "statement": "For every catalogue, period and missing-file policy: an annual operation is given a list of references as long as its list of days, holding at each position the last catalogued file of that day, or the marker -1 if that day has none. If missing files are not allowed the request fails exactly if some operation has no file at all in its calendar year (single missing days, or even all days of the period, are not noticed); if operations may be skipped, exactly those without a file in their calendar year are skipped. A file whose name does not tell the year is given for every day of every operation. A file of the last second of a year displaces that of 1 January, and a period that begins after midnight makes lists of year-less files one shorter than the lists of days.", "quantifier": "all catalogues, periods, policies and operations", "why_tests_cant": "Ranges over every set of files and every period; tests use one small catalogue.", "anchors": ["src/eustace/analysis/advanced_standard/examples/placeholder.py:AnnualBatchDays"]}
{"id": "C106", "title": "Annual operations write one file for each of their days", "statement": "For every period and set of operations that run: every day of every such operation gets a reference to a catalogue entry whose name is made from that day and whose time is its midnight; nothing else is added, no name occurs twice, and all other data sets and subsets stay; different days never share an output if the patterns show the whole date; patterns lacking year, month or day are rejected; days, times, inputs and outputs of an operation agree position by position.", "quantifier": "all catalogues, periods, patterns and sets of operations", "why_tests_cant": "Ranges over all periods and patterns; tests use one.", "anchors": ["src/eustace/analysis/advanced_standard/examples/placeholder.py:AnnualBatchDaysOutput"]}
{"id": "C107", "title": "The C++ reader gives back the day files that Python writes", "statement": "For every directory with correlation ranges, location tables and day files as Python writes them: retrieving a day in C++ gives exactly the records Python reads from the same file, in order, with the ranges and the locations; files Python refuses for their format or length are refused too, whatever an uninitialised buffer holds, as long as they hold a whole header. Moving sources get the table of their day. (Refuted: a missing file is refused only if the buffer does not hold the identifier; a file cut short within the header can be accepted as a file without records; a day file for another location table is accepted.)", "quantifier": "all sources, observables, days, tables, ranges and file contents", "why_tests_cant": "Ranges over all file contents and all contents of uninitialised memory.", "anchors": ["src/cpp/eustace/analysis/inputmanager.cpp:AnalysisInputManager::RetrieveDay", "src/cpp/eustace/analysis/fileio/rawbinary.cpp", "src/eustace/analysis/fileio/observationsource_rawbinary.py"]}
{"id": "C108", "title": "Retrieving by location gives the history of each location", "statement": "For every set of day files and the pointer index Python compiles from them: retrieving a list of locations in C++ gives, for each location asked for and in that order, exactly the observations made there, over the days in the order of the index and within a day in the order of the file, each with the day as identifier; it is the same data as retrieving day by day. A moving source gives nothing. (Refuted: the location of such an observation is looked up by its day; a location beyond the index silences all that follow it; a day file that has gone is read as zeros.)", "quantifier": "all day files, indices, location lists", "why_tests_cant": "Ranges over all histories of days and all lists of locations.", "anchors": ["src/cpp/eustace/analysis/inputmanager.cpp:AnalysisInputManager::RetrieveLocations", "src/cpp/eustace/analysis/fileio/locationpointers.cpp", "src/eustace/analysis/fileio/locationpointers.py"]}
{"id": "C109", "title": "Counts agree with what retrieval gives", "statement": "For every directory and list of inputs: the count of a day is the number of observations retrieving the day gives; the total is the sum over all days, first and last included, of all inputs of that source and observable (modulo 2^64; a day in two inputs counts twice); the number of locations is that of the table, none for a moving source; one missing day makes the total an error unless uninitialised memory happens to hold the identifier.", "quantifier": "all directories, inputs and days", "why_tests_cant": "Ranges over all inputs and file contents.", "anchors": ["src/cpp/eustace/analysis/inputmanager.cpp:AnalysisInputManager::TotalObservations, TotalDailyObservations, TotalLocations, TotalDailyMobileLocations"]}
{"id": "C110", "title": "The caches of the reader do not change its answers", "statement": "While files stay as they are, every answer in every sequence of calls on one manager is the answer a new manager would give to that call. (Refuted for files that change.)", "quantifier": "all sequences of calls", "why_tests_cant": "Quantifies over all histories of calls.", "anchors": ["src/cpp/eustace/analysis/inputmanager.h:AnalysisInputCache", "src/cpp/eustace/analysis/inputmanager.cpp"]}
{"id": "C111", "title": "C++ and Python name the same files, and no two files alike", "statement": "For every base directory without a percent sign or trailing slash and every day in years 1000 to 9999, the names the C++ reader makes for observations, moving locations, ranges and fixed tables (lakes excepted: Python has none) are those Python uses; different files always have different names.", "quantifier": "all base directories, sources, observables, days", "why_tests_cant": "Ranges over all days and names.", "anchors": ["src/cpp/eustace/analysis/inputmanager.cpp:PathNameObservation and others", "src/eustace/analysis/fileio/observationsource_rawbinary.py:ObservationRawBinaryReader", "src/eustace/analysis/advanced_standard/examples/inputloader_rawbinary.py"]}
{"id": "C112", "title": "C++ and Python keep the same break points", "statement": "For every set of break points, threshold, decay and exponential, the C++ policies keep the same break points as the Python ones; other codes are refused; the stations are listed once each in ascending order with the number of their break points, which add up to all; the break points of a station are its times in order.", "quantifier": "all sets of break points, thresholds, decay constants", "why_tests_cant": "Ranges over all lists and thresholds.", "anchors": ["src/cpp/eustace/analysis/break_points/break_points.cpp:ObservationBreakingPoints", "src/eustace/analysis/observationsource.py:ObservationsBreakPoints"]}
{"id": "C113", "title": "Running the analysis as separate processes gives the states of the in-memory analysis, or says so", "statement": "For every linear analysis of space-time and spatial components cut into one process per component, time and solution that communicate through files: whatever the order and interleaving of the processes, and wherever any of them is killed and started again, no file ever holds a complete state or measurement other than that of the in-memory analysis after the same iteration; files of others are left alone; running the operations in order succeeds and gives all states of the in-memory analysis; every history can be completed to such a result; each operation succeeds as soon as the files it reads are there.", "quantifier": "all components, loaders, times, iterations, histories of starts, kills and single file accesses", "why_tests_cant": "Ranges over all interleavings, crash points and restarts.", "anchors": ["src/eustace/analysis/advanced_standard/components/storage_files.py:SpaceTimeComponentSolutionStorage_Files, SpatialComponentSolutionStorage_Files", "src/eustace/analysis/advanced_standard/examples/moving_climatology.py:process_inputs, solve", "src/eustace/analysis/advanced_standard/analysissystem.py:AnalysisSystem"]}
{"id": "C114", "title": "An operation that fails leaves all files alone, and stale or incomplete inputs are refused", "statement": "For every linear component and every disk: an operation that ends with an error has written nothing; a solution is refused while one of its measurement files is missing or incomplete; processing of observations is refused while the state file of another component (or, for space-time components, its own) is missing or incomplete; a storage set up for another time refuses the result.", "quantifier": "all systems, storages, disks", "why_tests_cant": "Ranges over all disks and configurations.", "anchors": ["src/eustace/analysis/advanced_standard/components/storage_files.py:SpaceTimeComponentSolutionStorage_Files, SpatialComponentSolutionStorage_Files", "src/eustace/analysis/advanced_standard/examples/moving_climatology.py:process_inputs, solve", "src/eustace/analysis/advanced_standard/analysissystem.py:AnalysisSystem"]}
{"id": "C115", "title": "Times without observations and files of earlier runs in the distributed analysis", "statement": "Findings: a time without observations is refused with ValueError for a space-time component, while for a spatial component it succeeds and leaves no file; a solution without measurement files is a TypeError where the in-memory analysis gives the prior; the first iteration of a nonlinear component is refused unless the operation may write a state; files of an earlier run are used unnoticed and give a complete but wrong state.", "quantifier": "all systems, storages, disks", "why_tests_cant": "Ranges over all disks and configurations.", "anchors": ["src/eustace/analysis/advanced_standard/components/storage_files.py:SpaceTimeComponentSolutionStorage_Files, SpatialComponentSolutionStorage_Files", "src/eustace/analysis/advanced_standard/examples/moving_climatology.py:process_inputs, solve", "src/eustace/analysis/advanced_standard/analysissystem.py:AnalysisSystem"]}
{"id": "C116", "title": "Verification of an output file succeeds exactly for conforming files", "statement": "For every file: the verification of global field or station files exits with status 0 exactly if the file (both files of the prefix) opens, has the attributes, at least one of the named variables, every named variable present with its type and metadata, and the dimensions with their sizes; every reported outcome is true or false exactly as what it describes holds. Findings: metadata that should be a list of numbers but is text or of another length ends the run with a TypeError and no report; a file with no temperature field at all passes.", "quantifier": "all files, specifications, prefixes", "why_tests_cant": "Ranges over all files.", "anchors": ["src/eustace/outputformats/verify/verify.py:VerifyOutput, VerifyMain", "src/eustace/outputformats/verify/specification_globalfield.py", "src/eustace/outputformats/verify/specification_stations.py", "src/eustace/outputformats/verify/verify_stations.py", "src/eustace/outputformats/verify/verify_globalfield.py"]}
{"id": "C117", "title": "Files written by the global field builder pass verification and hold what was given", "statement": "For every day, attributes and list of fields: the file is built exactly if the names of the fields differ from one another and from the axes; it holds the attributes, the day, its bounds, the axes (720 by 1440 cell centres of a quarter of a degree), the local time offsets and every field with its values and metadata; it passes the verification when its fields are as specified, which holds for all variables of the definitions and for uncertainties of any other name; the axes of the cubes are those of the file.", "quantifier": "all days, attributes, lists of fields", "why_tests_cant": "Ranges over all lists of fields.", "anchors": ["src/eustace/outputformats/globalfield_filebuilder.py:FileBuilderGlobalField", "src/eustace/outputformats/filebuilder.py:FileBuilder", "src/eustace/outputformats/globalfield.py", "src/eustace/outputformats/definitions.py", "src/eustace/outputformats/verify/verify.py:VerifyOutput, VerifyMain", "src/eustace/outputformats/verify/specification_globalfield.py"]}
{"id": "C118", "title": "Station files written by any accepted sequence of calls pass verification and hold what was given", "statement": "For every sequence of calls of the station file builder that is accepted: the two files pass the verification of their prefix exactly if the temperature dimensions were set, the three status dimensions were added as unlimited ones and some status variable is there; they hold every variable given; temperatures before their dimensions, and dimensions set twice, are refused; names of stations up to 32 characters are read back. Finding: longer names are cut without notice, so that two stations can be given the same name.", "quantifier": "all sequences of calls, pathnames, names", "why_tests_cant": "Ranges over all sequences of calls.", "anchors": ["src/eustace/outputformats/stations.py:FileBuilderStations", "src/eustace/outputformats/definitions.py", "src/eustace/outputformats/filebuilder.py", "src/eustace/outputformats/verify/specification_stations.py", "src/eustace/outputformats/verify/verify_stations.py"]}
{"id": "C120", "title": "Variables made from templates", "statement": "For every template and keyword arguments: a variable is made exactly if each field of the long name is given as text (or a long name is given) and other keywords are known; it has the type and fill value of the template, the long name with its fields filled in and a capital first letter, and each member as given or else as in the template; a missing field is a KeyError, an unknown keyword a TypeError. Findings: the long name of the uncertainty of minima is misspelt, and the perturbations of minima and maxima are described as averages.", "quantifier": "all templates, keyword arguments", "why_tests_cant": "Ranges over all templates and arguments.", "anchors": ["src/eustace/outputformats/outputvariable.py:OutputVariableTemplate, OutputVariable", "src/eustace/outputformats/definitions.py"]}
{"id": "C119", "title": "Station data: the axis of times, tables of temperatures, and breaks", "statement": "For all samples and breaks in any order: the axis of times is strictly increasing, made of times of samples and has a point near (within 0.0005 days of) each sample; on any axis with a point near each sample, the table has a row per time and a column per station, and each cell holds the value of the last sample of its time and station, or is masked if there is none; other axes are refused; break variables list the breaks of their measurement in the order added, with the index of the station. Findings: points closer than the resolution occur on either side of a whole day, and then samples of the second are put into the row of the first; a sample of an unknown station replaces the values of all stations at its time; a break of an unknown station is a TypeError.", "quantifier": "all samples, stations, axes, sequences of breaks", "why_tests_cant": "Ranges over all samples and orders.", "anchors": ["src/eustace/outputformats/stationdata.py:StationData, MeasurementTime, StationDescriptionArray"]}
{"id": "C121", "title": "Ice: which satellite temperatures pass quality control", "statement": "For every input of the ice model and every cell, mean, minimum and maximum temperature pass exactly if they are known, lie over land ice or over sea ice of known concentration of at least 0.3, the standard deviation and mean temperature are not known to be out of range, day and/or night bins hold observations, mean (maximum) is within 10 (20) degrees of the mean of all (day) bins as far as known, and the cell is not, away from the border, more than 10 degrees colder than the mean of at least two usable cells of the same kind of ice among its 24 neighbours. What passes is unchanged. Findings: the test of minima against night bins never rejects (it asks for an absolute value below -20), cells along the border are never screened for cloud, minima and maxima may exceed 5 C, and the shape of the land mask is compared with itself.", "quantifier": "all inputs (grids of any size, any masks and values), cells, observables", "why_tests_cant": "Ranges over all fields and neighbourhoods.", "anchors": ["src/eustace/surfaceairmodel/model_ice_input_processing.py:IceSurfaceTemperatureQualityControl"]}
{"id": "C122", "title": "Ice: air temperatures and their uncertainties", "statement": "For every input with at least one latitude and every set of coefficients the model of a hemisphere succeeds and gives exactly 21 fields; each holds a value exactly in the cells where the temperature passed quality control and all three satellite uncertainties are known, computed by the published formulas with the coefficients of the hemisphere, observable and kind of ice of that cell (land ice taking precedence, so the parts never overlap); in real numbers the total variance is the sum of the variances of its components and the total bounds each of them. Parameter files give the three vectors of each surface type in order and are refused without both types. Finding: the cloud component is negative where the satellite large scale uncertainty is below 0.2.", "quantifier": "all inputs, coefficients, cells, observables, quantities; all parameter files", "why_tests_cant": "Ranges over all fields, coefficients and real-valued formulas.", "anchors": ["src/eustace/surfaceairmodel/model_ice.py:ModelIce, ModelIceProcessor, ModelIceObservableProcessor"]}
{"id": "C123", "title": "Ice: two hemispheres make one global field", "statement": "If the southern and northern files have rows on one regular axis (any spacing above 0.000001, any gap, any sizes from two rows), the same day and as many longitudes, then the global result has the rows of the whole axis, each row of either file at its latitude in every field and the rows between masked; whatever is accepted is a southern file followed by a northern one of the same day with as many longitudes and even increasing latitudes.", "quantifier": "all pairs of inputs, axes, spacings, gaps, fields", "why_tests_cant": "Ranges over all axes and fields.", "anchors": ["src/eustace/surfaceairmodel/model_ice.py:ModelIce.process_global"]}
{"id": "C124", "title": "Ice: locations of observations from a pair of files", "statement": "For two files with rows on one regular axis and the same longitudes, every observation of either file has a location number whose entry in the table of coordinates is the latitude and longitude of its grid cell; pairs with other than two files, different longitudes, decreasing or overlapping latitudes are refused.", "quantifier": "all pairs of files, axes, spacings, gaps", "why_tests_cant": "Ranges over all axes and cells.", "anchors": ["src/eustace/surfaceairmodel/fileio/ice.py:ObservationSourceIceDMICombined", "src/eustace/surfaceairmodel/fileio/cubemap.py:ObservationSourceCubeMapGrid"]}
{"id": "C125", "title": "Land: pixels whose maximum is below the minimum are removed", "statement": "For every set of land results whose arrays have masks, and whose minimum and maximum temperatures hold the fill value exactly where they are masked, post-processing masks in the temperatures, their total uncertainties and all ancillary variables exactly the pixels where both temperatures are known and the maximum is below the minimum, leaves all other values and variables as they are and stores the number of those pixels; afterwards no pixel has a known maximum below a known minimum; it succeeds if all variables are there; a second application changes nothing and counts zero. Findings: an array without mask is not filtered although its pixels are counted as removed; data hidden under a mask take part in the comparison; only the surface LAND is accepted although the message offers three.", "quantifier": "all results, grids, masks, number types, ancillary variables", "why_tests_cant": "Ranges over all fields and masks.", "anchors": ["src/eustace/surfaceairmodel/fileio/post_processing.py:apply_land_post_processing", "src/eustace/surfaceairmodel/fileio/consistent.py:ConsistentModelOutputNetCDF"]}
{"id": "C126", "title": "Land and ocean: remapping of intermediate files", "statement": "For every intermediate file with all variables, each output variable is read from its own source variable, ocean temperatures are those of the source plus 273.15 where known, the day number is the number of whole days since 1850, and nothing else comes out; each total uncertainty is missing exactly where one of its own components is, and is elsewhere the square root of the sum of their squares. A file that lacks a variable to be copied is refused.", "quantifier": "all files, grids, masks, values, day numbers", "why_tests_cant": "Ranges over all files and real values.", "anchors": ["src/eustace/surfaceairmodel/fileio/remap.py:RemapNetCDF", "src/eustace/surfaceairmodel/fileio/land.py:RemapNetCDFLandWP1", "src/eustace/surfaceairmodel/fileio/ocean.py:RemapNetCDFOceanWP1"]}
{"id": "C127", "title": "Land: dates of input files and runs over several days", "statement": "A file name made of any stem without eight numerals in a row, a separator, a calendar date, any character, \"nc\" and anything more is read as that date. Several days with the same settings and snow files run together succeed exactly when each day succeeds alone, and then write the same files in the same order; whatever happens each file written is the one its day alone writes with the settings of the first day; if the day and night file of any day have different dates or none, nothing is written for any day. Findings: without a separator another date is read silently; settings of later days that differ from the first are silently ignored; the comment of a day run alone calls a number of pixels a percentage.", "quantifier": "all file names, dates, lists of days, behaviours of the IDL program", "why_tests_cant": "Ranges over all names and histories of runs.", "anchors": ["src/eustace/surfaceairmodel/model_land.py:ModelLand", "src/eustace/surfaceairmodel/run_land.py:run_day, run_multiple_days"]}
{"id": "C128", "title": "The cost function is the likelihood of the observations", "statement": "For every prior mean, set point, design, positive definite observation precision, observations and parameters at which the prior precision is positive definite, the cost function that parameter optimisation minimises equals minus the logarithm of the probability density of the observations under the prior and the noise (covariance R^-1 + A Q^-1 A^T), plus a number that depends on neither the parameters nor the prior mean; for several time steps it is the sum over the steps. Finding: with no time steps it raises AttributeError instead of having a value.", "quantifier": "all sizes, priors, designs, observations, set points, parameters, numbers of time steps", "why_tests_cant": "Needs the determinant and inversion identities for all matrices.", "anchors": ["src/eustace/analysis/advanced_standard/linalg/costfunction.py: MarginalGaussianCF.cost_function, MarginalGaussianReplicateCF_InMemory.cost_function, gaussian_loglikelihood", "src/eustace/analysis/advanced_standard/linalg/linearsystem.py: MeasurementUpdate.create_from_system_observations"]}
{"id": "C129", "title": "The derivatives given to the optimiser are those of the cost function", "statement": "For every set of parameters, set point, prior mean and measurement, if the prior precision is positive definite at all parameters, the precision derivative functions are its derivatives, they are zero wherever the precisions are, and no element filled in by the factorisation is zero by chance, then the list of derivatives the code computes has one element for each parameter and each is the derivative of the computed cost function in that parameter; the same for several time steps.", "quantifier": "all sizes, precisions as functions of any number of parameters, measurements, time steps", "why_tests_cant": "A finite-difference test checks one point to a tolerance.", "anchors": ["src/eustace/analysis/advanced_standard/linalg/costfunction.py: cost_function_derivative, gaussian_loglikelihood_derivative", "src/eustace/analysis/advanced_standard/linalg/sparse.py: compute_trace_iQ_dQdp", "src/eustace/analysis/advanced_standard/linalg/qinv.pyx: Q_inv"]}
{"id": "C130", "title": "The partial inverse is the inverse where it is needed", "statement": "For every factorisation with any fill-reducing permutation in which no element filled in is zero by chance, the recursion for the partial inverse ends without running out of its arrays and gives the inverse matrix wherever the factor and its transpose, and so the matrix itself, are not zero, and zero elsewhere; hence the trace of the inverse times any matrix of that pattern is exact. Finding: if an element of the factor is zero by chance its position is dropped and the result is wrong even where the matrix is not zero.", "quantifier": "all sizes, sparsity patterns, permutations, values", "why_tests_cant": "Patterns and values are unbounded; a test uses a few matrices.", "anchors": ["src/eustace/analysis/advanced_standard/linalg/qinv.pyx: Q_inv", "src/eustace/analysis/advanced_standard/linalg/sparse.py: compute_iQ_dQdp, compute_trace_iQ_dQdp"]}
{"id": "C131", "title": "Best estimate, samples and standard deviations of a linear system", "statement": "For every positive definite prior precision and any number of observation sources added one after another, the estimate is the only minimiser of the prior term plus the weighted squared misfits of all sources; samples are a fixed matrix times the variates and that matrix times its transpose is the inverse of the posterior precision; standard deviations are the square roots of the diagonal of the inverse, in order, whatever the block size (also None). Finding: block size 0 never ends.", "quantifier": "all sizes, sources, variates, block sizes", "why_tests_cant": "Ranges over all matrices and block sizes.", "anchors": ["src/eustace/analysis/advanced_standard/linalg/linearsystem.py: MeasurementUpdate, LinearSystemSolution_Cholesky.maximum_a_posteriori, marginal_std, white_noise_to_posterior_distribution, LinearSystemSolution.random_sample", "src/eustace/analysis/advanced_standard/linalg/pardisowrapper.py: diag_inv_A, solve_backward_substitution, solve_forward_substitution"]}
{"id": "C132", "title": "Optimisation of parameters", "statement": "However the search asks for values and derivatives, one after another and depending on the answers, every answer is that of one function, minus the logarithm of the probability of all observations plus a constant, or its gradient; afterwards the hyperparameters are those where the search ended if it reports success and those before the optimisation otherwise. Finding: if an exception ends the search (as it does with no time steps) the hyperparameters are left at the last trial.", "quantifier": "all searches (as interactive strategies), time steps, parameters", "why_tests_cant": "Ranges over all adaptive search strategies.", "anchors": ["src/eustace/analysis/advanced_standard/components/spatialdelayed.py: DelayedSpatialComponentSolution.optimize", "src/eustace/analysis/advanced_standard/linalg/optimize.py: Optimizer.fit"]}
{"id": "C133", "title": "Matrices of a view of the mesh are the part of those of the mesh", "statement": "For every mesh and every selection of its triangles, the variables of the view are the corners of the selected triangles, each once and in increasing order, and the two matrices of the view are square of that size and hold exactly what the selected triangles contribute to the matrices of the mesh; rows of vertices all of whose triangles are selected equal those of the mesh. Matrices of views that partition the triangles (as the views of coarser triangles do, at every level) add up to those of the mesh when mapped back; the view of all triangles is the mesh. Indices outside of the mesh raise IndexError. Finding: a view without triangles can be made, but asking for its matrices raises ValueError.", "quantifier": "all meshes, selections and partitions of triangles, areas, coordinates, levels up to 28", "why_tests_cant": "Ranges over all meshes and selections; the matrix size is inferred from the data.", "anchors": ["src/eustace/analysis/advanced_standard/stats/spde/spherical_view.py: SphereMeshView.__init__, get_active_vertex_indices, build_Q_C_tilde, build_Q_G, SphereMeshViewGlobal, SphereMeshViewSuperTriangle"]}
{"id": "C134", "title": "Observations seen through a view", "statement": "For every location, view and level, the location is in the domain of the view exactly if the view has the triangle of the mesh that contains the location; then the row of the design matrix is the row of the mesh at the vertices of the view and no weight is lost, so that predictions from the state of the view are those from the state of the mesh; otherwise the row is zero. Every location is in exactly one of the views of the triangles of a coarser level.", "quantifier": "all latitudes and longitudes, views, states, levels up to 28", "why_tests_cant": "Locations are a continuum, and views are arbitrary selections.", "anchors": ["src/eustace/analysis/advanced_standard/stats/spde/spherical_view.py: SphereMeshView.build_A, in_domain", "src/eustace/analysis/advanced_standard/stats/spde/spherical.py: build_A, super_triangle_at_level"]}
{"id": "C135", "title": "Merging of the parameters of views", "statement": "For all views of a mesh and their parameters, accumulating them one by one in any order and finishing gives at every vertex that a view has the logarithm of the mean of the exponentials of the parameters of the views that have it, which lies between their smallest and largest and not below their mean, and nan elsewhere; exp_average gives the same at those vertices and direct_average the mean. Finding: where no view has the vertex exp_average gives minus infinity, and direct_average 0, silently meaning a standard deviation and length of 1. Accumulators of another size, unknown methods and empty lists raise ValueError; one missing accumulator restarts all.", "quantifier": "all meshes, lists of views, parameters, orders", "why_tests_cant": "Ranges over all families of overlapping views.", "anchors": ["src/eustace/analysis/advanced_standard/stats/spde/spherical_view.py: SphereMeshViewGlobal.merge_local_parameterisations, accumulate_local_parameterisations, finalise_local_parameterisation_sigma_rho, finalise_local_parameterisation_q"]}
{"id": "C136", "title": "Merging the files of regions", "statement": "The merged file has for every vertex the logarithms of the mean sigma and rho over the regions with a file whose coarse triangle has the vertex; if all regions of the level have their file, all values are finite and between the smallest and the largest of the regions. A file that does not have two values raises ValueError and no file at all TypeError. Finding: a missing file is not an error, and the merged file then has nan at vertices inside of that region.", "quantifier": "all levels, file systems, parameters, lists of file names", "why_tests_cant": "Ranges over all subsets of files that exist and all levels.", "anchors": ["src/eustace/analysis/advanced_standard/examples/example_optimization.py: merge_local_parameterisations"]}
{"id": "C137", "title": "Hyperparameters survive getting, setting, saving and loading", "statement": "Setting an array of the right length on a combination of hyperparameters and getting it back gives the array, a wrong length raises ValueError and changes nothing, and setting what was got changes nothing if expanded parameters have as many log_rho as log_sigma or one more (exactly then). Values saved under a name that ends in .npy are loaded from that name. Finding: under any other name the file gets .npy added and loading raises IOError; the general class nests its arrays when set to what was got, and can never be made from a file (NameError).", "quantifier": "all combinations, lengths, values, names, file systems", "why_tests_cant": "Ranges over all combinations of sizes and all names.", "anchors": ["src/eustace/analysis/advanced_standard/elements/local_view.py: ExtendedCombinationHyperparameters, ExpandedLocalHyperparameters, GeneralHyperparameters", "src/eustace/analysis/advanced_standard/elements/combination.py: CombinationHyperparameters", "src/eustace/analysis/advanced_standard/elements/local.py: LocalHyperparameters"]}
{"id": "C138", "title": "Splitting and extracting states", "statement": "For every state of a combination of elements and every set of flags with both values, the states written to the two components are those of the flagged and of the other elements in their order, and hold together every variable once; a component without state gives none to both. The state extracted for views has whole elements, and those with a view at the vertices of the view. Finding: with all flags equal, as when there are no bias terms, it raises ValueError and writes nothing.", "quantifier": "all sizes, flags, states, views", "why_tests_cant": "Ranges over all element sizes and flags.", "anchors": ["src/eustace/analysis/advanced_standard/examples/example_optimization.py: split_states_time, extract_local_view_states_time", "src/eustace/analysis/advanced_standard/elements/combination.py: element_states"]}
{"id": "C139", "title": "Diagnostic grids tell of all observations and of nothing else", "statement": "For every set of sources and every day, the fields made for a source and observable hold in every grid cell the number, least and greatest value, greatest uncertainty and sums weighted by uncertainty of exactly the unmasked observations of that day whose location is in the cell, in whatever order and however many times observations are added, and are masked elsewhere; the weighted mean lies between the least and the greatest observation. A run succeeds exactly if each input has readable files, an observation, all locations on the grid and no zero uncertainty, and then saves the eight fields of each input. Findings: uncertainty_min compares observations with uncertainties and for temperatures in kelvin is the uncertainty of the first observation; precision_sum adds inverse uncertainties, not inverse variances; a second weighted mean is added behind the first, which readers go on finding; an input without observations ends the whole run; latitude 90 falls in the southernmost row; names can collide if observables have underscores.", "quantifier": "all grids, tables of locations, sets of observations, sequences of days, file systems, lists of inputs", "why_tests_cant": "Ranges over all sets of observations, orders and combinations of inputs.", "anchors": ["src/eustace/analysis/diagnosticgrid.py: DiagnosticGridObservationConnector, DiagnosticGrid", "src/eustace/analysis/diagnosticgrid_aggregate.pyx: diagnosticgrid_aggregate", "src/eustace/analysis/diagnostic_combine.py: run, DiagnosticInput", "src/eustace/satgrid_iris/gridbin/gridfieldlist.py: GridFieldList"]}
{"id": "C140", "title": "Counts of observations over a span of days", "statement": "For every store and every two dates, the summary has the number of days from the one to the other inclusive, the number of those without a file, the total number of observations that a reader of the remaining files gets and their mean over the days with a file; it fails only if a file that is there cannot be read. Over a list of sources each observable has its own result or error and failures spoil no other result. Finding: a source listed twice keeps only the results of its last entry.", "quantifier": "all file systems, dates, sources and lists of sources", "why_tests_cant": "Ranges over all stores and spans.", "anchors": ["src/eustace/analysis/obscount.py: ObsCounter, ObsSummaryStatistics", "src/eustace/analysis/obscountsources.py: main"]}
{"id": "C141", "title": "Listing of the observations of a day", "statement": "The listing has one item for each observation of the day's file, in the order of the file, with its value, uncertainties and the coordinates of its location in the table of the source (the shared tables for satellite and station sources, the day's own for others). Finding: surfaceairmodel_ocean, which the help offers, is taken for a moving source, so that the listing fails on a store that the analysis reads.", "quantifier": "all file systems, sources, observables, dates", "why_tests_cant": "Ranges over all stores.", "anchors": ["src/eustace/analysis/inspectinput.py: main, FIXEDLOCATIONLOOKUP"]}
{"id": "C142", "title": "Station data: what is given and what is masked", "statement": "For every station file, day, list of stations to hold out, altitude reference and quality-control setting, each observation given names its station, has the time of its row, the file's temperature (adjusted if asked) and its uncertainty; a day is given exactly if the file has one row of it, and the announced number of observations is the number given. Of a day, nothing that the file masks, that is flagged or that is held out is left unmasked, and without a flaw of the file's first day nothing else is masked. Only daily minimum and maximum can be asked for; longitudes of the places are in [-180,180). Findings: with held-out stations and flags both asked for, the flags of the first day of the file are applied to every other day as well; without a day and without held-out stations the flags are not looked at.", "quantifier": "all station files, days, lists of stations, settings", "why_tests_cant": "Ranges over all files and combinations of masks and flags.", "anchors": ["src/eustace/preprocess/fileio/insitu_land.py: ObservationSourceInsituLand.observations, number_of_observations, identify_validation_stations, observation_location_lookup"]}
{"id": "C143", "title": "Adjustment of station temperatures to the surface altitude", "statement": "A station at the reference altitude is left alone, above it 6.5 K are added for each km, and adjustments relative to one another are consistent: stations of one place whose temperatures fall by 6.5 K/km agree after adjustment. The error after adjustment is never below the measurement's, and equals it only at the reference altitude.", "quantifier": "all stations, altitudes, references and temperatures", "why_tests_cant": "Ranges over all altitudes.", "anchors": ["src/eustace/preprocess/fileio/height_adjustment.py", "src/eustace/preprocess/fileio/insitu_land.py: altitude_adjustment"]}
{"id": "C144", "title": "Daily files of station data", "statement": "For every day the station file has, the step stores a file that reads back as exactly the unmasked observations of the day, in the order of stations, each with the number of its station in the table of places, and with the identifier of that table. Stations that are not where the table has them are refused. Findings: a day that the file does not have stops the step with an error, where a file without observations was meant; an altitude adjustment cannot be asked for without a file of stations to hold out.", "quantifier": "all station files, location tables, days and settings", "why_tests_cant": "Ranges over all files and days.", "anchors": ["src/eustace/analysis/preparedailyfixed.py: run_day", "src/eustace/analysis/preparelocationlookup.py: run", "src/eustace/analysis/fileio/observationsource_rawbinary.py: ObservationRawBinaryWriter"]}
{"id": "C145", "title": "Ship reports are read as written", "statement": "Reports written as decimal numbers in columns of eight characters are read as written: coordinates in tenths of a degree, temperatures in hundredths of a degree, times from the date; the columns are those whose title stands at that place in the description. A line that is too short, or a date that does not exist, makes the file unreadable. Findings: titles of two words shift all later columns; a file of a single report cannot be read; a blank temperature is read as -1 and becomes a valid temperature of 273.14 K.", "quantifier": "all texts of descriptions and reports", "why_tests_cant": "Ranges over all texts.", "anchors": ["src/eustace/preprocess/fileio/insitu_ocean.py: HadNMAT2Format, ObservationSourceInsituOceanHadNMAT2"]}
{"id": "C146", "title": "Daily files of ship reports", "statement": "For every file of reports and every day, the two files written carry one identifier; the day file reads back as the reports of the day, and the table of places has at the location number of each its own coordinates. Quantities other than the daily mean stop the step.", "quantifier": "all files of reports and days", "why_tests_cant": "Ranges over all files and days.", "anchors": ["src/eustace/analysis/preparedailymobile.py: run_day", "src/eustace/preprocess/fileio/insitu_ocean.py: observations, observation_location_lookup"]}
{"id": "C147", "title": "Lakes are put at their own places", "statement": "Each row of a lake file gives one unmasked observation in kelvin with an error of 5, at the place of the first row with the same signature; wherever signatures tell places apart that is the row's own place, as for whole degrees of latitude with longitudes given to a millionth. Finding: in general signatures collide; a lake at (10.01, 1.4) is put at (10, 5).", "quantifier": "all lake files", "why_tests_cant": "Ranges over all tables of coordinates.", "anchors": ["src/eustace/surfaceairmodel/fileio/lake.py: ObservationSourceLakeReading"]}
{"id": "C148", "title": "Break points that are given", "statement": "The break points given for a station, or for all, are exactly those of it whose likelihood is not masked, in the order of the file, with times, stations and likelihoods that belong together; the feasibility is that of the station and asking for a station the file does not have is an error. The announced number is that given if no likelihood is masked. Finding: otherwise the announced number is too large.", "quantifier": "all break point files and station numbers", "why_tests_cant": "Ranges over all files.", "anchors": ["src/eustace/preprocess/fileio/insitu_land_breakpoints.py: ObservationBreakPointSourceInsituLand"]}
{"id": "C149", "title": "Decimal years", "statement": "For every moment of the years 1 to 9998 the decimal year is the year plus the elapsed fraction of its 365 or 366 days; it lies in the year, is whole exactly at its beginning, and is strictly increasing. Finding: moments of 9999 raise an error.", "quantifier": "all datetimes", "why_tests_cant": "Ranges over all moments of the calendar.", "anchors": ["src/eustace/timeutils/decimaltime.py: datetime_to_decimal_year"]}
{"id": "C150", "title": "Day numbers are recovered from file names", "statement": "For every directory, source, observable and day of a four-digit year, the day number extracted from the name under which observations or mobile locations are stored is that day; names with another ending are refused.", "quantifier": "all base directories, sources, observables and days", "why_tests_cant": "Ranges over all days and names.", "anchors": ["src/eustace/analysis/preparelocationpointers.py: extractdaynumber", "src/eustace/analysis/fileio/observationsource_rawbinary.py: filename patterns"]}
{"id": "C151", "title": "Ranges of correlation reach their own variables", "statement": "Each variable is given the correlation length and time that stand at its place in the lists and the units of both. A variable without a length or a time leads to an error when its attributes are asked for, not before.", "quantifier": "all lists of names, lengths, times and units", "why_tests_cant": "Ranges over all lists.", "anchors": ["src/eustace/surfaceairmodel/correlation_ranges.py: CorrelationRanges"]}
{"id": "C152", "title": "Objects through JSON files", "statement": "Any value built of numbers, ASCII strings, times, lists, dictionaries and instances can be saved as JSON and loaded: numbers, truth values and None come back as they are, times to the second, lists and dictionaries element by element, and an instance as what its class makes of the attributes that are not false. Saving the dictionary that stands for an instance is saving the instance. Findings: attributes that are false, zero or empty are not written, and come back as the defaults of the constructor, which may differ; strings of dictionaries come back as unicode strings; text beyond ASCII can be saved in an instance and not loaded; nothing that holds an array of two or more numbers can be saved.", "quantifier": "all values of any nesting, and all classes", "why_tests_cant": "Ranges over all nestings of lists, dictionaries and instances.", "anchors": ["src/eumopps/jsonobjects/jsonobjects.py: load, save, save_object, load_object"]}
{"id": "C153", "title": "Catalogues through JSON files", "statement": "Every catalogue of data in files, with any data sets, subsets, file entries, operations and steps, can be saved as JSON and loaded: data sets, files, tags, times, operations and the identifier come back in order; what is empty or zero comes back as None; if nothing it states is empty, zero or a fraction of a second, the catalogue comes back exactly as it is. Findings: a file of no bytes comes back with unknown size; whatever holds the description of a tar archive, or of an empty list of patterns or parameters, can be saved and never loaded, as the archive is written under a name that its constructor does not take.", "quantifier": "all catalogues", "why_tests_cant": "Ranges over all catalogues.", "anchors": ["src/eumopps/catalogue/fileio/formatjson.py", "src/eumopps/catalogue/catalogue.py: Catalogue.__init__", "src/eumopps/catalogue/dataset.py: CatalogueDataSet, CatalogueDataSubset, CatalogueFileEntry", "src/eumopps/catalogue/storage.py: DataStorageFiles, DataStorageTar, DataStorageTarGZip", "src/eumopps/catalogue/operation.py: Operation.__init__", "src/eumopps/catalogue/step.py: StepDaily, StepOnce"]}
{"id": "C154", "title": "Mistakes in JSON descriptions are not loaded", "statement": "If any part of a description cannot be loaded then the whole cannot. What is loaded for a class gives it only arguments it knows and all that it requires, so that a misspelt or missing entry is an error; a class is named with its module; an operation that is loaded has a module that can be run or names a function; the days of a daily step may be given as strings and are the times these denote.", "quantifier": "all JSON texts", "why_tests_cant": "Ranges over all descriptions.", "anchors": ["src/eumopps/jsonobjects/jsonobjects.py: load_object", "src/eumopps/catalogue/operation.py: Operation.__init__", "src/eumopps/catalogue/step.py: StepDaily.__init__", "src/eumopps/catalogue/placeholder.py", "src/eumopps/catalogue/operationparameters.py"]}
{"id": "C155", "title": "Observations seen by the statistical model", "statement": "For the observations of a day, the number of observations, the measurements, the precisions and the coordinates all refer to the same positions in the same order, namely those that are not masked; precisions are inverse squares of the uncorrelated errors; coordinates are those of the table of locations, with longitudes of the same meridian between -180 and 180; what lies at masked positions has no influence; a location beyond the table is an error. Findings: asking for the coordinates of a day without observations is an error; a location number close to the largest of 64 bits is not refused but counts from the end of the table.", "quantifier": "all tables of locations and sets of observations", "why_tests_cant": "Ranges over all sets of observations and tables.", "anchors": ["src/eustace/analysis/advanced_standard/fileio/observation_structure_source_connector.py: ObservationStructureSourceConnector"]}
{"id": "C156", "title": "Biases by source", "statement": "Observations read from the files of one source are affected by the biases of the group of that source and of no other; over land and ocean every satellite observation is affected by the one bias of the group, over ice by that of its hemisphere; with break points given, an observation of a land station is affected by the parameter of the next break of its station and by nothing else; an unknown group is refused. Findings: some example analyses give ice one bias, and then any observation south of the equator is an error; the group of ships never has any effect; on a day without file names all groups match, which is an error over ice.", "quantifier": "all sets of observations, file names, groups and break points", "why_tests_cant": "Ranges over all observations, days and break points.", "anchors": ["src/eustace/analysis/advanced_standard/fileio/observation_structure_source_connector.py: covariate_effect, check_all_candidates", "src/eustace/analysis/advanced_standard/fileio/observation_source_surface_effects.py: global_satellite_effect, hemispheric_satellite_effect, insitu_land_covariate_effect", "src/eustace/outputformats/definitions.py: GLOBAL_BIAS_PATTERNS", "src/eustace/analysis/advanced_standard/elements/bias.py: BiasElement"]}
{"id": "C157", "title": "Loading a day of a source", "statement": "Once the ranges, locations and observations of a source are written, its loader gives for any day the observations that were written for that day and not masked, each with its measurement, precision and place, and the time of the day. For sources observed as minima and maxima it gives the means at the locations that both files have, with the roots of the means of squares as errors; files in ascending order of locations always can be combined, and others give an error and no wrong means. A day without a file of observations or of locations has no observations; unknown sources, days and variables are errors. Finding: where just one of the two files is missing the day is an error.", "quantifier": "all sources, days, tables of locations and observations", "why_tests_cant": "Ranges over all contents of files.", "anchors": ["src/eustace/analysis/advanced_standard/examples/inputloader_rawbinary.py: AnalysisSystemInputLoaderRawBinary, _OneDay, _Sources", "src/eustace/analysis/fileio/observationsource_rawbinary.py: ObservationSourceSingleDayRawBinary", "src/eustace/analysis/observationsource.py: Observations.mean", "src/eustace/analysis/fileio/observationsource_missing.py"]}
{"id": "C158", "title": "Flags of loose latent variables", "statement": "With weights that are not negative, a grid cell gets the flag of a component just when it has some weight on a variable whose variance after observations is more than four fifths of that before; raising a flag leaves the others as they are. Findings: where weights have both signs a cell that depends on loose variables only may get no flag; and the check does not run, because the module of flags does not define those it raises.", "quantifier": "all design matrices, variances and flags", "why_tests_cant": "Ranges over all matrices and variances.", "anchors": ["src/eustace/postprocess/latent_variable_check.py: evaluate_latent_variable_constraint, evaluate_constraint_statistic", "src/eustace/postprocess/flags.py"]}
{"id": "C159", "title": "Monthly gridded observations", "statement": "Month number k of the monthly example is the month k months after January of the year of the epoch, and its time is the middle of that month. The observations of a month are those of its field: each cell that is not masked gives one observation with the temperature of the cell, its latitude and longitude, and an error combined from both standard errors, with a default where they are too small. A temperature without both errors, and a month that the file does not have, are refused. Findings: the month of the epoch is not taken into account; for other variables than the mean temperature nothing is returned and the connector fails.", "quantifier": "all epochs, months, fields and errors", "why_tests_cant": "Ranges over all fields and months.", "anchors": ["src/eustace/analysis/advanced_standard/examples/inputloader_hadcrut4.py: AnalysisSystemInputLoaderHadCRUT4, midmonth, monthnumber_to_decimal"]}
{"id": "C160", "title": "Nodes and designs of the components", "statement": "The nodes of the slow component are whole multiples of the spacing that enclose the period as tightly as possible; those of the monthly component run from the first January to the last with at least the asked number of months between nodes; those of the latitude spline are evenly spaced with one on each pole, and none that could reach a latitude is missing; all latitudes are resolved alike. Designs in decimal years are, entry by entry, the weight in time times the weight in space, and the seasonal one repeats every year. The grand mean weighs every observation by one. A bias that varies in space acts on the observations of its source by their places and on no others. Findings: the function that rounds up ignores the step it is given; a period of one node has a node that no design uses; times outside the period get a zero design without an error; the same day of the calendar is not the same moment in leap years.", "quantifier": "all periods, spacings, numbers of nodes, basis functions of bounded reach, times and places", "why_tests_cant": "Ranges over all periods and times.", "anchors": ["src/eustace/analysis/advanced_standard/examples/model_structure.py", "src/eustace/analysis/advanced_standard/elements/latitudespline.py: LatitudeSplineElement", "src/eustace/analysis/advanced_standard/elements/kronecker_annual.py: AnnualKroneckerElement", "src/eustace/analysis/advanced_standard/elements/grandmean.py: GrandMeanElement", "src/eustace/analysis/advanced_standard/elements/spatial_bias.py: SpatialBiasElement"]}
{"id": "C161", "title": "Components of the analysis", "statement": "In each component the elements and the hyperparameters correspond one to one and in kind, whatever groups of biases are named, and the joined hyperparameters have as many numbers as the elements need. The groups named in the settings get their biases, once for each time they are named, and no others do; without bias terms there are none. With the numbers of biases of the settings the observations of every source can be related to every bias. Finding: a name that is not known is not refused; the analysis runs without its biases.", "quantifier": "all lists of groups, settings and sets of observations", "why_tests_cant": "Ranges over all lists of names and observations.", "anchors": ["src/eustace/analysis/advanced_standard/examples/model_structure.py: ClimatologyDefinition, LargeScaleDefinition, LocalDefinition, NonStationaryLocalDefinition"]}
{"id": "C162", "title": "Geometry on the sphere", "statement": "Every point other than the centre has a latitude from -90 to 90 and a longitude above -180 up to 180, and these give back its direction; inside the range, latitude and longitude come back as they were given. The angle between two directions is between 0 and 180 degrees and its cosine is that of the directions; it is zero only for the same direction. The circumcentre of a triangle is in its plane and equally far from its corners. The mesh with a face at each pole is the ordinary mesh with all its points rotated alike, with the same triangles and edges, and faces of the base are centred on the poles. Finding: at the poles the longitude is lost.", "quantifier": "all points, latitudes and longitudes, pairs of directions, triangles and numbers of subdivisions", "why_tests_cant": "Ranges over the real numbers.", "anchors": ["src/eustace/analysis/mesh/geometry.py: cartesian_to_polar2d, polar2d_to_cartesian, vector_angle, triangle_circumcentre", "src/eustace/analysis/mesh/mesh.py: MeshIcosahedron.rotate_y, MeshIcosahedron.inter_vertex_angle, MeshIcosahedronSubdivision.build"]}
{"id": "C163", "title": "Meshes in files", "statement": "A mesh on the unit sphere with fewer than 2^31 points that is stored and read has the same points, triangles and edges, in the same order, whatever the order of the fields in the file. The meshes that the analysis builds are such meshes for up to 13 subdivisions. A file that lacks one of the fields is refused. The reader in C++ gives the same points and triangles as one list of coordinates and one of corners. Findings: points off the sphere are read back on it; from 14 subdivisions on, large numbers of points are read back wrong; the reader in C++ takes the first field of the file for one that is missing.", "quantifier": "all meshes, numbers of subdivisions, sorting procedures and orders of fields", "why_tests_cant": "Ranges over all meshes.", "anchors": ["src/eustace/analysis/mesh/irisconnector.py: MeshToIrisCubeList, IrisCubeListToMesh", "src/cpp/eustace/analysis/fileio/mesh.cpp: MeshReader::Read"]}
{"id": "C164", "title": "Text of the specification documents", "statement": "Extraction gives the lines after the first start marker up to the next end marker, and nothing where there is no start marker. A list of attributes in a document that has one line \"name: value\" per attribute gives each name once, in order, with its value; a table of variables gives each variable with its type and the lines of metadata that follow it; a dimension gives its size or that it is unlimited; a line of names separated by commas gives the names. An unknown type and metadata before the first variable are refused. Findings: a value is cut at a second colon, and a paragraph without colon (such as an empty one) among the attributes fails the reading.", "quantifier": "all documents, markers, attributes, variables and dimensions", "why_tests_cant": "Ranges over all documents.", "anchors": ["src/eustace/parsedoc/parsedoc.py: get_paragraphs_between, get_text_between", "src/eustace/outputformats/verify/specificationreader.py: SpecificationReader"]}
{"id": "C165", "title": "Version labels", "statement": "A clean working copy has as its label R and its revision number in at least six digits; two different revisions have different labels, and none has the label of unversioned code. A copy that is modified, mixed or switched, and a directory for which nothing is printed, is refused, or labelled as unversioned if that was allowed.", "quantifier": "all revision numbers and texts printed by the version control system", "why_tests_cant": "Ranges over all texts.", "anchors": ["src/eumopps/version/svn.py: get_revision_id, parse_revision_string"]}
{"id": "C166", "title": "Table of station biases", "statement": "For every year of the range and every station up to the last one that has a break, the table has the bias of the period that the first of January belongs to, which is the period ended by the next break of that station, and no number when no break follows. Without any break there is no table. The extraction saves this table with the break points, the biases and the place of the station of each bias. Finding: a bias of another kind before that of the stations stops the extraction with an error.", "quantifier": "all break points in order, biases, ranges of years and stations", "why_tests_cant": "Ranges over all break points, years and stations.", "anchors": ["src/eustace/analysis/advanced_standard/examples/station_bias_model.py: build_bias_matrix, extract_station_biases"]}
{"id": "C167", "title": "Files to be gridded", "statement": "A date of 12 digits asks for the satellite files of that minute, one of 8 digits for 288 times of that day, five minutes apart from midnight; each observation file has the auxiliary file of the same time beside it. For a day of a data set each observation file, in order, is paired with the first auxiliary file of the same time; an observation file without partner fails the whole specification, and a list with an odd number of files is refused.", "quantifier": "all dates, times, patterns and lists of files", "why_tests_cant": "Ranges over all dates and lists of files.", "anchors": ["src/eustace/satgrid/command.py: FilenameList", "src/eustace/satgrid_iris/satellite.py: SatelliteInputList", "src/eustace/generation/landsatgrid.py: specify, run"]}
{"id": "C168", "title": "Runs of the ocean model", "statement": "Running the ocean model for several days at once gives the files that running it day by day gives, in the same order, when all days have the same model files, institution and catalogue; with different ones, those of the first day are used for all days (finding). When the model fails for one of the days nothing is written for any day. A run without days writes nothing and fails with an IndexError.", "quantifier": "all days, inputs, model outputs and temporary names", "why_tests_cant": "Ranges over all lists of days and all outputs of the external model.", "anchors": ["src/eustace/surfaceairmodel/run_ocean.py: run_day, run_multiple_days, return_daily_inputs", "src/eustace/surfaceairmodel/model_ocean.py: ModelOcean.run_idl"]}
{"id": "C169", "title": "Inputs of the optimisation", "statement": "The descriptor built from the input summaries of the time steps gives back, for every day that has a summary, the sources that its summary lists, under the day number of that date; a summary that cannot be found fails the descriptor; a day without a summary is an error. When several steps have the same day the last one counts.", "quantifier": "all time steps, days and sources", "why_tests_cant": "Ranges over all histories of summaries.", "anchors": ["src/eustace/analysis/advanced_standard/fileio/optimization_inputs.py", "src/eustace/analysis/advanced_standard/optimizationsystem.py: process_inputs"]}
{"id": "C170", "title": "Periods of models", "statement": "Rounding to a step down, up or to the nearest gives a whole multiple of the step that is not above, not below, or at most half a step away from the value, and less than a step (half a step) from it. The period of a model contains the period asked for, is less than one step longer at each end, and has one node for every step of it, both ends included. Finding: with whole numbers rounding up gives a number below the value.", "quantifier": "all values, positive steps and periods", "why_tests_cant": "Ranges over all rational times and steps.", "anchors": ["src/eustace/analysis/advanced_standard/examples/large_scale_scaling.py: round_to_quantisation, floor_to_quantisation, ceil_to_quantisation"]}
{"id": "C171", "title": "Jobs and tasks cover all operations", "statement": "The tasks of the satellite suite run every command of each module exactly once and in order, whatever the size of the chunks and the number of commands of the other modules; a module whose commands cannot be counted is left out without an error (finding). The local optimisation has one job for each triangle of the mesh at the level of its regions; the jobs write distinct files, and merging reads exactly these, in the order of the triangles. Finding: the level that merging is asked for is ignored.", "quantifier": "all numbers of commands, chunk sizes, mesh levels and divisions", "why_tests_cant": "Ranges over all sizes of chunks and numbers of commands.", "anchors": ["src/roses/satstace/suite.rc", "src/roses/satstace/Jinja2Filters: roundup, maximum, runcommand", "src/eustace/analysis/advanced_standard/examples/submit_optimisation.py: n_operations", "src/eustace/analysis/advanced_standard/examples/optimise.py: merge_hyperparameters"]}
{"id": "C172", "title": "Chains of batch jobs", "statement": "When the analysis is submitted as a chain of job arrays, then whatever the batch system does, no job of a module starts before every job of every earlier module has ended successfully, provided every module has commands. The jobs of a module run each of its commands exactly once. Findings: a module without commands breaks the chain, so that the next module may start at once; the preparation of raw files submits up to 999 jobs for commands that do not exist.", "quantifier": "all numbers of commands, chains of modules and all histories of starts and ends that the batch system allows", "why_tests_cant": "Ranges over all schedules of the batch system.", "anchors": ["src/roses/fullstace/advanced_standard/runlsf.sh", "src/roses/fullstace/advanced_standard/runlsf_solver.sh", "src/roses/fullstace/advanced_standard/runlsf_iterations.sh", "src/roses/fullstace/rawbinary/runlsf_rawbinary.sh"]}
{"id": "C173", "title": "Jobs of the postprocessing", "statement": "For a range of years the jobs of each step of the postprocessing handle each day of these years in exactly one job, and no other day; each month has one job of the percentiles.", "quantifier": "all ranges of years", "why_tests_cant": "Ranges over all years.", "anchors": ["src/eustace/postprocess/lsf: submit_*.sh and the job scripts", "src/eustace/postprocess/operation_count.py"]}
{"id": "C174", "title": "Making output directories", "statement": "Making sure that the directory of an output file exists succeeds, and the directory exists afterwards, whatever directories other processes make at any moment in between and whatever files they make elsewhere; nothing that existed is removed. A file in the way is an error.", "quantifier": "all paths, file systems and all interleavings with other processes", "why_tests_cant": "Ranges over all schedules of concurrent processes.", "anchors": ["src/eustace/outputformats/ensuredirectory.py: ensuredirectory"]}
{"id": "C175", "title": "Searches for files and checksums", "statement": "The search below a directory gives each file of the tree, at any depth, exactly once and with its path relative to the directory, and nothing else; a directory that does not exist has no files. The checksum and size of a file are those that the checksum program prints, whatever the name of the file; where nothing is printed it is an error.", "quantifier": "all trees of directories and names of files", "why_tests_cant": "Ranges over all trees.", "anchors": ["src/eumopps/catalogue/search.py: find_all_files", "src/eumopps/catalogue/checksum.py: Checksum"]}
{"id": "C176", "title": "Storage of gridded satellite data", "statement": "Values of the gridded satellite variables within the range of their storage (109.315 to 436.985 K for temperatures, 0 to 65.534 K for uncertainties, 0 to 10737 K2 for variances) come back within half a storage step and missing values come back missing; other variables come back as they are. Finding: an uncertainty beyond 65.534 K is stored as something else without an error.", "quantifier": "all values, variables and results of overflows", "why_tests_cant": "Ranges over all values.", "anchors": ["src/eustace/outputformats/iriscubesaver.py: DatasetOverride, NetCDFSaverEUSTACE", "src/eustace/satgrid_iris/saver.py"]}
{"id": "C177", "title": "Descriptor of diagnostic operations", "statement": "The generated descriptor of diagnostics has one operation for every iteration, in order, which extracts the station biases of the large scale component from the state of that iteration with the bias terms of the analysis. Appended to an analysis of as many iterations every data set that a diagnostic operation reads is made by an operation before it, the last one reads the final state, and no data set is declared twice. Findings: a negative number of iterations gives an empty descriptor without an error; after an analysis made as a range of iterations without final grids the last operation reads samples that nothing makes.", "quantifier": "all templates, numbers of iterations and settings", "why_tests_cant": "Ranges over all numbers of iterations.", "anchors": ["src/eustace/analysis/advanced_standard/examples/diagnosticfiller.py: create_diagnostic_descriptor, fill_diagnostic_descriptor, fill_extract_station_biases, fill_state_inputs, state_input"]}
{"id": "C178", "title": "Gridding jobs of satellite data", "statement": "The job array that grids satellite data handles consecutive days from its start, each in exactly one job. As shipped the day and night arrays handle every day of 2010 once and no two of their jobs write the same file. Every pixel is an observation of exactly one of the two, by its night bit, and is valid there exactly when its other two quality bits are clear. Finding: there are 366 jobs for the 365 days of 2010, so the last one handles 1 January 2011.", "quantifier": "all start days, lengths of arrays, days, jobs and quality words", "why_tests_cant": "Ranges over all days and all quality words.", "anchors": ["bin/lsf_satgrid.sh", "bin/eustace_runlsf_satgrid_day.sh", "bin/eustace_runlsf_satgrid_night.sh"]}
{"id": "C179", "title": "Daily runs of the ice model", "statement": "A run of the ice model refuses to start when one of its outputs exists, and a run that ends without error leaves both outputs complete and other files alone. Over any sequence of runs, each interrupted at any moment, no existing file changes and an ancillary file is only present beside a complete main file. Finding: a run interrupted while it writes leaves files that make every later run refuse, so repeating it never completes the outputs.", "quantifier": "all histories of runs, inputs and moments of interruption", "why_tests_cant": "Ranges over all crash points and histories.", "anchors": ["src/eustace/surfaceairmodel/run_ice.py: run_day", "src/eustace/surfaceairmodel/fileio/consistent.py: ConsistentModelOutputNetCDF"]}
{"id": "C180", "title": "Reader of break point files", "statement": "From a break point file with as many longitudes as latitudes the places of the stations are read in order, with longitudes from 180 to 360 turned into the same meridian below 180, and from one with as many stations and likelihoods as times these are read as they are. Different numbers of latitudes and longitudes are refused. Findings: a file without longitudes is read with the values of its first variable instead; fewer stations than times are filled with station 0; longitudes with two dimensions are written beyond the memory reserved.", "quantifier": "all files, orders of variables and contents of memory", "why_tests_cant": "Ranges over all files.", "anchors": ["src/cpp/eustace/analysis/break_points/insitu_land_break_points.cpp: BreakPointsReader::ObservationLocationLookup, BreakPointsReader::observation"]}
{"id": "C181", "title": "Command lines that make descriptors", "statement": "Of every option that names a command or a data set the last text given is used, and its default if none is given; the texts given for the two bias switches reach every operation unchanged, as do the dates. The shipped script makes a descriptor in which no operation reads a data set before one that makes it, every data set is made once, the last states are those of iteration 5 and the four gridded outputs are made. Diagnostics of as many iterations as the analysis has fit behind it. Findings: the shipped script for diagnostics asks for five iterations while the analysis has six, so its last operation reads samples that nothing makes and the final biases are never extracted; giving 0 for a bias switch does not switch it off, because the text 0 is true.", "quantifier": "all templates, option lists, numbers of iterations and earlier contents of the descriptor file", "why_tests_cant": "Ranges over all command lines and all numbers of iterations.", "anchors": ["src/eustace/analysis/advanced_standard/examples/generate_json_descriptors.py: main", "src/eustace/analysis/advanced_standard/examples/generate_diagnostic_descriptors.py: main", "src/roses/fullstace/advanced_standard/build_descriptors.sh", "src/roses/fullstace/advanced_standard/build_diagnostic_descriptors.sh"]}
{"id": "C182", "title": "Scripts that build raw binary files", "statement": "Of any catalogue the script for lookups runs every operation of its list on that catalogue, also if the option for unversioned code is given first; the script for location pointers runs every command of every operation exactly once. Continued lines make one command, and a line of comment ends the command of the lines before it. Findings: the script that creates all files has lines of comment within its commands, so it removes all earlier results, makes no catalogue although it says so, and without arguments exits before any data is prepared (without these lines it would make the catalogue and hand on each of the twenty operations once); with the option given first the script for location pointers submits nothing.", "quantifier": "all catalogues, directories, numbers of commands, command lines and earlier files", "why_tests_cant": "Ranges over all script lines, file systems and numbers of commands.", "anchors": ["src/roses/fullstace/rawbinary/create_rawbinary_files.sh", "src/roses/fullstace/rawbinary/buildall_lookups.sh", "src/roses/fullstace/rawbinary/buildall_rawbinary.sh", "src/roses/fullstace/rawbinary/buildall_locationpointers.sh", "src/roses/fullstace/rawbinary/runlsf_locationpointers.sh", "src/roses/fullstace/rawbinary/lsf_locationpointers.sh"]}
