# Formal model of eustace-advanced in Rocq

The code in /repo is Python 2 (plus a little C and Cython). It is modelled function by function, as total
computable Gallina functions; a Python exception is the value `Err e` of the type `result` in `Base.v`.
Every model definition carries a comment with the file and lines it models and any simplification made.

## Layout (rocq/theories)

For each group `G`: `G_Model.v` (the model; definitions only), `G_Spec.v` (small independent specification
vocabulary, where one is needed), `G_Proofs.v` (lemmas), `G_Props.v` (only property theorems, each closed by
`exact lemma`, followed by `Print Assumptions`, with an `Example` showing that its hypotheses are met by a
concrete non-trivial case).

| Group | Code modelled | Properties |
|---|---|---|
| Work | eumopps/catalogue dataset threads, commandcount, commandrun, multiplecommandsrun, jinja/batches, roses lsf_submission* | C01-C07 |
| Time | calendar, eumopps/catalogue/step, eumopps/timeutils, postprocess/operation_count | C08 C09 C19-C21 C51 C61-C64 |
| Cat | eumopps/catalogue datareference, placeholder, operation, operationparameters, build | C10-C16 |
| Name | eumopps/catalogue/namepatterns, dataset search, timeutils/datetime_dictionary | C17 C65-C67 |
| NcObj | eumopps/netcdfobjects, catalogue/fileio/formatnetcdf save | C18 |
| Grid | eustace/satgrid (+ satgrid_iris) indexing and aggregation, quality filter | C22-C26 C68 |
| Obs | eustace/analysis raw binary files, location pointers, observation sets, break points, bias effect | C27-C33 |
| Lin | finite sums, vectors as lists of rationals (library file) | |
| Ana | analysissystem, components, storages, measurement updates | C34-C37 C69-C72 |
| Comb | elements: combination, linear, bias, kronecker, factor, seasonal, covariate and latitude harmonics priors | C38-C40 C73-C75 |
| Spde | stats/spde spherical and lattice precision and derivative, mesh matrices, kronecker and factor priors | C41 C42 C76-C79 |
| Lat | stats/spde/lattice nodes and design matrix, elements/geography_based interpolation | C43 C80-C82 |
| Loc | analysis/mesh/locator, geometry (planar), coordinates of the mesh, design matrix in stats/spde/spherical | C47 C84 |
| Mesh | analysis/mesh/mesh, rows of coarser triangles in stats/spde/spherical | C44-C46 C83 |
| Flag | postprocess flags, window_check, calendar_check, outlier_window_check, merge_flag_files, apply_mask | C48-C50 C54 C85-C88 |
| Win | postprocess outlier_check, threshold_check, cell_percentile_* | C52 C53 C89-C92 |
| Proj | output_projector, output_structure_rectilinear | C55 C97-C99 |
| Merge | outputformats/filesmerger, merge_multiple_outputs | C56 C57 C93-C96 |
| Batch | advanced_standard/examples/placeholder | C104-C106 |
| Cpp | src/cpp/eustace/analysis: inputmanager, fileio/rawbinary, fileio/locationpointers, timebase, break_points | C107-C112 |
| Dist | analysis/advanced_standard: components/storage_files.py, examples/moving_climatology.py (process_inputs, solve) | C113-C115 |
| Out | outputformats: outputvariable.py, definitions.py, filebuilder.py, globalfield_filebuilder.py, globalfield.py, stations.py, verify/ | C116-C118, C120 |
| Stn | outputformats/stationdata.py | C119 |
| Ice | surfaceairmodel/{model_ice_input_processing,model_ice}.py, fileio/{ice,cubemap}.py | C121-C124 |
| Land | surfaceairmodel/{model_land,run_land}.py, fileio/{post_processing,remap,land,ocean,consistent}.py | C125-C127 |
| RMat, Opt | analysis/advanced_standard/linalg/{linearsystem,costfunction,sparse,optimize,pardisowrapper,extendedcholmodwrapper}.py, linalg/qinv.pyx, components/spatialdelayed.py | C128-C132 |
| View | analysis/advanced_standard/stats/spde/spherical_view.py, elements/local_view.py, examples/example_optimization.py | C133-C138 |
| Diag | analysis/diagnosticgrid.py, diagnosticgrid_aggregate.pyx, diagnostic_combine.py, obscount.py, obscountsources.py, inspectinput.py | C139-C141 |
| Src | preprocess/fileio/insitu_land.py, insitu_land_breakpoints.py, insitu_ocean.py, height_adjustment.py, surfaceairmodel/fileio/lake.py, surfaceairmodel/correlation_ranges.py, analysis/preparedailyfixed.py, preparedailymobile.py, preparelocationlookup.py, preparelocationpointers.py, timeutils/decimaltime.py | C142-C151 |
| Json | eumopps/jsonobjects/jsonobjects.py, eumopps/catalogue/fileio/formatjson.py, constructors of catalogue.py, dataset.py, storage.py, operation.py, operationparameters.py, placeholder.py, step.py | C152-C154 |
| Conn | analysis/advanced_standard/fileio/observation_structure_source_connector.py, analysis/advanced_standard/examples/inputloader_rawbinary.py, analysis/fileio/observationsource_rawbinary.py (days), analysis/fileio/observationsource_missing.py, postprocess/latent_variable_check.py | C155-C158 |
| Setup | analysis/advanced_standard/examples/model_structure.py, analysis/advanced_standard/examples/inputloader_hadcrut4.py, analysis/advanced_standard/elements/latitudespline.py, kronecker_annual.py, grandmean.py, spatial_bias.py | C159-C161 |
| Geo | analysis/mesh/geometry.py, analysis/mesh/mesh.py (rotated base), analysis/mesh/irisconnector.py, cpp/eustace/analysis/fileio/mesh.cpp | C162-C163 |
| Tools | eustace/parsedoc, outputformats/verify/specificationreader.py, eumopps/version/svn.py, examples/station_bias_model.py (table of biases), satgrid/command.py and satgrid_iris/satellite.py (lists of files), generation/landsatgrid.py | C164-C167 |
| Run | eustace/surfaceairmodel/run_ocean.py and model_ocean.py, advanced_standard/fileio/optimization_inputs.py, optimizationsystem.py (inputs), examples/large_scale_scaling.py, submit_optimisation.py, optimise.py (files), station_bias_model.py (extraction), roses/satstace/suite.rc with its filters | C166, C168-C171 |
| Jobs | roses/fullstace/advanced_standard/runlsf*.sh and lsf_commandrun*.sh, roses/fullstace/rawbinary/runlsf_rawbinary.sh, eustace/postprocess/lsf, outputformats/ensuredirectory.py, iriscubesaver.py, satgrid_iris/saver.py, eumopps/catalogue/search.py, checksum.py | C172-C176 |
| Diagop | eustace/analysis/advanced_standard/examples/diagnosticfiller.py (without the methods at 63-105 and 215-257, which nothing calls) | C177 |
| Satjob | bin/lsf_satgrid.sh, bin/eustace_runlsf_satgrid_day.sh, bin/eustace_runlsf_satgrid_night.sh, eustace/surfaceairmodel/run_ice.py (without main), src/cpp/eustace/analysis/break_points/insitu_land_break_points.cpp | C178-C180 |
| Gen | eustace/analysis/advanced_standard/examples/generate_json_descriptors.py, generate_diagnostic_descriptors.py, src/roses/fullstace/advanced_standard/build_descriptors.sh, build_diagnostic_descriptors.sh | C181 |
| Rawjob | src/roses/fullstace/rawbinary/create_rawbinary_files.sh, buildall_lookups.sh, buildall_rawbinary.sh, buildall_locationpointers.sh, runlsf_locationpointers.sh, lsf_locationpointers.sh (shell lines as words, argument parsing of the programs called; not what these programs do) | C182 |
| Fill | eumopps/catalogue/jsonfiller, advanced_standard/examples/jsonfiller | C58 C100-C103 |

## Plan per property

* C01 C02: `compute_checksum_thread_indices` as a function Z -> Z -> list of ranges. Theorem: the concatenation of
  the ranges is `0..N-1` as a list (so exactly once, in order), ranges non-empty. C02: bound `< 2T`, refutation of `<= T`.
* C03 C04 C05 C06: `commandrun` over an abstract catalogue; effects are a trace of executed operations. Theorems about
  the trace: empty on every error, one operation otherwise; coverage through `Permutation`/list equality with `seq`.
* C07: the submission loop as a fold; concatenated index ranges = `1..n`.
* C08 C09 C19 C20 C21: date-times as (day number, second, microsecond); a proleptic Gregorian calendar with proof of the
  bijection between day numbers and (year, month, day). Days-base numbers are modelled as exact rationals (micro-units of days
  scaled to integers); the double rounding of the code is not modelled.
* C10: integer list codec, structural induction.
* C11 C12 C13 C14: `find_references`, `resolve_operation_references`, `restrict_to_subset`, `operation_output_resolve` over
  lists; matching of names to times is an oracle (arbitrary function), which makes the theorem hold for all regular expressions.
* C15: build as a step function over catalogues; induction over the list of updates.
* C16: file system as a partial map; case analysis.
* C17 C65-C67: the search as string functions; regular expressions of the form the code generates (literals, `.`, fixed-width
  numerals, greedy `.*`) are given a backtracking matcher; dictionary order is an arbitrary function; archives (tar) are not modelled.
* C18: Python values as a nested inductive type, NetCDF groups as trees of attributes, dimensions, variables and groups; round trip
  by induction on the value; refutations for None and other cases outside the specification.
* C22: coordinates as rationals (numerator/denominator) so that truncation is integer division; float rounding not modelled.
* C23-C26 C68: aggregation as folds over (cell, value) lists with Qc values; permutation invariance; characterisation per cell; the
  two programs are compared through the same characterisation.
* C27-C30: files as byte lists; fixed-width little-endian codecs; floats are opaque 8-byte words.
* C31-C33: list filters; the bias effect as in the code with arrays as lists.
* C34 C35 C69-C72: information matrices and vectors over the rationals, the solver an arbitrary function; specification by measurement
  equations "design times state = residual" and their normal equations. C36: the stored objects are explicit mutable cells.
  C37: histories of reads and writes, compared with the last write.
* C38-C40: vectors as lists over Qc, matrices as functions; block structure by induction on the element list. Derivatives for an
  arbitrary relation `isderiv` that gives constants derivative zero. C73-C75: sums over blocks, closed formulas for the predictions.
* C41 C42 C76-C79: matrices over an arbitrary commutative ring; the derivative is any relation closed under constants, sums and
  products, with an exponential function; instance for the real numbers. Definiteness over an ordered ring by quadratic forms.
* C43 C80-C82: mixed-radix numbering and product sums, induction on the dimension list; coordinates as exact rationals; any basis
  function that vanishes outside its span.
* C44-C46 C83: `subdivide` as list transformation over any point type, midpoint function and sorting procedure; the invariant (rows in
  order of identifier, edge table = sides of the triangles, two triangles per edge) by induction on the level.
* C47 C84: coordinates as real numbers; areas computed exactly; a point stays in the cone of the chosen triangle by induction on the depth;
  the 20 triangles cover the sphere by cases on octants; agreement with the mesh through C45.
* C48-C50 C54 C85-C88: flag words as integers with bit operations (all words: by bit extensionality, not by enumeration); flag files as a
  partial map from days; the loops over days in closed form with counts; in-place runs by an invariant (the bits the check reads are unchanged).
* C52 C53 C89-C92: arrays as a shape and an index function; the loops over blocks by an invariant on the cells written so far; windows by
  reflection and wrapping of indices; percentiles against an independent definition that determines them uniquely.
* C51: on the calendar of group Time.
* C61: names as strings of characters and substituted fields; two rendered names agree only if all shown fields agree.
* C62-C64: step numbers as integers; fractions of a year rounded to 24 bits as float32 does.
* C55, C97-C99: matrices as lists of rows, block loops as folds that splice rows, a projector as a state machine; the cosine, the rows of the design matrix and the sort are parameters.
* C56 C57 C93-C96: pairs of sources as a list in loop order; the quadratic form over exact rationals, compared with the variance of a sum over
  the contributing sources only; a merge as the list of operations it does on a map of files, an interruption as a prefix of it; names as
  strings.
* C104-C106: the placeholders of annual batches on the calendar of group Time and the catalogue of group Cat; lists of days compared with the filtered list of all days of the period.
* C107-C112: streams as bytes, position and failbit; uninitialised buffers as arbitrary bytes; the C++ reader compared with the Python reader and writer of group Obs on the same bytes, its caches with a new reader, its names with those of the Python patterns (group Time).
* C113-C115: operations as programs of file accesses; histories of starts, kills and single accesses; a weakest-precondition calculus shows that every complete file equals what the in-memory analysis (group Ana) holds; failing operations write last.
* C116-C118, C120: files as attributes, dimensions and variables; the outcome of verification is equivalent to `conforms`, an independent description; builders only add to files, by induction over the calls.
* C119: sets of times by hash and tolerance as a fold; tables as lists of rows; each cell characterised by the last sample that covers it, by induction over samples.
* C121: fields as functions from cells to optional rationals, masks as booleans; each test equivalent to its wording in Prop, neighbours as a duplicate-free list fixed only up to order.
* C122: any number type with the operations used; the two parts written one after the other never meet; the sums of variances over the reals.
* C123, C124: rational axes, truncation of (difference + tolerance) / spacing shown to be the row number.
* C125, C126: masked arrays as data, optional mask and fill value, with numpy's rules for views and in-place sums; each result compared cell by cell; totals over the reals.
* C127: the regular expression as a leftmost search; the IDL program as an arbitrary function of model, date and inputs; the files of a run as a list with the exception that ended it.
* C128-C132: matrices over the reals of the standard library (RMat.v makes them a field of the matrix library of mathcomp and proves derivatives of determinant and inverse, existence of Cholesky factors). The factorisation library is a parameter with its promise as a hypothesis (`library`), shown to have an instance. The recursion of the partial inverse as lists of stored elements with an invariant on which positions are final. A search is an inductive tree of questions.
* C133-C138: a view as sorted lists of triangles and vertices over the mesh model of C44-C46; its matrices as lists of entries with renumbered indices, for any ring, related to those of Spde_Model; locations by the theorems of C84; merging with sparse matrices as lists of stored entries over the reals, extended by infinities and nan, in closed form for all lists of views; files as a partial map.
* C139-C141: fields as a list of named masked arrays over cells (functions of the cell number) with the aggregation loop as a fold; an invariant that relates every field to the list of observations added so far, kept by every step of a run over files read by the model of C27-C29; the axes of C22.
* C142-C151: opened NetCDF files as records of masked arrays, text files as lists of lines of characters with the fixed-width reading of numpy.genfromtxt modelled digit by digit; masks followed to each day and station; the files written are those of the model of C106-C111, so that what is stored is what is read back; decimal years and names over the calendar of C01-C08.
* C152-C154: Python values and JSON texts as trees, constructors as tables of parameters with defaults and attributes; what comes back is an inductive relation that follows the value, catalogues are typed records, and the theorems are by induction on nesting. Calls of classes outside the catalogue are a parameter of the theorems.
* C155-C158: files as a map from names to bytes, words of files as numbers by a parameter; the loader is composed of the models of file names, files and means that other groups prove right, and the theorems follow a set of observations from the writer of its file to the vectors of the statistical model. Groups of biases are decided by matching file names against patterns, by the theorems on templates. Sums of weights are positive just when a term is.
* C159-C161: settings and definitions as functions to lattices and lists of elements and hyperparameters (logarithm and degrees to radians are parameters); lattices by exact rational arithmetic and the calendar of the Time group; rows of designs by the theorems on lattices; monthly fields as lists of cells with masks, square root a parameter.
* C162-C163: coordinates as real numbers, angles by the arc tangent of the standard library; stored meshes as named fields, numbers of points converted to 32 bits and back; invariants of the subdivision from C44-C46 and C84.
* C164-C167: paragraphs as strings, tables as lists of rows; induction over the documents and lists; the effect of the break points from C30; dates from the calendar of C05.
* C168-C171: the external ocean model is an arbitrary function of its inputs that may fail; files are an association list; times of models are rational numbers; induction over the days, steps and cycle points; the number of regions is tied to the mesh of C44.
* C172-C176: the batch system is the set of histories of starts and ends that its rule for waiting allows; conditions are lists of job numbers and bsub does not fail; other processes are an arbitrary function of the file system before each system call that keeps what exists (paths without links, `.` and `..`); trees of files by induction over the tree; packing over the rationals with an arbitrary result of overflows.
* C177: the descriptor is built on the model of the template filler (Fill); order and origin of data sets by induction over the iterations.
* C178-C180: dates of jobs by the proleptic calendar of Time (no change of the clock); pixels through the selection of the gridding program (Grid); a run of the ice model is its list of changes to the file system, cut at any of them, and histories by induction; reading of netCDF variables by number, with what the C++ reader does on failure, undefined behaviour given as an error of its own (ModuleError).
* C181: options of a command line as a list in order, of which the last counts; descriptors by the models of C58/C100 (Fill) and C177 (Diagop), the scripts by their literal options; order, distinctness and latest states from the sketches of Fill.
* C182: shell lines joined by induction over their words; argument parsing without abbreviations; the script run on any file system, earlier output and earlier commands.
* C58, C100-C103: templates and descriptors as JSON values, filled key by key; what an operation reads and writes is found in the value; induction on the number of iterations. The shipped templates are transcribed in Fill_Templates.v.

## Trusted base

* Coq 8.16.1 kernel (and `vm_compute` for closed computations).
* `Print Assumptions` of every property theorem is in its `_Props.v` file. It prints "Closed under the global context" for all of
  them except `C41_derivative_real`, `C76_positive_definite_real`, `C77_derivative_wrapped_refuted`, `C122_budget`, `C122_negative_refuted`, `C126_total` and all theorems of C47, C84, C128-C132, C134-C136, C162 and C163 other than `C163_rows`,
  which are about the real numbers of the standard library and rest on its three axioms `ClassicalDedekindReals.sig_not_dec`,
  `ClassicalDedekindReals.sig_forall_dec` and `FunctionalExtensionality.functional_extensionality_dep` (so do the examples beside
  them). The theorems of C128-C132 also use `Classical_Prop.classic` and `ClassicalEpsilon.constructive_indefinite_description`
  of the standard library (choice on the reals, which the matrix library asks of its scalars). No axiom of ours is used. (The checker also lists axioms and module type fields of standard library files that are
  loaded but not used: the fields of `Rdefinitions` and of `Coq.ssr.ssrunder.Under_REL`.)
* The reading of the Python code recorded in the model comments. The code is not executed here.

## Not modelled

Floating point rounding, NumPy/SciPy internals, PARDISO/CHOLMOD solvers, NetCDF and pickle libraries, regular expression
engine, process scheduling, and the operating system, except for the parts stated above.

In outputformats: the type checks of the constructor of FilesMerger, attributes of the files other than the comment, the update of
correlation ranges, and a write that is itself interrupted (a file is written completely or not at all); packing and masks of data written by the builders, and the layout of verification reports.

In postprocess: what iris does to a flag word equal to the fill value 65535; the metadata of output files other than flag masks and meanings;
`latent_variable_check.py`, which fails on import (it refers to flags that `flags.py` does not define).
