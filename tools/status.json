{
 "C02": {
  "note": "The requested bound itself is refuted (C02_at_most_requested_refuted); the bound < 2T and the exact count below 2T are proved."
 },
 "C04": {
  "note": "Range and batch option checks proved; negative index, batch size 0, parameterless operations and class operations are findings with their own theorems."
 },
 "C06": {
  "note": "Order and coverage proved for full batches; partly filled batch and list option are findings."
 },
 "C59": {
  "note": "Refuted in general (C59_missing_optional_input_refuted); proved for subsets that are not empty.",
  "status": "partial"
 },
 "C60": {
  "note": "All-or-nothing proved when every catalogue can be written; failure during writing refutes the full claim.",
  "status": "partial"
 },
 "C11": {
  "note": "All three policies proved; unrecognised policy values are a finding."
 },
 "C15": {
  "note": "Over all histories of builder calls; strict content preservation and name uniqueness are refuted as findings."
 },
 "C16": {
  "note": "Flag combinations proved for all file system states; the data set filter always failing is a finding."
 },
 "C08": {
  "note": "For whole-second times; strings as start and end included."
 },
 "C09": {
  "note": "Refuted: every time in the 24 hours before the start is attributed to step 0 (C09_before_start_refuted, for all starts); at least a day before is proved negative.",
  "status": "partial"
 },
 "C19": {
  "note": "To the second, for all date-times; the base must be at a whole second."
 },
 "C20": {
  "note": "Refuted with fractions of a second (microseconds count 86400 times); proved for whole seconds and whole days.",
  "status": "partial"
 },
 "C21": {
  "note": "All date-times and all 14-numeral strings; strings with one-numeral fields are accepted too (finding)."
 },
 "C51": {
  "note": "For references on the first of a month; refuted for later days of the month."
 },
 "C61": {
  "note": "Proved for patterns showing the date within components; the check in the code is refuted twice."
 },
 "C62": {
  "note": "Refuted for all periods starting more than their length after the epoch; holds at the epoch.",
  "status": "partial"
 },
 "C63": {
  "note": "Monthly proved in full; annual except for the last second of a year, which is refuted."
 },
 "C64": {
  "note": "Mid-month proved; round trip exactly when the epoch is in January.",
  "status": "partial"
 },
 "C17": {
  "status": "partial",
  "note": "Refuted for two text fields in the directory pattern, for every dictionary order; proved for at most one (values without dots). Greedy text, dots and trailing text are findings with their own theorems."
 },
 "C65": {
  "note": "Both one- and two-pattern searches, for every dictionary order; patterns without text fields."
 },
 "C66": {
  "note": "For every list of files and patterns."
 },
 "C67": {
  "note": "Day without month and missing year refuted as findings."
 },
 "C18": {
  "note": "Round trip for every value of the specified kind by induction on the value; exact behaviour of None in numeric lists; findings as refutations."
 },
 "C22": {
  "note": "Exact characterisation for every axis with non-zero increment, in exact arithmetic; acceptance below the start and the wrapped pole are findings."
 },
 "C23": {
  "note": "For every run of the first program, cell by cell; order and split independence for all permutations."
 },
 "C24": {
  "note": "Sample variance, also by pairwise differences; sampling uncertainty as a square."
 },
 "C25": {
  "note": "Proved while no cell exceeds its slots; overflow and zero values are findings with refutations."
 },
 "C68": {
  "note": "By showing that both programs hold the same per-cell sums; exact arithmetic, square roots not taken."
 },
 "C27": {
  "note": "Day files, location tables and correlation range files as byte lists with 64-bit words (floats are opaque words)."
 },
 "C28": {
  "note": "Proved from day 1 on, and on day 0 without negative times; refuted for day 0 in general (truncation towards zero)."
 },
 "C29": {
  "note": "Refuted (the identifier is not compared); proved what the preparation of fixed-location days guarantees."
 },
 "C30": {
  "note": "Whole pipeline from table, ranges and day files to the pointer list read back, under the assumption that the reader imports uuid; as the code stands the reader never succeeds (proved). Offsets below 2^53 are exact in double precision; the model uses integers."
 },
 "C31": {
  "note": "The exponential is any function."
 },
 "C32": {
  "note": "Exact rational arithmetic; error terms as mean squares (the code stores their square roots). Findings: times not restricted, failed append not atomic."
 },
 "C33": {
  "note": "Proved for ascending stations and ordered breaks; refuted otherwise."
 },
 "C34": {
  "note": "For linear and nonlinear components of all three kinds, and for a whole sweep. The sparse solver is an arbitrary function of matrix and vector; exact rational arithmetic."
 },
 "C35": {
  "note": "Total information, any order of days and sources, stacking, and no double counting on a rerun."
 },
 "C36": {
  "note": "Refuted for measurements in memory (k-th merge adds the rest k times: exact formula proved); proved for measurements on file."
 },
 "C37": {
  "note": "In memory, indexed files and one file per quantity; two findings refuted."
 },
 "C69": {
  "note": "Proved for spatial, refuted for space-time components."
 },
 "C70": {
  "note": "Proved for spatial and linear space-time, refuted for delayed components."
 },
 "C71": {
  "note": "Proved for linear elements; nonlinear ones always fail (proved)."
 },
 "C72": {
  "note": ""
 },
 "C38": {
  "note": "By induction on nested combinations; refuted when the last element has no parameters."
 },
 "C39": {
  "note": "For any elements that accept states of their length, nested combinations included; refuted for factor elements."
 },
 "C40": {
  "note": "Derivative proved for every notion of differentiation (constants have derivative zero, extensional) that is right for the elements."
 },
 "C73": {
  "note": "SPDE precision and derivative and the harmonics are arbitrary functions."
 },
 "C74": {
  "note": ""
 },
 "C75": {
  "note": "Exact rational arithmetic."
 },
 "C41": {
  "status": "proved",
  "note": "For any commutative ring, notion of derivative and exponential function, and for the reals (standard library axioms of the reals)."
 },
 "C42": {
  "status": "partial",
  "note": "True for alpha 1 and 2 (C42_order_partial); refuted for every alpha above 2, where the code gives the matrix of alpha - 2."
 },
 "C76": {
  "note": "For ordered commutative rings without zero divisors, and for the reals. Areas and inverse mass entries are given positive numbers."
 },
 "C77": {
  "status": "partial",
  "note": "Proved in one dimension; for more dimensions only in row-major numbering (C77_row_major_partial), and the statement as given is refuted. Derivative proved without wrapping, refuted with."
 },
 "C78": {
  "note": "Time lattice not wrapped, as in the elements."
 },
 "C79": {
  "note": ""
 },
 "C43": {
  "status": "proved",
  "note": "Coordinates are exact rationals; dimensions with at least two nodes for the completeness of the search."
 },
 "C80": {
  "note": "For any basis function of the displacements that vanishes outside its span. Exact rationals."
 },
 "C81": {
  "note": "Exact rationals; at least two nodes per dimension."
 },
 "C82": {
  "status": "partial",
  "note": "Proved for grids whose spacing is a multiple of 0.01 degree with rows ascending in latitude (C82_bilinear, C82_grid_points, C82_seam). Refuted: the pole value is not the mean of the row (C82_pole gives the actual value); rows from north to south are mirrored (C82_north_first_refuted)."
 },
 "C44": {
  "status": "proved",
  "note": "For any sorting procedure, midpoint function and 12 corner points. Up to level 28: at level 29 the sort keys (identifier or side) are no longer distinct, and identifiers would need more than 64 bits beyond."
 },
 "C45": {
  "status": "proved",
  "note": "Up to level 28 (see C44). The midpoint function has to be commutative for the corners of the parts."
 },
 "C46": {
  "status": "proved",
  "note": "Up to level 28 (see C44)."
 },
 "C83": {
  "note": "Point numbers, not coordinates, decide which triangles share a corner, as in the code."
 },
 "C47": {
  "status": "proved",
  "note": "Over the real numbers of the standard library, for triangles in general position. Planar evaluation method (the default). Also C47_outside_not_detected: the coordinates are ratios of areas and never negative, so a point outside is not noticed."
 },
 "C84": {
  "note": "Over the real numbers; coordinates are doubles in the code. The 20 triangles of the icosahedron are shown to cover the sphere."
 },
 "C48": {
  "status": "proved",
  "note": "General specification lists, and the production list over both flag files with the marine flag recomputed from the coastal map. Also: the persistent outlier flag never masks."
 },
 "C49": {
  "status": "proved",
  "note": "The first claims hold; C49_areal_low_lost_refuted: the areal-low flag of the second file is lost."
 },
 "C50": {
  "status": "proved",
  "note": "Threshold at least 1, or another day of the window readable (else C50_zero_threshold_refuted). An unreadable centre day fails with NameError."
 },
 "C54": {
  "status": "proved",
  "note": "Bits 0 to 10 proved; C54_later_bits_refuted for the others."
 },
 "C85": {
  "note": "Years between 1 and 9999, the date within the range."
 },
 "C86": {
  "note": ""
 },
 "C87": {
  "note": "C87_target_order_refuted: with a target flag set by the check itself the order matters."
 },
 "C88": {
  "note": ""
 },
 "C52": {
  "status": "proved",
  "note": "Odd windows (an even one fails, C52_even_window), rows of the window within the number of rows. C52_small_mean_refuted: zero below ten rows or columns."
 },
 "C53": {
  "status": "proved",
  "note": "Exact description of every row; C53_trailing_refuted for incomplete blocks; the global grid is a multiple."
 },
 "C89": {
  "note": ""
 },
 "C90": {
  "note": "The numbers of cells of the search ranges are parameters."
 },
 "C91": {
  "note": ""
 },
 "C92": {
  "note": ""
 },
 "C56": {
  "status": "proved",
  "note": "When each source has both files or neither. C56_pairing_refuted: when the numbers agree but different sources lack their files, files of different sources are paired."
 },
 "C57": {
  "status": "proved",
  "note": "The number under the square root and the number of contributing files; rounding and the square root itself are not modelled. See C93 for fields of which only some have masked cells."
 },
 "C93": {
  "note": "C93_mixed_masks_refuted: the uncertainties of fields of which only some have masked cells are not merged."
 },
 "C94": {
  "note": "For names of variables and labels that do not clash, and files named with the same labels."
 },
 "C95": {
  "note": "For output names that are not input names (C96). C95_interrupted_rerun_refuted: a second run fails after an interruption during the deletion."
 },
 "C96": {
  "note": "C96_ancillary_lost_refuted: loss of the ancillary data when its name lacks the label."
 },
 "C55": {
  "status": "proved",
  "note": "The number under the square root. C55_few_outputs_refuted: fewer outputs than blocks raises a division error. C55_no_samples_refuted: without samples the deviation raises an exception. Regridding in blocks of any lengths agrees for ascending latitudes."
 },
 "C97": {
  "note": "Exact arithmetic; the cosine is a parameter; for cells whose weights do not sum to zero."
 },
 "C98": {
  "note": "Exact arithmetic; the cosine and the sort are parameters. C98_descending_refuted: from north to south the values are at the wrong cells."
 },
 "C99": {
  "note": "C99_stale_state_refuted and C99_kept_time_refuted: the histories that give values of no single time."
 },
 "C58": {
  "status": "proved",
  "note": "For templates that name no files of components yet; proved of the shipped templates. C58_negative_refuted: a negative number of iterations is not refused. C58_default_names_refuted: with the default names of the command line the four gridded outputs have one file name. C58_sample_name_refuted: a solution named like the sample of another one is declared twice."
 },
 "C100": {
  "note": "C100_days_refuted: ranges for processing day by day always raise an exception."
 },
 "C101": {
  "note": "C101_field_refuted: with a date field in a name two data sets share a file."
 },
 "C102": {
  "note": "C102_batch_refuted: with a null component in the template for batches, as shipped, the check can never pass, and the refused file stays."
 },
 "C103": {
  "note": "For templates that name no files of components yet."
 },
 "C105": {
  "note": "What the code does is proved; that NOT_ALLOWED means a file for every day is refuted (C105_missing_days_accepted_refuted)."
 },
 "C104": {
  "note": "A period that ends in the last second of a year gets an operation without days (C104_end_in_the_last_second_refuted)."
 },
 "C107": {
  "note": "Acceptance of missing and truncated files and of a foreign location table are refuted; the agreement for whole files is proved in full."
 },
 "C108": {
  "note": "The history is proved in full; Location() of its results, unchecked locations and missing day files are refuted."
 },
 "C110": {
  "note": "Proved for files that stay; C110_stale_refuted for files that change."
 },
 "C111": {
  "note": "Lakes and other base directories are refuted."
 },
 "C115": {
  "note": "C115_leftovers_refuted shows that the hypothesis of C113_never_wrong on the initial files is needed."
 }
}