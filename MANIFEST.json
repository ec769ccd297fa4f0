{
 "claims": [
  {
   "property": "C01",
   "status": "proved",
   "theorems": [
    "C01_checksum_any_schedule"
   ],
   "note": ""
  },
  {
   "property": "C02",
   "status": "proved",
   "theorems": [
    "C02_thread_count",
    "C02_at_most_requested_refuted"
   ],
   "note": "The requested bound itself is refuted (C02_at_most_requested_refuted); the bound < 2T and the exact count below 2T are proved."
  },
  {
   "property": "C03",
   "status": "proved",
   "theorems": [
    "C03_batches_cover",
    "C03_batches_run_everything_once"
   ],
   "note": ""
  },
  {
   "property": "C04",
   "status": "proved",
   "theorems": [
    "C04_command_runs_requested_operation",
    "C04_out_of_range_rejected",
    "C04_batch_options_rejected",
    "C04_negative_index_rejected_refuted",
    "C04_zero_batch_size_refuted",
    "C04_no_parameters_never_rejected",
    "C04_class_operations_never_run"
   ],
   "note": "Range and batch option checks proved; negative index, batch size 0, parameterless operations and class operations are findings with their own theorems."
  },
  {
   "property": "C05",
   "status": "proved",
   "theorems": [
    "C05_version_gate",
    "C05_list_never_runs"
   ],
   "note": ""
  },
  {
   "property": "C06",
   "status": "proved",
   "theorems": [
    "C06_full_batch_in_order",
    "C06_partial_batch_fails_after_running",
    "C06_list_option_runs_operations_refuted"
   ],
   "note": "Order and coverage proved for full batches; partly filled batch and list option are findings."
  },
  {
   "property": "C07",
   "status": "proved",
   "theorems": [
    "C07_submission_addresses_each_once",
    "C07_submission_runs_each_once",
    "C07_grouped_submission_runs_each_once",
    "C07_missing_module_refused"
   ],
   "note": ""
  },
  {
   "property": "C08",
   "status": "proved",
   "theorems": [
    "C08_one_step_per_day",
    "C08_times_increase",
    "C08_first_step_is_the_start",
    "C08_index_of_step_time",
    "C08_day_of_a_time",
    "C08_from_strings"
   ],
   "note": "For whole-second times; strings as start and end included."
  },
  {
   "property": "C09",
   "status": "partial",
   "theorems": [
    "C09_before_start_refuted",
    "C09_a_day_before_start_partial",
    "C09_file_before_start_given_to_first_step",
    "C09_end_before_start_makes_a_step"
   ],
   "note": "Refuted: every time in the 24 hours before the start is attributed to step 0 (C09_before_start_refuted, for all starts); at least a day before is proved negative."
  },
  {
   "property": "C10",
   "status": "proved",
   "theorems": [
    "C10_round_trip",
    "C10_reverse_round_trip",
    "C10_accepts_exactly_whole_trios"
   ],
   "note": ""
  },
  {
   "property": "C11",
   "status": "proved",
   "theorems": [
    "C11_references_valid_and_complete",
    "C11_not_allowed_is_an_error",
    "C11_skip_requests",
    "C11_single_file_per_step",
    "C11_unknown_dataset_refused",
    "C11_unrecognised_policy_refuted"
   ],
   "note": "All three policies proved; unrecognised policy values are a finding."
  },
  {
   "property": "C12",
   "status": "proved",
   "theorems": [
    "C12_skipped_steps_removed_consistently",
    "C12_every_operation_has_its_parameters"
   ],
   "note": ""
  },
  {
   "property": "C13",
   "status": "proved",
   "theorems": [
    "C13_output_entries_unique_and_complete",
    "C13_output_references"
   ],
   "note": ""
  },
  {
   "property": "C14",
   "status": "proved",
   "theorems": [
    "C14_outputs_only_into_empty_subsets",
    "C14_refused_otherwise",
    "C14_other_subsets_untouched"
   ],
   "note": ""
  },
  {
   "property": "C15",
   "status": "proved",
   "theorems": [
    "C15_updates_preserve_history",
    "C15_operations_keep_their_meaning",
    "C15_same_content_refuted",
    "C15_name_clash_refuted"
   ],
   "note": "Over all histories of builder calls; strict content preservation and name uniqueness are refuted as findings."
  },
  {
   "property": "C16",
   "status": "proved",
   "theorems": [
    "C16_existing_catalogue_refused",
    "C16_update_needs_a_catalogue",
    "C16_only_the_named_path_is_written",
    "C16_dataset_filter_refuted"
   ],
   "note": "Flag combinations proved for all file system states; the data set filter always failing is a finding."
  },
  {
   "property": "C17",
   "status": "partial",
   "theorems": [
    "C17_fields_come_from_the_name_partial",
    "C17_single_pattern",
    "C17_every_file_of_the_form_is_found",
    "C17_every_file_of_a_single_form_is_found",
    "C17_two_text_fields_refuted",
    "C17_dots_in_text_refuted",
    "C17_subdirectories_refuted",
    "C17_longer_names_accepted"
   ],
   "note": "Refuted for two text fields in the directory pattern, for every dictionary order; proved for at most one (values without dots). Greedy text, dots and trailing text are findings with their own theorems."
  },
  {
   "property": "C18",
   "status": "proved",
   "theorems": [
    "C18_round_trip",
    "C18_list_round_trip",
    "C18_none_closes_up",
    "C18_round_trip_refuted",
    "C18_none_text_refuted",
    "C18_text_rows_never_saved",
    "C18_two_list_columns_refuted",
    "C18_text_rows_padded_refuted",
    "C18_mixed_table_refuted",
    "C18_fill_value_refuted",
    "C18_time_beside_object_refuted"
   ],
   "note": "Round trip for every value of the specified kind by induction on the value; exact behaviour of None in numeric lists; findings as refutations."
  },
  {
   "property": "C19",
   "status": "proved",
   "theorems": [
    "C19_round_trip_to_the_second",
    "C19_numbers_round_trip",
    "C19_order_preserved",
    "C19_fits_in_64_bits"
   ],
   "note": "To the second, for all date-times; the base must be at a whole second."
  },
  {
   "property": "C20",
   "status": "partial",
   "theorems": [
    "C20_order_refuted",
    "C20_fractions_of_a_second_refuted",
    "C20_whole_seconds_partial",
    "C20_whole_days_round_trip"
   ],
   "note": "Refuted with fractions of a second (microseconds count 86400 times); proved for whole seconds and whole days."
  },
  {
   "property": "C21",
   "status": "proved",
   "theorems": [
    "C21_calendar_is_gregorian",
    "C21_always_14_numerals",
    "C21_digits_denote_the_fields",
    "C21_round_trip",
    "C21_reverse_round_trip",
    "C21_string_order_is_time_order",
    "C21_short_strings_refuted"
   ],
   "note": "All date-times and all 14-numeral strings; strings with one-numeral fields are accepted too (finding)."
  },
  {
   "property": "C22",
   "status": "proved",
   "theorems": [
    "C22_axis_index",
    "C22_one_interval",
    "C22_centres",
    "C22_below_start_refuted",
    "C22_pole_refuted",
    "C22_flat",
    "C22_flat_onto",
    "C22_refused"
   ],
   "note": "Exact characterisation for every axis with non-zero increment, in exact arithmetic; acceptance below the start and the wrapped pole are findings."
  },
  {
   "property": "C23",
   "status": "proved",
   "theorems": [
    "C23_run_succeeds",
    "C23_exact",
    "C23_counts_add_up",
    "C23_order"
   ],
   "note": "For every run of the first program, cell by cell; order and split independence for all permutations."
  },
  {
   "property": "C24",
   "status": "proved",
   "theorems": [
    "C24_variance"
   ],
   "note": "Sample variance, also by pairwise differences; sampling uncertainty as a square."
  },
  {
   "property": "C25",
   "status": "proved",
   "theorems": [
    "C25_slots",
    "C25_overflow_refuted",
    "C25_overwrite_refuted",
    "C25_max",
    "C25_zero_refuted"
   ],
   "note": "Proved while no cell exceeds its slots; overflow and zero values are findings with refutations."
  },
  {
   "property": "C26",
   "status": "proved",
   "theorems": [
    "C26_filter",
    "C26_partition",
    "C26_valid_of_interest"
   ],
   "note": ""
  },
  {
   "property": "C27",
   "status": "proved",
   "theorems": [
    "C27_round_trip",
    "C27_count",
    "C27_trailing_bytes",
    "C27_location_table",
    "C27_correlation_ranges",
    "C27_wrong_kind"
   ],
   "note": "Day files, location tables and correlation range files as byte lists with 64-bit words (floats are opaque words)."
  },
  {
   "property": "C28",
   "status": "proved",
   "theorems": [
    "C28_day_file",
    "C28_day_zero_refuted"
   ],
   "note": "Proved from day 1 on, and on day 0 without negative times; refuted for day 0 in general (truncation towards zero)."
  },
  {
   "property": "C29",
   "status": "proved",
   "theorems": [
    "C29_identity_refuted",
    "C29_prepared_day",
    "C29_empty_day_refuted"
   ],
   "note": "Refuted (the identifier is not compared); proved what the preparation of fixed-location days guarantees."
  },
  {
   "property": "C30",
   "status": "proved",
   "theorems": [
    "C30_index",
    "C30_compiles",
    "C30_follow",
    "C30_refuses",
    "C30_reader_never_succeeds_refuted"
   ],
   "note": "Whole pipeline from table, ranges and day files to the pointer list read back, under the assumption that the reader imports uuid; as the code stands the reader never succeeds (proved). Offsets below 2^53 are exact in double precision; the model uses integers."
  },
  {
   "property": "C31",
   "status": "proved",
   "theorems": [
    "C31_hard_cutoff",
    "C31_kernel",
    "C31_unknown_policy"
   ],
   "note": "The exponential is any function."
  },
  {
   "property": "C32",
   "status": "proved",
   "theorems": [
    "C32_mean_accepts",
    "C32_mean",
    "C32_time_array_refuted",
    "C32_append",
    "C32_failed_append_refuted"
   ],
   "note": "Exact rational arithmetic; error terms as mean squares (the code stores their square roots). Findings: times not restricted, failed append not atomic."
  },
  {
   "property": "C33",
   "status": "proved",
   "theorems": [
    "C33_alignment",
    "C33_one_each",
    "C33_unordered_refuted",
    "C33_time_order_refuted"
   ],
   "note": "Proved for ascending stations and ordered breaks; refuted otherwise."
  },
  {
   "property": "C34",
   "status": "proved",
   "theorems": [
    "C34_measurement",
    "C34_spatial_state",
    "C34_others_kept",
    "C34_component_order",
    "C34_own_value_not_subtracted",
    "C34_sweep"
   ],
   "note": "For linear and nonlinear components of all three kinds, and for a whole sweep. The sparse solver is an arbitrary function of matrix and vector; exact rational arithmetic."
  },
  {
   "property": "C35",
   "status": "proved",
   "theorems": [
    "C35_total",
    "C35_any_order",
    "C35_stacked",
    "C35_rerun"
   ],
   "note": "Total information, any order of days and sources, stacking, and no double counting on a rerun."
  },
  {
   "property": "C36",
   "status": "proved",
   "theorems": [
    "C36_on_file",
    "C36_in_memory",
    "C36_refuted"
   ],
   "note": "Refuted for measurements in memory (k-th merge adds the rest k times: exact formula proved); proved for measurements on file."
  },
  {
   "property": "C37",
   "status": "proved",
   "theorems": [
    "C37_memory",
    "C37_file_of_time",
    "C37_indexed",
    "C37_batched",
    "C37_keep_flag_refuted",
    "C37_batched_measurement_refuted"
   ],
   "note": "In memory, indexed files and one file per quantity; two findings refuted."
  },
  {
   "property": "C38",
   "status": "proved",
   "theorems": [
    "C38_read",
    "C38_round_trip",
    "C38_set_own",
    "C38_slices",
    "C38_ranges",
    "C38_wrong_length",
    "C38_round_trip_refuted"
   ],
   "note": "By induction on nested combinations; refuted when the last element has no parameters."
  },
  {
   "property": "C39",
   "status": "proved",
   "theorems": [
    "C39_state_parts",
    "C39_prediction",
    "C39_jacobian",
    "C39_jacobian_product",
    "C39_initial",
    "C39_nested",
    "C39_linear",
    "C39_rectified",
    "C39_empty",
    "C39_factor_refuted"
   ],
   "note": "For any elements that accept states of their length, nested combinations included; refuted for factor elements."
  },
  {
   "property": "C40",
   "status": "proved",
   "theorems": [
    "C40_precision",
    "C40_derivative_blocks",
    "C40_derivative",
    "C40_index_outside",
    "C40_covariate",
    "C40_latitude_harmonics"
   ],
   "note": "Derivative proved for every notion of differentiation (constants have derivative zero, extensional) that is right for the elements."
  },
  {
   "property": "C41",
   "status": "proved",
   "theorems": [
    "C41_derivative",
    "C41_derivative_real",
    "C41_native",
    "C41_defined"
   ],
   "note": "For any commutative ring, notion of derivative and exponential function, and for the reals (standard library axioms of the reals)."
  },
  {
   "property": "C42",
   "status": "partial",
   "theorems": [
    "C42_order_partial",
    "C42_actual",
    "C42_refuted"
   ],
   "note": "True for alpha 1 and 2 (C42_order_partial); refuted for every alpha above 2, where the code gives the matrix of alpha - 2."
  },
  {
   "property": "C43",
   "status": "proved",
   "theorems": [
    "C43_numbering",
    "C43_coordinates",
    "C43_search"
   ],
   "note": "Coordinates are exact rationals; dimensions with at least two nodes for the completeness of the search."
  },
  {
   "property": "C44",
   "status": "proved",
   "theorems": [
    "C44_sizes",
    "C44_euler",
    "C44_points_kept"
   ],
   "note": "For any sorting procedure, midpoint function and 12 corner points. Up to level 28: at level 29 the sort keys (identifier or side) are no longer distinct, and identifiers would need more than 64 bits beyond."
  },
  {
   "property": "C45",
   "status": "proved",
   "theorems": [
    "C45_row_identifier",
    "C45_parts",
    "C45_parent"
   ],
   "note": "Up to level 28 (see C44). The midpoint function has to be commutative for the corners of the parts."
  },
  {
   "property": "C46",
   "status": "proved",
   "theorems": [
    "C46_closed",
    "C46_two_triangles",
    "C46_sides_once",
    "C46_points"
   ],
   "note": "Up to level 28 (see C44)."
  },
  {
   "property": "C47",
   "status": "proved",
   "theorems": [
    "C47_subdivision",
    "C47_only_part",
    "C47_barycentric",
    "C47_descent",
    "C47_outside_not_detected"
   ],
   "note": "Over the real numbers of the standard library, for triangles in general position. Planar evaluation method (the default). Also C47_outside_not_detected: the coordinates are ratios of areas and never negative, so a point outside is not noticed."
  },
  {
   "property": "C48",
   "status": "proved",
   "theorems": [
    "C48_mask",
    "C48_production",
    "C48_persistent_not_masked"
   ],
   "note": "General specification lists, and the production list over both flag files with the marine flag recomputed from the coastal map. Also: the persistent outlier flag never masks."
  },
  {
   "property": "C49",
   "status": "proved",
   "theorems": [
    "C49_first_kept",
    "C49_second",
    "C49_idempotent",
    "C49_areal_low_lost_refuted"
   ],
   "note": "The first claims hold; C49_areal_low_lost_refuted: the areal-low flag of the second file is lost."
  },
  {
   "property": "C50",
   "status": "proved",
   "theorems": [
    "C50_flags",
    "C50_unreadable_day",
    "C50_zero_threshold_refuted"
   ],
   "note": "Threshold at least 1, or another day of the window readable (else C50_zero_threshold_refuted). An unreadable centre day fails with NameError."
  },
  {
   "property": "C51",
   "status": "proved",
   "theorems": [
    "C51_operations_partition_the_days",
    "C51_operation_count",
    "C51_years_covered",
    "C51_late_reference_refuted"
   ],
   "note": "For references on the first of a month; refuted for later days of the month."
  },
  {
   "property": "C52",
   "status": "proved",
   "theorems": [
    "C52_mean",
    "C52_quartiles",
    "C52_once",
    "C52_even_window",
    "C52_small_mean_refuted"
   ],
   "note": "Odd windows (an even one fails, C52_even_window), rows of the window within the number of rows. C52_small_mean_refuted: zero below ten rows or columns."
  },
  {
   "property": "C53",
   "status": "proved",
   "theorems": [
    "C53_blocks",
    "C53_multiple",
    "C53_global",
    "C53_trailing_refuted"
   ],
   "note": "Exact description of every row; C53_trailing_refuted for incomplete blocks; the global grid is a multiple."
  },
  {
   "property": "C54",
   "status": "proved",
   "theorems": [
    "C54_first_eleven",
    "C54_later_bits_refuted"
   ],
   "note": "Bits 0 to 10 proved; C54_later_bits_refuted for the others."
  },
  {
   "property": "C55",
   "status": "proved",
   "theorems": [
    "C55_std",
    "C55_deviation",
    "C55_any_blocking",
    "C55_few_outputs_refuted",
    "C55_no_samples_refuted",
    "C55_latitude_blocks",
    "C55_any_latitude_blocks"
   ],
   "note": "The number under the square root. C55_few_outputs_refuted: fewer outputs than blocks raises a division error. C55_no_samples_refuted: without samples the deviation raises an exception. Regridding in blocks of any lengths agrees for ascending latitudes."
  },
  {
   "property": "C56",
   "status": "proved",
   "theorems": [
    "C56_sources",
    "C56_mismatch",
    "C56_length",
    "C56_day",
    "C56_pairing_refuted"
   ],
   "note": "When each source has both files or neither. C56_pairing_refuted: when the numbers agree but different sources lack their files, files of different sources are paired."
  },
  {
   "property": "C57",
   "status": "proved",
   "theorems": [
    "C57_formula",
    "C57_every_list",
    "C57_wrong_number",
    "C57_bounds",
    "C57_independent",
    "C57_after_missing"
   ],
   "note": "The number under the square root and the number of contributing files; rounding and the square root itself are not modelled. See C93 for fields of which only some have masked cells."
  },
  {
   "property": "C58",
   "status": "proved",
   "theorems": [
    "C58_order",
    "C58_latest",
    "C58_confront",
    "C58_confront_batch",
    "C58_solve",
    "C58_grid",
    "C58_own",
    "C58_writes",
    "C58_distinct",
    "C58_final",
    "C58_count",
    "C58_count_batch",
    "C58_total",
    "C58_none",
    "C58_negative_refuted",
    "C58_default_names_refuted",
    "C58_sample_name_refuted"
   ],
   "note": "For templates that name no files of components yet; proved of the shipped templates. C58_negative_refuted: a negative number of iterations is not refused. C58_default_names_refuted: with the default names of the command line the four gridded outputs have one file name. C58_sample_name_refuted: a solution named like the sample of another one is declared twice."
  },
  {
   "property": "C59",
   "status": "partial",
   "theorems": [
    "C59_missing_optional_input_refuted",
    "C59_missing_optional_input_from_nonempty_subset"
   ],
   "note": "Refuted in general (C59_missing_optional_input_refuted); proved for subsets that are not empty."
  },
  {
   "property": "C60",
   "status": "partial",
   "theorems": [
    "C60_all_or_nothing_partial",
    "C60_failed_save_refuted"
   ],
   "note": "All-or-nothing proved when every catalogue can be written; failure during writing refutes the full claim."
  },
  {
   "property": "C61",
   "status": "proved",
   "theorems": [
    "C61_distinct_days_have_distinct_names",
    "C61_daily_operations_never_share_an_output",
    "C61_check_is_enough_for_one_component",
    "C61_what_is_checked",
    "C61_uniqueness_check_refuted",
    "C61_absolute_component_refuted"
   ],
   "note": "Proved for patterns showing the date within components; the check in the code is refuted twice."
  },
  {
   "property": "C62",
   "status": "partial",
   "theorems": [
    "C62_epoch_steps_refuted",
    "C62_epoch_steps_partial"
   ],
   "note": "Refuted for all periods starting more than their length after the epoch; holds at the epoch."
  },
  {
   "property": "C63",
   "status": "proved",
   "theorems": [
    "C63_monthly_index_is_the_calendar_month",
    "C63_monthly_times",
    "C63_annual_index_partial",
    "C63_last_second_of_the_year_refuted",
    "C63_annual_times"
   ],
   "note": "Monthly proved in full; annual except for the last second of a year, which is refuted."
  },
  {
   "property": "C64",
   "status": "partial",
   "theorems": [
    "C64_times_are_mid_month",
    "C64_round_trip_partial",
    "C64_epoch_month_refuted"
   ],
   "note": "Mid-month proved; round trip exactly when the epoch is in January."
  },
  {
   "property": "C65",
   "status": "proved",
   "theorems": [
    "C65_single_pattern_round_trip",
    "C65_two_patterns_round_trip",
    "C65_daily_outputs_are_found_for_their_step",
    "C65_missing_slash_refuted"
   ],
   "note": "Both one- and two-pattern searches, for every dictionary order; patterns without text fields."
  },
  {
   "property": "C66",
   "status": "proved",
   "theorems": [
    "C66_every_file_is_accounted_for",
    "C66_listed_once"
   ],
   "note": "For every list of files and patterns."
  },
  {
   "property": "C67",
   "status": "proved",
   "theorems": [
    "C67_dates_are_those_shown",
    "C67_missing_means_first",
    "C67_day_without_month_refuted",
    "C67_missing_year_fails_refuted",
    "C67_tags_are_the_text_fields"
   ],
   "note": "Day without month and missing year refuted as findings."
  },
  {
   "property": "C68",
   "status": "proved",
   "theorems": [
    "C68_programs_agree",
    "C68_lost_pixel_refuted",
    "C68_masked_pixel_refuted"
   ],
   "note": "By showing that both programs hold the same per-cell sums; exact arithmetic, square roots not taken."
  },
  {
   "property": "C69",
   "status": "proved",
   "theorems": [
    "C69_spatial",
    "C69_spacetime_refuted"
   ],
   "note": "Proved for spatial, refuted for space-time components."
  },
  {
   "property": "C70",
   "status": "proved",
   "theorems": [
    "C70_spatial",
    "C70_spacetime",
    "C70_delayed_refuted"
   ],
   "note": "Proved for spatial and linear space-time, refuted for delayed components."
  },
  {
   "property": "C71",
   "status": "proved",
   "theorems": [
    "C71_delayed_is_spatial",
    "C71_nonlinear_refuted"
   ],
   "note": "Proved for linear elements; nonlinear ones always fail (proved)."
  },
  {
   "property": "C72",
   "status": "proved",
   "theorems": [
    "C72_sum",
    "C72_closes"
   ],
   "note": ""
  },
  {
   "property": "C73",
   "status": "proved",
   "theorems": [
    "C73_prediction",
    "C73_precision",
    "C73_consistent",
    "C73_derivative",
    "C73_too_few"
   ],
   "note": "SPDE precision and derivative and the harmonics are arbitrary functions."
  },
  {
   "property": "C74",
   "status": "proved",
   "theorems": [
    "C74_prediction",
    "C74_none",
    "C74_refused",
    "C74_negative_refuted"
   ],
   "note": ""
  },
  {
   "property": "C75",
   "status": "proved",
   "theorems": [
    "C75_kronecker",
    "C75_factor",
    "C75_factor_initial"
   ],
   "note": "Exact rational arithmetic."
  },
  {
   "property": "C76",
   "status": "proved",
   "theorems": [
    "C76_mass",
    "C76_stiffness_constants",
    "C76_stiffness_energy",
    "C76_symmetric",
    "C76_positive_definite",
    "C76_positive_definite_real"
   ],
   "note": "For ordered commutative rings without zero divisors, and for the reals. Areas and inverse mass entries are given positive numbers."
  },
  {
   "property": "C77",
   "status": "partial",
   "theorems": [
    "C77_one_dimension",
    "C77_refuted",
    "C77_row_major_partial",
    "C77_diagonal",
    "C77_symmetric",
    "C77_derivative",
    "C77_derivative_wrapped_refuted"
   ],
   "note": "Proved in one dimension; for more dimensions only in row-major numbering (C77_row_major_partial), and the statement as given is refuted. Derivative proved without wrapping, refuted with."
  },
  {
   "property": "C78",
   "status": "proved",
   "theorems": [
    "C78_kronecker",
    "C78_kronecker_entry",
    "C78_factor"
   ],
   "note": "Time lattice not wrapped, as in the elements."
  },
  {
   "property": "C79",
   "status": "proved",
   "theorems": [
    "C79_stationary",
    "C79_expanded",
    "C79_constant"
   ],
   "note": ""
  },
  {
   "property": "C80",
   "status": "proved",
   "theorems": [
    "C80_entries",
    "C80_displacement",
    "C80_periodic"
   ],
   "note": "For any basis function of the displacements that vanishes outside its span. Exact rationals."
  },
  {
   "property": "C81",
   "status": "proved",
   "theorems": [
    "C81_interpolation",
    "C81_cells",
    "C81_weights",
    "C81_nodes"
   ],
   "note": "Exact rationals; at least two nodes per dimension."
  },
  {
   "property": "C82",
   "status": "partial",
   "theorems": [
    "C82_bilinear",
    "C82_grid_points",
    "C82_seam",
    "C82_pole",
    "C82_pole_mean_refuted",
    "C82_order_ignored",
    "C82_north_first_refuted",
    "C82_spacing_checked"
   ],
   "note": "Proved for grids whose spacing is a multiple of 0.01 degree with rows ascending in latitude (C82_bilinear, C82_grid_points, C82_seam). Refuted: the pole value is not the mean of the row (C82_pole gives the actual value); rows from north to south are mirrored (C82_north_first_refuted)."
  },
  {
   "property": "C83",
   "status": "proved",
   "theorems": [
    "C83_super_triangle",
    "C83_partition",
    "C83_neighbours",
    "C83_number"
   ],
   "note": "Point numbers, not coordinates, decide which triangles share a corner, as in the code."
  },
  {
   "property": "C84",
   "status": "proved",
   "theorems": [
    "C84_located",
    "C84_design_row",
    "C84_sphere",
    "C84_levels_agree"
   ],
   "note": "Over the real numbers; coordinates are doubles in the code. The 20 triangles of the icosahedron are shown to cover the sphere."
  },
  {
   "property": "C85",
   "status": "proved",
   "theorems": [
    "C85_flags",
    "C85_unreadable_day"
   ],
   "note": "Years between 1 and 9999, the date within the range."
  },
  {
   "property": "C86",
   "status": "proved",
   "theorems": [
    "C86_flags",
    "C86_unreadable_day"
   ],
   "note": ""
  },
  {
   "property": "C87",
   "status": "proved",
   "theorems": [
    "C87_window",
    "C87_calendar",
    "C87_outlier",
    "C87_target_order_refuted"
   ],
   "note": "C87_target_order_refuted: with a target flag set by the check itself the order matters."
  },
  {
   "property": "C88",
   "status": "proved",
   "theorems": [
    "C88_same_mask",
    "C88_files",
    "C88_ensemble",
    "C88_prefix"
   ],
   "note": ""
  },
  {
   "property": "C89",
   "status": "proved",
   "theorems": [
    "C89_percentile",
    "C89_ordered",
    "C89_between",
    "C89_extremes",
    "C89_constant",
    "C89_any_order",
    "C89_shift"
   ],
   "note": ""
  },
  {
   "property": "C90",
   "status": "proved",
   "theorems": [
    "C90_flags",
    "C90_unreadable",
    "C90_exclusive",
    "C90_uniform",
    "C90_shift"
   ],
   "note": "The numbers of cells of the search ranges are parameters."
  },
  {
   "property": "C91",
   "status": "proved",
   "theorems": [
    "C91_flags",
    "C91_unreadable"
   ],
   "note": ""
  },
  {
   "property": "C92",
   "status": "proved",
   "theorems": [
    "C92_flags",
    "C92_batches",
    "C92_every_date",
    "C92_training"
   ],
   "note": ""
  },
  {
   "property": "C93",
   "status": "proved",
   "theorems": [
    "C93_mean",
    "C93_mixed_masks_refuted"
   ],
   "note": "C93_mixed_masks_refuted: the uncertainties of fields of which only some have masked cells are not merged."
  },
  {
   "property": "C94",
   "status": "proved",
   "theorems": [
    "C94_days",
    "C94_contents"
   ],
   "note": "For names of variables and labels that do not clash, and files named with the same labels."
  },
  {
   "property": "C95",
   "status": "proved",
   "theorems": [
    "C95_safe",
    "C95_finished",
    "C95_interrupted_rerun_refuted",
    "C95_single_file"
   ],
   "note": "For output names that are not input names (C96). C95_interrupted_rerun_refuted: a second run fails after an interruption during the deletion."
  },
  {
   "property": "C96",
   "status": "proved",
   "theorems": [
    "C96_label",
    "C96_name",
    "C96_new_names",
    "C96_ancillary_lost_refuted"
   ],
   "note": "C96_ancillary_lost_refuted: loss of the ancillary data when its name lacks the label."
  },
  {
   "property": "C97",
   "status": "proved",
   "theorems": [
    "C97_cell_means",
    "C97_one_sample",
    "C97_no_sample",
    "C97_points",
    "C97_spacing",
    "C97_constant",
    "C97_bounds"
   ],
   "note": "Exact arithmetic; the cosine is a parameter; for cells whose weights do not sum to zero."
  },
  {
   "property": "C98",
   "status": "proved",
   "theorems": [
    "C98_cell_means",
    "C98_unknown_field",
    "C98_spacing",
    "C98_block_order",
    "C98_descending_refuted"
   ],
   "note": "Exact arithmetic; the cosine and the sort are parameters. C98_descending_refuted: from north to south the values are at the wrong cells."
  },
  {
   "property": "C99",
   "status": "proved",
   "theorems": [
    "C99_exceptions",
    "C99_state",
    "C99_design",
    "C99_projection",
    "C99_kept",
    "C99_saved",
    "C99_stale_state_refuted",
    "C99_kept_time_refuted"
   ],
   "note": "C99_stale_state_refuted and C99_kept_time_refuted: the histories that give values of no single time."
  },
  {
   "property": "C100",
   "status": "proved",
   "theorems": [
    "C100_join",
    "C100_order",
    "C100_same",
    "C100_total",
    "C100_days_refuted"
   ],
   "note": "C100_days_refuted: ranges for processing day by day always raise an exception."
  },
  {
   "property": "C101",
   "status": "proved",
   "theorems": [
    "C101_files_apart",
    "C101_days_apart",
    "C101_field_refuted"
   ],
   "note": "C101_field_refuted: with a date field in a name two data sets share a file."
  },
  {
   "property": "C102",
   "status": "proved",
   "theorems": [
    "C102_check",
    "C102_file",
    "C102_batch_refuted",
    "C102_sources"
   ],
   "note": "C102_batch_refuted: with a null component in the template for batches, as shipped, the check can never pass, and the refused file stays."
  },
  {
   "property": "C103",
   "status": "proved",
   "theorems": [
    "C103_once",
    "C103_stepped",
    "C103_kinds",
    "C103_sources",
    "C103_samples",
    "C103_biases",
    "C103_patterns",
    "C103_names",
    "C103_classes",
    "C103_times",
    "C103_outputs"
   ],
   "note": "For templates that name no files of components yet."
  },
  {
   "property": "C104",
   "status": "proved",
   "theorems": [
    "C104_days_of_each_operation",
    "C104_every_day_once",
    "C104_times_are_the_midnights",
    "C104_every_operation_has_a_day",
    "C104_end_in_the_last_second_refuted",
    "C104_step_index",
    "C104_step_index_before_1850_refuted"
   ],
   "note": "A period that ends in the last second of a year gets an operation without days (C104_end_in_the_last_second_refuted)."
  },
  {
   "property": "C105",
   "status": "proved",
   "theorems": [
    "C105_a_file_or_a_marker_for_every_day",
    "C105_not_allowed",
    "C105_operations_skipped",
    "C105_missing_days_accepted_refuted",
    "C105_file_of_the_last_second_refuted",
    "C105_file_without_year",
    "C105_start_after_midnight_refuted"
   ],
   "note": "What the code does is proved; that NOT_ALLOWED means a file for every day is refuted (C105_missing_days_accepted_refuted)."
  },
  {
   "property": "C106",
   "status": "proved",
   "theorems": [
    "C106_an_output_for_every_day",
    "C106_days_never_share_an_output",
    "C106_patterns_checked",
    "C106_positions_agree"
   ],
   "note": ""
  },
  {
   "property": "C107",
   "status": "proved",
   "theorems": [
    "C107_day",
    "C107_same_as_python",
    "C107_tables",
    "C107_mobile",
    "C107_missing_file_refuted",
    "C107_truncated_refuted",
    "C107_uuid_refuted"
   ],
   "note": "Acceptance of missing and truncated files and of a foreign location table are refuted; the agreement for whole files is proved in full."
  },
  {
   "property": "C108",
   "status": "proved",
   "theorems": [
    "C108_history",
    "C108_agrees_with_days",
    "C108_mobile",
    "C108_location_refuted",
    "C108_unknown_location_refuted",
    "C108_failed_stream",
    "C108_missing_day_refuted"
   ],
   "note": "The history is proved in full; Location() of its results, unchecked locations and missing day files are refuted."
  },
  {
   "property": "C109",
   "status": "proved",
   "theorems": [
    "C109_day",
    "C109_total",
    "C109_locations",
    "C109_missing_day"
   ],
   "note": ""
  },
  {
   "property": "C110",
   "status": "proved",
   "theorems": [
    "C110_caches",
    "C110_stale_refuted"
   ],
   "note": "Proved for files that stay; C110_stale_refuted for files that change."
  },
  {
   "property": "C111",
   "status": "proved",
   "theorems": [
    "C111_python_names",
    "C111_lake_refuted",
    "C111_base_refuted",
    "C111_distinct"
   ],
   "note": "Lakes and other base directories are refuted."
  },
  {
   "property": "C112",
   "status": "proved",
   "theorems": [
    "C112_policy",
    "C112_unknown_policy",
    "C112_stations",
    "C112_filtered"
   ],
   "note": ""
  },
  {
   "property": "C113",
   "status": "proved",
   "theorems": [
    "C113_never_wrong",
    "C113_in_order",
    "C113_in_memory_total",
    "C113_completes",
    "C113_measurement_when_ready",
    "C113_solution_when_ready"
   ],
   "note": ""
  },
  {
   "property": "C114",
   "status": "proved",
   "theorems": [
    "C114_failed_writes_nothing",
    "C114_solution_refused",
    "C114_measurement_refused",
    "C114_other_time_refused"
   ],
   "note": ""
  },
  {
   "property": "C115",
   "status": "proved",
   "theorems": [
    "C115_no_observations_refused",
    "C115_no_observations_spatial",
    "C115_no_files_refused",
    "C115_nonlinear_first_refused",
    "C115_leftovers_refuted"
   ],
   "note": "C115_leftovers_refuted shows that the hypothesis of C113_never_wrong on the initial files is needed."
  },
  {
   "property": "C116",
   "status": "proved",
   "theorems": [
    "C116_passes_iff",
    "C116_global_field",
    "C116_stations",
    "C116_outcomes_sound",
    "C116_missing_file",
    "C116_breaks_off",
    "C116_report_refuted",
    "C116_no_temperature_passes"
   ],
   "note": ""
  },
  {
   "property": "C117",
   "status": "proved",
   "theorems": [
    "C117_built_iff",
    "C117_passes",
    "C117_fields_agree",
    "C117_uncertainties_agree",
    "C117_contents",
    "C117_axes",
    "C117_cube_axes"
   ],
   "note": ""
  },
  {
   "property": "C118",
   "status": "proved",
   "theorems": [
    "C118_pathnames",
    "C118_passes_iff",
    "C118_variables_agree",
    "C118_contents",
    "C118_order",
    "C118_names_read_back",
    "C118_names_refuted"
   ],
   "note": ""
  },
  {
   "property": "C120",
   "status": "proved",
   "theorems": [
    "C120_made_iff",
    "C120_made",
    "C120_capital",
    "C120_missing_field",
    "C120_unknown_keyword",
    "C120_extended",
    "C120_definitions_refuted"
   ],
   "note": ""
  },
  {
   "property": "C119",
   "status": "proved",
   "theorems": [
    "C119_axis",
    "C119_close_points",
    "C119_close_points_refuted",
    "C119_cells",
    "C119_axis_refused",
    "C119_sample_lost_refuted",
    "C119_unknown_station_refuted",
    "C119_breaks",
    "C119_breaks_refused"
   ],
   "note": ""
  },
  {
   "property": "C121",
   "status": "proved",
   "theorems": [
    "C121_accepted",
    "C121_unchanged",
    "C121_night_refuted",
    "C121_day",
    "C121_border_refuted",
    "C121_warm_refuted",
    "C121_mean_below_five",
    "C121_shapes",
    "C121_land_mask_shape_refuted"
   ],
   "note": ""
  },
  {
   "property": "C122",
   "status": "proved",
   "theorems": [
    "C122_fields",
    "C122_always",
    "C122_one_kind",
    "C122_parameters",
    "C122_budget",
    "C122_negative_refuted"
   ],
   "note": ""
  },
  {
   "property": "C123",
   "status": "proved",
   "theorems": [
    "C123_global",
    "C123_checked"
   ],
   "note": ""
  },
  {
   "property": "C124",
   "status": "proved",
   "theorems": [
    "C124_locations",
    "C124_checked"
   ],
   "note": ""
  },
  {
   "property": "C125",
   "status": "proved",
   "theorems": [
    "C125_filtered",
    "C125_ordered",
    "C125_succeeds",
    "C125_again",
    "C125_no_mask_refuted",
    "C125_hidden_refuted",
    "C125_surfaces"
   ],
   "note": ""
  },
  {
   "property": "C126",
   "status": "proved",
   "theorems": [
    "C126_land",
    "C126_ocean",
    "C126_total",
    "C126_missing"
   ],
   "note": ""
  },
  {
   "property": "C127",
   "status": "proved",
   "theorems": [
    "C127_date",
    "C127_date_refuted",
    "C127_together",
    "C127_each_file",
    "C127_mismatch",
    "C127_settings_refuted",
    "C127_percentage_refuted"
   ],
   "note": ""
  },
  {
   "property": "C128",
   "status": "proved",
   "theorems": [
    "C128_likelihood",
    "C128_steps",
    "C128_no_steps"
   ],
   "note": ""
  },
  {
   "property": "C129",
   "status": "proved",
   "theorems": [
    "C129_gradient",
    "C129_steps_gradient"
   ],
   "note": ""
  },
  {
   "property": "C130",
   "status": "proved",
   "theorems": [
    "C130_partial_inverse",
    "C130_trace",
    "C130_cancellation_refuted"
   ],
   "note": ""
  },
  {
   "property": "C131",
   "status": "proved",
   "theorems": [
    "C131_best_estimate",
    "C131_samples",
    "C131_variances",
    "C131_standard_deviations",
    "C131_block_zero"
   ],
   "note": ""
  },
  {
   "property": "C132",
   "status": "proved",
   "theorems": [
    "C132_optimize",
    "C132_exception_refuted"
   ],
   "note": ""
  },
  {
   "property": "C133",
   "status": "proved",
   "theorems": [
    "C133_vertices",
    "C133_matrices",
    "C133_sum",
    "C133_super_triangles",
    "C133_interior",
    "C133_global",
    "C133_local",
    "C133_empty"
   ],
   "note": ""
  },
  {
   "property": "C134",
   "status": "proved",
   "theorems": [
    "C134_row",
    "C134_value",
    "C134_one_view"
   ],
   "note": ""
  },
  {
   "property": "C135",
   "status": "proved",
   "theorems": [
    "C135_accumulated",
    "C135_order",
    "C135_between",
    "C135_exp_average",
    "C135_direct_average",
    "C135_same_refuted",
    "C135_same_covered",
    "C135_errors"
   ],
   "note": ""
  },
  {
   "property": "C136",
   "status": "proved",
   "theorems": [
    "C136_merged",
    "C136_complete",
    "C136_missing_refuted",
    "C136_errors"
   ],
   "note": ""
  },
  {
   "property": "C137",
   "status": "proved",
   "theorems": [
    "C137_set_get",
    "C137_get_set",
    "C137_saved",
    "C137_saved_refuted",
    "C137_general_refuted"
   ],
   "note": ""
  },
  {
   "property": "C138",
   "status": "proved",
   "theorems": [
    "C138_split",
    "C138_one_kind_refuted",
    "C138_extracted"
   ],
   "note": ""
  },
  {
   "property": "C139",
   "status": "proved",
   "theorems": [
    "C139_day",
    "C139_cells",
    "C139_accumulate",
    "C139_order",
    "C139_mean",
    "C139_precision_refuted",
    "C139_uncertainty_min_refuted",
    "C139_uncertainty_min_first",
    "C139_renewed_mean_refuted",
    "C139_run",
    "C139_run_names",
    "C139_run_succeeds",
    "C139_empty_refuted",
    "C139_pole_refuted",
    "C139_names",
    "C139_names_refuted"
   ],
   "note": ""
  },
  {
   "property": "C140",
   "status": "proved",
   "theorems": [
    "C140_statistics",
    "C140_days",
    "C140_succeeds",
    "C140_sources",
    "C140_repeated_refuted"
   ],
   "note": ""
  },
  {
   "property": "C141",
   "status": "proved",
   "theorems": [
    "C141_tables",
    "C141_listing",
    "C141_ocean_refuted"
   ],
   "note": ""
  },
  {
   "property": "C142",
   "status": "proved",
   "theorems": [
    "C142_entries",
    "C142_found",
    "C142_count",
    "C142_day_safe",
    "C142_day_exact",
    "C142_first_day_refuted",
    "C142_all_days_refuted",
    "C142_observables",
    "C142_places"
   ],
   "note": ""
  },
  {
   "property": "C143",
   "status": "proved",
   "theorems": [
    "C143_adjustment",
    "C143_profile",
    "C143_error"
   ],
   "note": ""
  },
  {
   "property": "C144",
   "status": "proved",
   "theorems": [
    "C144_station_day",
    "C144_missing_day_refuted",
    "C144_adjustment_alone_refuted",
    "C144_moved"
   ],
   "note": ""
  },
  {
   "property": "C145",
   "status": "proved",
   "theorems": [
    "C145_titles",
    "C145_two_words_refuted",
    "C145_reports",
    "C145_short_line",
    "C145_bad_date",
    "C145_single_refuted",
    "C145_blank_refuted"
   ],
   "note": ""
  },
  {
   "property": "C146",
   "status": "proved",
   "theorems": [
    "C146_ship_day",
    "C146_observable"
   ],
   "note": ""
  },
  {
   "property": "C147",
   "status": "proved",
   "theorems": [
    "C147_place",
    "C147_rows",
    "C147_own_place",
    "C147_whole_degrees",
    "C147_collision_refuted"
   ],
   "note": ""
  },
  {
   "property": "C148",
   "status": "proved",
   "theorems": [
    "C148_breaks",
    "C148_feasibility",
    "C148_count",
    "C148_count_refuted"
   ],
   "note": ""
  },
  {
   "property": "C149",
   "status": "proved",
   "theorems": [
    "C149_fraction",
    "C149_year",
    "C149_order",
    "C149_last_year_refuted"
   ],
   "note": ""
  },
  {
   "property": "C150",
   "status": "proved",
   "theorems": [
    "C150_names",
    "C150_ending"
   ],
   "note": ""
  },
  {
   "property": "C151",
   "status": "proved",
   "theorems": [
    "C151_own_ranges",
    "C151_missing"
   ],
   "note": ""
  },
  {
   "property": "C152",
   "status": "proved",
   "theorems": [
    "C152_round_trip",
    "C152_encoder",
    "C152_attributes_refuted",
    "C152_strings_refuted",
    "C152_arrays",
    "C152_text"
   ],
   "note": ""
  },
  {
   "property": "C153",
   "status": "proved",
   "theorems": [
    "C153_round_trip",
    "C153_same",
    "C153_zero_refuted",
    "C153_archives",
    "C153_empty"
   ],
   "note": ""
  },
  {
   "property": "C154",
   "status": "proved",
   "theorems": [
    "C154_parts",
    "C154_arguments",
    "C154_class_name",
    "C154_operations",
    "C154_days"
   ],
   "note": ""
  },
  {
   "property": "C155",
   "status": "proved",
   "theorems": [
    "C155_aligned",
    "C155_masked_ignored",
    "C155_longitudes",
    "C155_outside",
    "C155_nothing_to_locate_refuted",
    "C155_large_numbers_refuted"
   ],
   "note": ""
  },
  {
   "property": "C156",
   "status": "proved",
   "theorems": [
    "C156_unknown",
    "C156_other_source",
    "C156_global",
    "C156_ice",
    "C156_ice_design",
    "C156_one_ice_bias_refuted",
    "C156_stations",
    "C156_no_ship_biases_refuted",
    "C156_stations_without_breaks",
    "C156_no_files_refuted"
   ],
   "note": ""
  },
  {
   "property": "C157",
   "status": "proved",
   "theorems": [
    "C157_direct",
    "C157_mean",
    "C157_sorted_files",
    "C157_mean_mismatch",
    "C157_unknown",
    "C157_missing",
    "C157_one_missing_refuted"
   ],
   "note": ""
  },
  {
   "property": "C158",
   "status": "proved",
   "theorems": [
    "C158_flagged_cells",
    "C158_negative_weights_refuted",
    "C158_runs_refuted",
    "C158_raise"
   ],
   "note": ""
  },
  {
   "property": "C159",
   "status": "proved",
   "theorems": [
    "C159_month",
    "C159_epoch_refuted",
    "C159_observations",
    "C159_missing_error",
    "C159_absent",
    "C159_other_observable_refuted",
    "C159_cells"
   ],
   "note": ""
  },
  {
   "property": "C160",
   "status": "proved",
   "theorems": [
    "C160_slow_nodes",
    "C160_one_node_refuted",
    "C160_ceil_refuted",
    "C160_monthly_nodes",
    "C160_latitude_nodes",
    "C160_latitude_shift",
    "C160_one_latitude",
    "C160_seasons",
    "C160_calendar_day_refuted",
    "C160_outside_period_refuted",
    "C160_annual",
    "C160_grand_mean",
    "C160_spatial_bias_own",
    "C160_spatial_bias_other",
    "C160_latitude_design",
    "C160_settings"
   ],
   "note": ""
  },
  {
   "property": "C161",
   "status": "proved",
   "theorems": [
    "C161_local_fits",
    "C161_large_scale_fits",
    "C161_climatology_fits",
    "C161_nonstationary_fits",
    "C161_parameters",
    "C161_local_elements",
    "C161_local_number",
    "C161_nonstationary_elements",
    "C161_without_biases",
    "C161_biases_apply",
    "C161_unknown_group_refuted"
   ],
   "note": ""
  },
  {
   "property": "C162",
   "status": "proved",
   "theorems": [
    "C162_to_polar",
    "C162_from_polar",
    "C162_pole_refuted",
    "C162_date_line",
    "C162_angle",
    "C162_same_direction",
    "C162_circumcentre",
    "C162_face_at_poles",
    "C162_rotated_mesh"
   ],
   "note": ""
  },
  {
   "property": "C163",
   "status": "proved",
   "theorems": [
    "C163_round_trip",
    "C163_rows",
    "C163_subdivisions",
    "C163_missing_field",
    "C163_off_sphere_refuted",
    "C163_large_numbers_refuted",
    "C163_cpp_reader",
    "C163_cpp_missing_refuted"
   ],
   "note": ""
  },
  {
   "property": "C164",
   "status": "proved",
   "theorems": [
    "C164_between",
    "C164_no_start",
    "C164_attributes",
    "C164_attributes_table",
    "C164_attribute_cut_refuted",
    "C164_empty_paragraph_refuted",
    "C164_variables",
    "C164_unknown_type",
    "C164_orphan_metadata",
    "C164_dimensions",
    "C164_names"
   ],
   "note": ""
  },
  {
   "property": "C165",
   "status": "proved",
   "theorems": [
    "C165_clean",
    "C165_distinct",
    "C165_six_digits",
    "C165_not_clean",
    "C165_nothing_printed"
   ],
   "note": ""
  },
  {
   "property": "C166",
   "status": "proved",
   "theorems": [
    "C166_extract",
    "C166_other_bias_refuted",
    "C166_no_bias",
    "C166_table",
    "C166_no_breaks"
   ],
   "note": ""
  },
  {
   "property": "C167",
   "status": "proved",
   "theorems": [
    "C167_one_time",
    "C167_whole_day",
    "C167_on_the_day",
    "C167_pairs",
    "C167_matched",
    "C167_unmatched",
    "C167_odd"
   ],
   "note": ""
  },
  {
   "property": "C168",
   "status": "proved",
   "theorems": [
    "C168_together",
    "C168_same_settings",
    "C168_nothing_written",
    "C168_no_days",
    "C168_day",
    "C168_settings_refuted"
   ],
   "note": ""
  },
  {
   "property": "C169",
   "status": "proved",
   "theorems": [
    "C169_sources",
    "C169_unknown_day",
    "C169_missing_summary",
    "C169_repeated"
   ],
   "note": ""
  },
  {
   "property": "C170",
   "status": "proved",
   "theorems": [
    "C170_floor",
    "C170_ceil",
    "C170_round",
    "C170_ceil_int_refuted",
    "C170_period"
   ],
   "note": ""
  },
  {
   "property": "C171",
   "status": "proved",
   "theorems": [
    "C171_suite",
    "C171_uncounted_refuted",
    "C171_regions",
    "C171_files",
    "C171_merge_level_refuted"
   ],
   "note": ""
  },
  {
   "property": "C172",
   "status": "proved",
   "theorems": [
    "C172_order",
    "C172_iterations",
    "C172_empty_module_refuted",
    "C172_commands",
    "C172_rawbinary"
   ],
   "note": ""
  },
  {
   "property": "C173",
   "status": "proved",
   "theorems": [
    "C173_days",
    "C173_months"
   ],
   "note": ""
  },
  {
   "property": "C174",
   "status": "proved",
   "theorems": [
    "C174_made",
    "C174_concurrent",
    "C174_blocked"
   ],
   "note": ""
  },
  {
   "property": "C175",
   "status": "proved",
   "theorems": [
    "C175_found",
    "C175_once",
    "C175_missing",
    "C175_checksum"
   ],
   "note": ""
  },
  {
   "property": "C176",
   "status": "proved",
   "theorems": [
    "C176_stored",
    "C176_others",
    "C176_range_refuted"
   ],
   "note": ""
  },
  {
   "property": "C177",
   "status": "proved",
   "theorems": [
    "C177_operations",
    "C177_file",
    "C177_settings",
    "C177_order",
    "C177_final",
    "C177_distinct",
    "C177_total",
    "C177_negative_refuted",
    "C177_range_refuted"
   ],
   "note": ""
  },
  {
   "property": "C178",
   "status": "proved",
   "theorems": [
    "C178_days",
    "C178_year",
    "C178_extra_refuted",
    "C178_only",
    "C178_files",
    "C178_pixels"
   ],
   "note": ""
  },
  {
   "property": "C179",
   "status": "proved",
   "theorems": [
    "C179_refused",
    "C179_success",
    "C179_kept",
    "C179_order",
    "C179_repeat",
    "C179_stuck",
    "C179_recovery_refuted"
   ],
   "note": ""
  },
  {
   "property": "C180",
   "status": "proved",
   "theorems": [
    "C180_places",
    "C180_mismatch",
    "C180_breaks",
    "C180_missing_refuted",
    "C180_stations_refuted",
    "C180_dimensions_refuted"
   ],
   "note": ""
  },
  {
   "property": "C181",
   "status": "proved",
   "theorems": [
    "C181_names",
    "C181_switch",
    "C181_dates",
    "C181_together",
    "C181_samples_lost",
    "C181_script",
    "C181_directory",
    "C181_scripts_refuted",
    "C181_switch_refuted"
   ],
   "note": ""
  },
  {
   "property": "C182",
   "status": "proved",
   "theorems": [
    "C182_continued",
    "C182_comment",
    "C182_create_refuted",
    "C182_create_intended",
    "C182_lookups",
    "C182_pointers",
    "C182_option_refuted",
    "C182_usage"
   ],
   "note": ""
  }
 ]
}