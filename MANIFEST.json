{
 "claims": [
  {
   "property": "C01",
   "status": "proved",
   "theorems": [
    "C01_validator_accepts_iff_schema_met",
    "C01_unmentioned_columns_irrelevant",
    "C01_increasing_is_global_without_nan",
    "C01_increasing_across_missing_refuted"
   ],
   "note": "Acceptance iff schema met, for all schemas and frames; unmentioned columns irrelevant; the increasing rule is global monotonicity on NaN-free columns. Finding: a decrease across a NaN is accepted (refuted theorem)."
  },
  {
   "property": "C02",
   "status": "partial",
   "theorems": [
    "C02_rejection_names_first_violation",
    "C02_max_at_least_cites_maximum_refuted",
    "C02_min_is_below_prints_its_bound_refuted"
   ],
   "note": "First violated rule and first offending row proved. Findings: max_at_least message cites row 0 instead of the maximum; min_is_below message prints the max_at_least bound (refuted theorems)."
  },
  {
   "property": "C03",
   "status": "proved",
   "theorems": [
    "C03_accepted_iff",
    "C03_type_of_cycle",
    "C03_all_indices_are_the_union",
    "C03_hppc_rpt_reset",
    "C03_contains_is_substring",
    "C03_cycles_are_the_given_sets"
   ],
   "note": ""
  },
  {
   "property": "C04",
   "status": "proved",
   "theorems": [
    "C04_round_trip"
   ],
   "note": ""
  },
  {
   "property": "C05",
   "status": "proved",
   "theorems": [
    "C05_detected_iff_pattern_matches",
    "C05_detection_succeeds_iff",
    "C05_only_the_set_of_rows_matters"
   ],
   "note": ""
  },
  {
   "property": "C06",
   "status": "partial",
   "theorems": [
    "C06_charge_discharge_partition",
    "C06_direction_is_net_change",
    "C06_discharge_only_is_discharge_refuted",
    "C06_two_row_charge_is_charge_refuted"
   ],
   "note": "Partition and net-change rule proved. Findings: discharge-only step with missing charge capacity is a charge step; two-row steps misclassified (refuted theorems)."
  },
  {
   "property": "C07",
   "status": "proved",
   "theorems": [
    "C07_grid_rows",
    "C07_values_are_interpolants",
    "C07_exact_at_samples",
    "C07_stays_in_range",
    "C07_no_exception"
   ],
   "note": "For pairwise different axis values without NaN and a non-degenerate range."
  },
  {
   "property": "C08",
   "status": "proved",
   "theorems": [
    "C08_only_regular_cycles",
    "C08_each_step_contributes_resolution_rows",
    "C08_ordered_by_cycle"
   ],
   "note": "Counts for steps whose axis values are pairwise different; NaN on the axis is modelled as an exception."
  },
  {
   "property": "C09",
   "status": "proved",
   "theorems": [
    "C09_throughput_is_running_total",
    "C09_throughput_never_decreases"
   ],
   "note": ""
  },
  {
   "property": "C10",
   "status": "proved",
   "theorems": [
    "C10_only_last_cycle_dropped",
    "C10_complete_last_regular_cycle_kept_refuted"
   ],
   "note": "Drop rule proved as implemented. Finding: the voltage test reads the last raw cycle even when that is a diagnostic cycle, so a complete last regular cycle can be dropped (refuted theorem)."
  },
  {
   "property": "C11",
   "status": "partial",
   "theorems": [
    "C11_duration_of_own_cycle_partial",
    "C11_duration_of_own_cycle_refuted"
   ],
   "note": "Proved when cycles are numbered 0..n-1 (labels equal positions). Finding: otherwise pandas aligns positions with labels and durations shift by one or are lost (refuted theorem)."
  },
  {
   "property": "C12",
   "status": "proved",
   "theorems": [
    "C12_paused_is_largest_gap",
    "C12_paused_intervals"
   ],
   "note": ""
  },
  {
   "property": "C13",
   "status": "partial",
   "theorems": [
    "C13_not_reached",
    "C13_first_crossing",
    "C13_exactly_at_threshold",
    "C13_total_refuted",
    "C13_missing_value_refuted"
   ],
   "note": "First crossing and not-reached cases proved. Findings: a capacity exactly at the threshold for the last crossing raises IndexError; NaN in the first 40 capacities hides every crossing (refuted theorems)."
  },
  {
   "property": "C14",
   "status": "partial",
   "theorems": [
    "C14_higher_threshold_no_later",
    "C14_columns_ordered",
    "C14_columns_ordered_refuted"
   ],
   "note": "Thresholds are ordered; columns ordered when labels do not exceed position+1. Finding: otherwise not (refuted theorem)."
  },
  {
   "property": "C15",
   "status": "partial",
   "theorems": [
    "C15_cv_segment_is_tail_partial",
    "C15_starts_at_first_cv_row_refuted"
   ],
   "note": "Result is always a tail of the charge rows. Findings on where it starts (refuted theorem)."
  },
  {
   "property": "C16",
   "status": "partial",
   "theorems": [
    "C16_is_structured_follows_calls_partial",
    "C16_structure_stores_results",
    "C16_unstructure_leaves_nothing",
    "C16_measurements_never_change",
    "C16_legacy_refuses_everything",
    "C16_guard",
    "C16_reload_of_unstructured_refuted",
    "C16_failed_structuring_refuted",
    "C16_stale_diagnostics_refuted"
   ],
   "note": "Proved for histories of successful calls that reload only structured objects; unstructure, legacy objects, raw data preservation proved in full. Findings: reloading an unstructured object makes it structured; a failed structure() leaves it structured and unsaveable; stale diagnostic results (refuted theorems)."
  },
  {
   "property": "C17",
   "status": "partial",
   "theorems": [
    "C17_structured_round_trip_partial",
    "C17_round_trip_without_raw",
    "C17_second_round_trip_identical",
    "C17_unstructured_round_trip_refuted"
   ],
   "note": "Proved for reachable structured objects (with and without raw data; second round trip is the identity). Findings: unstructured objects come back structured, row labels are lost (refuted theorem)."
  },
  {
   "property": "C18",
   "status": "partial",
   "theorems": [
    "C18_accumulates_within_cycle_partial",
    "C18_never_decreases_partial",
    "C18_dangling_step_refuted",
    "C18_unmarked_cycle_change_refuted"
   ],
   "note": "Accumulation proved for records up to the last finished step, and after it when the cycle does not change there, for files whose cycle changes coincide with finished steps. Findings (refuted theorems): an unfinished first step of the last cycle receives the previous cycle's total; a cycle change without an end code does not reset."
  },
  {
   "property": "C19",
   "status": "proved",
   "theorems": [
    "C19_values_recovered",
    "C19_result_reproduces_line",
    "C19_missing_field_raises",
    "C19_repeated_field_raises"
   ],
   "note": "Round trip, soundness of any returned values, missing field and repeated field raise."
  },
  {
   "property": "C20",
   "status": "proved",
   "theorems": [
    "C20_numbers_follow_rules",
    "C20_always_numbers",
    "C20_never_decreases",
    "C20_never_skips"
   ],
   "note": "Numbering, totality, monotonicity and no skipping for all record lists and rule sets."
  },
  {
   "property": "C21",
   "status": "proved",
   "theorems": [
    "C21_export_agrees_with_reader",
    "C21_techniques_continue",
    "C21_never_decreases_across_techniques"
   ],
   "note": ""
  },
  {
   "property": "C22",
   "status": "proved",
   "theorems": [
    "C22_rules_survive_serialization"
   ],
   "note": "Object-level round trip; json.dumps/json.loads themselves are not modelled (taken as inverse on these values)."
  },
  {
   "property": "C23",
   "status": "partial",
   "theorems": [
    "C23_header_lines",
    "C23_biologic_header_partial",
    "C23_novonix_header_partial",
    "C23_last_line_refuted"
   ],
   "note": "Exact characterisation of both searches. Finding: a header on line search_lines is rejected although the message says it was not in the first search_lines lines (refuted theorem)."
  },
  {
   "property": "C24",
   "status": "proved",
   "theorems": [
    "C24_records_inherit_cycle_and_step",
    "C24_step_clock",
    "C24_test_time_from_step_clock",
    "C24_test_time_never_decreases"
   ],
   "note": ""
  },
  {
   "property": "C25",
   "status": "partial",
   "theorems": [
    "C25_label_by_sign_of_current",
    "C25_step_time_since_run_start_partial",
    "C25_last_row_refuted",
    "C25_single_row_refuted"
   ],
   "note": "Labels, and step times of all rows except a last row that starts a new step. Findings (refuted theorems): the clock of such a last row does not restart; a one-row file raises IndexError."
  },
  {
   "property": "C26",
   "status": "partial",
   "theorems": [
    "C26_columns_of_own_cycle_partial",
    "C26_known_steps_are_read",
    "C26_energy_uses_capacity_refuted"
   ],
   "note": "Exact columns for all tables; discharge energy proved for cycles with a charge row. Finding (refuted theorem): in cycles without charge rows discharge energy is computed from the largest capacity."
  },
  {
   "property": "C27",
   "status": "proved",
   "theorems": [
    "C27_parts_kept_up_to_shift",
    "C27_columns_move_forward"
   ],
   "note": "Shift, order and differences; 'starts no lower' needs a non-negative first value of the second part (stated)."
  },
  {
   "property": "C28",
   "status": "proved",
   "theorems": [
    "C28_first_matching_loader",
    "C28_matcher_is_regular_expression_matching",
    "C28_processed_class_kept"
   ],
   "note": ""
  },
  {
   "property": "C29",
   "status": "proved",
   "theorems": [
    "C29_numbers_read_as_written",
    "C29_integers_read_as_written",
    "C29_volts",
    "C29_amps",
    "C29_watts",
    "C29_ohms",
    "C29_rejects_other_text"
   ],
   "note": ""
  },
  {
   "property": "C30",
   "status": "partial",
   "theorems": [
    "C30_duration_kept_partial",
    "C30_shorter_by_less_than_one_unit_partial",
    "C30_rejects_malformed",
    "C30_duration_kept_refuted"
   ],
   "note": "proved exact for whole hours and minutes and at most three decimals of seconds, and a tight lower bound otherwise; the full statement is false (0.5:: becomes 0 h), see C30_duration_kept_refuted"
  },
  {
   "property": "C31",
   "status": "proved",
   "theorems": [
    "C31_sequences_numbered_consecutively",
    "C31_gotos_follow_steps",
    "C31_loops_go_back_to_their_do",
    "C31_whole_procedure",
    "C31_well_formed_steps_convert",
    "C31_goto_just_past_the_technique_fails"
   ],
   "note": "Numbering, gotos, loops and totality on well formed techniques. Recorded: a goto to the first step after the technique (not the next step) fails with a KeyError (C31_goto_just_past_the_technique_fails). A goto to the procedure's end is written as sequence 9999; what the instrument does with it is not modelled."
  },
  {
   "property": "C32",
   "status": "proved",
   "theorems": [
    "C32_techniques_cover_the_procedure",
    "C32_nested_loops_become_techniques"
   ],
   "note": "Covering theorem for every step list, and the exact technique list for procedures made of unnested runs and nested loops. An empty procedure raises IndexError."
  },
  {
   "property": "C33",
   "status": "partial",
   "theorems": [
    "C33_removes_exactly_the_configured_ends_partial",
    "C33_user_mappings_follow",
    "C33_removes_every_configured_end_refuted"
   ],
   "note": "Exact for steps with several (or no) end conditions. Refuted for a step with a single end condition, which the XML reader delivers as a bare element: the filter iterates over its field names and keeps it."
  },
  {
   "property": "C34",
   "status": "partial",
   "theorems": [
    "C34_last_mapping_takes_effect_partial",
    "C34_all_mappings_take_effect_refuted",
    "C34_limits_reach_the_table_refuted"
   ],
   "note": "Every mapping is applied to the original sequence, so only the last one survives (refuted by witness; the last one is proved to take effect). The configured voltage and current limits never reach the exported table, proved for every configuration."
  },
  {
   "property": "C35",
   "status": "partial",
   "theorems": [
    "C35_steps_follow_the_sequences",
    "C35_loops_have_their_do",
    "C35_dos_have_their_loop",
    "C35_limits_lead_to_their_sequences_partial",
    "C35_gotos_reach_their_sequence_refuted",
    "C35_forward_gotos_enter_loops_at_their_do_refuted",
    "C35_sequences_of_the_file"
   ],
   "note": "Steps are grouped by sequence with matching Do/Loop pairs, loops lead back to their Do step and every limit leads to an existing step; a goto reaches the named sequence except in one off-by-one case (step numbers used as sequence numbers), shown by C35_gotos_reach_their_sequence_refuted. Forward gotos to a loop start lead past its Do step (second refutation)."
  },
  {
   "property": "C36",
   "status": "partial",
   "theorems": [
    "C36_discharge_kept_partial",
    "C36_direction_kept_refuted"
   ],
   "note": "False of the code for charging sequences (the text is compared with ' Charge '): refutation witness; proved for discharging sequences."
  },
  {
   "property": "C37",
   "status": "proved",
   "theorems": [
    "C37_overlapping_loops_rejected"
   ],
   "note": "Loops of an accepted file are pairwise disjoint (nesting is rejected as well)."
  },
  {
   "property": "C38",
   "status": "partial",
   "theorems": [
    "C38_schedules_round_trip_partial",
    "C38_inner_sections_only_refuted",
    "C38_loose_settings_refuted",
    "C38_underscore_refuted"
   ],
   "note": "Round trip proved for all nesting depths when every section has a setting of its own. False for a section that contains only sections (ValueError), for settings outside of sections (dropped) and for underscores in section names (split): refuted with witnesses."
  },
  {
   "property": "C39",
   "status": "proved",
   "theorems": [
    "C39_all_labelled_steps",
    "C39_first_labelled_step",
    "C39_without_steps"
   ],
   "note": "Modes first and all, frame over every path; step names and key without dots (pydash path syntax)."
  },
  {
   "property": "C40",
   "status": "partial",
   "theorems": [
    "C40_loops_jump_past_their_do_partial",
    "C40_every_limit_is_counted",
    "C40_limits_are_consecutive_partial",
    "C40_second_step_refuted",
    "C40_do_at_the_start_refuted",
    "C40_single_end_refuted",
    "C40_second_conversion_refuted"
   ],
   "note": "Proved for loops whose Do step is the third step or later, and for all limit counts. Refuted: a Do step among the first two steps is not found, so the loop leads elsewhere or the conversion fails; a report beside a single end condition leaves a gap in the limit numbers; the conversion changes the procedure so that it cannot be converted again."
  },
  {
   "property": "C41",
   "status": "partial",
   "theorems": [
    "C41_initial_rest",
    "C41_charge_durations_partial",
    "C41_discharge_rest_partial",
    "C41_hppc_durations_partial",
    "C41_long_durations_refuted"
   ],
   "note": "Initial rest proved for every index; all other durations proved for values under a day (C41_*_partial); refuted for 24 h and more, because durations are written as times of day (C41_long_durations_refuted)."
  },
  {
   "property": "C42",
   "status": "partial",
   "theorems": [
    "C42_initial_rest",
    "C42_resistance",
    "C42_charge_v2",
    "C42_charge_v3",
    "C42_discharge_and_loop",
    "C42_discharge_other_loop",
    "C42_storage_v2",
    "C42_storage_v3",
    "C42_reset_cycle",
    "C42_hppc_cycle",
    "C42_rpt_cycle",
    "C42_waveform_partial",
    "C42_regular_cycles_v2",
    "C42_regular_cycles_v3",
    "C42_diagnostics_v2",
    "C42_diagnostics_v3",
    "C42_driving",
    "C42_shipped_v2",
    "C42_shipped_v3",
    "C42_shipped_driving",
    "C42_shipped_charging",
    "C42_inverted_cutoffs_refused",
    "C42_second_end_checked_refuted",
    "C42_protected_limit_refuted",
    "C42_failed_waveform_writes_refuted",
    "C42_waveform_name_refuted",
    "C42_waveform_needs_its_step_refuted"
   ],
   "note": "Every insert_ helper and generator except charging documented exactly (frame, success condition, written values, untouched step on mismatch), for every template and parameter set; the six shipped templates are completely parameterised (charging included). Missing: the waveform helper writes before it checks and checks no step type; findings about the second end of the charge step and the waveform name are refuted statements."
  },
  {
   "property": "C43",
   "status": "partial",
   "theorems": [
    "C43_limits_reach_listed_ends_partial",
    "C43_usual_procedures_accepted",
    "C43_limits_reach_every_end_refuted"
   ],
   "note": "Proved for steps with several end conditions; refuted for steps with a single one, which are passed over."
  },
  {
   "property": "C44",
   "status": "partial",
   "theorems": [
    "C44_file_carries_the_waveform",
    "C44_limits_by_direction",
    "C44_control_mode",
    "C44_resting_waveform_refuted",
    "C44_durations_follow_the_times_refuted"
   ],
   "note": "Proved for waveforms with at least one sample other than zero: second by second the file carries the samples in order (five decimals), in the direction of their sign, segments change where the waveform does, limits follow the direction. Refuted: a waveform of zeros gives a charging segment without a value; segment durations count samples and ignore the time column."
  },
  {
   "property": "C45",
   "status": "partial",
   "theorems": [
    "C45_every_row_reported",
    "C45_each_row_gets_its_file",
    "C45_other_files_untouched",
    "C45_file_names_distinct",
    "C45_waveforms_partial",
    "C45_shipped_templates",
    "C45_failing_row_reported_refuted",
    "C45_duplicates_refuted",
    "C45_named_template_used_refuted",
    "C45_waveforms_refuted"
   ],
   "note": "Proved: every row reported once in order with its file or its reason, success iff all rows supported, counts, names file, contents decided by the row alone for distinct runs, frame, end-to-end contents for the shipped diagnostic templates. Refuted: an exception in one row ends the run without a report; duplicate runs overwrite each other; templates of 72 steps are replaced by diagnosticV2; driving rows with different limits share a waveform file. Not modelled: csv reading, XML serialisation, the smoothed charging waveform, formation settings (parameter)."
  },
  {
   "property": "C46",
   "status": "partial",
   "theorems": [
    "C46_defaults",
    "C46_complete_or_rejected",
    "C46_structured_only",
    "C46_provenance",
    "C46_reload",
    "C46_reload_path",
    "C46_not_generated_not_written",
    "C46_repeated_names_lost_refuted"
   ],
   "note": "Proved: defaults, complete-or-rejected, structured cells only, provenance, round trip for features with distinct names. Refuted: features with repeated names lose columns on saving."
  },
  {
   "property": "C47",
   "status": "partial",
   "theorems": [
    "C47_one_row_per_file",
    "C47_columns",
    "C47_features_in_place",
    "C47_no_mixing",
    "C47_duplicates_rejected",
    "C47_built_iff",
    "C47_hyperparameter_order",
    "C47_reload",
    "C47_hyperparameters_run_together_refuted",
    "C47_number_and_text_refuted",
    "C47_reload_renames_refuted",
    "C47_empty_not_written_refuted"
   ],
   "note": "Proved: one row per file, columns, every feature in place, no mixing, duplicates rejected, built exactly when ready and free of clashes, reload when JSON keeps the printed hyperparameters, hyperparameter order irrelevant. Refuted: different hyperparameters that run together to the same text are rejected as duplicates; number and text confused; tuples rename columns on reload; empty matrix cannot be written."
  },
  {
   "property": "C48",
   "status": "partial",
   "theorems": [
    "C48_partition",
    "C48_disjoint",
    "C48_contents",
    "C48_groups",
    "C48_succeeds",
    "C48_succeeds_groups",
    "C48_unknown_group_refuted"
   ],
   "note": "Folds partition the samples, values and groups proved for every shuffling; success characterised exactly. Refuted: a sample whose split value is missing is grouped with the samples of the median value."
  },
  {
   "property": "C49",
   "status": "partial",
   "theorems": [
    "C49_same_samples",
    "C49_samples",
    "C49_excluded_never_used",
    "C49_features",
    "C49_values",
    "C49_imputed",
    "C49_reload_partial",
    "C49_reload_excluded_refuted",
    "C49_reload_imputation_refuted",
    "C49_some_feature_refuted",
    "C49_sparse_exclusion_refuted"
   ],
   "note": "Kept samples, features and values characterised exactly; excluded samples never used. Refuted: reloading readmits excluded samples and changes the imputation (both are not saved); a splitter may end with no feature; an exclusion column with many missing flags is dropped and the construction fails with KeyError. Reload proved for median imputation without exclusion columns."
  },
  {
   "property": "C50",
   "status": "partial",
   "theorems": [
    "C50_same_samples",
    "C50_features_partial",
    "C50_samples",
    "C50_no_target_lost",
    "C50_values",
    "C50_imputed",
    "C50_no_missing_partial",
    "C50_supported",
    "C50_train",
    "C50_trained_on",
    "C50_feature_threshold_refuted",
    "C50_no_missing_refuted"
   ],
   "note": "Kept features, samples, values and imputation characterised exactly. Refuted: train_feature_drop_nan_thresh is not used (the sample threshold is applied to features); a kept feature may have no value left after samples are dropped, so imputation leaves it missing."
  },
  {
   "property": "C51",
   "status": "partial",
   "theorems": [
    "C51_samples",
    "C51_values",
    "C51_complete_sample",
    "C51_dropped_partial",
    "C51_again_partial",
    "C51_untrained",
    "C51_missing_feature",
    "C51_trained",
    "C51_dropped_refuted",
    "C51_again_refuted",
    "C51_threshold_refuted",
    "C51_other_samples_refuted",
    "C51_infinite_refuted"
   ],
   "note": "Predicted samples, values (own values for complete samples) and the superset property of the report proved. Refuted: all samples are reported dropped as soon as one is; predict renames the caller's matrix so a second call fails; the threshold counts all columns of the matrix; imputation depends on the batch; infinities fail."
  },
  {
   "property": "C52",
   "status": "partial",
   "theorems": [
    "C52_every_file_accounted_for",
    "C52_errors_do_not_stop_it",
    "C52_halt_on_error",
    "C52_report",
    "C52_validation_only",
    "C52_automatic_names",
    "C52_automatic_names_distinct",
    "C52_outputs_kept_refuted",
    "C52_totals_refuted",
    "C52_valid_not_failed_refuted",
    "C52_invalid_was_checked_refuted",
    "C52_interrupt_code_refuted"
   ],
   "note": "Proved: one truthful status per file, judged on its own, whatever happens with the others (distinct inputs, distinct outputs that are not inputs); no error stops the run without halt-on-error; with it the first troubled file ends the run and no later output is touched; the three lists partition the files; automatic names. Refuted: outputs of files that differ only in directory or extension overwrite each other though both are reported structured; a file given twice counts twice in the totals; valid files of a validation-only run are listed as failed; unreadable files are listed as invalid; Ctrl-C leaves with exit code 0."
  },
  {
   "property": "C53",
   "status": "partial",
   "theorems": [
    "C53_generated_files_partial",
    "C53_exception_recorded",
    "C53_failures_recorded_refuted"
   ],
   "note": "Proved: every generated file is recorded, an error result or exception leaves a traceback. Refuted: failures returned by the generator are never recorded (bound to another name)."
  },
  {
   "property": "C54",
   "status": "partial",
   "theorems": [
    "C54_default_grid_partial",
    "C54_grid_used_refuted",
    "C54_lower_zero_refuted"
   ],
   "note": "Refuted: with all three options given no grid is passed on; with one of them zero or missing the command fails. Proved: without the options the default grid is kept."
  },
  {
   "property": "C55",
   "status": "proved",
   "theorems": [
    "C55_summary_row_describes_own_cycle",
    "C55_resistance_means_and_integral"
   ],
   "note": ""
  },
  {
   "property": "C56",
   "status": "partial",
   "theorems": [
    "C56_capacities_at_cycles",
    "C56_total_refuted"
   ],
   "note": "Values proved when the call returns. Finding: ValueError when the range is not a multiple of the interval and the run is short (refuted theorem)."
  },
  {
   "property": "C57",
   "status": "partial",
   "theorems": [
    "C57_life_uses_positions_after_reload_partial",
    "C57_life_preserved_partial",
    "C57_life_preserved_refuted"
   ],
   "note": "Proved when the summary is labelled 0..n-1. Finding: otherwise the answer changes because row labels are not saved (refuted theorem)."
  },
  {
   "property": "C58",
   "status": "partial",
   "theorems": [
    "C58_recorded_parameters_determine_partial",
    "C58_recorded_parameters_determine_refuted"
   ],
   "note": "Proved for equal exclude_cycles. Finding: exclude_cycles is not recorded (refuted theorem)."
  },
  {
   "property": "C59",
   "status": "proved",
   "theorems": [
    "C59_columns_hold_items",
    "C59_equal_columns_are_aligned",
    "C59_table_is_read"
   ],
   "note": "Column contents, alignment and completeness for all tables with distinct header names; number parsing is a parameter."
  },
  {
   "property": "C60",
   "status": "partial",
   "theorems": [
    "C60_channel_ids_distinct_partial",
    "C60_channel_ids_collide_refuted"
   ],
   "note": "Proved for slots A-I. Finding: A11 and K1 both get channel_id 111 (refuted theorem)."
  },
  {
   "property": "C61",
   "status": "proved",
   "theorems": [
    "C61_indigo_half_cycles",
    "C61_mixed_cells_rejected"
   ],
   "note": ""
  },
  {
   "property": "C62",
   "status": "partial",
   "theorems": [
    "C62_sequences_do_what_the_steps_say_partial",
    "C62_split_steps_keep_their_ends_refuted"
   ],
   "note": "Full contents for unsplit steps and for the constant voltage part of split steps. The first part of a split step keeps only the switching condition (refuted: the step's own end conditions are looked up under a misspelled path)."
  },
  {
   "property": "C63",
   "status": "proved",
   "theorems": [
    "C63_table_holds_the_sequences",
    "C63_table_written_iff_it_fits",
    "C63_header_counts_techniques",
    "C63_techniques_numbered_and_repeated"
   ],
   "note": ""
  },
  {
   "property": "C64",
   "status": "partial",
   "theorems": [
    "C64_steps_say_what_the_sequences_say",
    "C64_loop_counts_partial",
    "C64_loop_counts_refuted"
   ],
   "note": "Controls, limits and records proved for every accepted file; str(float) is a parameter assumed to print a plain decimal. The loop count is written to a field Maccor does not read: refutation witness."
  },
  {
   "property": "C65",
   "status": "proved",
   "theorems": [
    "C65_accepted_gotos_are_legal"
   ],
   "note": "Proved for every accepted file."
  },
  {
   "property": "C66",
   "status": "partial",
   "theorems": [
    "C66_volts_come_back",
    "C66_amps_come_back",
    "C66_watts_come_back",
    "C66_times_come_back",
    "C66_ohms_come_back_refuted",
    "C66_current_limits_come_back_refuted"
   ],
   "note": "Voltages, currents, powers and times of whole hundredths of a second come back; resistances and current limits never do (refuted)."
  },
  {
   "property": "C67",
   "status": "partial",
   "theorems": [
    "C67_labelled_limits",
    "C67_first_step_only_refuted"
   ],
   "note": "Frame and effect proved for all labelled steps. The documented restriction to the first step is false of the code: refuted."
  },
  {
   "property": "C68",
   "status": "proved",
   "theorems": [
    "C68_fast_charge"
   ],
   "note": "Numbers to three decimals, everything else unchanged; a template without the labels is returned unchanged (first_labelled is then empty)."
  },
  {
   "property": "C69",
   "status": "partial",
   "theorems": [
    "C69_reports_dropped_refuted",
    "C69_ends_become_limits_partial",
    "C69_reports_become_limits_partial",
    "C69_discharge_at_or_above_refuted",
    "C69_a_day_refuted"
   ],
   "note": "Proved for all ends and for reports beside a list of ends. Refuted: a discharge ending at or above a current is compared in the wrong direction; several reports beside a single end are dropped; times of 24 h or more are rejected."
  },
  {
   "property": "C70",
   "status": "proved",
   "theorems": [
    "C70_other_settings_stay",
    "C70_steps_are_labelled"
   ],
   "note": "Schedule keys must contain no dot."
  },
  {
   "property": "C71",
   "status": "partial",
   "theorems": [
    "C71_steps_control_the_same_partial",
    "C71_c_rate_refuted",
    "C71_c_rate_limit_refuted"
   ],
   "note": "Proved except for currents relative to capacity with a voltage limit, which become amperes and on discharge lose the limit (refuted)."
  },
  {
   "property": "C72",
   "status": "proved",
   "theorems": [
    "C72_rates_inside_the_loop",
    "C72_without_a_loop_fails",
    "C72_shipped_template"
   ],
   "note": "Includes the shipped EXP template for all values."
  },
  {
   "property": "C73",
   "status": "proved",
   "theorems": [
    "C73_only_that_step_and_type"
   ],
   "note": ""
  },
  {
   "property": "C74",
   "status": "partial",
   "theorems": [
    "C74_driving_profile",
    "C74_calls_do_not_interfere",
    "C74_defaults_kept_refuted"
   ],
   "note": "Proved: repetition, scaling, limits, independence of earlier calls. Refuted: the call changes the module's default configuration, so later waveform files generated with the defaults differ."
  },
  {
   "property": "C75",
   "status": "partial",
   "theorems": [
    "C75_rate_of_each_window",
    "C75_mean_between_windows",
    "C75_never_above_the_rates",
    "C75_times_fit_the_charge",
    "C75_starts_at_the_first_rate_refuted",
    "C75_every_rate_counts_refuted",
    "C75_windows_checked_refuted",
    "C75_windows_not_empty"
   ],
   "note": "Proved: rate inside each window, mean at inner bounds, bound by the largest rate, time times rate equals charge. Refuted: the current at the start is half the first rate; rates beyond the windows are unused; the check of the window order accepts decreasing windows. Not modelled: the smoothed current and its interpolation."
  },
  {
   "property": "C76",
   "status": "partial",
   "theorems": [
    "C76_units_agree",
    "C76_miles_of_1600_metres",
    "C76_constant_acceleration",
    "C76_standing",
    "C76_miles_refuted"
   ],
   "note": "Proved: exact force balance under constant acceleration with irregular sampling, standing vehicle, km/h versus m/s. Refuted: a mile is taken for 1600 m."
  },
  {
   "property": "C77",
   "status": "partial",
   "theorems": [
    "C77_every_featurizer_accounted_for",
    "C77_report",
    "C77_errors_do_not_stop_it",
    "C77_unreadable_file_refuted",
    "C77_unknown_featurizer_refuted",
    "C77_intermediates_kept_refuted",
    "C77_matrix_in_output_dir_refuted"
   ],
   "note": "Proved for distinct files. Refuted beside it: a file that does not load ends the whole command without status file; an unknown featurizer leaves with exit code 0; intermediate files of one class with two sets of hyperparameters overwrite each other; the matrix ignores the output directory."
  },
  {
   "property": "C78",
   "status": "partial",
   "theorems": [
    "C78_options_reach_the_experiment_partial",
    "C78_thresholds_refuted",
    "C78_model_written"
   ],
   "note": "Proved: the options other than the two training thresholds and l1 ratios arrive with their values; the model is reported created exactly when training succeeded and is then in the file. Refuted: with the training thresholds or l1 ratios the call always fails (unexpected keyword)."
  },
  {
   "property": "C79",
   "status": "partial",
   "theorems": [
    "C79_threshold_partial",
    "C79_threshold_zero_refuted"
   ],
   "note": "Proved for thresholds other than 0. Refuted for 0 (\"never drop\"), which is taken for no threshold."
  },
  {
   "property": "C80",
   "status": "partial",
   "theorems": [
    "C80_names",
    "C80_idempotent",
    "C80_again",
    "C80_values_partial",
    "C80_coalesced_refuted"
   ],
   "note": "Stripping to name and class, idempotence and values for distinct stripped headings proved. Refuted: features of different hyperparameters are not coalesced but kept as two columns, each of which may then be dropped."
  },
  {
   "property": "C81",
   "status": "partial",
   "theorems": [
    "C81_restore_partial",
    "C81_restore_refuted",
    "C81_part_refuted"
   ],
   "note": "Proved for training on all data with no sample lost for its targets. Refuted otherwise: the scaler is not saved and is refitted on other samples."
  },
  {
   "property": "C82",
   "status": "partial",
   "theorems": [
    "C82_names",
    "C82_values_partial",
    "C82_two_cycles",
    "C82_choice_refuted",
    "C82_order_refuted",
    "C82_discharging_energy_refuted"
   ],
   "note": "Names of all features and independence of other cycles proved outright; values proved for the standard order and three quantities (equal numbers of points). Refuted: other orders and other numbers of statistics, discharging energy (taken from the charge)."
  },
  {
   "property": "C83",
   "status": "partial",
   "theorems": [
    "C83_values_partial",
    "C83_differences_partial",
    "C83_hyperparameters_refuted",
    "C83_recorded_refuted",
    "C83_missing_refuted",
    "C83_names_refuted",
    "C83_charge_time_refuted",
    "C83_numbering_refuted"
   ],
   "note": "Values proved for all summaries, with positions as cycle numbers. Refuted: hyperparameters ignored for one curve, recorded hyperparameters changed, missing values, names, charge time of cycles 1:5, numbering."
  },
  {
   "property": "C84",
   "status": "partial",
   "theorems": [
    "C84_cycle_statistics_partial",
    "C84_cycle_statistics_accepts",
    "C84_cycle_statistics_refuted",
    "C84_fast_charge_partial",
    "C84_fast_charge_refuted"
   ],
   "note": "Proved under equal numbers of points (and one complete point). Refuted for both featurizers as stated."
  },
  {
   "property": "C85",
   "status": "partial",
   "theorems": [
    "C85_rows",
    "C85_throughput_partial",
    "C85_monotone",
    "C85_no_gap_refuted",
    "C85_own_first_refuted"
   ],
   "note": "Rows and monotonicity proved in full; throughput for summaries without missing values. Refuted: a run whose regular cycles have no gap cannot be evaluated; the fraction is relative to the first diagnostic of the run, not of the type."
  },
  {
   "property": "C86",
   "status": "partial",
   "theorems": [
    "C86_reached_partial",
    "C86_extrapolated_partial",
    "C86_real_throughput",
    "C86_choice_refuted",
    "C86_choice_of_run_refuted",
    "C86_one_table",
    "C86_mixed_refuted",
    "C86_extrapolation_refuted",
    "C86_not_reached_refuted",
    "C86_single_axis_refuted",
    "C86_kinks_refuted"
   ],
   "note": "Reached threshold within slope times grid step, extrapolated threshold, real throughput proved for one table. Refuted: cycle_type and metric only name the result, all tables are mixed; extrapolation of mixed tables fails; the error for a threshold not reached is made and not raised; a single axis fails; filter_kinks removes diagnostics without kinks."
  },
  {
   "property": "C87",
   "status": "partial",
   "theorems": [
    "C87_include_partial",
    "C87_short_run_refuted",
    "C87_first_n_refuted",
    "C87_no_cycles_refuted",
    "C87_recovered_refuted"
   ],
   "note": "Equivalence proved when the summary reaches cycle n, the last fraction is at most 1 and some cycle precedes the end of life. Refuted otherwise: missing criteria count as met (short run, no regular cycle before the end of life); n + 1 cycles; a last fraction above 1 is replaced by the one before."
  },
  {
   "property": "C88",
   "status": "partial",
   "theorems": [
    "C88_step_on_voltage",
    "C88_step_on_time",
    "C88_only_steps_of_diagnostic_cycles",
    "C88_in_order",
    "C88_succeeds",
    "C88_needs_a_configuration",
    "C88_fallback_refuted",
    "C88_short_run_refuted"
   ],
   "note": "Proved: C88_step_on_voltage, C88_step_on_time, C88_only_steps_of_diagnostic_cycles, C88_in_order, C88_succeeds. Refuted: dv_fallback replaces the range of every step that is not HPPC (C88_fallback_refuted), and a run without diagnostic cycles yet cannot be interpolated (C88_short_run_refuted)."
  },
  {
   "property": "C89",
   "status": "partial",
   "theorems": [
    "C89_diagnostic_summary",
    "C89_constant_voltage",
    "C89_charge_step_refuted"
   ],
   "note": "Proved: C89_diagnostic_summary (with totality) and C89_constant_voltage. Refuted: the step with the smallest index is taken for the charge (C89_charge_step_refuted)."
  },
  {
   "property": "C90",
   "status": "partial",
   "theorems": [
    "C90_row_of_the_run",
    "C90_nothing_found",
    "C90_place_and_ending",
    "C90_generated_files",
    "C90_shared_beginning_refuted",
    "C90_single_row_refuted",
    "C90_project_name_refuted",
    "C90_diagnostic_voltages",
    "C90_default_voltages"
   ],
   "note": "Row of the run for all names, directories and endings, files generated from a table are found again, None when nothing is found, diagnostic voltages. Findings: a project whose name begins the name of another project's file ends in an AssertionError; duplicate numbers give several rows; project names with an underscore can be generated but not found."
  },
  {
   "property": "C91",
   "status": "partial",
   "theorems": [
    "C91_charging_protocol",
    "C91_unknown_quantity",
    "C91_accepted",
    "C91_valid_refuted"
   ],
   "note": "Requested quantities of the row, in order; unknown quantity is a KeyError. Finding: a run reported valid without parameters ends in a TypeError."
  },
  {
   "property": "C92",
   "status": "partial",
   "theorems": [
    "C92_from_the_parameters",
    "C92_without_parameters",
    "C92_arguments_refuted",
    "C92_interrupted_refuted"
   ],
   "note": "Nominal capacity, voltage range, and exactly the diagnostic starts described, for all data. Findings: arguments given by the caller are replaced; the last diagnostic is missed when interrupted."
  },
  {
   "property": "C93",
   "status": "partial",
   "theorems": [
    "C93_hppc_steps",
    "C93_rpt_steps",
    "C93_three_steps_refuted",
    "C93_one_kind",
    "C93_no_parameters_refuted"
   ],
   "note": "Exact (iff) characterisation of when steps are annotated and how, for hppc and the other cycles; kinds are exclusive. Findings: a third step (a rest) in the other cycles leaves no annotation; without parameters a TypeError."
  },
  {
   "property": "C94",
   "status": "partial",
   "theorems": [
    "C94_what_is_kept",
    "C94_again",
    "C94_names",
    "C94_statistics",
    "C94_summary_change",
    "C94_accepts",
    "C94_accepted_partial",
    "C94_accepted_refuted",
    "C94_run_changed_refuted"
   ],
   "note": "Proved: what is kept of the run, idempotence, names, statistics, summary changes, exact acceptance. False: a run with the type but without a step is accepted and then fails (C94_accepted_refuted, with the sufficient condition in C94_accepted_partial); the run passed in is changed so later calls with a larger limit see fewer records (C94_run_changed_refuted)."
  },
  {
   "property": "C95",
   "status": "partial",
   "theorems": [
    "C95_names",
    "C95_resistance",
    "C95_origin_of_time",
    "C95_change",
    "C95_first_cycle",
    "C95_skipped_pulse_refuted",
    "C95_place_refuted"
   ],
   "note": "Proved: names, every resistance as change of voltage over average current, independence of the origin of time, relative change, zero for the first cycle. False: after a skipped charge pulse the next resistance mixes a rest and a pulse of different states of charge (C95_skipped_pulse_refuted); rests and pulses are found by place, so without the initial charge all are shifted (C95_place_refuted)."
  },
  {
   "property": "C96",
   "status": "partial",
   "theorems": [
    "C96_open_circuit_voltage",
    "C96_curve",
    "C96_voltage_difference",
    "C96_diffusion_coefficients",
    "C96_diffusion_change",
    "C96_mean_refuted",
    "C96_short_rest_refuted",
    "C96_voltage_difference_refuted",
    "C96_falling_refuted"
   ],
   "note": "Proved: statistics of open circuit voltages, the curve for rising capacity, slopes and their relative change. False: the documented mean is the single tenth record from the end (C96_mean_refuted); a rest with fewer than ten records fails (C96_short_rest_refuted); steps of later cycles are those of the second diagnostic (C96_voltage_difference_refuted); falling capacity drops the wrong points (C96_falling_refuted)."
  },
  {
   "property": "C97",
   "status": "partial",
   "theorems": [
    "C97_columns",
    "C97_what_is_kept",
    "C97_accepts",
    "C97_fraction",
    "C97_directory_refuted",
    "C97_columns_refuted",
    "C97_fraction_refuted"
   ],
   "note": "Proved: columns, what is kept, exact acceptance, fraction relative to the first row. False: the given parameter directory is not used for diffusion (C97_directory_refuted), accepted runs have different columns (C97_columns_refuted), the fraction is relative to the first diagnostic of any type (C97_fraction_refuted)."
  },
  {
   "property": "C98",
   "status": "partial",
   "theorems": [
    "C98_channels",
    "C98_made",
    "C98_one_value_per_record",
    "C98_charge_and_discharge",
    "C98_nothing_missing",
    "C98_known_kept",
    "C98_accepted",
    "C98_accepted_refuted",
    "C98_left_out_refuted",
    "C98_later_diagnostic_refuted",
    "C98_time_refuted"
   ],
   "note": "Proved: the channels, their order, names, records and values; when they are made; filling. False: a valid run can lack a type (C98_accepted_refuted), types with another number of steps are left out silently or raise (C98_left_out_refuted, C98_later_diagnostic_refuted), a missing time becomes the start (C98_time_refuted)."
  },
  {
   "property": "C99",
   "status": "partial",
   "theorems": [
    "C99_accepted",
    "C99_unknown_not_accepted",
    "C99_columns",
    "C99_initial_capacity_refuted",
    "C99_accepted_refuted",
    "C99_names_refuted"
   ],
   "note": "Proved: exact acceptance, the columns, their thresholds and values relative to the reference capacity. False: the reference of short runs is 1.1, not the initial capacity (C99_initial_capacity_refuted), an accepted run can raise (C99_accepted_refuted), names can coincide (C99_names_refuted)."
  },
  {
   "property": "C100",
   "status": "partial",
   "theorems": [
    "C100_profile",
    "C100_exists",
    "C100_nothing",
    "C100_local",
    "C100_discharge_refuted",
    "C100_jump_refuted"
   ],
   "note": "Proved for charge fits: 1001 even capacities up to the last measured one, straight-line reading, 2.7 V before the first measured point, existence, independence of other records. Refuted: with step type 1 the discharge has no influence; the profile can start with a jump from 2.7 V that was not measured."
  },
  {
   "property": "C101",
   "status": "partial",
   "theorems": [
    "C101_electrodes",
    "C101_defined",
    "C101_length_refuted",
    "C101_fraction_unused"
   ],
   "note": "Proved for positive capacities and every guess; C101_defined says exactly when. Refuted: half-cell tables whose length is not 1001 are a ValueError. Also: without a second electrode, the reported fraction is arbitrary."
  },
  {
   "property": "C102",
   "status": "proved",
   "theorems": [
    "C102_zero",
    "C102_sampled",
    "C102_defined"
   ],
   "note": "C102_zero, C102_sampled and C102_defined cover the common shift, the sampling and when there is a result."
  },
  {
   "property": "C103",
   "status": "partial",
   "theorems": [
    "C103_electrodes",
    "C103_capacities",
    "C103_defined",
    "C103_full_cell",
    "C103_recovered",
    "C103_unreached_refuted"
   ],
   "note": "Proved: closest place for each voltage, positions within 0 and 1, capacities, bound by the shared lithium, recovery of the guessed capacities up to two grid steps, cell capacity between 0 and the shared lithium. Refuted: voltages the cell never reaches are reported with the values of the closest one."
  },
  {
   "property": "C104",
   "status": "partial",
   "theorems": [
    "C104_resampled",
    "C104_voltage_error",
    "C104_bad_guess",
    "C104_table_length_refuted",
    "C104_unknown_type_refuted",
    "C104_synthetic_refuted",
    "C104_synthetic"
   ],
   "note": "Proved for the voltage error, for bad guesses and for synthetic fits except dQ/dV; the distance and the slopes are parameters. Refuted: unknown types are taken for V-Q; synthetic dQdV minimises dV/dQ; with tables of another length every guess has error 100."
  },
  {
   "property": "C105",
   "status": "partial",
   "theorems": [
    "C105_row",
    "C105_rows",
    "C105_repeated",
    "C105_local",
    "C105_made",
    "C105_accepted",
    "C105_two",
    "C105_single_refuted"
   ],
   "note": "Proved for every optimiser. Refuted: a run with one usable diagnostic is accepted by the features of two diagnostics and raises an IndexError."
  },
  {
   "property": "C106",
   "status": "partial",
   "theorems": [
    "C106_one_material",
    "C106_blend",
    "C106_ends",
    "C106_between",
    "C106_span_refuted"
   ],
   "note": "Proved for materials with distinct voltages and at least two rows. Refuted: the blend need not start at SOC 0."
  },
  {
   "property": "C107",
   "status": "proved",
   "theorems": [
    "C107_profile",
    "C107_within",
    "C107_defined",
    "C107_no_diagnostic"
   ],
   "note": "First diagnostic, capacity limits, 1001 even states of charge, straight-line reading, voltages known and within the limits, existence, IndexError without a diagnostic."
  },
  {
   "property": "C108",
   "status": "proved",
   "theorems": [
    "C108_profile",
    "C108_defined",
    "C108_known"
   ],
   "note": "Scale of the fresh cell, 1001 even states of charge, straight-line reading, 2.7 V and 4.2 V beyond the measurement, all voltages known, existence."
  },
  {
   "property": "C109",
   "status": "proved",
   "theorems": [
    "C109_matched",
    "C109_error",
    "C109_length"
   ],
   "note": "One map for both electrodes, zero at the place closest to 2.7 V, 100 at the last place within the limits, error, tables of 1001 rows. The quadratic spline and the square root are parameters."
  },
  {
   "property": "C110",
   "status": "partial",
   "theorems": [
    "C110_degraded",
    "C110_nothing_lost",
    "C110_defined",
    "C110_setpoint_refuted"
   ],
   "note": "Proved with the lowest place of the cell in place of the one closest to 2.7 V. Refuted: the negative electrode is not shrunk around the place closest to 2.7 V (the difference is minimised without its absolute value)."
  },
  {
   "property": "C111",
   "status": "partial",
   "theorems": [
    "C111_matched",
    "C111_defined",
    "C111_resampled",
    "C111_error",
    "C111_cannot_compare",
    "C111_missing_refuted"
   ],
   "note": "Proved: matching, definedness, resampling changes nothing, exact error, 100 for a ValueError. Refuted: a cell missing at 1000 of 1001 places beats one that is within 50 mV everywhere."
  },
  {
   "property": "C112",
   "status": "partial",
   "theorems": [
    "C112_values",
    "C112_aged",
    "C112_plateau_refuted"
   ],
   "note": "Proved for electrodes that have each voltage at one place; every aged cell is on such a common grid. Refuted: on a plateau the own state of charge is that of the first place with the voltage."
  },
  {
   "property": "C113",
   "status": "partial",
   "theorems": [
    "C113_fresh",
    "C113_row",
    "C113_rows",
    "C113_repeated",
    "C113_made",
    "C113_accepted",
    "C113_two",
    "C113_single_refuted",
    "C113_step_refuted"
   ],
   "note": "Proved for every optimiser, spline and root. Refuted: the step type has no effect; a run with one usable diagnostic is accepted and raises an IndexError."
  },
  {
   "property": "C114",
   "status": "partial",
   "theorems": [
    "C114_file_is_read",
    "C114_settings_are_written",
    "C114_round_trip",
    "C114_no_technique",
    "C114_two_techniques_refuted",
    "C114_unpadded_refuted",
    "C114_repeated_line_refuted",
    "C114_colon_refuted",
    "C114_special_values_refuted"
   ],
   "note": "Proved for every well formed file with one technique. Refuted for files with several techniques (rows written twice), unpadded last cells (sequence lost), repeated header lines (lost), header lines with a bare colon (ValueError) and the values blank and Metadata."
  },
  {
   "property": "C115",
   "status": "proved",
   "theorems": [
    "C115_applied_exactly_if",
    "C115_values",
    "C115_file",
    "C115_template_accepted"
   ],
   "note": "All parameters and settings objects; the text of a number in the file is what str() shows (a parameter)."
  },
  {
   "property": "C116",
   "status": "proved",
   "theorems": [
    "C116_round_trip",
    "C116_saved_again",
    "C116_shipped",
    "C116_blanks_refuted",
    "C116_single_entry_refuted"
   ],
   "note": "ASCII files without attributes and comments; the text of a number is what str() shows (a parameter). The two refuted theorems show that the conditions are needed: blanks around texts are lost and lists of one entry come back as the entry."
  },
  {
   "property": "C117",
   "status": "proved",
   "theorems": [
    "C117_layout"
   ],
   "note": "All procedures that can be written."
  },
  {
   "property": "C118",
   "status": "partial",
   "theorems": [
    "C118_same_file",
    "C118_single_step_refuted"
   ],
   "note": "Proved for every procedure with a list of steps. Refuted for procedures with a single step: they are read as a dictionary and to_file raises TypeError."
  },
  {
   "property": "C119",
   "status": "proved",
   "theorems": [
    "C119_generated",
    "C119_templates"
   ],
   "note": "Names in the table and the output directory have no blanks; parameters of EXP rows are numbers or texts."
  },
  {
   "property": "C120",
   "status": "partial",
   "theorems": [
    "C120_pacific",
    "C120_texts",
    "C120_right_time",
    "C120_date_only",
    "C120_skipped",
    "C120_right_time_refuted",
    "C120_impossible"
   ],
   "note": "Proved: the instant is one at which the clock shows the time (the earliest), so the right one outside the repeated hour. Refuted: in the hour the clock shows twice, the second time is stamped an hour early; a skipped time is read one hour earlier."
  },
  {
   "property": "C121",
   "status": "partial",
   "theorems": [
    "C121_near",
    "C121_order",
    "C121_missing",
    "C121_exact_refuted"
   ],
   "note": "Proved: at most 64 s off and in order; a missing time raises. Refuted: stamps are multiples of 128 s because the times are cast to float32."
  },
  {
   "property": "C122",
   "status": "partial",
   "theorems": [
    "C122_metadata",
    "C122_no_channel",
    "C122_channel_refuted"
   ],
   "note": "Proved for names ending in a number. Refuted: otherwise the entry is called channnel_id, and channel_id is missing."
  },
  {
   "property": "C123",
   "status": "proved",
   "theorems": [
    "C123_arbin",
    "C123_maccor"
   ],
   "note": ""
  },
  {
   "property": "C124",
   "status": "proved",
   "theorems": [
    "C124_standard",
    "C124_others",
    "C124_added",
    "C124_missing",
    "C124_reads",
    "C124_arbin",
    "C124_arbin_added",
    "C124_arbin_missing"
   ],
   "note": "Conversions, sums (C18) and stamps (C120, C121) are parameters."
  },
  {
   "property": "C125",
   "status": "partial",
   "theorems": [
    "C125_path",
    "C125_given",
    "C125_none",
    "C125_values",
    "C125_names",
    "C125_own_file_refuted",
    "C125_empty"
   ],
   "note": "Proved for .csv paths and given metadata paths. Refuted: for other paths, such as run.CSV, the data itself is taken for the metadata."
  },
  {
   "property": "C126",
   "status": "partial",
   "theorems": [
    "C126_found",
    "C126_once",
    "C126_loaded",
    "C126_given",
    "C126_spectrum",
    "C126_no_table",
    "C126_own_file_refuted"
   ],
   "note": "Proved for paths with an extension and no wildcard characters. Refuted: without an extension the cycler file itself is read as a spectrum. Numbers of the table stay texts."
  },
  {
   "property": "C127",
   "status": "partial",
   "theorems": [
    "C127_reload",
    "C127_reload_refuted",
    "C127_round_trip",
    "C127_maccor_refuted"
   ],
   "note": "Proved without spectra, and for EIS objects with a table of metadata (labels of the data rows are reset). Refuted: with spectra loading raises TypeError; as_dict of Maccor spectra always raises AttributeError."
  },
  {
   "property": "C128",
   "status": "partial",
   "theorems": [
    "C128_metadata",
    "C128_same_protocol",
    "C128_barcode_refuted",
    "C128_protocol_only_refuted",
    "C128_bytes",
    "C128_lines_differ",
    "C128_path"
   ],
   "note": "Proved for files in DOS format with channel, comment and protocol in printable ASCII without apostrophes and backslashes, before the first blank line after the protocol. Refuted: an apostrophe or Unix line ends leave part of the line end in the barcode; a comment is cut at ' : '; a comment after the protocol changes the hash."
  },
  {
   "property": "C129",
   "status": "partial",
   "theorems": [
    "C129_columns",
    "C129_mapped",
    "C129_total",
    "C129_missing",
    "C129_broken_off",
    "C129_pacific",
    "C129_test_time",
    "C129_elapsed_refuted",
    "C129_any_order_refuted"
   ],
   "note": "Proved: values, units, rows, cycle numbers, stamps, refusal of missing columns and broken lines. Refuted: test_time goes back when the clock does; the last column of the header is not recognised. float() and the cycle rules (C20) are parameters."
  },
  {
   "property": "C130",
   "status": "partial",
   "theorems": [
    "C130_summary",
    "C130_one_entry",
    "C130_labels_refuted"
   ],
   "note": "Proved for the entry the line is taken for. Refuted: 'Description: Cell 4' is taken for the cell; values with colons are cut; DOS line ends stay in the value."
  },
  {
   "property": "C131",
   "status": "partial",
   "theorems": [
    "C131_table",
    "C131_blank_refuted",
    "C131_dates",
    "C131_mixed"
   ],
   "note": "Proved for files without blank lines and for times in one format. Refuted: a blank line before the header makes a row of data the header."
  },
  {
   "property": "C132",
   "status": "partial",
   "theorems": [
    "C132_listed",
    "C132_no_files",
    "C132_key",
    "C132_text",
    "C132_uploads",
    "C132_content_refuted",
    "C132_apart",
    "C132_apart_refuted",
    "C132_absolute_refuted"
   ],
   "note": "Proved: which files are found, the new key, the new text, the bucket, and that what is sent is a beginning of the new text. Refuted: the copy is uploaded before it is closed, so that short files arrive empty and longer ones lose their end; two files can get the same name. How much a buffer holds back is a parameter."
  },
  {
   "property": "C133",
   "status": "partial",
   "theorems": [
    "C133_events",
    "C133_no_files",
    "C133_all_refuted",
    "C133_unstructured_refuted"
   ],
   "note": "Proved for up to a thousand files: which ones are announced, with what, in which order. Refuted: of more files only the first thousand are seen; files that differ after the first dot of their names share one structured file."
  },
  {
   "property": "C134",
   "status": "partial",
   "theorems": [
    "C134_posix",
    "C134_windows",
    "C134_posix_refuted",
    "C134_windows_refuted"
   ],
   "note": "Proved: for POSIX without apostrophes, for Windows without a quotation mark after a backslash. Refuted without these conditions."
  },
  {
   "property": "C135",
   "status": "partial",
   "theorems": [
    "C135_smooth_within",
    "C135_smooth_start",
    "C135_number_of_rates",
    "C135_uniform",
    "C135_refused",
    "C135_rate_per_window_refuted",
    "C135_last_point_refuted"
   ],
   "note": "Proved for interpolations that stay within the range of the values at the nodes (assumed of PchipInterpolator, shown for linear interpolation): the smooth currents stay within the allowed rates, both waveforms are equally long, how long they are, when they are refused. Refuted: one rate per window, as documented, is always refused for two or more windows; the last step current is half of the last rate and a quarter of the final one."
  },
  {
   "property": "C136",
   "status": "partial",
   "theorems": [
    "C136_file",
    "C136_never_above",
    "C136_refused",
    "C136_end_above_limit_refuted"
   ],
   "note": "Proved: what the file plays, the bound on the current, the voltage limit, what is refused. Refuted: the end voltage is 4.25 V whatever the cutoff, so it can be below the limit."
  },
  {
   "property": "C137",
   "status": "partial",
   "theorems": [
    "C137_components",
    "C137_taken",
    "C137_refused",
    "C137_embeddings",
    "C137_kept_refuted",
    "C137_whole_variance_refuted",
    "C137_fifteen_refuted",
    "C137_same_points",
    "C137_projected"
   ],
   "note": "Proved: the number is smallest, what is taken, what is refused, embeddings of the training data. Refuted: the number found is not used, all components are kept; the whole variance as threshold is always refused; fewer than 15 cycles or points are refused by from_interpolated_data."
  },
  {
   "property": "C138",
   "status": "proved",
   "theorems": [
    "C138_flags",
    "C138_training",
    "C138_wider",
    "C138_share",
    "C138_one_by_one",
    "C138_distance",
    "C138_reconstruction",
    "C138_reconstruction_training"
   ],
   "note": "Percentiles are exact linear interpolations between sorted values; np.std, the square root and sklearn are parameters."
  },
  {
   "property": "C139",
   "status": "partial",
   "theorems": [
    "C139_table",
    "C139_refused",
    "C139_validity_refuted",
    "C139_order"
   ],
   "note": "Proved: rows, cells, labels, refusals, order of cycles. Refuted: the validity in the file list is ignored."
  },
  {
   "property": "C140",
   "status": "proved",
   "theorems": [
    "C140_read",
    "C140_round_trip",
    "C140_written",
    "C140_splice",
    "C140_second_metadata",
    "C140_refused",
    "C140_missing_column",
    "C140_labels"
   ],
   "note": "Reading and writing of single values are parameters; round trips are for values that are read back as written. Words in the running columns are refused by the model, where pandas would compare and join them."
  },
  {
   "property": "C141",
   "status": "partial",
   "theorems": [
    "C141_same",
    "C141_structured",
    "C141_content_refuted",
    "C141_dashes_refuted",
    "C141_none_refuted"
   ],
   "note": "Proved for fields without dashes. Refuted: with dashes different barcodes share an id; no barcode and the text None share an id; the content of the frames is not part of the id. Numbers are given by their texts."
  },
  {
   "property": "C142",
   "status": "partial",
   "theorems": [
    "C142_read",
    "C142_lines",
    "C142_line_ends_refuted",
    "C142_converted"
   ],
   "note": "Proved: reading, order, fields, lines. Refuted: the second line ends in a line feed only. What xmltodict.unparse writes is modelled; the text of the mps file is taken as the sequences that C35-C37 and C64-C66 start from."
  },
  {
   "property": "C143",
   "status": "proved",
   "theorems": [
    "C143_kept",
    "C143_refused",
    "C143_exact",
    "C143_again",
    "C143_loaded",
    "C143_load_refused",
    "C143_types",
    "C143_columns",
    "C143_wraps_refuted",
    "C143_cut_refuted"
   ],
   "note": "Proved: what every cell becomes, when casting and loading fail, that values of the types are kept, that a second cast and loading change nothing, which columns have which type. Refuted: that whole numbers stay (a step number of 32768 becomes -32768), that values are kept or refused (2.9 pauses become 2). Very small and very large numbers of float32 and texts that spell numbers are not modelled."
  },
  {
   "property": "C144",
   "status": "partial",
   "theorems": [
    "C144_object",
    "C144_refused",
    "C144_one",
    "C144_datapath",
    "C144_order",
    "C144_other",
    "C144_featurizer",
    "C144_matrix",
    "C144_experiment",
    "C144_title_refuted"
   ],
   "note": "Proved: which object a file is taken for, every error, headings and contents of every kind of object. Refuted: the title of a featurizer, which shows {file} instead of the name. Loaders, pprint and the texts of frames are parameters; log messages are not modelled."
  },
  {
   "property": "C145",
   "status": "proved",
   "theorems": [
    "C145_values",
    "C145_errors",
    "C145_defaults",
    "C145_attributes",
    "C145_text_refuted"
   ],
   "note": "Proved: names, order and values of all options, which errors are passed on, the defaults, attributes. Refuted: that a text stays a text; a prefix that spells a number becomes one. ast.literal_eval is a parameter; for the defaults it is taken to read texts in quotes."
  },
  {
   "property": "C146",
   "status": "partial",
   "theorems": [
    "C146_written",
    "C146_when",
    "C146_failed",
    "C146_errors",
    "C146_kept_refuted",
    "C146_line_ends_refuted"
   ],
   "note": "Proved: what is written, when it is, every error, that other files never change, that no file changes when every text can be encoded. Refuted: a text that cannot be encoded leaves an empty file; where lines end in two characters the line ends of the text get a second carriage return. Decoding, encoding and the conversion of the text are parameters."
  }
 ]
}