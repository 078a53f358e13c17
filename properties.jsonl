{"id": "C01", "title": "Validator verdict is exactly the schema", "statement": "SimpleValidator.validate(df, schema) returns (True, '') if and only if every column named in the schema is present and satisfies every rule written for it (type, max, min, max_at_least, min_is_below, monotonic); otherwise it returns (False, reason) (or raises for a rule that is not supported). Columns the schema does not mention never influence the verdict.", "quantifier": "every data frame (any columns, any length, NaN anywhere) and every schema", "why_tests_cant": "A unit test checks one file against one schema; the claim quantifies over every frame and every combination of rules, including NaN placement and column order.", "anchors": ["beep/structure/validate.py:SimpleValidator.validate", "beep/structure/validate.py:SimpleValidator.check_type"]}
{"id": "C02", "title": "Validator explains the first violation", "statement": "When SimpleValidator.validate rejects a frame, the returned reason names a column and a rule that the frame really violates, and no earlier (column, rule) pair in schema order is violated; for the max and min rules the cited row and value are those of a row that breaks the bound.", "quantifier": "every rejected frame and schema", "why_tests_cant": "Which rule is reported first and which row is cited depends on the whole frame; tests only look at one chosen violation at a time.", "anchors": ["beep/structure/validate.py:SimpleValidator.validate"]}
{"id": "C03", "title": "A diagnostic configuration assigns at most one type to a cycle", "statement": "DiagnosticConfig(cycles) is accepted exactly when at least one type is given and no cycle index appears under two types (repetition inside one list is collapsed); an accepted configuration maps every listed cycle index to exactly the type that listed it, its set of all indices is the union of the lists, and the HPPC / RPT / reset index sets are the indices of the types whose lower-cased name contains that word.", "quantifier": "every mapping from type names to lists of cycle indices", "why_tests_cant": "Overlaps can occur between any two of arbitrarily many types.", "anchors": ["beep/structure/diagnostic.py:DiagnosticConfig.__init__"]}
{"id": "C04", "title": "Diagnostic configuration survives serialization", "statement": "DiagnosticConfig.from_dict(c.as_dict()) builds a configuration with the same cycles, the same type of every cycle, the same index sets and the same parameters.", "quantifier": "every accepted diagnostic configuration", "why_tests_cant": "A round trip has to hold for all configurations, not for the fixture in the test suite.", "anchors": ["beep/structure/diagnostic.py:DiagnosticConfig.as_dict", "beep/structure/diagnostic.py:DiagnosticConfig.from_dict"]}
{"id": "C05", "title": "Automatic detection of diagnostic cycles follows the step sets", "statement": "DiagnosticConfig.from_step_numbers puts a cycle under a type exactly when the set of step numbers recorded in that cycle matches one of the patterns given for that type: superset of the pattern for matching_criteria='contains', equal to the pattern (as a set) for 'exact'. Repetition and order of rows and of pattern entries never matter.", "quantifier": "every cycler run and every family of step patterns", "why_tests_cant": "Depends on arbitrary interleavings and repetitions of step rows inside each cycle.", "anchors": ["beep/structure/diagnostic.py:DiagnosticConfig.from_step_numbers"]}
{"id": "C06", "title": "Charge and discharge classification is a partition", "statement": "For every step, step_is_chg_state(step, True) and step_is_chg_state(step, False) are not both false: a step whose direction can be determined is exactly one of charge / discharge, and a step whose direction cannot be determined follows the indeterminate_step_charge flag. A step in which only the discharge capacity moves is a discharge step.", "quantifier": "every step data frame, including NaN capacities and single spikes", "why_tests_cant": "NaN handling and spike removal create a large case space that example-based tests do not cover.", "anchors": ["beep/structure/base.py:step_is_chg_state"]}
{"id": "C07", "title": "Interpolation is bounded by its neighbours and exact at samples", "statement": "interpolate_df returns exactly one row per grid point; at a grid point that coincides with a sample it returns that sample; strictly between two samples it returns the linear interpolant, which lies between the two neighbouring sample values; before the first sample it returns NaN and after the last sample it holds the last value.", "quantifier": "every table of samples (any length, strictly increasing axis) and every grid range and resolution", "why_tests_cant": "Correctness at every grid position for every sample layout is a universally quantified numerical statement.", "anchors": ["beep/structure/base.py:interpolate_df"]}
{"id": "C08", "title": "Structured data contains exactly the regular cycles", "statement": "After structure(), a cycle index occurs in the interpolated regular data only if it occurs in the raw data, is not a diagnostic cycle and is not excluded; every charge (discharge) step with at least two records of every such cycle contributes exactly `resolution` rows of that step type, each holding the linear interpolation of that step's own records, in increasing cycle order.", "quantifier": "every raw run, every diagnostic configuration, every exclusion list and resolution", "why_tests_cant": "Depends on arbitrary sets of regular, diagnostic and excluded cycles.", "anchors": ["beep/structure/base.py:BEEPDatapath.interpolate_cycles", "beep/structure/base.py:BEEPDatapath.interpolate_step"]}
{"id": "C09", "title": "Throughput columns are running totals", "statement": "In the cycle summary, charge_throughput (energy_throughput) in a row equals the sum of the charge capacity (energy) of all summarised cycles up to and including that row, and is non-decreasing whenever the per-cycle values are non-negative.", "quantifier": "every sequence of summarised cycles of any length", "why_tests_cant": "A running total over unboundedly many cycles.", "anchors": ["beep/structure/base.py:BEEPDatapath.summarize_cycles"]}
{"id": "C10", "title": "Only the last cycle can be dropped from a summary", "statement": "summarize_cycles keeps every summarised cycle except possibly the last one, and it drops the last one exactly when there is more than one cycle and the run ends without a complete final discharge (voltage not spanning the 3.3 V mark or final discharge capacity at most 97% of the final charge capacity).", "quantifier": "every raw run", "why_tests_cant": "The decision combines three thresholds with the length of the run.", "anchors": ["beep/structure/base.py:BEEPDatapath.summarize_cycles"]}
{"id": "C11", "title": "Charge duration belongs to its own cycle", "statement": "In the cycle summary the charge_duration of the row for cycle c is computed from the rows of cycle c.", "quantifier": "every raw run, whatever its cycle numbering (starting index, gaps left by diagnostics)", "why_tests_cant": "The defect only shows for runs whose cycle numbering is not 0,1,2,..., which fixtures happen not to exercise.", "anchors": ["beep/structure/base.py:BEEPDatapath.summarize_cycles"]}
{"id": "C12", "title": "Paused time is the largest gap above the threshold", "statement": "get_max_paused_over_threshold returns 0 when no two consecutive time stamps of the cycle are more than `paused_threshold` seconds apart and otherwise returns the largest such gap, which really occurs between two consecutive rows.", "quantifier": "every sequence of time stamps and every threshold", "why_tests_cant": "Universally quantified maximum over arbitrary sequences.", "anchors": ["beep/structure/base.py:get_max_paused_over_threshold"]}
{"id": "C13", "title": "Cycle life is the first crossing of the capacity threshold", "statement": "get_cycle_life returns one more than the number of cycles when the capacity ratio at the last cycle is still above the threshold; otherwise it returns the cycle index of the first cycle whose discharge capacity is below threshold times the reference capacity (median of the first 40 cycles, or 1.1 for short runs).", "quantifier": "every summary of any length and every threshold", "why_tests_cant": "First-crossing over arbitrary degradation curves, including non-monotone ones and exact equality.", "anchors": ["beep/structure/base.py:BEEPDatapath.get_cycle_life"]}
{"id": "C14", "title": "Stricter capacity thresholds are crossed no later", "statement": "For two thresholds with low <= high that the cell has both crossed, the cycle reported for `high` is not later than the cycle reported for `low`; hence the columns of capacities_to_cycles are ordered.", "quantifier": "every capacity curve and every pair of thresholds", "why_tests_cant": "Relational (two-run) property.", "anchors": ["beep/structure/base.py:BEEPDatapath.get_cycle_life", "beep/structure/base.py:BEEPDatapath.capacities_to_cycles"]}
{"id": "C15", "title": "The constant-voltage segment is a tail of the charge", "statement": "get_CV_segment_from_charge returns, for every charge step, a non-empty set of rows consisting of all rows from some point in time on; when a row satisfies the CV criteria, the segment starts one row before the first such row.", "quantifier": "every charge step, ordered by time", "why_tests_cant": "Which row first satisfies both the rate-of-change criteria depends on the whole curve.", "anchors": ["beep/structure/base.py:get_CV_segment_from_charge"]}
{"id": "C16", "title": "Structuring life cycle", "statement": "After any sequence of structure / unstructure / save / load operations, is_structured is true exactly when the last (un)structuring operation that succeeded was a structuring; operations that need structured data fail before structuring; an object reloaded from a file saved without raw data rejects structuring, unstructuring, validation and re-saving and never changes its structured data.", "quantifier": "every sequence of API calls on every datapath", "why_tests_cant": "Quantifies over all call histories.", "anchors": ["beep/structure/base.py:BEEPDatapath.structure", "beep/structure/base.py:BEEPDatapath.unstructure", "beep/structure/base.py:BEEPDatapath.as_dict", "beep/structure/base.py:BEEPDatapath.from_dict", "beep/structure/base.py:BEEPDatapath.is_structured"]}
{"id": "C17", "title": "Saved datapaths reload with the same structured data", "statement": "from_dict(as_dict(dp)) has the same structured data, summary, diagnostic data, diagnostic summary, diagnostic configuration and parameters as dp, and is structured exactly when dp is.", "quantifier": "every non-legacy datapath in any life-cycle state", "why_tests_cant": "Round trip over all states, including the unstructured one.", "anchors": ["beep/structure/base.py:BEEPDatapath.as_dict", "beep/structure/base.py:BEEPDatapath.from_dict"]}
{"id": "C18", "title": "Maccor capacities accumulate within a cycle and restart at the next", "statement": "The charge (discharge) capacity and energy computed from a Maccor file at a row equals the sum over the completed steps of that state earlier in the same cycle plus the current value if the row itself is in that state; so it never decreases within a cycle and carries nothing over from a previous cycle.", "quantifier": "every Maccor record sequence (any interleaving of states, steps, cycles, end codes)", "why_tests_cant": "Accumulation over arbitrary interleavings of steps, including files that end in the middle of a step.", "anchors": ["beep/structure/maccor.py:MaccorDatapath.quantity_sum"]}
{"id": "C19", "title": "Maccor metadata fields are recovered from the header line", "statement": "split_string_by_fields(s, fields) applied to a header line made of the fields in order, each followed by its value, returns exactly those values, provided no field name occurs inside a value or twice; when a field is missing or repeated it raises instead of returning wrong values.", "quantifier": "every list of field names and values", "why_tests_cant": "Round trip over all strings.", "anchors": ["beep/structure/maccor.py:split_string_by_fields"]}
{"id": "C20", "title": "Biologic cycle numbers follow the transition rules", "statement": "BiologicDatapath.get_cycle_index numbers the first row with 1 plus the rules' start count, and the number advances between consecutive rows by exactly what the rules declare: the technique-loop count where the Loop counter changes, else the count of the (previous sequence, sequence) pair where the sequence changes, else not at all; so with the counts 0 and 1 that the converter writes, numbers never decrease or skip.", "quantifier": "every sequence of (loop, sequence) records and every rule set", "why_tests_cant": "Quantifies over all histories of technique execution.", "anchors": ["beep/structure/biologic.py:BiologicDatapath.get_cycle_index", "beep/structure/biologic.py:CycleTransitionRules"]}
{"id": "C21", "title": "The converter's cycle numbers agree with the reader's", "statement": "For a single technique, the cycle numbers that add_cycle_nums_to_csvs writes into exported data are the ones BiologicDatapath computes from the same data and the same rules.", "quantifier": "every sequence of records and every rule set", "why_tests_cant": "Equivalence of two independent implementations on all inputs.", "anchors": ["beep/protocol/maccor_to_biologic_mb.py:add_cycle_nums_to_csvs", "beep/structure/biologic.py:BiologicDatapath.get_cycle_index"]}
{"id": "C22", "title": "Cycle transition rules survive serialization", "statement": "CycleTransitionRulesSerializer.parse_json(json(rules)) yields the same rules.", "quantifier": "every rule set", "why_tests_cant": "Round trip over all values.", "anchors": ["beep/structure/biologic.py:CycleTransitionRulesSerializer", "beep/protocol/maccor_to_biologic_mb.py:CycleAdvancementRulesSerializer"]}
{"id": "C23", "title": "Header search finds every header within the announced bound", "statement": "The Biologic (Novonix) header search recognises a header that lies within the first `search_lines` lines and fails with LookupError only if there is none.", "quantifier": "every file content", "why_tests_cant": "Off-by-one at the bound shows only for one specific line number.", "anchors": ["beep/structure/biologic.py:BiologicDatapath._get_file_type", "beep/structure/novonix.py:NovonixDatapath.from_file"]}
{"id": "C24", "title": "Neware records inherit their cycle and step, and test time never runs backwards", "statement": "When a Neware file is read, every record row carries the cycle and step number of the nearest preceding cycle and step line, and the derived test time starts at 0 and never decreases, even where the step clock restarts.", "quantifier": "every interleaving of cycle, step and record lines and every sequence of step clocks", "why_tests_cant": "Arbitrary interleavings and clock resets.", "anchors": ["beep/structure/neware.py:NewareDatapath.from_file"]}
{"id": "C25", "title": "Battery Archive step clock restarts with every step", "statement": "For data loaded from Battery Archive, rows are labelled rest / charge / discharge by the sign of the current with a 1e-6 A dead band, and step_time of a row is the test time elapsed since the first row of the maximal run of equal labels containing it.", "quantifier": "every sequence of currents and times", "why_tests_cant": "Runs of arbitrary length, including single-row runs at the end of the file.", "anchors": ["beep/structure/battery_archive.py:BatteryArchiveDatapath"]}
{"id": "C26", "title": "Novonix charge and discharge columns are relative to their own cycle and quantity", "statement": "For data loaded from Novonix, charge and discharge capacity (energy) in a row depend only on the capacity (energy) values of the same cycle.", "quantifier": "every Novonix record sequence", "why_tests_cant": "Needs cycles with only discharge steps.", "anchors": ["beep/structure/novonix.py:NovonixDatapath.from_file"]}
{"id": "C27", "title": "Splicing keeps the increment columns moving forward", "statement": "After splicing two runs, columns that must increase (test time, cycle index, ...) of the second part start no lower than the last value of the first part, the differences inside each part are unchanged, and the row count is the sum of the two row counts.", "quantifier": "every pair of runs", "why_tests_cant": "Relational property over two arbitrary runs.", "anchors": ["beep/utils/splice.py:MaccorSplice.column_increment", "beep/utils/splice.py:MaccorSplice.splice_operation"]}
{"id": "C28", "title": "Loader selection is total and deterministic", "statement": "auto_load picks the loader by file name: exactly one of the known loaders (the first match in the fixed priority order) or ValueError when no pattern matches; a name that matches several patterns always goes to the earliest.", "quantifier": "every file name", "why_tests_cant": "Patterns overlap; tests only use representative names.", "anchors": ["beep/structure/cli.py:auto_load", "beep/structure/cli.py:auto_load_processed"]}
{"id": "C29", "title": "Unit conversion to Biologic preserves the physical value", "statement": "Converting a Maccor voltage, current, power or resistance to a Biologic control value and unit gives a pair whose product is the original value (value times unit), at the resolution the code keeps.", "quantifier": "every value", "why_tests_cant": "Unit boundaries (A/mA/uA...) are crossed at specific magnitudes.", "anchors": ["beep/protocol/maccor_to_biologic_mb.py:MaccorToBiologicMb._convert_volts", "beep/protocol/maccor_to_biologic_mb.py:MaccorToBiologicMb._convert_amps", "beep/protocol/maccor_to_biologic_mb.py:MaccorToBiologicMb._convert_watts", "beep/protocol/maccor_to_biologic_mb.py:MaccorToBiologicMb._convert_ohms"]}
{"id": "C30", "title": "Time conversion to Biologic preserves the duration", "statement": "Converting a Maccor HH:MM:SS time to a Biologic value and unit denotes the same number of seconds.", "quantifier": "every time string", "why_tests_cant": "Truncation only shows for particular fractional fields.", "anchors": ["beep/protocol/maccor_to_biologic_mb.py:MaccorToBiologicMb._convert_time"]}
{"id": "C31", "title": "Every Maccor step gets its Biologic sequences and gotos follow them", "statement": "When a Maccor procedure is converted, the sequences of a technique are numbered consecutively from 0 in step order: a Do or AdvCycle step has none, a Loop step one, a step with a limit two (constant current and constant voltage part), any other step one. Every goto of a converted step addresses the first sequence of the Maccor step it named (the next sequence if that step has none), a Loop goes back to the first sequence after its Do, and every well formed technique is converted.", "quantifier": "every procedure (any number of steps, loops, advance-cycle steps and gotos)", "why_tests_cant": "Forward and backward jumps over arbitrary step lists.", "anchors": ["beep/protocol/maccor_to_biologic_mb.py:MaccorToBiologicMb._convert_steps_to_seqs", "beep/protocol/maccor_to_biologic_mb.py:MaccorToBiologicMb._convert_step_parts"]}
{"id": "C32", "title": "Techniques partition the procedure", "statement": "Splitting a procedure into Biologic techniques loses, duplicates and reorders no step: concatenating the techniques (with the loop bookkeeping steps that were replaced by technique-level loops put back) gives the original step list.", "quantifier": "every step list", "why_tests_cant": "Arbitrary nesting of loops and technique boundaries.", "anchors": ["beep/protocol/maccor_to_biologic_mb.py:MaccorToBiologicMb._partition_steps_into_techniques"]}
{"id": "C33", "title": "Configured removals remove exactly the matching end conditions", "statement": "remove_end_entries_by_pred (the converter's step-end filters for voltage and current limits) removes every end condition that satisfies the predicate from every step and changes nothing else.", "quantifier": "every procedure and predicate", "why_tests_cant": "Steps with one end condition are represented differently from steps with several.", "anchors": ["beep/protocol/maccor_to_biologic_mb.py:MaccorToBiologicMb._create_step_end_entry_filter"]}
{"id": "C34", "title": "All configured sequence mappings take effect", "statement": "When several sequence mappings (e.g. current range, charge range) are configured, the exported sequences are the result of applying all of them in order.", "quantifier": "every list of mappings and every sequence list", "why_tests_cant": "Needs at least two mappings whose effects are both visible.", "anchors": ["beep/protocol/maccor_to_biologic_mb.py:MaccorToBiologicMb._apply_seq_mappings"]}
{"id": "C35", "title": "Back-converted procedures number their steps consistently", "statement": "When a Biologic settings file is converted to a Maccor procedure, every goto and loop in the result addresses an existing step, namely the one converted from the sequence that was named, and every Loop step has a matching Do step before it.", "quantifier": "every sequence list (any number of sequences, loops and gotos)", "why_tests_cant": "Insertion of Do/Loop/AdvCycle steps shifts numbering in arbitrary ways.", "anchors": ["beep/protocol/biologic_mb_to_maccor.py:BiologicMbToMaccor._create_steps"]}
{"id": "C36", "title": "Back-conversion keeps the direction of the current", "statement": "A Biologic sequence that charges is converted to a Maccor Charge step and one that discharges to a Maccor Dischrge step.", "quantifier": "every sequence", "why_tests_cant": "Sign conventions over all control types.", "anchors": ["beep/protocol/biologic_mb_to_maccor.py:BiologicMbToMaccor._create_step"]}
{"id": "C37", "title": "Overlapping loops are rejected on back-conversion", "statement": "Sequence loops that partially overlap (neither nested nor disjoint) cannot be expressed in a Maccor procedure and are rejected with an error.", "quantifier": "every set of loops", "why_tests_cant": "All relative positions of loop bodies.", "anchors": ["beep/protocol/biologic_mb_to_maccor.py:BiologicMbToMaccor._create_steps"]}
{"id": "C38", "title": "Arbin schedules survive writing and reading", "statement": "Schedule.from_file(to_file(s)) gives back the same nested settings, for schedules whose keys and values contain no bracket, newline or (in keys) '=' or separator characters.", "quantifier": "every schedule, any nesting", "why_tests_cant": "Round trip over all nested dictionaries.", "anchors": ["beep/protocol/arbin.py:Schedule.from_file", "beep/protocol/arbin.py:Schedule.to_file", "beep/protocol/arbin.py:_get_headings"]}
{"id": "C39", "title": "Labelled-step updates touch only the addressed steps", "statement": "set_labelled_steps(label, key, value, mode) sets key to value in the first (mode='first') or in all (mode='all') steps carrying the label and leaves every other key of every step unchanged.", "quantifier": "every schedule, label, key and value", "why_tests_cant": "Frame condition over the whole schedule.", "anchors": ["beep/protocol/arbin.py:Schedule.set_labelled_steps", "beep/protocol/arbin.py:Schedule.get_labelled_steps"]}
{"id": "C40", "title": "Maccor-to-Arbin conversion keeps loop targets and limit counts", "statement": "Every Maccor loop is compiled to an Arbin goto-limit that targets the label of the first step of the loop body, and the number of limits announced for a step equals the number of limits written for it.", "quantifier": "every procedure", "why_tests_cant": "Nested loops and all combinations of single/multiple end and report entries.", "anchors": ["beep/protocol/maccor_to_arbin.py:ProcedureToSchedule.compile_to_arbin", "beep/protocol/maccor_to_arbin.py:ProcedureToSchedule.create_metadata"]}
{"id": "C41", "title": "Durations written into Maccor procedures mean what was requested", "statement": "The HH:MM:SS text written for a requested duration denotes that many seconds; in particular the initial rest generated for protocol number n lasts 3 h + 12 min * (n mod 96) for every n.", "quantifier": "every duration and every protocol index", "why_tests_cant": "Wrap-around at 24 h occurs only for large values.", "anchors": ["beep/protocol/maccor.py:Procedure.insert_initialrest_regcyclev3", "beep/protocol/maccor.py:Procedure.insert_charge_regcyclev3", "beep/protocol/maccor.py:Procedure.insert_hppc_cyclev2"]}
{"id": "C42", "title": "Template parameterisation touches only the intended steps", "statement": "Each insert_* helper of Procedure changes only the listed fields of the steps at its documented offsets and fails (assertion) instead of writing when the template has a different step there.", "quantifier": "every template and every parameter set", "why_tests_cant": "Frame condition over arbitrary templates.", "anchors": ["beep/protocol/maccor.py:Procedure.insert_charge_regcyclev3", "beep/protocol/maccor.py:Procedure.insert_discharge_regcyclev2", "beep/protocol/maccor.py:Procedure.insert_hppc_cyclev2"]}
{"id": "C43", "title": "Skip-to-end limits reach every matching end condition", "statement": "set_skip_to_end_diagnostic sets the upper (lower) voltage limit in every voltage end condition that jumps to the ending diagnostic and leaves every other end condition unchanged.", "quantifier": "every procedure", "why_tests_cant": "Steps with one end condition are represented differently from steps with several.", "anchors": ["beep/protocol/maccor.py:Procedure.set_skip_to_end_diagnostic"]}
{"id": "C44", "title": "Waveform files reproduce the waveform", "statement": "The segments written to a Maccor waveform file, expanded by their durations, reproduce the scaled input waveform sample by sample (magnitude and charge/discharge direction), and their durations add up to the number of samples.", "quantifier": "every waveform", "why_tests_cant": "Run-length encoding over arbitrary sequences.", "anchors": ["beep/protocol/maccor.py:generate_maccor_waveform_file"]}
{"id": "C45", "title": "Protocol generation accounts for every row", "statement": "generate_protocol_files_from_csv reports every CSV row exactly once, as a generated file or as a failure, writes one name per generated file, and reports 'success' exactly when there is no failure.", "quantifier": "every parameter table", "why_tests_cant": "All mixtures of templates.", "anchors": ["beep/protocol/generate_protocol.py:generate_protocol_files_from_csv"]}
{"id": "C46", "title": "A featurizer never runs with missing hyperparameters", "statement": "A featurizer built with a non-empty hyperparameter dictionary has every default key defined, otherwise construction fails; with none given it uses the defaults; and loading saved features restores hyperparameters, features and metadata.", "quantifier": "every hyperparameter dictionary", "why_tests_cant": "All subsets of keys.", "anchors": ["beep/features/base.py:BEEPFeaturizer.__init__", "beep/features/base.py:BEEPFeaturizer.as_dict", "beep/features/base.py:BEEPFeaturizer.from_dict"]}
{"id": "C47", "title": "The feature matrix has one row per file and never mixes features", "statement": "BEEPFeatureMatrix has exactly one row per structured file; the cell for (file, feature, featurizer, hyperparameters) is the value computed by that featurizer for that file; feeding the same featurizer with the same hyperparameters twice for one file is rejected.", "quantifier": "every list of featurizers", "why_tests_cant": "All orders and overlaps of featurizer applications.", "anchors": ["beep/features/base.py:BEEPFeatureMatrix.__init__"]}
{"id": "C48", "title": "Cross-validation splits are honest", "statement": "BEEPDataSplitter.split yields folds whose train and test sets are disjoint and cover all samples, every sample is in exactly one test set, features and targets of a fold have the same sample index, and when split columns are given no group is in both train and test.", "quantifier": "every feature matrix, every shuffling and number of folds", "why_tests_cant": "All permutations.", "anchors": ["beep/prediction/beep_data_splitter.py:BEEPDataSplitter.split"]}
{"id": "C49", "title": "Excluded samples never reach a model", "statement": "With exclusion columns, no sample whose exclusion flag is false or missing, and no sample of a group in which less than the threshold fraction is included, appears in the splitter's data; X and y always have the same samples.", "quantifier": "every feature matrix", "why_tests_cant": "All NaN patterns.", "anchors": ["beep/prediction/beep_data_splitter.py:BEEPDataSplitter.__init__"]}
{"id": "C50", "title": "Training data is cleaned by the documented thresholds", "statement": "BEEPLinearModelExperiment keeps a feature iff the fraction of present samples reaches train_feature_drop_nan_thresh and a sample iff the fraction of present features reaches train_sample_drop_nan_thresh; what is kept has no missing value after median/mean imputation; X and y have the same samples.", "quantifier": "every feature matrix and thresholds", "why_tests_cant": "All NaN patterns.", "anchors": ["beep/model.py:BEEPLinearModelExperiment.__init__", "beep/model.py:BEEPLinearModelExperiment._impute_df"]}
{"id": "C51", "title": "Prediction reports exactly the samples it dropped", "statement": "predict returns one prediction for every sample not dropped and lists exactly the dropped samples; predicting twice on the same matrix gives the same result.", "quantifier": "every matrix", "why_tests_cant": "All NaN patterns and repeated calls.", "anchors": ["beep/model.py:BEEPLinearModelExperiment.predict", "beep/model.py:BEEPLinearModelExperiment._remove_param_hash_from_features"]}
{"id": "C52", "title": "The structuring command accounts for every file", "statement": "`beep structure` records exactly one status per input file; a file is reported structured only if it validated and was written; an error on one file does not change the outcome of the others unless halt-on-error is set, in which case no later file is processed.", "quantifier": "every list of files and every pattern of failures", "why_tests_cant": "All interleavings of failures.", "anchors": ["beep/cmd.py:structure"]}
{"id": "C53", "title": "The protocol command reports failures", "statement": "`beep protocol` records in its status every file generated and every failure returned by the generator.", "quantifier": "every generator outcome", "why_tests_cant": "All mixtures of successes and failures.", "anchors": ["beep/cmd.py:protocol"]}
{"id": "C54", "title": "User supplied alpha grid is used for training", "statement": "`beep train` searches the alpha grid given by --alpha-lower/--alpha-upper/--n-alphas when all three are given.", "quantifier": "every combination of options", "why_tests_cant": "All option combinations.", "anchors": ["beep/cmd.py:train"]}
{"id": "C55", "title": "Each summary row describes its own cycle", "statement": "In the cycle summary, the capacities and energies are the maxima over the rows of that cycle, the temperature columns are the maximum, minimum and mean of that cycle, the internal resistance and the start time are those of that cycle, and no row depends on the measurements of another cycle.", "quantifier": "every raw data table and diagnostic configuration", "why_tests_cant": "All tables; grouping errors show only for particular interleavings of cycles.", "anchors": ["beep/structure/base.py:BEEPDatapath.summarize_cycles"]}
{"id": "C56", "title": "Capacities at given cycles", "statement": "cycles_to_capacities returns for each requested cycle number the discharge capacity at that position, and 0 when the run is shorter.", "quantifier": "every summary and every range of cycle numbers", "why_tests_cant": "All lengths and ranges.", "anchors": ["beep/structure/base.py:BEEPDatapath.cycles_to_capacities"]}
{"id": "C57", "title": "Cycle life survives save and reload", "statement": "get_cycle_life gives the same answer on a structured object and on the object obtained by saving it to a file and loading it again.", "quantifier": "every structured object and threshold", "why_tests_cant": "All summaries, including those whose cycle labels are not 0,1,2,...", "anchors": ["beep/structure/base.py:BEEPDatapath.get_cycle_life", "beep/structure/base.py:BEEPDatapath.to_json_file", "beep/structure/base.py:BEEPDatapath.from_json_file"]}
{"id": "C58", "title": "Structured data follows from the recorded structuring parameters", "statement": "Two structurings of the same raw data with the same diagnostic configuration and the same recorded structuring_parameters give the same structured data.", "quantifier": "every raw data table and all pairs of calls to structure", "why_tests_cant": "All pairs of calls.", "anchors": ["beep/structure/base.py:BEEPDatapath.structure"]}
{"id": "C59", "title": "Biologic columns stay aligned", "statement": "After reading a Biologic file, a column holds the converted items of its own header position, in file order, and the k-th values of any two columns that end up in the data come from the same line of the file.", "quantifier": "every header with distinct names and every list of data lines, including short lines", "why_tests_cant": "All tables, including ragged ones.", "anchors": ["beep/structure/biologic.py:BiologicDatapath.from_file"]}
{"id": "C60", "title": "Different Biologic channels have different channel ids", "statement": "The channel_id recorded for two different instrument channels (slot letter and number) differs.", "quantifier": "every pair of channels", "why_tests_cant": "All pairs.", "anchors": ["beep/structure/biologic.py:BiologicDatapath.parse_metadata"]}
{"id": "C61", "title": "Indigo half cycles are charge or discharge", "statement": "For data loaded from Indigo, rows of odd half cycles have the coulomb count (in Ah) and energy in the charge columns and 0 in the discharge columns, rows of even half cycles the other way round, and a file with several cell ids is rejected.", "quantifier": "every Indigo table", "why_tests_cant": "All parities and signs.", "anchors": ["beep/structure/indigo.py:IndigoDatapath.from_file"]}
{"id": "C62", "title": "Biologic sequences do what the Maccor steps say", "statement": "Each sequence of a converted procedure applies the mode, direction and set point of its Maccor step, and carries all end conditions (quantity, comparison, value to within the unit rounding) and all recording conditions of that step; a current step limited by a voltage becomes a constant current sequence that ends at the voltage, followed by a constant voltage sequence, and both keep the step's end conditions.", "quantifier": "every step list and every position in it", "why_tests_cant": "All combinations of modes, limits, ends and reports.", "anchors": ["beep/protocol/maccor_to_biologic_mb.py:MaccorToBiologicMb._convert_step_parts", "beep/protocol/maccor_to_biologic_mb.py:MaccorToBiologicMb._split_step"]}
{"id": "C63", "title": "The exported Biologic file is a fixed width table of the sequences", "statement": "In the exported text each field has one row and each sequence one column of exactly 20 characters holding the value of that field in that sequence; the file is written exactly when every name and value fits; the header announces as many techniques as the file has.", "quantifier": "every list of sequences and every list of fields", "why_tests_cant": "All value lengths and numbers of sequences.", "anchors": ["beep/protocol/maccor_to_biologic_mb.py:MaccorToBiologicMb._seqs_to_str", "beep/protocol/maccor_to_biologic_mb.py:MaccorToBiologicMb._diagnostic_file_str_from_technique_partitions_post_conversion"]}
{"id": "C64", "title": "Maccor steps say what the Biologic sequences say", "statement": "When a Biologic settings file is converted to a Maccor procedure, each working step controls the quantity and amount of its sequence, ends on the same quantities, comparisons and amounts (times to a tenth of a millisecond) and records by the same quantities; limits and records are neither dropped nor added; the repeat count of a loop is the count of the Maccor loop.", "quantifier": "every sequence list and every position in it", "why_tests_cant": "All combinations of control types, units, limits and records.", "anchors": ["beep/protocol/biologic_mb_to_maccor.py:BiologicMbToMaccor._create_step"]}
{"id": "C65", "title": "Back-conversion accepts only gotos Maccor can follow", "statement": "In a sequence list that is converted without error no limit leads back to or before a loop that has already run, and none leads into the middle of a loop from outside of it.", "quantifier": "every sequence list", "why_tests_cant": "All relative positions of gotos and loops.", "anchors": ["beep/protocol/biologic_mb_to_maccor.py:BiologicMbToMaccor._create_steps"]}
{"id": "C66", "title": "Converting to Biologic and back keeps the values", "statement": "A voltage, current, power, resistance or time of a Maccor procedure that is converted to Biologic and back to Maccor is the same quantity as before.", "quantifier": "every numeral and every time text", "why_tests_cant": "All magnitudes and units of two independent converters.", "anchors": ["beep/protocol/maccor_to_biologic_mb.py:MaccorToBiologicMb._convert_volts", "beep/protocol/biologic_mb_to_maccor.py:BiologicMbToMaccor._convert_voltage"]}
{"id": "C67", "title": "Limit updates reach exactly the addressed limits", "statement": "set_labelled_limits(label, variable, comparator, value) changes the comparator and the value of those limits of the labelled steps that stop the step on that variable, and leaves every other setting of the schedule unchanged; as documented it operates on the first step with the label.", "quantifier": "every schedule, label, variable, comparator and value", "why_tests_cant": "Frame condition over the whole schedule.", "anchors": ["beep/protocol/arbin.py:Schedule.set_labelled_limits", "beep/protocol/arbin.py:_get_headings"]}
{"id": "C68", "title": "Fast charge schedules carry the requested currents and capacity", "statement": "Schedule.from_fast_charge(CC1, capacity, CC2, template) differs from the template only in the control value of the first step labelled CC1, the capacity limits of the steps labelled CC1 and the control value of the first step labelled CC2, which show the requested numbers to three decimals.", "quantifier": "every template and every triple of numbers", "why_tests_cant": "All templates and numbers, including the stripping of trailing zeros.", "anchors": ["beep/protocol/arbin.py:Schedule.from_fast_charge"]}
{"id": "C69", "title": "Arbin limits say what Maccor ends and reports say", "statement": "When a Maccor procedure is converted to an Arbin schedule, every end condition and every report of a step becomes a limit of that step that compares the same quantity in the same direction with the same value (discharge currents with the opposite sign) and leads to the same step.", "quantifier": "every procedure that converts, every step, every end condition and report", "why_tests_cant": "All combinations of step types, end types, operators, times and targets.", "anchors": ["beep/protocol/maccor_to_arbin.py:ProcedureToSchedule.convert_end_to_limit", "beep/protocol/maccor_to_arbin.py:ProcedureToSchedule.convert_report_to_logging_limit", "beep/protocol/maccor_to_arbin.py:ProcedureToSchedule.compile_to_arbin"]}
{"id": "C70", "title": "Conversion to Arbin replaces the steps and nothing else", "statement": "create_sdu replaces the steps of the given schedule by one step for each Maccor step, numbered from 0 and each with a label of its own, states their number, sets the three safety ranges (and the auxiliary safety flags if a temperature range is given) and leaves every other setting, user defined safeties included, as it was.", "quantifier": "every schedule and every procedure that converts", "why_tests_cant": "Frame condition over the whole schedule.", "anchors": ["beep/protocol/maccor_to_arbin.py:ProcedureToSchedule.create_sdu"]}
{"id": "C71", "title": "Arbin steps control what Maccor steps control", "statement": "Each converted step controls the same quantity (current, current relative to capacity, voltage, or current up to a voltage) with the same amounts, charging positive and discharging negative; Do steps reset and Loop steps advance the counter of their loop, AdvCycle steps advance the cycle.", "quantifier": "every procedure that converts and every step", "why_tests_cant": "All combinations of modes, units and limits.", "anchors": ["beep/protocol/maccor_to_arbin.py:ProcedureToSchedule.compile_to_arbin"]}
{"id": "C72", "title": "EXP procedures get the requested cutoff and rates", "statement": "Procedure.from_exp(cutoff, charge_rate, discharge_rate, template) puts the cutoff voltage into every charge step that has a voltage limit and the rates into the constant current charge and discharge steps strictly inside the loop from 'Do 1' to 'Loop 1', changes nothing else, and fails if the template has no such loop.", "quantifier": "every template and every triple of values", "why_tests_cant": "Frame condition over arbitrary templates.", "anchors": ["beep/protocol/maccor.py:Procedure.from_exp"]}
{"id": "C73", "title": "modify_step_value changes one value of one step", "statement": "modify_step_value(step_num, step_type, step_value) sets the value of that step if the step has that type and changes nothing else in the procedure.", "quantifier": "every procedure, step number, type and value", "why_tests_cant": "Frame condition over arbitrary procedures.", "anchors": ["beep/protocol/maccor.py:Procedure.modify_step_value"]}
{"id": "C74", "title": "Driving protocols play the requested profile", "statement": "insert_driving_parametersv1 writes a waveform file that plays the power profile as often as requested, in order, scaled so that its peak is max_profile_power times power_scaling, with the requested charge limit and cutoff; files generated before have no influence on it, and it has none on waveform files generated later.", "quantifier": "every profile, every parameter row, every sequence of earlier calls", "why_tests_cant": "Repetition counts, profiles and call histories are unbounded.", "anchors": ["beep/protocol/maccor.py:insert_driving_parametersv1", "beep/protocol/maccor.py:generate_maccor_waveform_file"]}
{"id": "C75", "title": "Multistep charging follows the requested rates", "statement": "The multistep charging current equals the rate of a state-of-charge window everywhere inside that window, never exceeds the largest rate, and the time computed for each step of the state of charge times the current is the charge of that step.", "quantifier": "every list of rates, every increasing list of window bounds, every grid point", "why_tests_cant": "All positions relative to the window bounds, including equality.", "anchors": ["beep/utils/waveform.py:RapidChargeWave.get_input_current_multistep_soc_as_x", "beep/utils/waveform.py:RapidChargeWave.get_time_vector_from_c_vs_soc"]}
{"id": "C76", "title": "Velocity profiles become the power the vehicle needs", "statement": "convert_velocity_to_power_waveform gives, for every sample, the negative power of inertia, rolling resistance and drag at the given speed and acceleration; a standing vehicle needs none; the unit in which the speed is given does not matter.", "quantifier": "every velocity profile with increasing times and every unit", "why_tests_cant": "Irregular sampling and all profile lengths.", "anchors": ["beep/utils/waveform.py:convert_velocity_to_power_waveform"]}
{"id": "C77", "title": "The featurizing command accounts for every file and featurizer", "statement": "`beep featurize` records for every file exactly one entry per requested featurizer, in the order asked for, with the hyperparameters used (the defaults with the given ones put over them) and whether the features were computed; the feature matrix is built from exactly the features computed; an error of one featurizer does not change the entries of the others.", "quantifier": "every list of files, every list of featurizers and every pattern of failures", "why_tests_cant": "All interleavings of failures.", "anchors": ["beep/cmd.py:featurize"]}
{"id": "C78", "title": "Training options reach the experiment", "statement": "`beep train` passes every option given on to the experiment and reports the model created exactly if training succeeded, in which case the output file holds it.", "quantifier": "every combination of options and every outcome of the training", "why_tests_cant": "All option combinations.", "anchors": ["beep/cmd.py:train", "beep/model.py:BEEPLinearModelExperiment.__init__"]}
{"id": "C79", "title": "The prediction threshold given is used", "statement": "`beep predict --predict-sample-nan-thresh x` predicts with threshold x, and without the option with the threshold stored in the model.", "quantifier": "every threshold", "why_tests_cant": "All values, including the documented extreme 0.", "anchors": ["beep/cmd.py:predict"]}
{"id": "C80", "title": "Homogenised features", "statement": "With homogenize_features, features of one name and featurizer class are one feature of the data whatever hyperparameters they were computed with, each sample having the value computed for it; building several splitters on one matrix gives the same data each time.", "quantifier": "every feature matrix and every choice of hyperparameters per sample", "why_tests_cant": "All assignments of hyperparameters to samples and all call histories.", "anchors": ["beep/prediction/beep_data_splitter.py:BEEPDataSplitter._remove_param_hash_from_features", "beep/model.py:BEEPLinearModelExperiment._remove_param_hash_from_features"]}
{"id": "C81", "title": "A saved linear model predicts the same after loading", "statement": "An experiment that is trained, written and read again predicts for every feature matrix what it predicted before.", "quantifier": "every training set, every trained model and every matrix to predict on", "why_tests_cant": "All training sets and prediction batches.", "anchors": ["beep/model.py:BEEPLinearModelExperiment.as_dict", "beep/model.py:BEEPLinearModelExperiment.from_dict", "beep/model.py:BEEPLinearModelExperiment.train"]}
{"id": "C82", "title": "Statistics of the change between two cycles", "statement": "CycleSummaryStats gives, for the charging and discharging capacity and energy, the chosen statistics (variance, minimum, mean, skewness, kurtosis, absolute value and sum of squares, on a logarithmic scale as documented) of the change from the first to the second comparison cycle; each feature's name says which statistic of which quantity it is; nothing but the two cycles matters.", "quantifier": "every run, every two cycles, every choice and order of statistics", "why_tests_cant": "All interpolated data and all choices of statistics.", "anchors": ["beep/features/core.py:CycleSummaryStats.get_summary_statistics", "beep/features/core.py:CycleSummaryStats.create_features", "beep/features/core.py:CycleSummaryStats.validate"]}
{"id": "C83", "title": "Fast charge features", "statement": "DeltaQFastCharge gives, for every run with enough cycles, the summary values of the cycles named in the feature (capacities at the second and the prediction cycle, largest gain, charge times, temperatures, integrals, resistances) and the statistics of the change of the discharge capacity between the two cycles named; the hyperparameters given decide the cycles and are recorded as given.", "quantifier": "every summary, every run, every choice of prediction cycles, every numbering of the cycles", "why_tests_cant": "All summaries and all prediction cycles.", "anchors": ["beep/features/core.py:DeltaQFastCharge.create_features", "beep/features/core.py:DeltaQFastCharge.validate"]}
{"id": "C84", "title": "A run that a featurizer accepts can be featurized", "statement": "If validate says that a run can be featurized, computing the features of CycleSummaryStats and of DeltaQFastCharge does not fail.", "quantifier": "every run", "why_tests_cant": "All runs, including those with missing steps or uneven numbers of points.", "anchors": ["beep/features/core.py:CycleSummaryStats.validate", "beep/features/core.py:DeltaQFastCharge.validate"]}
{"id": "C85", "title": "Fraction of a quantity left at each diagnostic, and throughput until then", "statement": "get_fractional_quantity_remaining_nx gives, for each diagnostic of the chosen type up to the last regular cycle, the quantity relative to the first measurement, and the discharge throughput passed in regular cycles and in diagnostics before it, in units of the throughput of the first series of regular cycles; both throughputs never fall from one diagnostic to the next.", "quantifier": "every structured summary, diagnostic summary, quantity and diagnostic type", "why_tests_cant": "All runs.", "anchors": ["beep/features/featurizer_helpers.py:get_fractional_quantity_remaining_nx"]}
{"id": "C86", "title": "When a cell reaches a threshold", "statement": "DiagnosticProperties gives, for the chosen diagnostic type, quantity and axes, the position on each axis at which the linearly interpolated fraction left first is closest to the threshold, up to the resolution of the grid; if the threshold is not reached and extrapolation is on, the position where the line through the last two diagnostics reaches it; the throughput in real units is the normalised one times the initial one.", "quantifier": "every table of diagnostics, every threshold, every list of axes, with and without extrapolation", "why_tests_cant": "All degradation curves and all thresholds.", "anchors": ["beep/features/core.py:DiagnosticProperties.get_threshold_targets", "beep/features/core.py:DiagnosticProperties.create_features"]}
{"id": "C87", "title": "Criteria for including a cell", "statement": "ExclusionCriteria includes a cell exactly if the charge throughput of the first n cycles exceeds the cutoff, the last fraction left is below the threshold, the number of equivalent full cycles until the end of life exceeds its cutoff, and, if the first charging current is above the second, no regular cycle until the end of life reaches constant voltage before the given fraction of its time.", "quantifier": "every run and every choice of cutoffs", "why_tests_cant": "All runs, including those shorter than n cycles or at their end of life from the start.", "anchors": ["beep/features/core.py:ExclusionCriteria.create_features"]}
{"id": "C88", "title": "Interpolated diagnostic cycles", "statement": "Each step of each diagnostic cycle (a series of consecutive records of one step index) is resampled by itself: voltage_resolution equally spaced voltages over the range of the step if it spans at least v_delta_min, otherwise time_resolution equally spaced times; the values are interpolated in the records of that step only, dQ/dV is the difference quotient of the rows, and cycle type, step index, position and repetition are those of the step. The rows are in the order of cycle, step and time and nothing else is in the result.", "quantifier": "every raw data, every diagnostic configuration, every resolution and threshold", "why_tests_cant": "All raw data and configurations.", "anchors": ["beep/structure/base.py:BEEPDatapath.interpolate_diagnostic_cycles"]}
{"id": "C89", "title": "Summary of the diagnostic cycles", "statement": "summarize_diagnostic has one row per diagnostic cycle of the raw data, in ascending order, with the type of the cycle and capacities, energies, efficiency, temperatures, time stamp, paused time and constant voltage values of the records of that cycle; it exists for every accepted configuration.", "quantifier": "every raw data and every diagnostic configuration", "why_tests_cant": "All raw data and configurations.", "anchors": ["beep/structure/base.py:BEEPDatapath.summarize_diagnostic"]}
{"id": "C90", "title": "Parameters of a run by the name of its file", "statement": "get_protocol_parameters finds, for a file <project>_<number> with anything after the number and in any directory, the row of that number in the one parameter file whose name begins with the project; for a file generated from a table it finds the row it was generated from; without such a file or row it gives None. get_diagnostic_parameters gives the voltages of the first row of the parameter set, or 2.7 and 4.2 without a file.", "quantifier": "every directory of parameter files, every project, number, path and ending", "why_tests_cant": "All names and tables.", "anchors": ["beep/deprecated/parameters_lookup.py:get_protocol_parameters", "beep/deprecated/parameters_lookup.py:get_project_sequence", "beep/deprecated/parameters_lookup.py:get_diagnostic_parameters"]}
{"id": "C91", "title": "Charging protocol features", "statement": "ChargingProtocol gives the requested quantities of the row of the run, in the order requested, looked up by the raw file or else the structured file; a quantity that is no column is an error; a run reported as valid can be featurized.", "quantifier": "every directory of parameter files, every list of quantities and every run", "why_tests_cant": "All names and tables.", "anchors": ["beep/features/core.py:ChargingProtocol.validate", "beep/features/core.py:ChargingProtocol.create_features"]}
{"id": "C92", "title": "Structuring parameters and the diagnostics of a run", "statement": "determine_structuring_parameters takes the nominal capacity from the row of the run, the voltage range from the lowest and highest cutoff of the project, and the cycles at which diagnostics start: those with the steps of the first or second reset cycle, and in the last cycles those from which five cycles have as many steps as in a diagnostic; without parameters the arguments are kept.", "quantifier": "every raw data, parameter table and arguments", "why_tests_cant": "All raw data and tables.", "anchors": ["beep/deprecated/parameters_lookup.py:determine_structuring_parameters"]}
{"id": "C93", "title": "Annotated steps of a diagnostic cycle", "statement": "get_step_index annotates the steps of a diagnostic cycle exactly when each step fits one of the described kinds (rests, pulses, final discharge, discharge to the next state of charge, charge; or charge and discharge for the other cycles) by its median and mean C rate, duration and position, and no two steps fit the same; then each annotation carries the step that fits it.", "quantifier": "every diagnostic data, cycle type, position, and parameters", "why_tests_cant": "All data.", "anchors": ["beep/features/featurizer_helpers.py:get_step_index"]}
{"id": "C94", "title": "Change between two diagnostics of a type", "statement": "DiagnosticSummaryStats gives, for the two diagnostics of the chosen type at the chosen positions, the requested statistics of the change of capacity, energy and dQ/dV between the points of their charge and discharge steps, and the relative change of the diagnostic summary for the type; a run reported as valid can be featurized, and the run is not changed except for the late records that are left out.", "quantifier": "every run, diagnostic type, pair of positions and choice of statistics", "why_tests_cant": "All runs and all choices of statistics.", "anchors": ["beep/features/core.py:DiagnosticSummaryStats.create_features", "beep/features/core.py:DiagnosticSummaryStats.validate", "beep/features/core.py:DiagnosticSummaryStats.get_summary_diff"]}
{"id": "C95", "title": "Resistances in an HPPC cycle", "statement": "For every HPPC diagnostic whose pulses, rests and discharges are recorded, get_resistance_soc_duration_hppc gives for each of the nine states of charge the resistance of the discharge and of the charge pulse at 1 ms, at 3 s and at the end: the change of voltage from the last record before the pulse to the record at that time, over the average current of the last five records; get_dr_df is their change relative to the first diagnostic. Shifting the origin of time changes nothing.", "quantifier": "every run, every position of the diagnostic, every origin of time", "why_tests_cant": "All recordings.", "anchors": ["beep/features/featurizer_helpers.py:res_calc", "beep/features/featurizer_helpers.py:get_resistance_soc_duration_hppc", "beep/features/featurizer_helpers.py:get_dr_df"]}
{"id": "C96", "title": "Open circuit voltage, relaxation and diffusion in an HPPC cycle", "statement": "get_hppc_ocv gives the statistics of the change since the first diagnostic of the mean relaxed voltage at the end of each long rest; get_v_diff those of the change of the voltage at equal capacity in the discharge before a state of charge, for rising capacity; get_diffusion_coeff gives for each pulse the slope of the voltage over the root of time in the last third of the rest, and get_diffusion_features its change relative to the first diagnostic.", "quantifier": "every run, every position of the diagnostic, every interpolation and fit", "why_tests_cant": "All recordings.", "anchors": ["beep/features/featurizer_helpers.py:get_hppc_ocv_helper", "beep/features/featurizer_helpers.py:get_hppc_ocv", "beep/features/featurizer_helpers.py:get_v_diff", "beep/features/featurizer_helpers.py:get_diffusion_coeff", "beep/features/featurizer_helpers.py:get_diffusion_features"]}
{"id": "C97", "title": "HPPC features and the fraction remaining", "statement": "HPPCResistanceVoltageFeatures gives the same named columns for every accepted run and hyperparameters: changes of resistances, open circuit voltages, voltage differences and diffusion coefficients, read with the parameter directory given, and accepts exactly the runs with an HPPC diagnostic. get_fractional_quantity_remaining gives for each diagnostic of the type after cycle 100 its quantity relative to the first measured value of that type.", "quantifier": "every run and every choice of hyperparameters", "why_tests_cant": "All runs.", "anchors": ["beep/features/core.py:HPPCResistanceVoltageFeatures.create_features", "beep/features/core.py:HPPCResistanceVoltageFeatures.validate", "beep/features/featurizer_helpers.py:get_fractional_quantity_remaining"]}
{"id": "C98", "title": "Diagnostic data as images", "statement": "RawInterpolatedData gives, for every chosen cycle type whose diagnostics have a charge and a discharge step, every metric, both steps and every chosen position, one channel whose name tells these four, with one value per interpolated record of that step: time since the step began, charge plus discharge dQ/dV, the state of charge (charged, or what is left after discharging), or the column itself; filled-in values leave the known ones as they are and none is missing; every run reported as valid has its channels.", "quantifier": "every diagnostic data, choice of metrics, types, positions and imputation", "why_tests_cant": "All data, all gaps in it and all choices.", "anchors": ["beep/features/core.py:RawInterpolatedData.create_features", "beep/features/core.py:RawInterpolatedData.validate"]}
{"id": "C99", "title": "Cycles at which capacities are reached", "statement": "TrajectoryFastCharge gives one distinctly named column for every threshold from the highest down to, not including, the lowest, whose value is the first cycle at which the capacity is below that fraction of the initial capacity, or one more than the number of cycles if the cell ends above it; a run is valid exactly if its lowest capacity is below the highest threshold times its highest, and then the columns are computed.", "quantifier": "every summary of a run and every choice of thresholds", "why_tests_cant": "All histories of capacity.", "anchors": ["beep/features/core.py:TrajectoryFastCharge.create_features", "beep/features/core.py:TrajectoryFastCharge.validate", "beep/structure/base.py:BEEPDatapath.capacities_to_cycles"]}
{"id": "C100", "title": "The charge a half-cell fit compares with", "statement": "For every diagnostic, process_beep_cycle_data_for_candidate_halfcell_analysis_ah gives the voltage of that diagnostic's charge (and for a discharge fit that of its discharge) at 1001 even capacities from 0 to the last measured one, read off the measured points by straight lines; records of other diagnostics or steps have no influence and no voltages are invented.", "quantifier": "every diagnostic data, cycle type and cycle", "why_tests_cant": "All recordings.", "anchors": ["beep/features/intracell_analysis_v2.py:IntracellAnalysisV2.process_beep_cycle_data_for_candidate_halfcell_analysis_ah"]}
{"id": "C101", "title": "Electrodes scaled by a guess", "statement": "For every guess with positive capacities, both electrodes are given at the same 1001 even capacities covering both; at capacity Q the positive electrode has its pristine voltage at SOC 100 Q/q_pe and the negative one at SOC 100 (Q-lli)/q_ne, and none beyond their range; half-cell tables of any length can be used.", "quantifier": "every pair of half-cell tables and every guess", "why_tests_cant": "All tables and all guesses of the optimiser.", "anchors": ["beep/features/intracell_analysis_v2.py:IntracellAnalysisV2._impose_electrode_scale"]}
{"id": "C102", "title": "Emulated cell compared with the measured one", "statement": "halfcell_degradation_matching_ah moves both electrodes by the same capacity so that capacity 0 is where the cell, within 2.7 V to 4.2 V, has its lowest voltage, and gives measured and emulated voltages at the same 1001 even capacities covered by the measurement, read off the measurement and off the cell; it fails exactly if no capacity puts the cell within the limits.", "quantifier": "every pair of half-cell tables, measured profile and guess", "why_tests_cant": "All guesses of the optimiser.", "anchors": ["beep/features/intracell_analysis_v2.py:IntracellAnalysisV2.halfcell_degradation_matching_ah", "beep/features/intracell_analysis_v2.py:IntracellAnalysisV2.halfcell_degradation_matching_ah_no_real"]}
{"id": "C103", "title": "Reported state of the electrodes", "statement": "get_electrode_info_ah reports for each of the sixteen cell voltages from 4.2 V to 2.7 V the voltage of each electrode and its position in its capacity range at the place where the cell has that voltage, the capacity of the cell at 4.2 V, of each electrode, and of the lithium both share, which is no larger than either; the electrode capacities are those of the guess up to the resolution of the grid; voltages never reached are not reported.", "quantifier": "every pair of electrode curves", "why_tests_cant": "All curves.", "anchors": ["beep/features/intracell_analysis_v2.py:get_electrode_info_ah"]}
{"id": "C104", "title": "The error a half-cell fit minimises", "statement": "The error of a guess is that of the chosen type: the mean over the measured points of the distance to the closest emulated point, not negative, zero if the emulated profile contains the measured one, and 100 if the guess cannot be evaluated; an unknown type is rejected, and fits of emulated profiles minimise the same errors.", "quantifier": "every half-cell tables, measured profile, guess, distance and type of error", "why_tests_cant": "All guesses of the optimiser.", "anchors": ["beep/features/intracell_analysis_v2.py:IntracellAnalysisV2._get_error_from_degradation_matching_ah", "beep/features/intracell_analysis_v2.py:IntracellAnalysisV2._get_error_from_synthetic_fitting_ah"]}
{"id": "C105", "title": "Half-cell features of a run", "statement": "IntracellCyclesV2 gives one row per diagnostic of the type that still discharges, in order, with the 73 named columns error, best guess and state of the electrodes, each row depending on its own diagnostic only; IntracellFeaturesV2 gives those of the first two diagnostics; runs are accepted exactly if they have such a diagnostic and an RPT, and accepted runs can be featurized.", "quantifier": "every run, half-cell tables and optimiser", "why_tests_cant": "All runs.", "anchors": ["beep/features/intracell_losses_v2.py:IntracellCyclesV2.create_features", "beep/features/intracell_losses_v2.py:IntracellFeaturesV2.create_features", "beep/features/intracell_losses_v2.py:IntracellCyclesV2.validate", "beep/features/intracell_analysis_v2.py:IntracellAnalysisV2.intracell_values_wrapper_ah"]}
{"id": "C106", "title": "Blending two electrode materials", "statement": "blend_electrodes leaves the first material unchanged if there is no second; otherwise the sign of the fraction chooses the curve of the second material, its magnitude weighs the SOCs at equal voltage, and the result has 1001 even SOCs spanning 0 to 100 with the voltages of the blend.", "quantifier": "every pair of materials and every fraction", "why_tests_cant": "All materials and fractions.", "anchors": ["beep/features/intracell_analysis_v2.py:blend_electrodes", "beep/features/intracell_analysis.py:blend_electrodes"]}
{"id": "C107", "title": "State of charge of the fresh cell", "statement": "process_beep_cycle_data_for_initial_halfcell_analysis takes the first diagnostic of the type and gives its charge strictly between 2.7 V and 4.2 V at 1001 even states of charge, 0 being the least and 100 the greatest capacity of it, with voltages read off the measured points by straight lines, all within the limits; without such a diagnostic there is an IndexError.", "quantifier": "every diagnostic summary and data", "why_tests_cant": "All recordings.", "anchors": ["beep/features/intracell_analysis.py:IntracellAnalysis.process_beep_cycle_data_for_initial_halfcell_analysis"]}
{"id": "C108", "title": "State of charge of an aged cell", "statement": "process_beep_cycle_data_for_candidate_halfcell_analysis gives the charge of a diagnostic on the scale of the fresh cell, at 1001 even states of charge from 0 to that of its last capacity; every voltage is known: read off the measured points by straight lines, 2.7 V before the first and 4.2 V after the last.", "quantifier": "every diagnostic data, cycle and fresh cell", "why_tests_cant": "All recordings.", "anchors": ["beep/features/intracell_analysis.py:IntracellAnalysis.process_beep_cycle_data_for_candidate_halfcell_analysis"]}
{"id": "C109", "title": "Electrodes matched to the fresh cell", "statement": "halfcell_initial_matching_v2 stretches and moves the positive electrode by the parameters and then moves and scales both electrodes alike, so that 0 is where the cell is closest to 2.7 V and 100 the last place within the limits; the error is the Euclidean distance of the voltages plus a hundredth per missing one.", "quantifier": "every pair of half-cell tables, profile and parameters", "why_tests_cant": "All guesses of the optimiser.", "anchors": ["beep/features/intracell_analysis.py:IntracellAnalysis.halfcell_initial_matching_v2", "beep/features/intracell_analysis.py:IntracellAnalysis._get_error_from_halfcell_initial_matching"]}
{"id": "C110", "title": "Losses imposed on a cell", "statement": "_impose_degradation shrinks the positive electrode by its loss around the state of charge where the cell is closest to 4.2 V, and the negative electrode by its loss around that where the cell is closest to 2.7 V, and moves it by the loss of lithium; losing nothing changes nothing; electrodes that do not overlap are a KeyError.", "quantifier": "every pair of electrodes and every loss below 100 percent", "why_tests_cant": "All electrodes and losses.", "anchors": ["beep/features/intracell_analysis.py:IntracellAnalysis._impose_degradation"]}
{"id": "C111", "title": "Aged cell compared with the measured one", "statement": "halfcell_degradation_matching_v3 imposes the losses, moves both electrodes so that the cell starts at 0, and gives measured and emulated voltages at the same 1001 states of charge; resampling before the comparison changes neither; the error is the Euclidean distance of the voltages plus a thousandth per missing one, 100 if the profiles cannot be compared, and prefers cells that explain more of the measurement.", "quantifier": "every pair of electrodes, measured profile and losses", "why_tests_cant": "All guesses of the optimiser.", "anchors": ["beep/features/intracell_analysis.py:IntracellAnalysis.halfcell_degradation_matching_v3", "beep/features/intracell_analysis.py:IntracellAnalysis.get_V_over_SOC_from_degradation_matching", "beep/features/intracell_analysis.py:IntracellAnalysis._get_error_from_degradation_matching"]}
{"id": "C112", "title": "Voltages and own states of charge of the electrodes", "statement": "get_halfcell_voltages gives for each electrode its voltage where the cell is closest to 4.2 V and to 2.7 V, its own state of charge at these two places, and the range over which it has a voltage, and that of the cell.", "quantifier": "every pair of electrodes on a common grid", "why_tests_cant": "All electrodes.", "anchors": ["beep/features/intracell_analysis.py:IntracellAnalysis.get_halfcell_voltages"]}
{"id": "C113", "title": "Losses of a run", "statement": "IntracellCycles fits the fresh cell once and gives one row per diagnostic of the type and step that still discharges 70 percent of 4.84 Ah, in order, with the 17 named columns of losses, blending, weights and electrode states; IntracellFeatures gives those of the first two; runs are accepted exactly if they have such a diagnostic and an RPT, and accepted runs can be featurized.", "quantifier": "every run, half-cell tables and optimiser", "why_tests_cant": "All runs.", "anchors": ["beep/features/intracell_losses.py:IntracellCycles.create_features", "beep/features/intracell_losses.py:IntracellFeatures.create_features", "beep/features/intracell_losses.py:IntracellCycles.validate", "beep/features/intracell_analysis.py:IntracellAnalysis.intracell_wrapper_init", "beep/features/intracell_analysis.py:IntracellAnalysis.intracell_values_wrapper"]}
{"id": "C114", "title": "Settings files round trip", "statement": "Reading a Biologic settings file with one technique (Settings.from_file) gives every header line under its name and every table cell under its sequence and row name, whatever the line ends; writing it again (to_file) gives the same lines with Windows line ends, and reading that gives the same settings. A text without a technique is rejected.", "quantifier": "every column width, every well formed file (any header lines, any number of rows and sequences), every line end", "why_tests_cant": "One shipped file is tested; the result depends on the widths of all cells and on the names and values of all header lines.", "anchors": ["beep/protocol/biologic.py:Settings.mps_text_to_schedule_dict", "beep/protocol/biologic.py:Settings.from_file", "beep/protocol/biologic.py:Settings.to_file"]}
{"id": "C115", "title": "Formation protocol", "statement": "formation_protocol_bcs is applied exactly if the settings alternate charge and discharge and every one of the 13 steps has the control type, units and limits the protocol needs, and raises AssertionError otherwise; every step gets its requested current (rate times capacity), voltage, hold or rest time and number of repetitions with three decimals; nothing else changes, neither in the settings nor in the file written.", "quantifier": "every parameter set and every settings object", "why_tests_cant": "Tests check one parameter set on the shipped template.", "anchors": ["beep/protocol/biologic.py:Settings.formation_protocol_bcs"]}
{"id": "C116", "title": "Procedure files round trip", "statement": "A procedure whose texts have no blanks around them and whose steps have the fields steps have is written by Procedure.to_file, and Procedure.from_file reads the file as the same procedure, numbers as texts and empty texts as None. What was read from a file is the same after saving and reading it again. The shipped templates are written exactly as they were shipped, up to line ends.", "quantifier": "every procedure, any number of steps, entries and fields, any texts including markup characters", "why_tests_cant": "Tests compare two shipped files; whether special characters, repeated entries and empty fields survive depends on all texts and shapes.", "anchors": ["beep/protocol/maccor.py:Procedure.from_file", "beep/protocol/maccor.py:Procedure.to_file", "beep/protocol/maccor.py:Procedure._format_maccor"]}
{"id": "C117", "title": "Layout of procedure files", "statement": "The file has the two declarations and then one line per field, indented two blanks per level; Limits, Reports and Ends without content are one tag, other fields a pair; exactly the step type and mode, the types of ends and reports, special types and operators are padded, to 8 characters (3 for operators), and nothing else changes.", "quantifier": "every procedure that can be written", "why_tests_cant": "The cycler needs the exact layout for every step and field.", "anchors": ["beep/protocol/maccor.py:Procedure._format_maccor", "beep/protocol/maccor.py:Procedure.ends_whitespace", "beep/protocol/maccor.py:Procedure.reports_whitespace", "beep/protocol/maccor.py:Procedure.fixup_empty_elements"]}
{"id": "C118", "title": "Saving what was read", "statement": "Writing a procedure, reading the file and writing again gives the same file.", "quantifier": "every procedure without empty texts that can be written", "why_tests_cant": "Padding must neither accumulate nor be lost for any text.", "anchors": ["beep/protocol/maccor.py:Procedure.to_file", "beep/protocol/maccor.py:Procedure.from_file"]}
{"id": "C119", "title": "Generated procedures are readable", "statement": "After generate_protocol_files_from_csv every procedure file that was not there before can be written and is read back as generated, if the templates can; the shipped ones can.", "quantifier": "every table, parameter values, diagnostic parameters, power profiles and waveforms, even if generation stops with an exception", "why_tests_cant": "Tests generate a few rows; values that are put into the procedures depend on all parameters.", "anchors": ["beep/protocol/generate_protocol.py:generate_protocol_files_from_csv", "beep/protocol/maccor.py:Procedure.to_file"]}
{"id": "C120", "title": "Time stamps of Maccor records", "statement": "correct_timestamp turns the local time a Maccor record is stamped with into the UTC instant at which the Pacific clock shows it; a record with a date only is one at midnight; every record gets its own instant.", "quantifier": "every valid date before the year 9999, every rule for daylight saving time", "why_tests_cant": "Tests try one date; the calendar, month ends, leap years and both changes of the clock matter.", "anchors": ["beep/structure/maccor.py:MaccorDatapath.correct_timestamp"]}
{"id": "C121", "title": "Time stamps of Arbin records", "statement": "date_time_iso of an Arbin record is the instant the file gives; later records do not get earlier stamps; a missing time makes no stamp.", "quantifier": "every sequence of times between 2004 and 2038", "why_tests_cant": "Rounding of the 32-bit conversion depends on every bit of the time.", "anchors": ["beep/structure/arbin.py:ArbinDatapath.from_file"]}
{"id": "C122", "title": "Metadata of Maccor files", "statement": "The five values of the header line, without the blanks around them, are the metadata under their standard names, and channel_id is the number the file name ends with.", "quantifier": "every header line whose labels occur once, every file name", "why_tests_cant": "Tests read two sample files.", "anchors": ["beep/structure/maccor.py:MaccorDatapath.from_file", "beep/structure/maccor.py:MaccorDatapath.parse_metadata"]}
{"id": "C123", "title": "Schema a file is validated against", "statement": "The project a file name starts with decides the schema: the project's own one where there is one, otherwise the default of the cycler.", "quantifier": "every path", "why_tests_cant": "The choice depends on all file names.", "anchors": ["beep/structure/maccor.py:MaccorDatapath.from_file", "beep/structure/arbin.py:ArbinDatapath.from_file"]}
{"id": "C124", "title": "Columns of raw files", "statement": "Each column of a raw file is found in the result under its standard name and in its standard type, whatever its position and the case of its name; other columns keep their values; capacities, energies and instants are added; nothing else is; a file without a required column is refused.", "quantifier": "every table with distinct names, every conversion of the cells", "why_tests_cant": "Tests read files of one layout.", "anchors": ["beep/structure/maccor.py:MaccorDatapath.from_file", "beep/structure/arbin.py:ArbinDatapath.from_file"]}
{"id": "C125", "title": "Metadata of Arbin files", "statement": "The first row of stem_Metadata.csv, under standard names, is the metadata of stem.csv; without such a file there is no metadata.", "quantifier": "every path and every table", "why_tests_cant": "Paths of other forms than the sample ones.", "anchors": ["beep/structure/arbin.py:ArbinDatapath.from_file"]}
{"id": "C126", "title": "Impedance spectra of a Maccor file", "statement": "load_eis reads exactly the files stem.*.ext next to stem.ext; each gives its sweep, method, name, start time and the cells of every line of its table.", "quantifier": "every directory, every spectrum file of the layout, every start time", "why_tests_cant": "Tests read a handful of spectra.", "anchors": ["beep/structure/maccor.py:MaccorDatapath.load_eis", "beep/structure/maccor.py:MaccorDatapath.MaccorEIS.from_file"]}
{"id": "C127", "title": "Saving data with spectra", "statement": "A datapath that was saved can be loaded with the same paths, with spectra or without; EIS.from_dict(e.as_dict()) is e.", "quantifier": "every datapath with absolute paths, every EIS object", "why_tests_cant": "Saving after load_eis is not tested.", "anchors": ["beep/structure/base.py:BEEPDatapath.__init__", "beep/structure/base.py:BEEPDatapath.from_json_file", "beep/structure/base_eis.py:EIS.as_dict", "beep/structure/base_eis.py:EIS.from_dict"]}
{"id": "C128", "title": "Metadata of Biologic files", "statement": "parse_metadata returns the channel of the file (B12 is 212), the comment as the barcode, and a hash of the lines of the protocol, so that cells which ran the same protocol have the same hash.", "quantifier": "every metadata file with one line each for channel, comment and start of the protocol, in printable ASCII", "why_tests_cant": "Tests read one file; the hash must not depend on anything but the protocol.", "anchors": ["beep/structure/biologic.py:BiologicDatapath.parse_metadata"]}
{"id": "C129", "title": "Data of Biologic files", "statement": "Each column of a Biologic export is found under its standard name, in standard units, row by row; steps and cycles are whole numbers; records are numbered from 1; stamps are the instants in UTC and test_time is the time since the first record; a file with a missing column or a broken line is refused.", "quantifier": "every exported table, every row, every time", "why_tests_cant": "Tests read files of one layout, none over a change of the clock.", "anchors": ["beep/structure/biologic.py:BiologicDatapath.from_file"]}
{"id": "C130", "title": "Metadata of Novonix files", "statement": "Each line of the summary of a Novonix file is stored under the entry its label names, with the text after the colon; entries without a line are None.", "quantifier": "every file with a summary in printable ASCII, every list of entries", "why_tests_cant": "Tests read one file; labels and values can contain each other's phrases.", "anchors": ["beep/structure/novonix.py:NovonixDatapath.from_file"]}
{"id": "C131", "title": "Table and times of Novonix files", "statement": "The table of a Novonix file starts at the line with the names of the columns and has all the rows below; times in either of two formats become ISO texts of the same time.", "quantifier": "every file, every valid time with a clock of twelve hours", "why_tests_cant": "Tests read three files; noon, midnight and blank lines matter.", "anchors": ["beep/structure/novonix.py:NovonixDatapath.from_file"]}
{"id": "C132", "title": "Moving files to another project", "statement": "ProjectTransfer finds the files of a project in a folder and copies each to the same folder with the project replaced in its name and in its first line, the rest of its text unchanged; a dry run does not touch the bucket of the data.", "quantifier": "every folder, every list of files, every text, both kinds of line ends", "why_tests_cant": "There is no test; what reaches S3 depends on buffers and on names that meet.", "anchors": ["beep/utils/project_transfer.py:ProjectTransfer.get_list_files", "beep/utils/project_transfer.py:ProjectTransfer.download_and_modify"]}
{"id": "C133", "title": "Processing files again", "statement": "scan announces every raw file of the project at a location whose structured file is missing or more than six hours old, with its key, size and hash.", "quantifier": "every content of both buckets, every time", "why_tests_cant": "There is no test; the outcome depends on how many files there are and how they are named.", "anchors": ["beep/utils/retrigger.py:scan", "beep/utils/retrigger.py:get_structure_name"]}
{"id": "C134", "title": "JSON on the command line", "statement": "os_format quotes a JSON text so that the command line hands it on as one argument, unchanged.", "quantifier": "every text, POSIX and Windows", "why_tests_cant": "Tests compare two fixed texts with what is expected of them.", "anchors": ["beep/utils/__init__.py:os_format"]}
{"id": "C135", "title": "Charging waveforms", "statement": "RapidChargeWave.get_currents_with_uniform_time_basis gives a smooth and a stepwise charging current, second by second, equally long, the smooth one within the rates allowed, as long as the charge takes.", "quantifier": "all rates, all windows, all limits, every root finder and every shape-preserving interpolation", "why_tests_cant": "Tests compare one pair of waveforms with stored values; that the limits hold for all rates and that waveforms of unequal length are refused is not tested.", "anchors": ["beep/utils/waveform.py:RapidChargeWave.get_currents_with_uniform_time_basis", "beep/utils/waveform.py:RapidChargeWave.get_input_currents_both_to_final_soc", "beep/utils/waveform.py:RapidChargeWave.get_input_current_smooth_soc_as_x"]}
{"id": "C136", "title": "Files of charging waveforms", "statement": "insert_charging_parametersv1 writes a Maccor waveform file that charges, second by second, at the nominal capacity times the currents of the type asked for, never above the largest rate allowed, up to the cutoff voltage less the offset.", "quantifier": "all parameters with windows that go up, positive rates and positive capacity", "why_tests_cant": "Tests compare whole files for a few rows of parameters.", "anchors": ["beep/protocol/maccor.py:insert_charging_parametersv1"]}
{"id": "C137", "title": "Number of principal components", "statement": "PrincipalComponents finds the smallest number of components that explain more than the threshold, and refuses tables with gaps or too few rows or columns.", "quantifier": "all tables, thresholds and numbers of components, every scaler and decomposition", "why_tests_cant": "Tests fit one stored data set; when fitting is refused, and that the number is smallest for all data, is not tested.", "anchors": ["beep/features/principal_components.py:PrincipalComponents.fit", "beep/features/principal_components.py:PrincipalComponents.from_interpolated_data"]}
{"id": "C138", "title": "Outliers by principal components", "statement": "get_pca_decomposition_outliers flags a row exactly if some component lies beyond the percentiles of the training data; get_reconstruction_error_outliers flags exactly the rows whose error exceeds the threshold times the largest training error; rows are judged one by one.", "quantifier": "all training tables, new tables, percentiles and thresholds", "why_tests_cant": "Tests compare flags for one stored data set.", "anchors": ["beep/features/principal_components.py:PrincipalComponents.get_pca_decomposition_outliers", "beep/features/principal_components.py:PrincipalComponents.get_reconstruction_error_outliers"]}
{"id": "C139", "title": "Tables to decompose", "statement": "pivot_data gives one row for every cycle asked for whose discharge a file has, each cell being the value recorded there or missing.", "quantifier": "all lists of files, frames and cycles", "why_tests_cant": "Tests check the shape of one table.", "anchors": ["beep/features/principal_components.py:pivot_data"]}
{"id": "C140", "title": "Splicing of files", "statement": "MaccorSplice.run_splice writes the first line and all rows of the first file, then the rows of the second file; to those of the seven running columns that start lower in the second file than they end in the first, that end is added, all else is kept. What write_maccor_file writes, read_maccor_file reads back.", "quantifier": "all pairs of files, labels, rows and values that can be stored", "why_tests_cant": "Tests write and read back one stored file, comparing three columns, and look at one column after column_increment for one pair of files; run_splice itself is not run.", "anchors": ["beep/utils/splice.py:MaccorSplice.run_splice", "beep/utils/splice.py:MaccorSplice.read_maccor_file", "beep/utils/splice.py:MaccorSplice.write_maccor_file"]}
{"id": "C141", "title": "Ids of datapaths", "statement": "semiunique_id tells two datapaths apart exactly by barcode, channel, protocol, schema, whether they are structured or legacy, and their paths.", "quantifier": "all pairs of datapaths", "why_tests_cant": "Tests compare the ids of one datapath before and after structuring and after saving; which pairs share an id is not tested.", "anchors": ["beep/structure/base.py:BEEPDatapath.semiunique_id", "beep/structure/base.py:BEEPDatapath.is_structured"]}
{"id": "C142", "title": "Maccor file of a converted Biologic procedure", "statement": "BiologicMbToMaccorProcedure.biologic_mb_text_to_maccor_xml gives a text that Procedure.from_file reads: the header, and every step made of the sequences, in order, with its ends and reports; texts come back without the blanks around them, and the lines are those of a Maccor procedure file, each ended by carriage return and line feed.", "quantifier": "all headers, steps and sequences with printable texts", "why_tests_cant": "Tests convert one text and compare the lines of the result with stored ones, split at line ends of any kind; the result is not read back.", "anchors": ["beep/protocol/biologic_mb_to_maccor.py:BiologicMbToMaccorProcedure.biologic_mb_text_to_maccor_xml", "beep/protocol/biologic_mb_to_maccor.py:BiologicMbToMaccorProcedure._create_step", "beep/protocol/biologic_mb_to_maccor.py:BiologicMbToMaccorProcedure._create_loop_step"]}
{"id": "C143", "title": "Column types of structured data", "statement": "Structuring gives every column named in the table of types its type and leaves all others alone: whole numbers in the range of an integer type stay, numbers become the ones with 24 binary digits next to them, missing numbers stay missing; a missing value in a column of integers and a text in a column of numbers are errors. Casting again changes nothing, and a structured frame that is stored and loaded has the same values.", "quantifier": "all frames", "why_tests_cant": "Tests compare the names of the types of a few structured files with the table; no value that a cast changes, no missing value and no second cast is tried.", "anchors": ["beep/structure/base.py:BEEPDatapath._cast_dtypes", "beep/structure/base.py:BEEPDatapath.from_dict"]}
{"id": "C144", "title": "Inspecting a file", "statement": "beep inspect takes a file for what loadfn gives if that can be stored again; otherwise, after three kinds of errors, a name that ends in .json or .json.gz goes to the loader of structured files and any other to the loader of raw files, and a failure there is a ValueError. Of every kind of object all parts are printed under their headings, with the name of the file in the title; the text of every featurizer of a matrix is indented line by line.", "quantifier": "all files, loaders and objects", "why_tests_cant": "The one test of the command is skipped; it only looks at the exit code and that something is printed.", "anchors": ["beep/cmd.py:inspect"]}
{"id": "C145", "title": "Options of the retrigger script", "statement": "eval_args gives every option of the script under its name without dashes: flags and missing values as they are, True and False as flags, literals as their values, any other text as it is; ValueError and SyntaxError of the evaluation never leave it. The defaults in the usage text come out without their quotes. An option can be read and set as an attribute of the result.", "quantifier": "all options and texts", "why_tests_cant": "There are no tests of the script.", "anchors": ["beep/utils/retrigger.py:eval_args", "beep/utils/retrigger.py:DotDict"]}
{"id": "C146", "title": "Converting a Biologic file", "statement": "BiologicMbToMaccorProcedure.convert writes the converted text, and only that, to the file it is told to, and fails exactly if the file does not exist or cannot be decoded, converted, opened or encoded; after an error all files are as they were.", "quantifier": "all files, encodings and conversions", "why_tests_cant": "The test converts one file and removes the result without looking at it; its comment says that a comparison is still to be done.", "anchors": ["beep/protocol/biologic_mb_to_maccor.py:BiologicMbToMaccorProcedure.convert"]}
