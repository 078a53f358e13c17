# Formal model of TRI-AMDD/beep in Rocq (Coq 8.16.1)

## 1. What is here

* `properties.jsonl` – the properties (C01 …) in terms of the public API.
* `rocq/theories/` – the model, its proofs and the property theorems.
  * `Py.v` – shared vocabulary: exceptions as values, Python list/string operations.
  * `Model_<area>.v` – executable model of one source area; definitions only, every definition cites the file and
    lines in /repo that it models and says what is simplified.
  * `Spec_<area>.v` – where needed, the independent declarative specification a theorem refers to.
  * `Proofs_<area>.v` – lemmas.
  * `Props_<area>.v` – only `Theorem … Proof. exact lemma. Qed.`, `Print Assumptions`, and non-vacuity `Example`s.
* `MANIFEST.json` – property → status → theorem names.
* `seeded/LOG.jsonl` – wrong-program experiments.

## 2. Modelling conventions

* Python exceptions are values: `result A := Ok a | Err exn`.
* Floating point numbers are exact rationals (`Q`); `NaN` is `None` in `option Q`. Rounding is therefore outside the
  model; everything that depends on order, sign, equality of copied values, sums and linear combinations is inside.
* A pandas frame is a list of rows (records) or a list of named columns, whichever the code manipulates.
* Dictionaries are association lists in insertion order (Python ≥ 3.7).
* Strings are Coq `string`s (byte strings).

## 3. Plan per property

| id | modelled as | how it is proved |
|----|-------------|------------------|
| C01, C02 | `validate` / `check_type` branch by branch over named columns of optional rationals | induction over the schema; equivalence with a declarative `satisfies` relation |
| C03–C05 | `DiagnosticConfig` constructor, (de)serialiser, `from_step_numbers` | induction over the mapping; NoDup/length argument for the union test; set semantics of patterns |
| C06 | `step_is_chg_state` with NaN-aware mean and spike removal | case analysis |
| C07 | `interpolate_df`: linspace, outer merge, index interpolation, projection | induction over sorted samples; rational arithmetic |
| C08 | `interpolate_cycles` / `interpolate_step` cycle selection and row counts | list induction, filter reasoning |
| C09–C12 | `summarize_cycles` columns, last-cycle rule, pandas index alignment, paused time | induction; refutation witness for alignment |
| C13, C14 | `get_cycle_life`, `capacities_to_cycles` | first-match induction, relational induction |
| C15 | `get_CV_segment_from_charge` | loop induction |
| C16, C17 | datapath as a state machine with `structure/unstructure/save/load` | invariant over operation lists; refutation witness for the unstructured round trip |
| C18, C19 | `quantity_sum` loop and `split_string_by_fields` | loop invariant; string induction; refutation witness for the file tail |
| C20–C23 | Biologic cycle index, converter's version, rule (de)serialiser, header search | induction on records; bisimulation of the two loops |
| C24–C27 | Neware, Battery Archive, Novonix, splice | fold invariants |
| C28 | `auto_load` dispatch over match oracles | case analysis over the priority list |
| C29, C30 | unit and time conversion | rational arithmetic; refutation witnesses |
| C31–C34 | Maccor → Biologic converter: sequence numbering, gotos, techniques, filters, mappings | induction on the step list; refutation witnesses |
| C35–C37 | Biologic → Maccor converter | induction; refutation witnesses |
| C64–C66 | contents of back-converted steps, legality of gotos, composition of the two converters' unit conversions | case analysis; range map invariant; rational arithmetic |
| C38, C39, C67, C68 | Arbin schedule: nested dictionaries, their text and the reader, updates by label, fast charge | structural induction on the nested dictionary; path lemmas (get after set); updates compose |
| C40, C69, C70, C71 | Maccor → Arbin: labels and loop targets, the limits of a step, its control, the whole schedule | induction over the steps; shape of a compiled step (fixed fields, then limits); get-after-set on paths |
| C41, C42, C43, C72, C73 | Maccor procedure: steps as nested dictionaries and lists, each insert_ helper as a straight-line program of checks and assignments at places, the generators as sequences of helpers at offsets, the six shipped templates as data | induction over programs (frame, success condition, value left at each place); checks and assignments of a documented table correspond one to one to the program; computation on the shipped templates with symbolic parameters |
| C44, C74, C75, C76 | waveform files, driving profiles, multistep charging currents, velocity to power | run-length induction over the grouped frame; induction over the windows; rational arithmetic; refutation witnesses |
| C45 | generator: rows, templates, files as a dictionary, composed with the procedure and waveform models | induction on rows with a per-row contract (outcome, contents, frame); computation on the shipped templates; refutation witnesses |
| C46 | featurizer construction, as_dict/from_dict/from_json_file, all of features/base.py (Model_Features.v) | case analysis on the given hyperparameters; round trip through JSON with JSON and the class defaults as parameters; witness for repeated names |
| C47 | BEEPFeatureMatrix: identifiers, headings, grouping by file, sorting and stacking of rows, reload (Model_Features.v) | induction on the featurizer list; headings injective because class and hash have no colon; entries located through distinct headings; witnesses for run-together hyperparameters, tuples through JSON, empty matrix |
| C48 | BEEPDataSplitter.split with KFold for an arbitrary shuffling; plain and grouped (Model_Splitter.v) | folds are consecutive pieces of a permutation; groups of a fold pulled back to samples; printed group values as parameter; exact success condition; witness for a missing split value |
| C49 | BEEPDataSplitter.__init__ step by step, reload (Model_Splitter.v) | frames tabulated by columns, samples and a value function; every pandas step a rewriting of the tabulation; membership characterised exactly; witnesses for reload, features and exclusion columns |
| C80 | _remove_param_hash_from_features | splitting at the leftmost delimiter; idempotence; witness with two hyperparameter settings |
| C50 | BEEPLinearModelExperiment.__init__ and train (Model_Linear.v); the coefficient search and the standard deviation are parameters | tabulated frames as for C49; exact membership; witnesses for the unused feature threshold and for a feature without values |
| C51 | predict, including the renaming of the matrix passed in | tabulated frames; prediction as weighted sum of scaled numbers; witnesses for the report of dropped samples, second calls, extra columns, batch-dependent imputation, infinities |
| C81 | as_dict/from_dict of the experiment | equality of the fitted scaling when no sample is lost for its target; witnesses otherwise |
| C82, C83, C84 | CycleSummaryStats and DeltaQFastCharge: points of a cycle, numpy broadcasting, statistics, positions in the summary, names (Model_Stats.v); logarithm, skewness, kurtosis and line fitting are parameters | features as statistics of the change between the points of two cycles; positions translated to cycle numbers; witnesses for order of names, discharging energy, ignored hyperparameters, numbering, acceptance |
| C85, C86, C87 | get_fractional_quantity_remaining_nx, DiagnosticProperties, ExclusionCriteria: cumulated throughput, gaps, interpolation on a grid of 1000 points, extrapolation, pandas alignment and truth of missing values (Model_Degrade.v); parameter lookup and printing of the threshold are parameters | throughput as a sum over the regular cycles passed; a piecewise linear curve as an inductive relation, with slope bound and grid step giving the distance from the threshold; inclusion as an equivalence; witnesses for mixed tables, gaps, kinks, short runs, missing values |
| C88, C89 | interpolate_diagnostic_cycles and summarize_diagnostic: the step counter, the grouping and its order, choice of axis and range, interpolation per step, difference quotients, sorting; aggregation and constant voltage values per cycle (Model_DiagData.v) | a cycle cut into maximal series of one step index as a relation; the rows of one step are, up to order, the equally spaced points with interpolants of its own samples; every row traced back to its step; totality; witnesses for the fallback range, short runs and the charge step |
| C90–C93 | get_project_sequence, get_protocol_parameters, get_diagnostic_parameters, ChargingProtocol, determine_structuring_parameters, get_step_index: splitting of names, the glob, filtering by number, the decisions by columns, detection of diagnostics, the chain of conditions for steps, the dictionary of annotations and the final assertion (Model_Lookup.v) | a file name as project, number and ending; a table by positions; sets and numbers of steps as relations; the seven kinds of steps as disjoint descriptions; the annotation is proved equivalent to "every step has a kind and no two the same" |
| C94–C97 | DiagnosticSummaryStats, HPPCResistanceVoltageFeatures, res_calc, get_resistance_soc_duration_hppc, get_dr_df, get_hppc_ocv, get_v_diff, get_diffusion_coeff, get_fractional_quantity_remaining: the records of an HPPC cycle as runs of steps, sorting by time, pulses at times, rests, curves (Model_Hppc.v); logarithm, root, skewness, kurtosis, cubic interpolation and line fit are parameters | resistances of a cycle described by its runs of records; sorting by time lemma; shift invariance; names by computation; refutation witnesses |
| C98–C99 | RawInterpolatedData and TrajectoryFastCharge: channels by type, metric, step and position, filling of gaps, thresholds (Model_Image.v) | channels related one by one to their description; filling forward then backward characterised by nearest known value; number of thresholds from the ceiling; refutation witnesses |
| C100–C106 | the half-cell fit, second version: measured charge, scaling and blending of electrodes, emulated cell, errors, reported state, rows and features (Model_Intracell.v); the optimiser, the slopes and the standardised distance are parameters | reading of a curve given by points as a relation (on a point, between neighbours, beyond); interpolation proved to satisfy it; scaling and resampling as theorems about readings; grid resolution; induction over diagnostics; refutation witnesses |
| C107–C113 | the half-cell fit, first version: fresh and aged profile, matching, imposed losses, emulated cell, errors, reported state, rows and features (Model_Intracell_First.v); the optimiser, the quadratic spline, the square root and the slopes are parameters; one negative material | the reading relation of C100 under affine maps; exact sums of squares; distinctness of even grids; refutation witnesses |
| C114, C115 | Biologic settings files (Model_Mps.v): lines, header, fixed-width table, nested settings, writer, formation protocol as a list of assertions and assignments; the shipped template cell by cell (Template_Formation.v); str() of numbers is a parameter | induction over lines and cells; paths that diverge do not interfere; a decision procedure shows the template is well formed; refutation witnesses |
| C116, C117, C118, C119 | Maccor procedure files (Model_MaccorFile.v): _format_maccor, xmltodict.unparse and the text replacements of to_file, an XML reader and xmltodict's handler for from_file; the shipped templates line by line (File_*.v); str() of numbers is a parameter | induction over nested values for writing, replacing and reading; the insert_ statements keep steps writable (safe statements); shipped files by computation |
| C120, C121 | time stamps of raw files (Model_Stamp.v): strptime of the Maccor layout, the calendar, tz_localize and conversion to UTC with the daylight saving rule as a parameter; the cast to 32 bits of Arbin times | the calendar proved to count days one by one; both readings of a repeated hour; rounding error of the cast; refutation witnesses |
| C122–C127 | readers of raw files (Model_RawFile.v): header line, file name, choice of schema, lower-casing, conversion and renaming of columns, metadata file, spectrum files and the search for them, paths of a reloaded datapath, EIS objects; read_csv, casts and directory listings are parameters | values with blanks around them as a relation; lookup in the result for every column; fnmatch with one star characterised; labels that cannot overlap themselves; refutation witnesses |
| C128, C129, C130, C131 | Model_CyclerFile: lines of bytes as `str()` shows them, the search for channel, comment and protocol, the conversion of the cells, the summary and the table of Novonix files, times with fractions and with twelve hours | The loop over the lines is split into three independent folds (channel, comment, protocol); the table is that of C59; texts of times are built from the calendar of C120 and read back; refutations are evaluated on small files |
| C132, C133, C134 | Model_Transfer: the listing, the copy and its key, the buffer that is not emptied, the choice of files to process again, the two ways to quote | Replacement of a text is an inductive relation that the splitting at the text is shown to meet; the choice of files is a filter and is compared with a statement about the listing; command lines are read by two small readers of words, one for each system, run on the quoted text by induction |
| C135, C136 | Model_RapidCharge: the nodes and clipped rates of the smooth current, the shift of the rates found by a root finder, both currents resampled to seconds, the configuration of the file | Nodes go up by induction over the mesh, so the interpolation applies; times are running sums of positive increments, bounded by the smallest and largest current; resampling is convex; the file is that of C44 with the largest current as scale |
| C137-C139 | Model_Components: pivot tables by file, their concatenation by label, the number of components, whitened embeddings, percentiles, reconstruction errors | A row of the table by label equals the cell of its frame, kept under concatenation; percentiles by position in the sorted column, equivariant under whitening, monotone, with counts on both sides |
| C140, C141 | Model_SpliceFile: files as lines, tables by label, seven running columns. Model_Identity: the id as one text | Lines and tabs are split and joined back; columns are changed one by one, the others kept. The id is cut at the first dash, field by field |
| C142 | Model_B2MFile: steps as values, written with carriage return and line feed, empty elements abbreviated, first line replaced | The text is that of C116 with other line ends; abbreviating commutes with changing the line ends; reading ignores them |
| C143 | Model_Dtypes: the table of types, one cell of astype and of pd.Series | Exponent of a positive number; rounding to 24 digits is near and idempotent; cells, then columns by mapM |
| C144 | Model_Inspect: loaders and printers as parameters, printed texts as a list | Cases of the loaders; sections by position; lines by induction on the text |
| C145 | Model_Options: options as a list, literal_eval as a parameter | Cases of one value; setting distinct names appends; first error by mapM |
| C146 | Model_B2MConvert: files as bytes by name, coding and conversion as parameters | Cases of the outcome; line feeds by induction |
| C52, C53, C54, C77, C78, C79 | the commands structure, protocol, train, featurize, predict of beep/cmd.py over a file system (dictionary of paths) with loading, validating, structuring, featurizing, fitting, hashing and writing as parameters that may fail (`Model_Cmd.v`) | loop invariants over the list of files: the status of a file is a function of that file alone; refutation witnesses for the findings |
| C55–C58 | per-cycle summary columns, capacities at cycles, cycle life after reload, recorded structuring parameters | induction over cycles; refutation witnesses |
| C59–C61 | Biologic table and channel ids, Indigo half cycles | column induction; arithmetic; case analysis |
| C62, C63 | contents of the converted sequences and the exported fixed width table | chain of dictionary updates with frame lemmas; string induction |

Not modelled at all: numerical fitting and global optimisation (scipy/sklearn, parameters of the models), plotting, S3 transport,
pandas dtype down-casting, text encodings, the operating system's file system.

## 4. Trusted base

**Kernel.** Coq 8.16.1's kernel and the compiled standard library. Nothing else is loaded: no plugin, no other library.

**Axioms.** Every property theorem is followed by `Print Assumptions` in its `Props_*.v` file, and each one answers
"Closed under the global context": no theorem rests on an axiom, neither of the standard library nor of our own. `coqchk`,
which lists the axioms of every library that is *loaded* and not those a theorem uses, names
`ClassicalDedekindReals.sig_forall_dec`, `ClassicalDedekindReals.sig_not_dec`,
`FunctionalExtensionality.functional_extensionality_dep` and `ssrunder.Under_rel` (all from Coq's own standard library,
pulled in by the tactic `lra`/`nra` files). No `Admitted`, no `Axiom`, no section-less `Variable`, no functor.

**Parameters.** What the code takes from outside is an explicit argument of the theorems (a section variable that is
discharged, so that every theorem holds for all its values):

* numerical libraries: logarithm, square root, skewness, kurtosis, standard deviation, polynomial and spline fits,
  difference quotients of the half-cell fit, optimisers (`differential_evolution`), regularised regression, the shuffling of
  cross validation;
* printing of floats (`show`), hashing (`md5`, the feature hash), JSON of values that are not modelled (`json`);
* files: tables of parameters, the shipped templates a generator is given, raw frames, driving profiles, the glob of a directory;
* in `Model_Cmd.v`: loading, validating, structuring, featurizing, fitting and writing, each of which may fail.

A theorem that needs something of a parameter (for example that printing two different numbers gives different texts) says so as
a premise.

**The model itself.** That the definitions of `Model_*.v` say what the Python code does is not proved but read off: every
definition cites the lines it models, or the definition it is a part of. Simplifications are stated at the definition. The ones
that hold throughout: floats are exact rationals (no rounding, no overflow; NaN is `None`), a frame is the list of its rows or
columns without dtypes, strings are byte strings, dictionaries are insertion ordered, logging, progress bars and warnings are left out,
the text of exception messages is left out unless a property mentions it. `Py.v`, `Num.v` and `Model_Text.v` model Python's and
pandas' own operations, not code of /repo.

**Which code is modelled.** By file (tests excluded). "Partly": some of the lines, or only what a property needs of them, are
modelled. "Not": none.

| file in /repo | Model_ | modelled | partly | not |
|---|---|---|---|---|
| `beep/cmd.py` | Cmd, Inspect | 9 of 11 functions | – | `__init__` (86-99), `cli` (215-245) |
| `beep/deprecated/parameters_lookup.py` | Lookup | all | – | – |
| `beep/features/base.py` | Features | all | – | – |
| `beep/features/core.py` | Degrade, Hppc, Image, Lookup, Stats | 20 of 21 functions | `get_summary_statistics` (211-254) | – |
| `beep/features/featurizer_helpers.py` | Degrade, Hppc, Lookup | all | – | – |
| `beep/features/intracell_analysis.py` | Intracell_First | 13 of 31 functions | – | `get_dQdV_over_Q_from_halfcell_initial_matching` (157-177), `get_error_dQdV_over_Q_from_halfcell_initial_matching` (179-187), `get_dQdV_over_V_from_halfcell_initial_matching` (189-233), `get_error_dQdV_over_V_from_halfcell_initial_matching` (235-242), `get_dVdQ_over_Q_from_halfcell_initial_matching` (244-264), `get_error_dVdQ_over_Q_from_halfcell_initial_matching` (266-278), `get_dVdQ_over_V_from_halfcell_initial_matching` (280-326), `get_error_dVdQ_over_V_from_halfcell_initial_matching` (328-335), `blend_electrodes_robust` (337-376), `blend_electrodes_robust_v2` (378-446), `halfcell_initial_matching` (572-672), `get_error_dQdV_over_V_from_degradation_matching` (812-821), `get_dVdQ_over_SOC_from_degradation_matching` (823-850), `get_error_dVdQ_over_SOC_from_degradation_matching` (852-862), `halfcell_degradation_matching_v2` (967-1037), `get_voltage_curves_for_cell` (1039-1051), `blend_electrodes` (1176-1233), `plot_voltage_curves_for_cell` (1285-1310) |
| `beep/features/intracell_analysis_v2.py` | Intracell | all | – | – |
| `beep/features/intracell_losses.py` | Intracell_First | all | – | – |
| `beep/features/intracell_losses_v2.py` | Intracell | all | – | – |
| `beep/features/principal_components.py` | Components | 9 of 10 functions | – | `as_dict` (75-90) |
| `beep/model.py` | Cmd, Linear | 9 of 11 functions | – | `from_json_file` (565-574), `to_json_file` (576-586) |
| `beep/prediction/beep_data_splitter.py` | Splitter | all | – | – |
| `beep/protocol/arbin.py` | Arbin | all | – | – |
| `beep/protocol/biologic.py` | Mps | 3 of 4 functions | – | `from_file` (36-59) |
| `beep/protocol/biologic_mb_to_maccor.py` | B2M, B2MConvert, B2MFile | all | – | – |
| `beep/protocol/generate_protocol.py` | Generate | all | – | – |
| `beep/protocol/maccor.py` | Generate, MaccorFile, Procedure, RapidCharge, Waveform | all | – | – |
| `beep/protocol/maccor_to_arbin.py` | M2A | 6 of 7 functions | – | `__init__` (43-44) |
| `beep/protocol/maccor_to_biologic_mb.py` | Biologic, M2B, Units | 33 of 36 functions | – | `__init__` (41-94), `load_maccor_ast` (472-476), `__init__` (1303-1321) |
| `beep/structure/arbin.py` | RawFile, Stamp | all | – | – |
| `beep/structure/base.py` | Datapath, DiagData, Dtypes, Identity, Image, Interp, Raw, RawFile, Structure, Summary | 39 of 42 functions | – | `from_file` (281-293), `step_is_waveform_dchg` (1418-1419), `step_is_waveform_chg` (1422-1423) |
| `beep/structure/base_eis.py` | RawFile | 3 of 6 functions | – | `from_file` (42-51), `__init__` (97-99), `load_eis` (102-124) |
| `beep/structure/battery_archive.py` | Load, Readers | all | – | – |
| `beep/structure/biologic.py` | Biologic, CyclerFile | 7 of 8 functions | – | `__repr__` (296-310) |
| `beep/structure/cli.py` | Load | all | – | – |
| `beep/structure/diagnostic.py` | Diagnostic | all | – | – |
| `beep/structure/indigo.py` | Readers | all | – | – |
| `beep/structure/maccor.py` | Maccor, RawFile, Stamp | all | – | – |
| `beep/structure/neware.py` | Readers | all | – | – |
| `beep/structure/novonix.py` | Biologic, CyclerFile, Readers | all | – | – |
| `beep/structure/validate.py` | Validate | 2 of 3 functions | – | `__init__` (65-71) |
| `beep/utils/__init__.py` | Arbin, Mps, Transfer | 7 of 8 functions | – | `hash_file` (40-49) |
| `beep/utils/memprof.py` | – | – | – | `memory_profile` (33-77), `cache_s3_objs` (80-120), `cache_all_kitware_data` (123-134), `hook` (137-143) |
| `beep/utils/project_transfer.py` | Transfer | all | – | – |
| `beep/utils/retrigger.py` | Options, Transfer | all | – | – |
| `beep/utils/s3.py` | – | – | – | `download_s3_object` (7-18), `list_s3_objects` (21-33) |
| `beep/utils/splice.py` | Readers, SpliceFile | 5 of 6 functions | – | `__init__` (23-32) |
| `beep/utils/waveform.py` | RapidCharge, Waveform | all | – | – |
