# Formal model of HyVR in Rocq

Subject: driftingtides/hyvr at the pinned commit in /repo (Python package in the
middle of a port from Cython; the source was read as text and never run).

## Layout

    rocq/theories/Base.v, Num.v   exceptions as values, Python list access; the
                                  class Num of exact numbers with instances Q, R
    rocq/theories/<X>Model.v      model of one part of the code; definitions only,
                                  each citing file and lines in /repo
    rocq/theories/<X>Spec.v       words of the properties as predicates on inputs
                                  and observable results, without model helpers
    rocq/theories/<X>Proofs*.v    lemmas
    rocq/theories/<X>Props*.v     property theorems with examples and
                                  Print Assumptions
    properties.jsonl              the properties in words
    MANIFEST.json                 property -> theorems
    seeded/LOG.jsonl              wrong programs tried against the theorems

## Conventions

* Exceptions are values of an error type; a function that may raise returns
  `Ok v` or `Err e` with the exception class.  `OutOfModel` marks an input the
  model does not cover; theorems do not speak about such runs.
* Random draws are arguments (lists or functions), quantified universally.
* Loops that Python writes with `while` get fuel and return the separate error
  `OutOfFuel`; theorems say how much fuel is enough, or that none is.
* Numbers: the code uses IEEE doubles.  The model uses exact numbers.  Code that
  only compares, adds, multiplies and divides is written once over a class
  `Num T` and used at `Q` (computable: examples and witnesses by vm_compute) and
  at `R`; code with sqrt/sin/cos is written over `R`.  Rounding is only modelled in
  FloatModel (grid coordinates, VTR nodes, layer bottoms), with Flocq's binary64.
* Mutable objects that are shared (contact surfaces, the contact model of an
  element type) live in a store and are referred to by index, so aliasing
  behaves as in Python.
* A Python name that is not defined in its module is modelled as a parameter
  (record `names`); the program as it is has the value "undefined", which raises
  NameError.  Theorems on the formulas assume the name is defined and say so.
* Where a class exists as .py and .pyx the .py file is the one that is modelled,
  unless only the .pyx exists (trough, channel and their elements).

## Verdict on a property

A property of properties.jsonl is what a user relies on.  If the code satisfies
it, a theorem states it for the model.  If it does not, a theorem with suffix
`_refuted` gives a concrete configuration on which the model violates it, and a
theorem with suffix `_partial` or without suffix proves it under the weakest
condition found.  MANIFEST.json says which.

## What is modelled, file by file

| file in hyvr/ | modelled | model | simplified or left out |
|----|----|----|----|
| input/option_parsing.py | all functions and classes | ParseModel | strings are ASCII; `float`/`int` conversion of a text is a parameter (arbitrary partial function); error texts are dropped, the exception class is kept |
| input/options.py | all option tables | ConfigModel | - |
| input/parameters.py l. 97-104, and configparser as it is used there | text of the file to section dictionaries | IniModel | bytes instead of decoded characters; interpolation when the file is read |
| input/parameters.py l. 485-490, 519-521, and ConfigParser.write | text of the backup file | BackupModel | the backup is encoded like the file that was read; line ends of POSIX |
| postprocess/output.py l. 433-449 | text of the HydroGeoSphere files (np.savetxt, %e and %f) | HgsModel | values are real numbers, rounding to decimals is exact |
| input/parameters.py parse_inifile | all checks in order | ConfigModel | numbers through the converters |
| input/option_parsing.py l. 71-75 | warnings about unknown options | WarnModel | listed per file, not in the order of printing |
| input/parameters.py parameters, setup_from_inifile, set_up_directories | names, deletion, creation, copying | DirsModel | disk = tree with symbolic links; permissions and other kinds of files are left out; the built-in test case (`inifile == 0`) is in TestCaseModel |
| input/parameters.py old format, input/options_deprecated.py, geo/ae_types.py | recognition, parsing, conversion, choice of the class | DeprecatedModel | element tables are refused by the code and not modelled further |
| geo/contact_surface_utils.py | all | ConfigModel | - |
| geo/grid.py, geo/contact_surface.py | all | SurfaceModel | arrays flattened by i*ny+j; random and loaded surfaces are arguments |
| geo/model.py generate_model, geo/stratum.py, geo/ae_realization.py, geo/sheet_ae.py generate_objects | all | StrataModel, BuildModel (numbering) | objects of troughs and channels enter with their vertical extent; their shape is in TroughModel and ChannelModel and joined in TroughBuild |
| assign_points.py | all | AssignModel | what an object does with a point is a parameter, instantiated for troughs, sheets and channels |
| geo/trough.pyx, trough_ae.pyx, trough_utils.py | all | TroughModel | real arithmetic |
| geo/sheet.py, sheet_ae.py lookup | all | SheetModel | - |
| geo/channel.pyx, channel_ae.pyx | all | ChannelModel | C ints unbounded |
| geo/channel_utils.py, optimized.py curve_interp | all | CurveModel | arcsin is total |
| optimized.py set_anisotropic_ktensor | all | TensorModel | - |
| utils.py get_alternating_facies | all | FaciesModel | - |
| utils.py specsim | all | SpecsimModel | the discrete Fourier transform is the exact finite sum; a correlation length of 0 (nan in numpy) divides as in Coq, x/0 = 0 |
| geo/model.py generate_hydraulic_parameters | all | HydraulicsModel | arrays of the grid with masks (ArrayModel) |
| postprocess/output.py | create_outputs, arrays and arguments handed to flopy, rows of HGS, coordinates of VTR | OutputModel | file contents produced by scipy, h5py, pyevtk, flopy; number formatting |
| geo/model.py, stratum.py, ae_realization.py and the three element types together | generation with the objects of every type, arrays of the cells | FullModel | what is read outside the facies table of a trough or channel is a parameter; the IndexError of a sheet is replaced by an arbitrary facies |
| geo/model.py l. 39-64 and 95-121, geo/ae_types.py, option reads of the element modules | from the parsed configuration to the parameters of generation | LinkModel | floats are real numbers where finite; the options of the types of a stratum are read before the stratum is made (the code reads them with each element) |
| geo/model.py l. 53-59 and 154-293 (option reads) | settings, hydraulics section and trends of the elements, with the arrays of a generated model | HydroLinkModel | trends of all elements are read first; NaN angles count as 0 (only the tensors depend on them) |
| geo/grid.py l. 48-56, postprocess/output.py l. 158-160 and 300-310, np.arange | the same coordinates in IEEE doubles | FloatModel | product and sum in the fill loop of np.arange are rounded separately (no fused multiply-add); memory is unlimited; np.around left out (keeps the number of entries) |
| sim.py run, __main__.py l. 15-22, file names of postprocess/output.py | the run on disk: realization directories, files of the formats, exit status | SimModel | contents of the files are functions of the data of the realization (arbitrary); failing writers of single files leave nothing |
| model.data after assign_points and generate_hydraulic_parameters | names of the fields | FieldsModel (on RunModel) | arrays are functions of the cell |
| sim.py run | loop over realizations, state left behind | DirsModel, RunModel | assignment, hydraulics and saving are functions of the strata and of the arrays of the same realization |
| geo/stratum.py l. 6-8, 51-107, with generate_model | draws of types, thicknesses and avulsions from raw random numbers | ChoiceModel | np.random.choice, normal and uniform by their documentation: choice compares one uniform number with the cumulated probabilities, probabilities with sum 0 raise ValueError |
| geo/trough_utils.py l. 26-55, geo/channel_utils.py l. 118-134 | positions of troughs and deviations of channels from raw random numbers | NoiseModel | np.random.poisson is an arbitrary function of its mean |
| postprocess/plotting.py cross_section_pcolor | rows looked up and data shown | PlotModel | drawing, colours, file names |
| utils.py print_to_stdout, geo/model.py print_model, the rest of postprocess/plotting.py, setup.py, deploy.py | nothing | | output for people, packaging |

MODFLOW conventions used in OutputSpec: layers are counted downward, rows
against y, delr are the widths along a row (x), MODFLOW 6 angles turn the
principal axes by the matrix of its documentation.

## Plan per property

| id | modelled code | how |
|----|----|----|
| C01, C02, C72 | parse_list on ASCII strings | induction over lists; C02, C72 false: witness |
| C03-C05 | numdim ... compare_shapes, list branch of Option.parse on nested lists | induction over nested lists; C05 false for 2-d shapes: theorem for all shapes |
| C06 | Section.parse, Option.parse over association lists | induction over option list |
| C07 | parse_bool | case analysis on strings |
| C08, C09 | parse_contact_model, ContactSurface.__init__ mode dispatch | characterisation; C09 false: witness |
| C10-C12, C71, C75 | the checks of parse_inifile per element, parse_facies, ae_id | induction; C11, C71, C75 false: witness |
| C13, C14, C73, C74 | name/dir logic of parameters() | strings; C14, C73, C74 false: witness |
| C15-C18, C70 | set_up_directories as list of file system steps | all prefixes of the step list = all crash points; C17, C18 false |
| C19 | naming of realization directories in run() | injectivity of zero-padded decimal |
| C20, C21 | np.arange, Grid.__init__, to_vtr | arithmetic over R/Q; C21 only for multiples |
| C22 | ContactSurface over a store | invariant over all call sequences |
| C23, C24 | surface part of generate_model | induction over strata; C24 false for z0<>0 |
| C25-C27, C77 | Stratum.__init__ | loop invariant; C26 false in general (witness: no progress) |
| C28-C30, C79 | SheetAE.generate_objects | loop invariant on the store; C29, C30 false: witness |
| C31 | AERealization.__init__ | case analysis |
| C32-C36, C105 | assign_points.py | refinement of resumed search to first match |
| C107, C108 | whole path from the ini-file to the cells | inversion of parsing and linking, then C106; C108: option tables computed per geometry |
| C109 | from the ini-file to the hydraulic parameters | lengths of fitted lists (a flat result only fits its own length), then C107, C54, C55, C58 |
| C110-C112 | coordinates in double precision | error bounds in units of the cell size, then the ceiling; exact cases by representability; witness computed |
| C34, C106 | generation of all element types joined with assign_points.py | invariants of the generated elements feed the refinement; C106 false for dipping sheets: witness |
| C37 | numbering in generate_model and array copies | false: theorem |
| C38-C44 | trough.pyx, trough_ae.pyx | real arithmetic |
| C45, C46 | trough_utils.py | induction over planes |
| C47-C49, C80-C82 | channel.pyx, channel_ae.pyx | real arithmetic, invariant on dont_check |
| C50 | sheet.py | false: witness |
| C51 | get_alternating_facies | induction |
| C52, C53, C78, C86, C88 | set_anisotropic_ktensor | trigonometry; names resolved by module scope |
| C54-C58, C83-C87 | generate_hydraulic_parameters | fold over masks |
| C59, C91, C96 | create_outputs | induction over format list |
| C60-C62, C92-C95, C97 | index maps of the writers | index arithmetic |
| C63, C64, C89, C90 | curve_interp, ferguson_curve | loop invariant, real arithmetic |
| C65, C66, C98-C104 | get_new_parameters_from_deprecated | characterisation of the converted sections; witness |
| C67, C68 | specsim: masks; Fourier sum with first row zeroed | induction; sums of roots of unity |
| C113, C114 | from the ini-file to sizes, angles and contact elevations | inversion of parsing and linking, then C45-C47, C23 |
| C115 | cross_section_pcolor | rounding to rows; false for cell sizes other than 1: witness |
| C116-C118 | prob_choose and Stratum with raw random numbers | cumulated sums; inversion of generation; C118 false: witness |
| C119-C121 | starts of channels, positions of troughs, deviations | induction over levels and planes; C120 (variances), C121 false: witness |
| C122 | angles of cells | C32 (assignment), C113 (objects) and a case distinction on the structures; massive channels: witness |
| C123 | lines of the ini-file | grammar of layouts; induction over the lines with the state of the reader |
| C124 | parsing with and without unknown options | relation between two runs of parse_inifile; old format: witness |
| C125 | te_xyz from the file to the troughs; cells inside objects | parser facts + positions kept by make_troughs; exhaustive search finds an object of the element; witness with an unsorted list |
| C126 | backup text of the ini-file read again | invariant of the reader (what it stores can be written), reading of the written lines; combined with the file system of C16 and C13 |
| C127 | text of the HydroGeoSphere files | reading of decimals as a relation; half a unit of the last digit; Frobenius norm of the rounding error against the smallest eigenvalue; witness |
| C128 | the run directory after a run | commands below the run directory as updates of a finite map of paths; files and folders are told apart by their names; injectivity of the paths |
| C129 | options left out | the option tables are looked through by computation for every documented option |
| C130 | fields of the output | the dictionary of a realization computed from an empty one (C69) |
| C131 | strata, elements, sheets, cells in double precision | the proofs of C23, C25, C27, C28, C32, C34 for any sums, products and quotients on real numbers that are ordered truthfully (OrderSpec); NumF (OrderModel): each operation rounded to the nearest double, tied to binary64 of Flocq |
| C132 | internal heterogeneity from the ini-file | InternalSpec states where each factor is written in the file; InternalProofs evaluates the loops over elements and facies; InternalProps links the option tables |
| C133 | covariance of the random fields | any expectation operator with uncorrelated draws of variance 1 (CovSpec); the spectrum is the absolute value of a cosine transform centred in the box (rotated and reversed sums); inverse transform by sums of roots of unity |
| C134 | thickness of layers | truncation towards zero characterised by intervals; the cells of the counterexamples are constructed from the centre of any large enough object |
| C135 | ends in double precision | StrataModel over NumF (OrderModel); each step takes at least half the thickness by the error bound of rounding; a negligible thickness leaves the elevation unchanged |
| C136 | massive sheets in double precision | the loop over NumF; monotonicity of rounding and Sterbenz' lemma; the counterexample is computed from the mantissas |
| C137 | the test case leaves nothing behind | TestCaseModel (mkdtemp, rmtree, run_test) on the file system of DirsModel; the plan of the run from SimProofs2, started in an empty directory |
| C138 | the command line | TestCaseModel (classify, parse_args, main) follows argparse of Python 3.11; compared with argparse on 1757 argument lists outside of the proofs |
| C139 | old format: required options and defaults | OldSpec lists the required options with all their names; options before an option in a table do not touch its names, so a missing required option is found missing (OldProps) |
| C140 | cells inside several channels | `first_containing` and `shows` (OverlapSpec) are stated with the parabola of C47; the search through the objects stops at the first hit (`first_at`), and the cached distances do not matter (`clean_check`) |
| C69 | run() | simulation between the run with shared state and separate runs |
| C141 | cells inside several troughs | `first_trough`, `shows_trough` (OverlapSpec) with the lower half of an ellipsoid as in C47; the search of C140 with the check of troughs; the order of the list from the elevations of trough_utils |
| C142 | numbers have the value written | NumberSpec writes a number as sign, digits, point, digits, exponent and gives its value digit by digit; py_float and py_int (NumberModel) are inverted against it, lists by C01 |
| C143 | origin of the horizontal axes | OriginSpec moves points and settings; the generation of the moved grid is related step by step (`rel2`), the search of assign_points is pulled back along the shift; exact statement of how far channels move, witness for inclined sheets |
| C144 | size of the cells | RefineSpec relates surfaces (the same plane over another number of columns), elements and objects; the generation on the second grid is related step by step (`rel2`); the conditions of C34 carry over, so both cells are what the exhaustive search finds, and the searches agree |
| C145 | strata above a contact | AboveSpec: common ends of the lists of contacts and parameters, common start of the draws; after k rounds of the loop both runs are in the same state, and the rest of either run keeps the elevations of existing surfaces; the exhaustive search of C34 meets the common strata first |
| C146 | references in the ini-file | ReferSpec: what a text stands for, as a relation with a depth; the text before, inside and behind a reference is found by the position of the bracket; ten levels by induction on the depth; a circle of references needs any depth |
| C147 | section DEFAULT | InheritSpec: which options a section takes over; the invariant of the reader is generalised to a current section that is an ordinary one or DEFAULT, so options of DEFAULT never enter the list of sections; then C146 with the completed options |
| C148 | unit of length | UnitSpec says which settings, draws and results are lengths; every function of the generation commutes with the scaling (equations, no relation needed because the scaling is a function of the results), comparisons and quotients of lengths do not change; the search of assign_points is related object by object |
| C149 | unit of length, channels | the nearest distance scales because the initial 10^100 plays no part within reach; the parabola and the lag compare lengths; witnesses: the domain of C48_wide_cells_refuted in a unit ten times as long, and the number of layers for a centreline of one point |
| C150 | order of sections and options | two files are alike if the names of sections are a permutation and every option has the same text; parse_inifile, link and run_hydraulics read dictionaries by key only, the list of element types by name; the same for the sections of the old format with their alternative names and the conversion; the examples read files backwards |
| C151 | unused element type | with one more section at the end the other sections parse to the same dictionaries but for the list ae; the numbers of the listed types and the look-ups by name stay; link and run_hydraulics read no other entry |

## Not modelled

* IEEE rounding outside C110-C112, C131, C135 and C136; overflow, NaN arithmetic (NaN
  appears only as "value absent").
* numpy/scipy/h5py/pyevtk/flopy
  internals, drawing of figures, progress output.
* The distribution of random draws: theorems quantify over all outcomes.
* Import-time and version problems of the commit: `np.float` (removed from numpy
  1.24), the annotation `ContactSurface` inside its own class body, missing .pxd
  files for classes ported to Python.  They are listed here because they stop
  the program before any of the modelled code runs; the model describes the code
  as if these names resolved as intended, except where a property is about it
  (C53, C63, C64, C79, C99).

## The repository's own tests

RepoTests.v runs the ini-files of /repo/tests and the cases of
tests/unittests/input/test_parameters.py through the model; the expected values
are those of the tests.

## Wrong programs

The theorems are tried against edits of the model definitions in a scratch copy
(seeded/LOG.jsonl: definition, edit, claim that breaks, theorems that no longer
hold, theorems tightened).  A theorem counts as failed if its proof, or the
proof of a lemma it depends on, no longer goes through.  The proofs follow the
text of the model, so an edit that does not change the meaning may also fail;
such entries carry a note.

## Trusted base

* The Coq 8.16.1 kernel (the compiled files are checked again by coqchk), with
  no check switched off; vm_compute is used in examples and witnesses.
* The transcription of the code into the model files, by reading.
* The axioms below, all of the standard library.  No axioms are added; there are
  no section-less variables or hypotheses.

## Axioms per theorem

As listed by Print Assumptions, for the theorems of MANIFEST.json.

### Closed under the global context (140)

C01_list_literal_round_trip, C02_three_levels_partial, C02_three_levels_refuted, C03_accepted_named_shape_partial, C03_accepted_shape_partial, C03_mixed_depth_refuted, C04_option_stores_it, C04_replication_1d, C04_replication_2d, C05_scalar_partial, C05_scalar_refuted, C06_missing_required, C06_missing_required_never_ok, C06_option_lookup, C07_parse_bool, C08_contact_model, C08_contact_model_rejected, C08_file_contact_models, C100_bulb_l_refuted, C100_structures_partial, C101_background_facies_refuted, C101_no_background_partial, C102_recognised_partial, C102_recognised_refuted, C103_levels_partial, C104_model_settings, C104_run_settings, C105_lost_facies_refuted, C108_section_complete, C10_facies_positions, C10_position_bounds, C10_unknown_rejected, C118_avulsion_refuted, C11_bulbset_refuted, C11_dipset_present_partial, C123_accepted, C123_byte_order_mark, C123_read, C123_settings, C124_no_influence, C124_old_refuted, C124_old_warned, C124_warned, C126_run, C126_same_file, C126_same_settings, C128_nothing_else, C128_outputs, C129_avul_prob_refuted, C129_defaults, C129_required, C12_type_identifiers, C12_unlisted_rejected, C130_fields_partial, C137_failure_leaves_refuted, C137_no_trace_partial, C137_not_packaged, C137_only_new, C138_asked_for, C138_file_name, C138_overwrite_refuted, C138_separator, C138_status, C138_usage, C138_wrong, C139_defaults, C139_required, C13_backup, C13_backup_round_trip, C13_default_name, C13_given_name, C142_float, C142_int, C142_lists, C146_circle, C146_one_meaning, C146_references, C147_default, C147_plain, C14_subdirectory_partial, C14_subdirectory_refuted, C150_either_format, C150_exception_refuted, C150_settings, C15_existing_output_kept, C15_outside_refuted, C15_outside_untouched_partial, C16_links_refuted, C16_new_directory, C16_only_backup, C17_flag_ignored, C17_flag_refuted, C18_crash_partial, C18_crash_refuted, C19_inside_run_directory, C19_names, C19_realizations_distinct, C19_single_realization, C21_nodes_refuted, C24_top_refuted, C29_inside_refuted, C34_every_cell_refuted, C34_origin_refuted, C35_missed_cell_refuted, C37_numbers_partial, C37_unique_ha_refuted, C51_element_facies, C51_every_sequence, C51_never_fails, C51_sequence, C59_files, C59_formats, C65_element_background_partial, C65_element_background_refuted, C65_strata_background, C66_old_channels_refuted, C66_old_geometries_partial, C69_independent, C69_strata, C70_no_change_unless_accepted, C70_rejected_unchanged, C71_single_stratum_refuted, C72_between_refuted, C72_entries_partial, C72_line_break_refuted, C72_numbers_partial, C73_modeldir_refuted, C74_nested_runname_refuted, C74_new_fails_refuted, C74_overwriting_fails_refuted, C75_missing_run_refuted, C75_missing_section_partial, C77_nonempty_stratum_refuted, C79_python_sheets_refuted, C91_saved_message_partial, C91_saved_message_refuted, C98_sheets_complete, C98_troughs_complete, C99_ae_table_refuted, C99_no_table_partial

### `ClassicalDedekindReals.sig_forall_dec` (3)

C130_names_refuted, C62_rows, C62_written

### `ClassicalDedekindReals.sig_forall_dec`, `FunctionalExtensionality.functional_extensionality_dep` (85)

C09_contact_model_partial, C09_contact_model_refuted, C105_object_numbers, C113_grid, C115_border, C115_centre_missing_refuted, C115_cross_section_partial, C115_positions, C115_scaled_position, C115_wrong_row_refuted, C116_choice_fails, C116_choice_interval, C116_share, C118_raised_partial, C119_both_sides, C119_bounds, C120_moved, C120_negative_scale, C120_scattered, C131_cells, C131_elements, C131_every_cell, C131_sheets, C131_strata, C151_first_refuted, C20_any_size, C20_exact_tiling, C21_nodes_fit_iff, C21_nodes_partial, C22_bounds_kept, C22_clip_defined, C22_new_surface_bounds, C22_use_higher, C22_use_lower, C23_strata_stack, C24_top_partial, C25_elements_disjoint, C25_elements_tile, C26_ends_partial, C26_ends_refuted, C27_bounds, C28_sheets_end, C28_sheets_fill, C29_inside_partial, C30_ends_partial, C30_ends_refuted, C31_background, C32_arrays, C32_assigned_cells_located, C32_one_result_per_cell, C33_resume_hanging_objects, C33_resume_is_exhaustive, C34_every_cell_partial, C35_missed_cell_loses_column, C36_columns_independent, C36_without_state, C37_element_numbers, C45_descending, C45_migrated, C45_planes, C45_random, C46_between, C46_linear, C46_no_trend, C60_mf6_upside_down_refuted, C60_modflow_refuted, C60_upside_down_refuted, C61_mf6_refuted, C61_modflow_refuted, C63_name_error_refuted, C77_by_stored_means_partial, C82_levels_end, C82_nonpositive_agg, C92_mf6_heads, C92_modflow_heads_refuted, C92_one_row_refuted, C93_heads_partial, C93_without_heads_refuted, C94_default_wells_refuted, C94_wells_partial, C96_without_hydraulics_refuted, C97_mf6_empty_layer_refuted, C97_mf6_layers_partial, C97_mf6_layers_refuted, C97_modflow_layers

### `ClassicalDedekindReals.sig_forall_dec`, `ClassicalDedekindReals.sig_not_dec`, `FunctionalExtensionality.functional_extensionality_dep` (86)

C103_level_ae_refuted, C106_dip_sheets_refuted, C113_background, C113_channel_levels, C113_objects, C113_trough_planes, C114_boundaries, C116_types, C117_elements, C119_from_file, C119_starts, C120_variance_partial, C120_variance_refuted, C125_placed, C127_definite_partial, C133_covariance_partial, C133_covariance_refuted, C133_opposite_sides_refuted, C133_same_variance, C133_stationary, C133_variance_partial, C134_bulb_sets, C134_channel_layers_partial, C134_sheet_layers_partial, C134_sheet_refuted, C134_trough_layers_partial, C141_highest_first, C143_channels_refuted, C143_sheets_refuted, C149_layers_refuted, C39_constructor_total, C50_constructor_refuted, C50_far_cells_refuted, C50_lookup_partial, C50_lookup_refuted, C50_massive, C52_documented_tensor_partial, C52_isotropic, C52_positive_definite, C52_principal_directions, C52_symmetric, C53_completes_partial, C53_name_error_refuted, C54_facies_level, C54_never_fails, C54_stored, C54_unassigned_cells, C55_first_object, C55_never_fails, C55_ratio_partial, C55_ratio_refuted, C56_nothing_more_stored_refuted, C56_xtrend_not_stored_refuted, C56_xtrend_refuted, C56_ztrend_stored_partial, C57_homogeneous_partial, C57_key_error_refuted, C58_positive, C63_resampling_partial, C67_empty_selection, C67_never_fails, C67_values_on_cells, C68_grid_refuted, C68_line_sums_refuted, C68_one_column_refuted, C78_sheet_layers_partial, C78_sheet_layers_refuted, C78_trough_layers, C80_origin, C80_start_partial, C80_start_refuted, C81_size_trend_refuted, C82_channels, C83_other_element_refuted, C83_whole_grid_refuted, C84_trends_ignored_refuted, C85_porosity_trends_refuted, C86_isotropic_refuted, C86_setting_ignored_refuted, C87_facies_level_partial, C88_name_error_refuted, C88_tensors_partial, C88_xtrend_refuted, C89_first_part_refuted, C95_half_turn, C95_tensor_refuted

### `ClassicalDedekindReals.sig_forall_dec`, `ClassicalDedekindReals.sig_not_dec`, `Classical_Prop.classic`, `FunctionalExtensionality.functional_extensionality_dep` (90)

C106_facies_of_type, C107_cells_of_configuration, C107_valid_facies, C109_facies_level, C109_never_fails, C109_positive, C110_cell_count, C110_centres, C110_centres_exact, C111_nodes_exact, C111_nodes_near, C111_nodes_refuted, C112_layers_exact, C112_layers_near, C112_layers_refuted, C121_bias_refuted, C121_recurrence, C121_start, C121_symmetric_partial, C122_angles, C122_massive_channels_refuted, C125_order_refuted, C125_shown_partial, C127_definite_refuted, C127_files, C131_doubles, C132_internal, C134_channel_refuted, C134_trough_refuted, C135_elements_end_partial, C135_elements_refuted, C135_sheets_end_partial, C135_sheets_refuted, C136_refuted, C136_whole_iff, C136_whole_partial, C140_first_channel_partial, C140_later_supersede_refuted, C141_first_trough_partial, C141_periodic_partial, C143_curve, C143_origin_partial, C144_resolution_partial, C145_above_partial, C148_unit, C149_cells_refuted, C149_channels_partial, C150_either_model, C150_model, C151_unused_type, C34_generated_partial, C34_sheets_and_troughs, C36_any_order, C36_with_channels, C38_half_ellipsoid, C39_assigned_facies, C39_lookup_inside, C40_axis, C40_bulb_angles, C41_bulb_orientation_partial, C41_bulb_orientation_refuted, C41_centre_plane_refuted, C41_turned_gradient, C42_channel_lag, C42_channel_no_lag, C42_channel_other_cells, C42_lag_cells, C42_no_lag, C42_other_cells, C43_centre_in_domain, C43_copy, C43_periodic, C44_migrated_partial, C44_migrated_refuted, C47_parabola, C47_structure_independent, C48_marks_sound, C48_never_lost, C48_wide_cells_refuted, C49_behind_first_plane_refuted, C49_lookup_partial, C49_lookup_refuted, C64_centreline_partial, C64_name_error_refuted, C64_never_fails, C78_channel_layers_refuted, C78_trough_facies, C87_negative_porosity_refuted, C89_crossing_refuted, C90_bounded
