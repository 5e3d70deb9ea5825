{
 "claims": [
  {
   "property": "C01",
   "status": "proved",
   "theorems": [
    "C01_list_literal_round_trip"
   ],
   "note": "All flat and two-level literals, all spacings, all converters."
  },
  {
   "property": "C02",
   "status": "partial",
   "theorems": [
    "C02_three_levels_refuted",
    "C02_three_levels_partial"
   ],
   "note": "False of the code: a three-level literal loses its nesting; witness.  Exactly the lists whose middle lists have one element are read back; otherwise what is read never has the form of what was written, and lists of numbers are refused."
  },
  {
   "property": "C03",
   "status": "partial",
   "theorems": [
    "C03_accepted_shape_partial",
    "C03_accepted_named_shape_partial",
    "C03_mixed_depth_refuted"
   ],
   "note": "Proved for parsed values of uniform nesting depth; a list mixing scalars and lists is accepted with a wrong shape (refuted, witness)."
  },
  {
   "property": "C04",
   "status": "proved",
   "theorems": [
    "C04_replication_2d",
    "C04_replication_1d",
    "C04_option_stores_it"
   ],
   "note": "All n, m and all values of uniform nesting depth."
  },
  {
   "property": "C05",
   "status": "partial",
   "theorems": [
    "C05_scalar_refuted",
    "C05_scalar_partial"
   ],
   "note": "False for shapes with at least two dimensions (for every such shape of positive lengths); holds for one dimension."
  },
  {
   "property": "C06",
   "status": "proved",
   "theorems": [
    "C06_option_lookup",
    "C06_missing_required",
    "C06_missing_required_never_ok"
   ],
   "note": "All option tables and dictionaries."
  },
  {
   "property": "C07",
   "status": "proved",
   "theorems": [
    "C07_parse_bool"
   ],
   "note": "All strings."
  },
  {
   "property": "C08",
   "status": "proved",
   "theorems": [
    "C08_contact_model",
    "C08_contact_model_rejected",
    "C08_file_contact_models"
   ],
   "note": "Non-empty lists of strings; an empty list cannot come from the parser."
  },
  {
   "property": "C09",
   "status": "partial",
   "theorems": [
    "C09_contact_model_refuted",
    "C09_contact_model_partial"
   ],
   "note": "False of the code for a mode written with capital letters; proved for small letters."
  },
  {
   "property": "C10",
   "status": "proved",
   "theorems": [
    "C10_facies_positions",
    "C10_position_bounds",
    "C10_unknown_rejected"
   ],
   "note": "Whole accepted files, all numeric types."
  },
  {
   "property": "C100",
   "status": "partial",
   "theorems": [
    "C100_structures_partial",
    "C100_bulb_l_refuted"
   ],
   "note": "False for bulb_l, which is accepted and fails for every trough; proved for all other structures."
  },
  {
   "property": "C101",
   "status": "partial",
   "theorems": [
    "C101_background_facies_refuted",
    "C101_no_background_partial"
   ],
   "note": "False: the facies stays a float and cannot index a list (TypeError), for every element with a background. Proved without a background of its own."
  },
  {
   "property": "C102",
   "status": "partial",
   "theorems": [
    "C102_recognised_partial",
    "C102_recognised_refuted"
   ],
   "note": "Files are recognised by the key dataoutputs only; the alternative name l_dataoutputs or a missing (optional) entry make an old file be read as a new one and refused."
  },
  {
   "property": "C103",
   "status": "partial",
   "theorems": [
    "C103_level_ae_refuted",
    "C103_levels_partial"
   ],
   "note": "False for level ae: all conductivities and porosities stay 0, in every model. The other accepted levels are those of new files (C54, C55)."
  },
  {
   "property": "C104",
   "status": "proved",
   "theorems": [
    "C104_run_settings",
    "C104_model_settings"
   ],
   "note": ""
  },
  {
   "property": "C105",
   "status": "partial",
   "theorems": [
    "C105_object_numbers",
    "C105_lost_facies_refuted"
   ],
   "note": "Holds whenever every object writes a facies other than -1 or writes nothing. Refuted for an object that writes the facies -1 (possible with lag facies of the old format): its number stays on a cell that gets the background."
  },
  {
   "property": "C106",
   "status": "partial",
   "theorems": [
    "C106_facies_of_type",
    "C106_dip_sheets_refuted"
   ],
   "note": "Proved for all generated models and all cells; types with layers (structure dip, bulb_sets or random) may also give what lies beside their table of facies. Refuted for sheets of dipping layers (the table of the element is padded with facies 0)."
  },
  {
   "property": "C107",
   "status": "partial",
   "theorems": [
    "C107_cells_of_configuration",
    "C107_valid_facies"
   ],
   "note": "C107_cells_of_configuration holds for both ini formats and every file that can be linked; C107_valid_facies for every accepted new-format file. Exception in both: types with layers may give what lies beside their table of facies (see C50, C106)."
  },
  {
   "property": "C108",
   "status": "proved",
   "theorems": [
    "C108_section_complete"
   ],
   "note": "All accepted new-format files; needed values that may still be None (dipset_dist, bulbset_dist) are C11."
  },
  {
   "property": "C109",
   "status": "proved",
   "theorems": [
    "C109_never_fails",
    "C109_facies_level",
    "C109_positive"
   ],
   "note": "From the text of the ini-file to the arrays. Hypotheses: the numbers are finite and hydrofacies is a plain list (link_hydraulics and hydro_elements succeed), and no layer is missed (layers_hit; only matters for types with layers, see C50 and C107). Without heterogeneity the code raises KeyError: C57."
  },
  {
   "property": "C11",
   "status": "partial",
   "theorems": [
    "C11_dipset_present_partial",
    "C11_bulbset_refuted"
   ],
   "note": "dipset_dist part holds; bulbset_dist is checked for the structure name bulb instead of bulb_sets, so bulb_sets is accepted without it (witness file)."
  },
  {
   "property": "C110",
   "status": "proved",
   "theorems": [
    "C110_cell_count",
    "C110_centres",
    "C110_centres_exact"
   ],
   "note": "IEEE doubles (Flocq), round to nearest even."
  },
  {
   "property": "C111",
   "status": "partial",
   "theorems": [
    "C111_nodes_refuted",
    "C111_nodes_near",
    "C111_nodes_exact"
   ],
   "note": "False: 0.2 m in cells of 0.1 m gives two cells but four nodes, although the double 0.2 is exactly twice the double 0.1. Proved: there are n+1 or n+2 nodes, each within a sixteenth of a cell of its place; exactly n+1 if all numbers are multiples of one power of two."
  },
  {
   "property": "C112",
   "status": "partial",
   "theorems": [
    "C112_layers_refuted",
    "C112_layers_near",
    "C112_layers_exact"
   ],
   "note": "False for the same numbers (three bottoms for two layers). Proved: n or n+1 bottoms; exactly n if all numbers are multiples of one power of two. The rounding to three decimals (C97) keeps the number of entries and is left out here."
  },
  {
   "property": "C113",
   "status": "proved",
   "theorems": [
    "C113_grid",
    "C113_objects",
    "C113_channel_levels",
    "C113_trough_planes",
    "C113_background"
   ],
   "note": "Exact arithmetic. The centreline of channels is an input (see C63, C64, C80, C89, C90); lens_thickness of sheets see C28. Trough planes for te_xyz not given; positions need draws from the unit interval."
  },
  {
   "property": "C114",
   "status": "proved",
   "theorems": [
    "C114_boundaries"
   ],
   "note": "Exact arithmetic; random surfaces are an input."
  },
  {
   "property": "C115",
   "status": "partial",
   "theorems": [
    "C115_scaled_position",
    "C115_cross_section_partial",
    "C115_positions",
    "C115_centre_missing_refuted",
    "C115_wrong_row_refuted",
    "C115_border"
   ],
   "note": "False for cell sizes other than 1: the section titled v shows the row that contains dy*v. Proved for cells of size 1; exact description for all sizes. Drawing and colours not modelled; exact arithmetic."
  },
  {
   "property": "C116",
   "status": "proved",
   "theorems": [
    "C116_choice_fails",
    "C116_choice_interval",
    "C116_share",
    "C116_types"
   ],
   "note": "np.random.choice by its documentation (one uniform number, cumulated probabilities); probabilities whose sum is 0 give ValueError (in NumPy through NaN)."
  },
  {
   "property": "C117",
   "status": "proved",
   "theorems": [
    "C117_elements"
   ],
   "note": "All accepted configurations and raw random numbers. If a type is listed twice in a stratum its first ae_z_mean is used."
  },
  {
   "property": "C118",
   "status": "partial",
   "theorems": [
    "C118_avulsion_refuted",
    "C118_raised_partial",
    "C117_elements"
   ],
   "note": "False: with avulsion the element is thinner and its bottom higher by the avulsion thickness."
  },
  {
   "property": "C119",
   "status": "proved",
   "theorems": [
    "C119_starts",
    "C119_bounds",
    "C119_both_sides",
    "C119_from_file"
   ],
   "note": "Exact arithmetic; the starts are off by half the origin as in C80. The centreline is a function of the start (an input)."
  },
  {
   "property": "C12",
   "status": "proved",
   "theorems": [
    "C12_type_identifiers",
    "C12_unlisted_rejected"
   ],
   "note": "Identifiers are positions in ae, distinct; unlisted sections are rejected."
  },
  {
   "property": "C120",
   "status": "partial",
   "theorems": [
    "C120_scattered",
    "C120_moved",
    "C120_variance_refuted",
    "C120_variance_partial",
    "C120_negative_scale"
   ],
   "note": "Numbers, places and the trough above are right for all draws. The documented variances are used as standard deviations (np.random.normal); right only for 0 and 1. np.random.poisson is an arbitrary function of its mean."
  },
  {
   "property": "C121",
   "status": "partial",
   "theorems": [
    "C121_bias_refuted",
    "C121_symmetric_partial",
    "C121_start",
    "C121_recurrence"
   ],
   "note": "False: from the third point on np.random.normal(1) is drawn, where 1 is the mean, not the number of values; without deviations the channel is bent. Proved: the deviations are symmetric around this bent channel."
  },
  {
   "property": "C122",
   "status": "partial",
   "theorems": [
    "C122_angles",
    "C122_massive_channels_refuted"
   ],
   "note": "Exact arithmetic. False for channels without dip sets: their azimuth is 0 whatever their direction (and whatever the option azimuth); all else holds."
  },
  {
   "property": "C123",
   "status": "proved",
   "theorems": [
    "C123_read",
    "C123_byte_order_mark",
    "C123_accepted",
    "C123_settings"
   ],
   "note": "The reader is configparser with the settings of HyVR (modelled from its source); values without percent signs, bytes instead of decoded characters. Examples show what is easily misread."
  },
  {
   "property": "C124",
   "status": "partial",
   "theorems": [
    "C124_no_influence",
    "C124_warned",
    "C124_old_refuted",
    "C124_old_warned"
   ],
   "note": "Proved for files in the present format. False in the old format: options given under an alternative name (flag_anisotropy, l_hydro, ...) are used although they are called unknown."
  },
  {
   "property": "C125",
   "status": "partial",
   "theorems": [
    "C125_placed",
    "C125_shown_partial",
    "C125_order_refuted"
   ],
   "note": "The places are right for all files. Cells: false if the centres are not listed from the top down (nothing checks or sorts te_xyz); proved under the hypotheses of C34_generated_partial (sorted list among them) without periodic domain."
  },
  {
   "property": "C126",
   "status": "proved",
   "theorems": [
    "C126_same_file",
    "C126_same_settings",
    "C126_run"
   ],
   "note": "Reader and writer are those of configparser (modelled from its source); the encoding of the written file is taken to be that of the read one. The run from the backup still needs overwrite_old_output in the file, see C15."
  },
  {
   "property": "C127",
   "status": "partial",
   "theorems": [
    "C127_files",
    "C127_definite_partial",
    "C127_definite_refuted"
   ],
   "note": "The texts are right for all models. Positive definite up to a ratio of 1000; false beyond: with ratio 20000 and a dip of 45 degrees the written matrix is singular. Numbers are formatted from real numbers (no negative zero, no nan)."
  },
  {
   "property": "C128",
   "status": "proved",
   "theorems": [
    "C128_outputs",
    "C128_nothing_else"
   ],
   "note": "The run name is a plain file name, directories are real (no links), folder formats use each name once (flopy's names are arbitrary). A failing writer of a single-file format is taken to leave no file. Without an ini-file (test case) see sim.py l. 60-65, not covered here."
  },
  {
   "property": "C129",
   "status": "partial",
   "theorems": [
    "C129_defaults",
    "C129_required",
    "C129_avul_prob_refuted"
   ],
   "note": "Defaults and requirements hold for all accepted files. The documented form of avul_prob is rejected: the table asks for a list of lists of length 1. (bulbset_dist: see C11.)"
  },
  {
   "property": "C13",
   "status": "proved",
   "theorems": [
    "C13_default_name",
    "C13_given_name",
    "C13_backup",
    "C13_backup_round_trip"
   ],
   "note": "All file names with an extension and a plain stem; the option modeldir is C73, stems that are not plain names are C14."
  },
  {
   "property": "C130",
   "status": "partial",
   "theorems": [
    "C130_fields_partial",
    "C130_names_refuted"
   ],
   "note": "Nine of the eleven names hold what is documented; the facies are stored as facies instead of fac, the ratios as anirat instead of ani_rat."
  },
  {
   "property": "C131",
   "status": "proved",
   "theorems": [
    "C131_strata",
    "C131_elements",
    "C131_sheets",
    "C131_cells",
    "C131_every_cell",
    "C131_doubles"
   ],
   "note": "For every arithmetic on the real numbers whose comparison is the order of the numbers; C131_doubles: rounding to nearest doubles is one and agrees with binary64 on finite numbers without overflow. Random draws, contact surfaces and the tests of single objects (trough, channel) are arbitrary. every_cell has the conditions of C34."
  },
  {
   "property": "C132",
   "status": "proved",
   "theorems": [
    "C132_internal"
   ],
   "note": "The field of a facies is the one of the spectral simulation of C67 with the listed variance and lengths; its noise is arbitrary. Stored values are the current ones unless x-trends are used (C56, C88). Which elements and positions the trends refer to is that of the code (C83-C85); element numbers and coordinates as in HydroLinkModel."
  },
  {
   "property": "C14",
   "status": "partial",
   "theorems": [
    "C14_subdirectory_partial",
    "C14_subdirectory_refuted"
   ],
   "note": "Holds for run names that are ordinary file names; an ini file without extension uses its own directory as run directory and overwriting then deletes the ini file and everything next to it."
  },
  {
   "property": "C15",
   "status": "partial",
   "theorems": [
    "C15_existing_output_kept",
    "C15_outside_untouched_partial",
    "C15_outside_refuted"
   ],
   "note": "First sentence proved for all states; second sentence proved for plain run names and if the backup name is not a symbolic link in the run directory; with an absolute path as run name a file beside the run directory is overwritten."
  },
  {
   "property": "C16",
   "status": "proved",
   "theorems": [
    "C16_only_backup",
    "C16_new_directory",
    "C16_links_refuted"
   ],
   "note": "Run directories without symbolic links among their entries; with links it fails (witness)."
  },
  {
   "property": "C17",
   "status": "partial",
   "theorems": [
    "C17_flag_refuted",
    "C17_flag_ignored"
   ],
   "note": "False of the code: the argument is never used, in both directions."
  },
  {
   "property": "C18",
   "status": "partial",
   "theorems": [
    "C18_crash_refuted",
    "C18_crash_partial"
   ],
   "note": "False when a backup ini is run with overwriting; holds at every interruption point for an ini file outside the run directory."
  },
  {
   "property": "C19",
   "status": "proved",
   "theorems": [
    "C19_realizations_distinct",
    "C19_single_realization",
    "C19_inside_run_directory",
    "C19_names"
   ],
   "note": "All numbers of realizations."
  },
  {
   "property": "C20",
   "status": "proved",
   "theorems": [
    "C20_exact_tiling",
    "C20_any_size"
   ],
   "note": "Exact arithmetic; see C110 for doubles."
  },
  {
   "property": "C21",
   "status": "partial",
   "theorems": [
    "C21_nodes_partial",
    "C21_nodes_fit_iff",
    "C21_nodes_refuted"
   ],
   "note": "Exact arithmetic; see C111 for doubles. True for whole numbers of cells; false e.g. for a domain of 5 m and cells of 4 m; exact condition proved."
  },
  {
   "property": "C22",
   "status": "proved",
   "theorems": [
    "C22_use_lower",
    "C22_use_higher",
    "C22_bounds_kept",
    "C22_new_surface_bounds",
    "C22_clip_defined"
   ],
   "note": "All surfaces, all sequences of calls."
  },
  {
   "property": "C23",
   "status": "proved",
   "theorems": [
    "C23_strata_stack"
   ],
   "note": "Exact arithmetic, all draws and random fields of the right size."
  },
  {
   "property": "C24",
   "status": "partial",
   "theorems": [
    "C24_top_partial",
    "C24_top_refuted"
   ],
   "note": "False of the code unless z0 = 0: the uppermost surface is at lz."
  },
  {
   "property": "C25",
   "status": "proved",
   "theorems": [
    "C25_elements_tile",
    "C25_elements_disjoint"
   ],
   "note": "All generated models."
  },
  {
   "property": "C26",
   "status": "partial",
   "theorems": [
    "C26_ends_partial",
    "C26_ends_refuted"
   ],
   "note": "Bound proved when every net thickness is at least eps; never ends when no net thickness is positive."
  },
  {
   "property": "C27",
   "status": "proved",
   "theorems": [
    "C27_bounds"
   ],
   "note": "All generated models."
  },
  {
   "property": "C28",
   "status": "proved",
   "theorems": [
    "C28_sheets_fill",
    "C28_sheets_end"
   ],
   "note": "All element surfaces, positive lens thicknesses."
  },
  {
   "property": "C29",
   "status": "partial",
   "theorems": [
    "C29_inside_partial",
    "C29_inside_refuted"
   ],
   "note": "False of the code: the last but one sheet may reach below an uneven element bottom; everything else proved."
  },
  {
   "property": "C30",
   "status": "partial",
   "theorems": [
    "C30_ends_partial",
    "C30_ends_refuted"
   ],
   "note": "Never ends for a thickness of zero or negative other than -1; -1 and (C28) positive values end."
  },
  {
   "property": "C31",
   "status": "proved",
   "theorems": [
    "C31_background"
   ],
   "note": "All combinations."
  },
  {
   "property": "C32",
   "status": "proved",
   "theorems": [
    "C32_assigned_cells_located",
    "C32_one_result_per_cell",
    "C32_arrays"
   ],
   "note": "All models, grids, cells and states; objects are arbitrary functions. C32_arrays says what each of the seven arrays holds for a cell."
  },
  {
   "property": "C33",
   "status": "proved",
   "theorems": [
    "C33_resume_is_exhaustive",
    "C33_resume_hanging_objects"
   ],
   "note": "Pure objects; the conditions are shown to hold for generated models in C34_every_cell_partial."
  },
  {
   "property": "C34",
   "status": "partial",
   "theorems": [
    "C34_every_cell_partial",
    "C34_every_cell_refuted",
    "C34_origin_refuted",
    "C34_sheets_and_troughs",
    "C34_generated_partial"
   ],
   "note": "False of the code for cell centres on a contact surface and for z0 > 0; proved otherwise for generated models without empty strata: C34_generated_partial runs the whole generation (strata, elements, sheets, troughs and channels) and needs sensible settings, rows at most 1 m apart if there are channels, and cells off the surfaces."
  },
  {
   "property": "C35",
   "status": "partial",
   "theorems": [
    "C35_missed_cell_loses_column",
    "C35_missed_cell_refuted"
   ],
   "note": "False of the code: a missed cell always loses the rest of the column."
  },
  {
   "property": "C36",
   "status": "proved",
   "theorems": [
    "C36_columns_independent",
    "C36_without_state",
    "C36_with_channels",
    "C36_any_order"
   ],
   "note": "Without state for all models; models with channels for cells not longer than one in y (the quantifier of the property); in general for every invariant under which the answers do not depend on the state. For longer cells see C48_wide_cells_refuted."
  },
  {
   "property": "C37",
   "status": "partial",
   "theorems": [
    "C37_unique_ha_refuted",
    "C37_numbers_partial",
    "C37_element_numbers"
   ],
   "note": "False of the code: numbers are copied before they are given, so every object is number 0. Element numbers are unique."
  },
  {
   "property": "C38",
   "status": "proved",
   "theorems": [
    "C38_half_ellipsoid"
   ],
   "note": "All troughs with positive semi axes, all cells."
  },
  {
   "property": "C39",
   "status": "proved",
   "theorems": [
    "C39_lookup_inside",
    "C39_constructor_total",
    "C39_assigned_facies"
   ],
   "note": "All troughs, draws, domains and cells."
  },
  {
   "property": "C40",
   "status": "proved",
   "theorems": [
    "C40_bulb_angles",
    "C40_axis"
   ],
   "note": "All troughs and cells."
  },
  {
   "property": "C41",
   "status": "partial",
   "theorems": [
    "C41_turned_gradient",
    "C41_bulb_orientation_partial",
    "C41_bulb_orientation_refuted",
    "C41_centre_plane_refuted"
   ],
   "note": "False of the code: the normal of a trough rotated by alpha is rotated by another -2 alpha, and the dip changes sign on the plane through the centre. True for alpha = 0 away from that plane."
  },
  {
   "property": "C42",
   "status": "proved",
   "theorems": [
    "C42_lag_cells",
    "C42_other_cells",
    "C42_no_lag",
    "C42_channel_lag",
    "C42_channel_other_cells",
    "C42_channel_no_lag"
   ],
   "note": "Troughs and channels."
  },
  {
   "property": "C43",
   "status": "proved",
   "theorems": [
    "C43_copy",
    "C43_periodic",
    "C43_centre_in_domain"
   ],
   "note": "All troughs and cells of the domain."
  },
  {
   "property": "C44",
   "status": "partial",
   "theorems": [
    "C44_migrated_partial",
    "C44_migrated_refuted"
   ],
   "note": "False of the code for centres further than half a domain length outside; proved nearer."
  },
  {
   "property": "C45",
   "status": "proved",
   "theorems": [
    "C45_planes",
    "C45_random",
    "C45_migrated",
    "C45_descending"
   ],
   "note": "All draws."
  },
  {
   "property": "C46",
   "status": "proved",
   "theorems": [
    "C46_linear",
    "C46_between",
    "C46_no_trend"
   ],
   "note": "All trends."
  },
  {
   "property": "C47",
   "status": "proved",
   "theorems": [
    "C47_parabola",
    "C47_structure_independent"
   ],
   "note": "For widths below 1e50 (the code starts its search for the nearest point at 1e100)."
  },
  {
   "property": "C48",
   "status": "partial",
   "theorems": [
    "C48_marks_sound",
    "C48_never_lost",
    "C48_wide_cells_refuted"
   ],
   "note": "True if the cells are not longer than one in y. In general false: the number of cells in y is not divided by dy, so that cells of the channel are skipped; the result then depends on the order of the columns."
  },
  {
   "property": "C49",
   "status": "partial",
   "theorems": [
    "C49_lookup_partial",
    "C49_behind_first_plane_refuted",
    "C49_lookup_refuted"
   ],
   "note": "The table is long enough, but cells more than one layer behind the first plane are read from before its start."
  },
  {
   "property": "C50",
   "status": "partial",
   "theorems": [
    "C50_lookup_partial",
    "C50_far_cells_refuted",
    "C50_massive",
    "C50_lookup_refuted",
    "C50_constructor_refuted"
   ],
   "note": "False of the code: the table of layers is neither centred nor long enough, far cells raise IndexError or wrap around, and the table size can be negative. Cells near the middle and massive sheets are proved."
  },
  {
   "property": "C51",
   "status": "proved",
   "theorems": [
    "C51_sequence",
    "C51_never_fails",
    "C51_element_facies",
    "C51_every_sequence"
   ],
   "note": "All facies lists, alternatives and draws."
  },
  {
   "property": "C52",
   "status": "partial",
   "theorems": [
    "C52_documented_tensor_partial",
    "C52_symmetric",
    "C52_principal_directions",
    "C52_positive_definite",
    "C52_isotropic"
   ],
   "note": "The formulas are right for all inputs if optimized.py imported sin and cos; as written no tensor is computed at all (C53)."
  },
  {
   "property": "C53",
   "status": "partial",
   "theorems": [
    "C53_name_error_refuted",
    "C53_completes_partial"
   ],
   "note": "False of the code: the bare names sin and cos are undefined, every non-empty grid raises NameError. With both names imported the function completes for all grids."
  },
  {
   "property": "C54",
   "status": "proved",
   "theorems": [
    "C54_facies_level",
    "C54_stored",
    "C54_never_fails",
    "C54_unassigned_cells"
   ],
   "note": "For cells with a facies. Cells without one (facies -1) get the last entry of each list (C54_unassigned_cells)."
  },
  {
   "property": "C55",
   "status": "partial",
   "theorems": [
    "C55_ratio_partial",
    "C55_first_object",
    "C55_never_fails",
    "C55_ratio_refuted"
   ],
   "note": "False: the cells of the first object (number 0) are taken for background and get the values of the background facies of their element. True for all other cells."
  },
  {
   "property": "C56",
   "status": "partial",
   "theorems": [
    "C56_xtrend_not_stored_refuted",
    "C56_xtrend_refuted",
    "C56_ztrend_stored_partial",
    "C56_nothing_more_stored_refuted"
   ],
   "note": "False for trends in x: the stored arrays are those without the trend. True for trends in z if no element has a trend in x. After an element with a trend in x nothing more is stored, whatever the elements after it and the trends of the whole model are."
  },
  {
   "property": "C57",
   "status": "partial",
   "theorems": [
    "C57_key_error_refuted",
    "C57_homogeneous_partial"
   ],
   "note": "False: every configuration in the current format raises KeyError ('hydro'). True for the old format."
  },
  {
   "property": "C58",
   "status": "proved",
   "theorems": [
    "C58_positive"
   ],
   "note": "For both levels of heterogeneity, homogeneous models, all trends with positive factors."
  },
  {
   "property": "C59",
   "status": "proved",
   "theorems": [
    "C59_formats",
    "C59_files"
   ],
   "note": "Success, unknown format, failing writer; a writer that itself raises ImportError counts as a missing library."
  },
  {
   "property": "C60",
   "status": "partial",
   "theorems": [
    "C60_upside_down_refuted",
    "C60_modflow_refuted",
    "C60_mf6_upside_down_refuted"
   ],
   "note": "False for mf and mf6: the layers are upside down."
  },
  {
   "property": "C61",
   "status": "partial",
   "theorems": [
    "C61_modflow_refuted",
    "C61_mf6_refuted"
   ],
   "note": "True if and only if dx = dy; delr and delc are exchanged."
  },
  {
   "property": "C62",
   "status": "proved",
   "theorems": [
    "C62_rows",
    "C62_written"
   ],
   "note": "Formatting with three decimals is not modelled."
  },
  {
   "property": "C63",
   "status": "partial",
   "theorems": [
    "C63_resampling_partial",
    "C63_name_error_refuted"
   ],
   "note": "Proved with sqrt imported; as written curve_interp raises NameError for every curve of two or more points. The second half of the statement (distances along the curve) is proved as distances between points."
  },
  {
   "property": "C64",
   "status": "partial",
   "theorems": [
    "C64_centreline_partial",
    "C64_never_fails",
    "C64_name_error_refuted"
   ],
   "note": "Proved with sqrt imported; as written NameError."
  },
  {
   "property": "C65",
   "status": "partial",
   "theorems": [
    "C65_element_background_partial",
    "C65_element_background_refuted",
    "C65_strata_background"
   ],
   "note": "False for elements: the background dip is taken from the azimuth, so it is right only if both are equal. Proved for the facies and azimuth of elements and for the background of strata."
  },
  {
   "property": "C66",
   "status": "partial",
   "theorems": [
    "C66_old_geometries_partial",
    "C66_old_channels_refuted"
   ],
   "note": "False for channels: ext_par is accepted but never renamed, generation raises ValueError for every such element. Proved for troughs and sheets."
  },
  {
   "property": "C67",
   "status": "proved",
   "theorems": [
    "C67_values_on_cells",
    "C67_never_fails",
    "C67_empty_selection"
   ],
   "note": "The discrete Fourier transform is modelled exactly; an empty selection raises ValueError."
  },
  {
   "property": "C68",
   "status": "partial",
   "theorems": [
    "C68_line_sums_refuted",
    "C68_one_column_refuted",
    "C68_grid_refuted"
   ],
   "note": "False: syy[0] = 0 removes a whole plane of the spectrum, so that the sum over each line in x is exactly 0, and selections one cell wide in x get no random values."
  },
  {
   "property": "C69",
   "status": "proved",
   "theorems": [
    "C69_independent",
    "C69_strata"
   ],
   "note": "All numbers of realizations and all draws. C69_strata: the strata of each realization are those of generate_model, so the theorems on generate_model hold in every realization. assign_points and generate_hydraulic_parameters are functions of the new strata and arrays; saving is a function of directory and data."
  },
  {
   "property": "C70",
   "status": "proved",
   "theorems": [
    "C70_no_change_unless_accepted",
    "C70_rejected_unchanged"
   ],
   "note": "New and old ini format; the Model constructor is arbitrary but does not touch the disk."
  },
  {
   "property": "C71",
   "status": "partial",
   "theorems": [
    "C71_single_stratum_refuted"
   ],
   "note": "False of the code: every accepted file has at least two strata."
  },
  {
   "property": "C72",
   "status": "partial",
   "theorems": [
    "C72_line_break_refuted",
    "C72_entries_partial",
    "C72_between_refuted",
    "C72_numbers_partial"
   ],
   "note": "False of the code: witness.  Numbers may stand on several lines inside one list (names get the line break into them); a line break beside the bracket of a list inside a list of numbers is always refused."
  },
  {
   "property": "C73",
   "status": "partial",
   "theorems": [
    "C73_modeldir_refuted"
   ],
   "note": "False of the code: every value except select raises TypeError."
  },
  {
   "property": "C74",
   "status": "partial",
   "theorems": [
    "C74_nested_runname_refuted",
    "C74_overwriting_fails_refuted",
    "C74_new_fails_refuted"
   ],
   "note": "False of the code: FileNotFoundError after the old output is deleted. Universal: with a run name x/y of two ordinary names every run fails with FileNotFoundError, after all entries of an existing run directory were deleted; a new run directory is made and left empty."
  },
  {
   "property": "C75",
   "status": "partial",
   "theorems": [
    "C75_missing_section_partial",
    "C75_missing_run_refuted"
   ],
   "note": "Holds for model, strata, hydraulics; a missing run section is a KeyError."
  },
  {
   "property": "C77",
   "status": "partial",
   "theorems": [
    "C77_nonempty_stratum_refuted",
    "C77_by_stored_means_partial"
   ],
   "note": "False of the code: means stored before clipping are compared. What holds: a stratum has elements exactly if the stored mean of its top is above the stored mean of its bottom."
  },
  {
   "property": "C78",
   "status": "partial",
   "theorems": [
    "C78_trough_layers",
    "C78_trough_facies",
    "C78_sheet_layers_partial",
    "C78_sheet_layers_refuted",
    "C78_channel_layers_refuted"
   ],
   "note": "True for troughs with dip sets. False for sheets (layers dip in the opposite direction, for every sheet whose dip is neither 0 nor 90 degrees) and for channels (azimuth counted anticlockwise)."
  },
  {
   "property": "C79",
   "status": "partial",
   "theorems": [
    "C79_python_sheets_refuted"
   ],
   "note": "False of the code: num_ha (and others) are read but never set."
  },
  {
   "property": "C80",
   "status": "partial",
   "theorems": [
    "C80_start_partial",
    "C80_origin",
    "C80_start_refuted"
   ],
   "note": "True if the grid starts at the origin; otherwise the start is off by half the coordinates of the origin of the grid."
  },
  {
   "property": "C81",
   "status": "partial",
   "theorems": [
    "C81_size_trend_refuted"
   ],
   "note": "False: every element of channels with size_ztrend fails with ValueError."
  },
  {
   "property": "C82",
   "status": "proved",
   "theorems": [
    "C82_levels_end",
    "C82_channels",
    "C82_nonpositive_agg"
   ],
   "note": "For positive agg; otherwise the loop never ends (C82_nonpositive_agg)."
  },
  {
   "property": "C83",
   "status": "partial",
   "theorems": [
    "C83_whole_grid_refuted",
    "C83_other_element_refuted"
   ],
   "note": "False: the trend of the element that contains the first object multiplies the whole grid; trends of other elements have no effect."
  },
  {
   "property": "C84",
   "status": "partial",
   "theorems": [
    "C84_trends_ignored_refuted"
   ],
   "note": "False: all trends are ignored unless heterogeneity is on and the level is 'internal'."
  },
  {
   "property": "C85",
   "status": "partial",
   "theorems": [
    "C85_porosity_trends_refuted"
   ],
   "note": "False: the options are never read."
  },
  {
   "property": "C86",
   "status": "partial",
   "theorems": [
    "C86_setting_ignored_refuted",
    "C86_isotropic_refuted"
   ],
   "note": "False: the setting is never read."
  },
  {
   "property": "C87",
   "status": "partial",
   "theorems": [
    "C87_facies_level_partial",
    "C87_negative_porosity_refuted"
   ],
   "note": "True for the level 'facies'. False with internal heterogeneity: a draw gives the porosity -3/4."
  },
  {
   "property": "C88",
   "status": "partial",
   "theorems": [
    "C88_tensors_partial",
    "C88_xtrend_refuted",
    "C88_name_error_refuted"
   ],
   "note": "True without trends in x if sin and cos were imported; false with a trend in x; as written no tensor is stored at all."
  },
  {
   "property": "C89",
   "status": "partial",
   "theorems": [
    "C89_first_part_refuted",
    "C89_crossing_refuted"
   ],
   "note": "False: only the first tenth of spacing of the curve is looked at; a centreline without noise is not longer than L/5 + 1/10."
  },
  {
   "property": "C90",
   "status": "proved",
   "theorems": [
    "C90_bounded"
   ],
   "note": ""
  },
  {
   "property": "C91",
   "status": "partial",
   "theorems": [
    "C91_saved_message_refuted",
    "C91_saved_message_partial"
   ],
   "note": "It is also printed for skipped formats."
  },
  {
   "property": "C92",
   "status": "partial",
   "theorems": [
    "C92_mf6_heads",
    "C92_modflow_heads_refuted",
    "C92_one_row_refuted"
   ],
   "note": "True for mf6; for mf the heads are fixed at the ends of the y-axis."
  },
  {
   "property": "C93",
   "status": "partial",
   "theorems": [
    "C93_without_heads_refuted",
    "C93_heads_partial"
   ],
   "note": "True with hin and hout; without hin TypeError (mf) or NameError (mf6)."
  },
  {
   "property": "C94",
   "status": "partial",
   "theorems": [
    "C94_default_wells_refuted",
    "C94_wells_partial"
   ],
   "note": "Without q_in wells of rate 1/100 are written."
  },
  {
   "property": "C95",
   "status": "partial",
   "theorems": [
    "C95_tensor_refuted",
    "C95_half_turn"
   ],
   "note": "False cell by cell; but for dx = dy the whole model is the HyVR model turned by 180 degrees around the x-axis, including the tensors."
  },
  {
   "property": "C96",
   "status": "partial",
   "theorems": [
    "C96_without_hydraulics_refuted"
   ],
   "note": "False: KeyError after the model was generated."
  },
  {
   "property": "C97",
   "status": "partial",
   "theorems": [
    "C97_modflow_layers",
    "C97_mf6_layers_partial",
    "C97_mf6_layers_refuted",
    "C97_mf6_empty_layer_refuted"
   ],
   "note": "True for mf; for mf6 the bottoms are rounded to three decimals."
  },
  {
   "property": "C98",
   "status": "proved",
   "theorems": [
    "C98_troughs_complete",
    "C98_sheets_complete"
   ],
   "note": "Option names read later are listed in DeprecatedSpec.v."
  },
  {
   "property": "C99",
   "status": "partial",
   "theorems": [
    "C99_ae_table_refuted",
    "C99_no_table_partial"
   ],
   "note": "Such a file is refused, but by a NameError: the check before the intended one uses an undefined name."
  },
  {
   "property": "C133",
   "status": "partial",
   "theorems": [
    "C133_stationary",
    "C133_same_variance",
    "C133_opposite_sides_refuted",
    "C133_covariance_refuted",
    "C133_covariance_partial",
    "C133_variance_partial"
   ],
   "note": "Expectation 0 and stationarity hold. False of the code for every box and positive variance: the covariance never is the documented one; cells on opposite sides of the box are correlated like neighbours. For boxes with odd numbers of cells on which the transform of the covariance is not negative, the exact covariance is proved: the documented one at the distance on the ring, minus its mean over a line in x direction; the variance is too small by this mean. Missing: the exact covariance for even numbers of cells."
  },
  {
   "property": "C134",
   "status": "partial",
   "theorems": [
    "C134_trough_layers_partial",
    "C134_trough_refuted",
    "C134_bulb_sets",
    "C134_sheet_layers_partial",
    "C134_sheet_refuted",
    "C134_channel_layers_partial",
    "C134_channel_refuted"
   ],
   "note": "True of bulb sets. False of dip sets: numbers of layers are truncated towards zero, so the layer around the plane from which they are counted reaches from -dipset_dist to dipset_dist; every large enough object has two cells further than dipset_dist apart that get the same facies whatever was drawn. All other layers have the right thickness; the layers are characterised exactly."
  },
  {
   "property": "C135",
   "status": "partial",
   "theorems": [
    "C135_sheets_end_partial",
    "C135_sheets_refuted",
    "C135_elements_end_partial",
    "C135_elements_refuted"
   ],
   "note": "Both loops end if the thicknesses are at least about 2^-52 of the elevations, with a bound on the number of sheets and elements. A positive thickness of at most 2^-55 of the top of the element or stratum is lost in rounding and the loops never end. Thicknesses between these two bounds are not decided."
  },
  {
   "property": "C136",
   "status": "partial",
   "theorems": [
    "C136_whole_iff",
    "C136_whole_partial",
    "C136_refuted"
   ],
   "note": "Decided by one comparison of rounded differences (C136_whole_iff). True if the thickness of the element is not rounded down, in particular if its lowest point is 0 or at least half its highest. False otherwise: an element from 0.1 to 2 becomes two sheets, the lower one thinner than 1e-16, with its own draws."
  },
  {
   "property": "C137",
   "status": "partial",
   "theorems": [
    "C137_no_trace_partial",
    "C137_failure_leaves_refuted",
    "C137_only_new",
    "C137_not_packaged"
   ],
   "note": "A run that ends without an exception leaves the disk as it was; exactly when that happens is stated. Nothing that existed before is ever changed. But if a realization fails the temporary directory stays (C137_failure_leaves_refuted). The text of made.ini is part of the examples and is accepted by the model."
  },
  {
   "property": "C138",
   "status": "partial",
   "theorems": [
    "C138_usage",
    "C138_asked_for",
    "C138_status",
    "C138_overwrite_refuted",
    "C138_file_name",
    "C138_separator",
    "C138_wrong"
   ],
   "note": "The documented forms, the file that is run and the exit status are as stated for all argument lists. But --overwrite has no effect at all: the run with and without it is the same on every disk (C138_overwrite_refuted)."
  },
  {
   "property": "C139",
   "status": "proved",
   "theorems": [
    "C139_required",
    "C139_defaults"
   ],
   "note": "Elements whose geometry is none of the three old ones are not covered (the tables of the other sections are taken for them); defaults of elements are not stated."
  },
  {
   "property": "C140",
   "status": "partial",
   "theorems": [
    "C140_first_channel_partial",
    "C140_later_supersede_refuted"
   ],
   "note": "The order documented is refuted. The order of the code is proved over exact reals with the hypotheses of C34_generated_partial (sensible parameters, levels apart from surfaces)."
  },
  {
   "property": "C141",
   "status": "partial",
   "theorems": [
    "C141_first_trough_partial",
    "C141_periodic_partial",
    "C141_highest_first"
   ],
   "note": "Over exact reals, with the hypotheses of C34_generated_partial (sensible parameters, levels apart from surfaces). C141_periodic_partial treats periodic boundaries, for troughs not larger than half the domain whose centres are at most one and a half domains from the cell (for other centres see C44)."
  },
  {
   "property": "C142",
   "status": "proved",
   "theorems": [
    "C142_float",
    "C142_int",
    "C142_lists"
   ],
   "note": "float and int of Python are modelled as exact decimal numbers (NumberModel): the rounding to a double is not part of it, and inf, nan and underscores between digits are refused in the model."
  },
  {
   "property": "C143",
   "status": "partial",
   "theorems": [
    "C143_origin_partial",
    "C143_sheets_refuted",
    "C143_channels_refuted",
    "C143_curve"
   ],
   "note": "Proved for troughs and for sheets without inclined layers. False for inclined sheets: shift contains x0 and y0, so the length of the facies sequence depends on the origin (a run can fail for one origin and not for another). False for channels: their start uses (x0+lx)/2 and (y0+ly)/2, so they move half as far as the domain."
  },
  {
   "property": "C144",
   "status": "partial",
   "theorems": [
    "C144_resolution_partial"
   ],
   "note": "Over exact reals, all element types. Contact surfaces must not be random fields (their values are drawn per column). For the values of cells the hypotheses of C34_generated_partial are needed, and with channels rows at most one metre apart in both grids (for others see C48_wide_cells_refuted)."
  },
  {
   "property": "C145",
   "status": "partial",
   "theorems": [
    "C145_above_partial"
   ],
   "note": "Over exact reals, all element types. Strata, elements, objects and elevations without further conditions; for the values of cells the hypotheses of C34_generated_partial are needed in both models."
  },
  {
   "property": "C146",
   "status": "proved",
   "theorems": [
    "C146_references",
    "C146_one_meaning",
    "C146_circle"
   ],
   "note": "The text read is any text that writes the sections in the sense of IniSpec (comments, indentation, continuation lines, line ends); the reading itself is the model of configparser of the standard library."
  },
  {
   "property": "C147",
   "status": "proved",
   "theorems": [
    "C147_default",
    "C147_plain"
   ],
   "note": "The text read is any text that writes the sections in the sense of IniSpec; the reading itself is the model of configparser of the standard library. DEFAULT written once; at least one other section."
  },
  {
   "property": "C148",
   "status": "proved",
   "theorems": [
    "C148_unit"
   ],
   "note": "In exact arithmetic. The fields of random surfaces are draws and scale like lengths; a thickness is -1 or at least 0."
  },
  {
   "property": "C149",
   "status": "partial",
   "theorems": [
    "C149_channels_partial",
    "C149_cells_refuted",
    "C149_layers_refuted"
   ],
   "note": "False in the code at two places: the number of rows to mark as outside is a length (the marked rows depend on the unit, so a cell at a channel is lost in one unit and found in another), and the random shift, a length, is added to a number of layers. Proved: massive channels are the same channels in the other unit, and one channel writes the same for every point whose cell is marked in both units or in neither. Centrelines are draws given in both units; within 10^50 of the point."
  },
  {
   "property": "C150",
   "status": "proved",
   "theorems": [
    "C150_settings",
    "C150_model",
    "C150_either_format",
    "C150_either_model",
    "C150_exception_refuted"
   ],
   "note": "The claim does not cover which exception is raised: C150_exception_refuted gives a file with two mistakes and another exception for another order of the sections."
  },
  {
   "property": "C151",
   "status": "proved",
   "theorems": [
    "C151_unused_type",
    "C151_first_refuted"
   ],
   "note": "C151_first_refuted shows why the name has to be the last one: the number of a type is its place in the list."
  }
 ]
}
