{"id": "C01", "title": "List literals in the ini file are read back exactly", "statement": "If an option of list type is written as a flat list or a list of lists of tokens (tokens contain no space, comma or bracket and the lists are not empty), with any spaces added anywhere, then the parser returns exactly these tokens in exactly this nesting, each converted by the declared element type.", "quantifier": "all token lists and lists of lists of any length, all placements of spaces, all element converters", "why_tests_cant": "Infinite set of strings; tests show a handful of literals.", "anchors": ["hyvr/input/option_parsing.py:parse_list"]}
{"id": "C02", "title": "Lists nested three deep are read back exactly", "statement": "The documentation of the shape parameter allows values with more than two dimensions (shape=[2,3,4]); a three-level list literal should be read back with its nesting.", "quantifier": "all three-level list literals", "why_tests_cant": "A test would need to guess the failing literal; the existing tests only use two-level literals.", "anchors": ["hyvr/input/option_parsing.py:parse_list"]}
{"id": "C03", "title": "An accepted list option has the declared shape", "statement": "If a list option with a declared shape (list of dimensions, -1 for a free dimension, or the name of another option) is accepted, the stored value is a nested list of that number of dimensions in which every list at a level with a declared length has this length.", "quantifier": "all declared flat shapes of any number of dimensions, all parsed values", "why_tests_cant": "Unbounded nesting and lengths; the shape engine is recursive.", "anchors": ["hyvr/input/option_parsing.py:Option.parse", "hyvr/input/option_parsing.py:expand_to_shape", "hyvr/input/option_parsing.py:compare_shapes"]}
{"id": "C04", "title": "Values given for the innermost dimensions are replicated over the outer ones", "statement": "For a two-dimensional shape [n, m], a list of m values is stored as n copies of that list, and a full n-by-m table is stored unchanged; for a one-dimensional shape [n] a single value is stored as n copies. Among values of uniform nesting depth nothing else is accepted for fully declared positive shapes.", "quantifier": "all n, m and all values", "why_tests_cant": "Holds for all lengths and values.", "anchors": ["hyvr/input/option_parsing.py:Option.parse", "hyvr/input/option_parsing.py:expand_shape"]}
{"id": "C05", "title": "A single value is expanded to any declared shape", "statement": "Documentation: for shape=[2,3] the value 18 is expanded to [[18,18,18],[18,18,18]]; ycorlengths may be a single float.", "quantifier": "all declared shapes with at least one dimension, all single values", "why_tests_cant": "Needs all shapes; the tests only use the option whose shape is copied from another option.", "anchors": ["hyvr/input/option_parsing.py:Option.parse", "docs/inout.rst"]}
{"id": "C06", "title": "Option lookup: own name, then alternatives in order, then default", "statement": "Parsing a section looks an option up under its own name first and then under its alternative names in the given order; an option missing under all names yields the default if it is optional and MissingOptionError if it is required; the result holds a value under the standard name of every declared option, options not declared are kept unchanged, and parsing one option does not change another option's stored text unless it is one of its alternatives.", "quantifier": "all section dictionaries and all option lists", "why_tests_cant": "All dictionaries and option tables.", "anchors": ["hyvr/input/option_parsing.py:Section.parse", "hyvr/input/option_parsing.py:Option.parse"]}
{"id": "C07", "title": "Boolean options", "statement": "A boolean option is true for true/yes in any capitalisation and for decimal numerals other than zero, false for false/no in any capitalisation and numerals equal to zero; every other text is rejected with ValueError.", "quantifier": "all ASCII strings", "why_tests_cant": "Infinite input set.", "anchors": ["hyvr/input/option_parsing.py:parse_bool"]}
{"id": "C08", "title": "Contact models: what is accepted", "statement": "A non-empty contact model list is accepted exactly if it is [flat] or [random, var, corlx, corly] (for strata with the depth inserted after the mode); the resulting parameters are the numbers given in this order; everything else is rejected with ValueError.", "quantifier": "all lists of strings, both with and without depth", "why_tests_cant": "Infinite input set.", "anchors": ["hyvr/geo/contact_surface_utils.py:parse_contact_model"]}
{"id": "C09", "title": "Every accepted contact model can be built", "statement": "If the ini parser accepts a contact model then constructing the surface from it succeeds.", "quantifier": "all accepted contact model lists", "why_tests_cant": "Needs the composition of parser and constructor for every accepted spelling.", "anchors": ["hyvr/geo/contact_surface_utils.py:parse_contact_model", "hyvr/geo/contact_surface.py:ContactSurface.__init__"]}
{"id": "C10", "title": "Facies names become indices of the hydrofacies list", "statement": "After parsing, every facies number of a stratum or architectural element (facies, altfacies, bg_facies, lag_facies) is the position of the given name in the hydrofacies list, hence smaller than its length; an unknown name is rejected. An element without bg_facies has -1, a lag facies is -1 exactly if the lag height is zero.", "quantifier": "all hydrofacies lists and all name lists", "why_tests_cant": "All configurations.", "anchors": ["hyvr/input/parameters.py:parse_facies", "hyvr/input/parameters.py:parse_inifile"]}
{"id": "C100", "title": "Old ini format: every accepted structure can be generated", "statement": "Every internal structure the old table accepts for troughs is known where troughs are created.", "quantifier": "all accepted structures of old troughs", "why_tests_cant": "Composition of an option table with code in another module.", "anchors": ["hyvr/input/options_deprecated.py", "hyvr/geo/trough.pyx:Trough", "hyvr/geo/ae_types.py:AEType"]}
{"id": "C101", "title": "Old ini format: background facies of elements", "statement": "The background facies given for an old element can be used to look up its hydraulic parameters; without one the element has the background of its stratum.", "quantifier": "all old-format element sections", "why_tests_cant": "The value is only used when parameters are generated and some cells of the element are background.", "anchors": ["hyvr/input/parameters.py:get_new_parameters_from_deprecated", "hyvr/geo/model.py:Model.generate_hydraulic_parameters"]}
{"id": "C102", "title": "Old ini format: recognition", "statement": "Every file in the old format, with any of the documented names of its options, is read as old-format file.", "quantifier": "all old-format files", "why_tests_cant": "One needs files for every combination of alternative names.", "anchors": ["hyvr/input/parameters.py:parameters", "hyvr/input/options_deprecated.py"]}
{"id": "C103", "title": "Old ini format: heterogeneity level", "statement": "With every heterogeneity level the old table accepts, cells get the conductivity and porosity of their facies (or a random field around them), never 0.", "quantifier": "all accepted levels and all models", "why_tests_cant": "Only visible in the numbers of a full run.", "anchors": ["hyvr/input/options_deprecated.py", "hyvr/geo/model.py:Model.generate_hydraulic_parameters"]}
{"id": "C104", "title": "Old ini format: settings", "statement": "The settings of an old file mean the same after conversion: both lists of outputs, the overwrite flag, anisotropy, heterogeneity and its level, generation of parameters; all other options are kept.", "quantifier": "all old run, model and hydraulics sections", "why_tests_cant": "Universal over the contents of the sections.", "anchors": ["hyvr/input/parameters.py:get_new_parameters_from_deprecated"]}
{"id": "C105", "title": "A cell's object number belongs to an object containing it", "statement": "After assign_points the number in data['ha'] of a cell is the number of a geometrical object that contains the cell's centre, and it is -1 in cells that got the background of their architectural element.", "quantifier": "all models, grids and cells", "why_tests_cant": "The objects are visited by a search that restarts at remembered positions and shares one buffer for all cells.", "anchors": ["hyvr/assign_points.py:assign_points", "hyvr/assign_points.py:maybe_assign_points_to_ae"]}
{"id": "C106", "title": "The facies of a cell belongs to the reported type", "statement": "After assign_points every cell is either untouched or carries in data['hat'] the identifier of an element type of its stratum and in data['facies'] a facies listed in the section of that type (as facies, lag facies or, except for sheets, as background of the element or stratum).", "quantifier": "all grids, parameters, generated models and draws", "why_tests_cant": "The facies passes through tables that are padded, sequences that are drawn, a search that remembers positions and strata that are generated in reverse order of their sections.", "anchors": ["hyvr/assign_points.py:assign_points", "hyvr/geo/ae_realization.py:AERealization.create_object_arrays", "hyvr/geo/sheet_ae.py:SheetAE", "hyvr/geo/channel_ae.pyx:ChannelAE"]}
{"id": "C107", "title": "Facies numbers of the cells refer to the ini-file", "statement": "After a file was accepted and a realization generated, every number in data['facies'] is the position of a facies in the option hydrofacies, data['hat'] of an assigned cell is the position in the option ae of a type that ae_in_strata lists for the stratum of the cell, and the facies stands in the section of that type or is the background of the stratum.", "quantifier": "all accepted ini-files, all draws, all generated models and cells", "why_tests_cant": "The number passes from the parser through the element types, the generation in reverse order of the strata, sequences of facies and the assignment; a wrong index is only visible as a wrong number.", "anchors": ["hyvr/input/parameters.py:parse_element", "hyvr/geo/model.py:Model.__init__", "hyvr/geo/ae_types.py:AEType", "hyvr/assign_points.py:assign_points", "hyvr/geo/model.py:Model.generate_hydraulic_parameters"]}
{"id": "C108", "title": "An accepted element section has what its elements are made from", "statement": "For every element section of an accepted new-format file: each option that the generation of elements of its geometry reads is there (no KeyError later), the numbers are numbers, the structure is one the geometry knows, and the elements made for it are those of its geometry.", "quantifier": "all accepted ini-files and element sections", "why_tests_cant": "The options are read one by one in six modules during generation, some of them only for some structures.", "anchors": ["hyvr/input/options.py", "hyvr/input/parameters.py:parse_element", "hyvr/geo/ae_types.py:AEType", "hyvr/geo/trough_ae.pyx:TroughAE", "hyvr/geo/channel_ae.pyx:ChannelAE", "hyvr/geo/sheet_ae.py:SheetAE"]}
{"id": "C109", "title": "Hydraulic parameters of an accepted file", "statement": "For every accepted new-format file with heterogeneity the generation of hydraulic parameters of a generated model does not fail; with heterogeneity_level = facies each cell gets the entries of k_h, n and k_ratio that stand at the position of the cell's facies in hydrofacies, and conductivities are positive if those of the facies and the trend factors are.", "quantifier": "all accepted ini-files, generated models, random fields and cells", "why_tests_cant": "The lists are filled up and checked by the parser, the index passes through generation and assignment, and numpy indexing accepts negative and repeated indices without complaint.", "anchors": ["hyvr/input/options.py", "hyvr/input/option_parsing.py", "hyvr/geo/model.py:Model.generate_hydraulic_parameters", "hyvr/assign_points.py:assign_points"]}
{"id": "C11", "title": "Layer thickness is present for every structure that needs it", "statement": "If a configuration is accepted, an element with structure dip or random has dipset_dist and an element with structure bulb_sets or random has bulbset_dist.", "quantifier": "all accepted element sections", "why_tests_cant": "All configurations.", "anchors": ["hyvr/input/parameters.py:parse_inifile", "hyvr/geo/trough.pyx:Trough.__init__"]}
{"id": "C110", "title": "Cells of the grid in double precision", "statement": "In double precision, with the roundings of np.arange: if the length of an axis is a whole number n of cells up to a quarter of a cell, the grid has n cells on this axis, and each centre is finite and within a sixteenth of a cell of its place; without rounding if all numbers are multiples of one power of two.", "quantifier": "all doubles with a sensible cell size (2^-900 to 2^900), an origin within 2^26 cells of zero (2^40 for the number of cells) and up to 2^20 (2^40) cells", "why_tests_cant": "np.arange with a fractional step is known for one entry more or less; the result depends on the bits of three numbers.", "anchors": ["hyvr/geo/grid.py:Grid"]}
{"id": "C111", "title": "Nodes of the VTR file in double precision", "statement": "In double precision, a grid of n cells along an axis has n+1 nodes in the VTR file.", "quantifier": "all doubles as in C110, even with a length of exactly n times the cell size", "why_tests_cant": "Depends on the last bit of sums; a test with whole numbers always passes.", "anchors": ["hyvr/postprocess/output.py:to_vtr"]}
{"id": "C112", "title": "Layers of MODFLOW 6 in double precision", "statement": "In double precision, a grid of n cells along z gives n layer bottoms in the MODFLOW 6 output.", "quantifier": "all doubles as in C110, even with a height of exactly n times the cell size", "why_tests_cant": "Depends on the last bit of sums; a test with whole numbers always passes.", "anchors": ["hyvr/postprocess/output.py:to_mf6"]}
{"id": "C113", "title": "Sizes and directions written in the ini-file are those of the grid and the objects", "statement": "After an accepted file was used for generation, the grid has the origin, cell sizes and lengths of section model; half axes, depths and widths of the objects of an element are the numbers of its section times the factor that size_ztrend prescribes for the elevation, angles are drawn from the ranges of the section, lag height and layer distances are those of the section, channels lie channel_no at a time at distance agg, troughs on planes at distance agg inside the domain, and missing background options are those of the stratum.", "quantifier": "all accepted ini-files, draws, generated models, elements and objects", "why_tests_cant": "Each number passes through a table of options, a dictionary and a constructor with many positional arguments; an exchanged pair shows only if a test has different numbers for all of them and looks at every object.", "anchors": ["hyvr/geo/ae_types.py:AEType", "hyvr/geo/trough_ae.pyx:TroughAE.generate_objects", "hyvr/geo/channel_ae.pyx:ChannelAE.generate_objects", "hyvr/geo/trough.pyx:Trough", "hyvr/geo/channel.pyx:Channel", "hyvr/geo/sheet.pyx:Sheet", "hyvr/geo/model.py:Model.__init__"]}
{"id": "C114", "title": "Boundaries of strata lie where their contact models say", "statement": "The bottom of each stratum but the lowest lies in every column at the elevation of its contact model in strata_contact_models (the flat elevation, or the mean plus the drawn random surface), cut at the top of the stratum; the lowest bottom is the base z0 of the model.", "quantifier": "all accepted ini-files, draws, generated models, strata and columns", "why_tests_cant": "The contact models are listed bottom up and used top down; the surfaces are changed in place when they cross.", "anchors": ["hyvr/geo/model.py:Model.generate_model", "hyvr/geo/contact_surface.py:ContactSurface"]}
{"id": "C115", "title": "Cross sections show the cells of the position in their title", "statement": "cross_section_pcolor shows for every position asked for in the domain the values of the cells that contain this position, by default through the centre of the domain, and warns about positions outside.", "quantifier": "all grids, fields and positions", "why_tests_cant": "A picture of other cells looks the same; with cells of size 1 it is right.", "anchors": ["hyvr/postprocess/plotting.py:cross_section_pcolor"]}
{"id": "C116", "title": "Element types occur according to ae_prob", "statement": "The type of every architectural element of a stratum is chosen with the probability given by ae_prob of its stratum divided by their sum; types of probability 0 do not occur; inadmissible probabilities are rejected.", "quantifier": "all probabilities, random numbers, accepted files and generated models", "why_tests_cant": "A statement about a probability: for each type the set of random numbers choosing it is an interval of the right length.", "anchors": ["hyvr/geo/stratum.py:prob_choose", "hyvr/geo/stratum.py:Stratum"]}
{"id": "C117", "title": "Elements follow the section strata", "statement": "From the top of each stratum downward the bottom of each architectural element is the elevation of its contact model at the top minus the thickness, cut at the boundaries above and below; the thickness is ae_z_mean of its type plus a tenth of it times a standard normal number, less the avulsion; the last element ends at the bottom of the stratum.", "quantifier": "all accepted ini-files, raw random numbers, generated models and strata", "why_tests_cant": "Four nested lists are indexed by stratum (from the end) and by the position of a type that is found again by its name.", "anchors": ["hyvr/geo/stratum.py:Stratum", "hyvr/geo/model.py:Model.generate_model"]}
{"id": "C118", "title": "Avulsion erodes units below", "statement": "As in the documentation: with avulsion the bottom of an element is lowered by the avulsion thickness, so that underlying units are eroded.", "quantifier": "all elements, avulsion ranges and draws", "why_tests_cant": "Only a sign; needs the comparison of two runs with the same random numbers otherwise.", "anchors": ["hyvr/geo/stratum.py:Stratum", "docs/methods.rst"]}
{"id": "C119", "title": "Starts and migration of channels", "statement": "On every level the channels start upstream of the domain; across the flow the first level's starts are drawn over the whole extent of the domain, and from level to level each channel moves by at most mig, to either side.", "quantifier": "all accepted files, draws, generated models, channels and levels", "why_tests_cant": "All sequences of draws; the starts are changed in place in an array that is shared by the levels.", "anchors": ["hyvr/geo/channel_ae.pyx:ChannelAE.generate_objects", "docs/inout.rst"]}
{"id": "C12", "title": "The hat output identifies the architectural element type", "statement": "For every architectural element section the type identifier written to the hat array is the position of the section name in the option ae, and distinct sections have distinct identifiers; a section which is not listed in ae is rejected.", "quantifier": "all ae lists and section names", "why_tests_cant": "All configurations.", "anchors": ["hyvr/input/parameters.py:setup_from_inifile"]}
{"id": "C120", "title": "Number and migration of troughs", "statement": "A plane of troughs holds a Poisson number with mean trough_density times the area of the domain; with the option migrate = [mean x, variance x, mean y, variance y] each trough of a lower plane is the one above it moved by normal numbers of these means and variances.", "quantifier": "all grids, densities, options and draws", "why_tests_cant": "A distribution cannot be seen in one test; the index of the trough above is computed from the number of troughs.", "anchors": ["hyvr/geo/trough_utils.py:generate_trough_positions", "docs/inout.rst"]}
{"id": "C121", "title": "Deviations of channel centrelines are unbiased", "statement": "The random deviations of the direction of a channel have mean zero: opposite normal numbers give opposite directions and without deviations the channel is straight.", "quantifier": "all lengths, shape parameters and normal numbers", "why_tests_cant": "A bias of a random number cannot be seen in one channel.", "anchors": ["hyvr/geo/channel_utils.py:ferguson_theta", "docs/inout.rst"]}
{"id": "C122", "title": "Azimuth and dip of a cell are those written in the ini-file", "statement": "Every cell that was assigned reports angles its element can have: for sheets from the ranges azimuth and dip; for troughs zero in the lag, otherwise from these ranges with the azimuth relative to a paleoflow direction, or (bulb) an azimuth of at most 90 degrees and a dip of at most the maximum; for channels the dip from its range and, as documented, the direction of the channel; for the background the options of the element or of the stratum.", "quantifier": "all accepted ini-files, draws, generated models and cells", "why_tests_cant": "The angles pass through the objects, shared arrays and two entries of a buffer; a test with equal ranges does not see an exchange.", "anchors": ["hyvr/geo/model.py:Model.generate_hydraulic_parameters", "hyvr/assign_points.py:assign_points", "hyvr/geo/channel.pyx:Channel", "hyvr/geo/channel_ae.pyx:ChannelAE.maybe_assign_facies_azim_dip", "docs/methods.rst"]}
{"id": "C123", "title": "The ini-file means what is written", "statement": "A file of sections [name] with lines key = value (also key: value), in any layout - blank lines, comment lines, blanks around names and values, indentation, values continued on deeper indented lines, any line ends, capital letters in keys, with or without a byte order mark - is read as exactly these sections and options, and the settings depend on them only; a file with a repeated section or option is not accepted.", "quantifier": "all documents, layouts and texts", "why_tests_cant": "All texts; layouts combine freely, and whether a line belongs to the value above depends on the indentation of an earlier line.", "anchors": ["hyvr/input/parameters.py:setup_from_inifile", "docs/inout.rst"]}
{"id": "C124", "title": "Warnings about unknown options", "statement": "HyVR warns exactly about the options of a section that it does not have; removing options it warned about changes nothing: the file is accepted or rejected in the same way and all settings are the same.", "quantifier": "all ini-files and all subsets of the options warned about", "why_tests_cant": "Compares two runs for all files and all subsets of options.", "anchors": ["hyvr/input/option_parsing.py:Section.parse", "hyvr/input/parameters.py:parse_inifile", "hyvr/input/parameters.py:parse_deprecated_inifile"]}
{"id": "C125", "title": "Troughs placed by hand", "statement": "With the option te_xyz the troughs of an element are centred at the listed points, in the listed order, and a cell inside a trough or channel of an element is reported as part of an object of this element or of one above it, never as background of this element or something below.", "quantifier": "all accepted ini-files with te_xyz, draws, generated models and cells", "why_tests_cant": "The search for the object stops at the first object below the cell, so the answer depends on the order of the list; needs all cells and all lists.", "anchors": ["hyvr/geo/trough_ae.pyx:TroughAE.generate_objects", "hyvr/assign_points.py:maybe_assign_points_to_ae", "docs/inout.rst"]}
{"id": "C126", "title": "The backup of the ini-file gives the same run", "statement": "The file <runname>_autogenerated_backup.ini written to the run directory is read as the same sections, options and settings as the ini-file of the run, whatever its layout; started from it a run has the same run name and run directory, and its own backup is the same text.", "quantifier": "all texts of accepted ini-files, directories and file systems", "why_tests_cant": "All texts: writing drops comments and layout and re-indents continued values; whether they are read back depends on every character.", "anchors": ["hyvr/input/parameters.py:set_up_directories", "hyvr/input/parameters.py:parameters", "docs/inout.rst"]}
{"id": "C127", "title": "HydroGeoSphere files hold usable tensors", "statement": "ktensors.txt and porosity.txt have one line per cell, numbered from 1 in the order of the cells; the columns read as numbers are K_xx K_yy K_zz K_xy K_xz K_yz of the cell to four digits and its porosity to three decimals. The matrices in the file are symmetric and positive definite like those of the model.", "quantifier": "all grids, models, conductivities, anisotropy ratios and angles", "why_tests_cant": "All real numbers; rounding of the entries may make a matrix singular although every entry is accurate.", "anchors": ["hyvr/postprocess/output.py:to_hgs"]}
{"id": "C128", "title": "What a run leaves on disk", "statement": "If the run directory is new, or may be overwritten, then after hyvr the run directory holds the backup of the ini-file and, for every realization up to the first one that fails, every file of every requested and available format with the data of this realization, none of them overwritten by a later one; besides only files and folders of the requested formats. Nothing outside the run directory changes at any time. The exit status is 0 exactly if all realizations were generated and written.", "quantifier": "all ini-files, file systems, numbers of realizations, lists of formats, data and failures", "why_tests_cant": "All sequences of realizations and formats on all file systems: names could meet across realizations, formats, folders and the backup, and a late failure could spoil earlier results.", "anchors": ["hyvr/sim.py:run", "hyvr/__main__.py", "hyvr/postprocess/output.py:create_outputs"]}
{"id": "C129", "title": "Options left out: documented defaults and requirements", "statement": "An accepted ini-file contains every option documented as required, in every section and element; every option with a documented default that is left out has this default (numsim 1, no overwriting, origin 0, dy and dz equal to dx, ..., dip and azimuth [0,0], buffer, lag_height and flow_angle 0). An option written as documented is accepted, in particular avul_prob as a list of floats of the length of strata.", "quantifier": "all ini-files", "why_tests_cant": "Quantifies over all files and all subsets of left out options.", "anchors": ["hyvr/input/options.py", "hyvr/input/option_parsing.py:Section.parse", "hyvr/input/parameters.py:parse_inifile", "docs/inout.rst"]}
{"id": "C13", "title": "Run name and run directory", "statement": "Without a runname and unless the file name ends in autogenerated_backup.ini the run name is the ini file name without its extension; the run directory is modeldir/runname, and modeldir is the directory of the ini file if not given. If the ini file is a backup <name>_autogenerated_backup.ini, the run directory is the directory of the ini file, and its run name is <name>, so running a backup reuses run name and run directory of the run that wrote it.", "quantifier": "all ini file names with an extension and all directories", "why_tests_cant": "All file names.", "anchors": ["hyvr/input/parameters.py:parameters"]}
{"id": "C130", "title": "The output holds the documented fields", "statement": "Every realization stores, under the documented names (strata, ae, ha, hat, fac, k_iso, dip, azim, ani_rat, poros, ktensors), the corresponding values of its own cells, whatever earlier realizations have stored.", "quantifier": "all configurations, draws, numbers of realizations", "why_tests_cant": "The same dictionary is reused by all realizations; all runs and all arrays.", "anchors": ["hyvr/assign_points.py:assign_points", "hyvr/geo/model.py:Model.generate_hydraulic_parameters", "hyvr/sim.py:run", "docs/inout.rst"]}
{"id": "C131", "title": "Rounding does not tear holes into the model", "statement": "In double precision as in exact arithmetic: strata are stacked without gaps from the top down to the origin, elements fill their stratum and sheets their element without overlap, bounds contain what they bound, every cell lies in the element and object reported for it, and (under the conditions of C34) every cell is assigned.", "quantifier": "all grids, draws and strata; every rounding of sums, differences, products and quotients, in particular IEEE binary64 without overflow", "why_tests_cant": "Tests see only a few elevations; gaps by rounding appear for particular combinations of thicknesses.", "anchors": ["hyvr/geo/model_setup.py:setup_model", "hyvr/geo/contact_surface.py:ContactSurface", "hyvr/geo/stratum.py:Stratum", "hyvr/assign_points.py:assign_points"]}
{"id": "C132", "title": "Internal heterogeneity is the one written in the ini-file", "statement": "With heterogeneity_level = internal every cell has the conductivity k_h of its facies times the exponential of a random field made with sig_y and ycorlengths of this facies, times the trends of its element and of the section hydraulics at the cell's position; the porosity is n plus the field made with sig_n and ncorlengths, times the trends. Cells of one facies in one element share one field.", "quantifier": "all accepted ini-files, draws, generated models, random numbers and cells", "why_tests_cant": "The lists of the section are indexed by facies, the fields by element and facies, the trends by layer and column; any exchange gives plausible numbers.", "anchors": ["hyvr/geo/model.py:Model.generate_hydraulic_parameters", "hyvr/utils.py:specsim", "docs/inout.rst"]}
{"id": "C14", "title": "The run directory is a proper subdirectory of the model directory", "statement": "For a normal ini file (not a backup) the run directory differs from the directory holding the ini file, so overwriting old output never touches the ini file.", "quantifier": "all ini file names", "why_tests_cant": "Needs the one file name pattern that fails.", "anchors": ["hyvr/input/parameters.py:parameters", "hyvr/input/parameters.py:set_up_directories"]}
{"id": "C15", "title": "Existing output is not touched unless overwriting is configured", "statement": "If the run directory exists and overwriting is not enabled in the configuration, setting up the directories raises FileExistsError and every existing file and directory is unchanged. Whatever happens, nothing outside the run directory is deleted or changed, at any point of the execution.", "quantifier": "all file system states, all run settings, all interruption points", "why_tests_cant": "All file systems and all crash points.", "anchors": ["hyvr/input/parameters.py:set_up_directories"]}
{"id": "C16", "title": "Overwriting leaves a run directory with only the backup file", "statement": "If overwriting is configured and set-up succeeds, the run directory contains exactly one entry, the backup ini file with the content of the configuration.", "quantifier": "all file system states without symbolic links among the entries of the run directory", "why_tests_cant": "All file systems.", "anchors": ["hyvr/input/parameters.py:set_up_directories"]}
{"id": "C17", "title": "The overwrite argument takes precedence over the ini file", "statement": "hyvr.run(inifile, flag_ow) and --overwrite: if flag_ow is not None it decides whether the old run directory is overwritten.", "quantifier": "all values of flag and configuration, all file systems", "why_tests_cant": "Needs the combination flag given / option not set on an existing directory.", "anchors": ["hyvr/input/parameters.py:set_up_directories", "hyvr/sim.py:run", "hyvr/__main__.py"]}
{"id": "C18", "title": "The configuration survives a crash", "statement": "At every interruption point of set_up_directories the configuration that is being run is still on disk.", "quantifier": "all file systems and interruption points", "why_tests_cant": "Crash points are not exercised by tests.", "anchors": ["hyvr/input/parameters.py:set_up_directories"]}
{"id": "C19", "title": "Realizations never overwrite each other", "statement": "The output directories of different realizations of one run are different, and with a single realization the run directory itself is used.", "quantifier": "all numbers of realizations (also beyond 999)", "why_tests_cant": "All numbers.", "anchors": ["hyvr/sim.py:run"]}
{"id": "C20", "title": "Grid cells tile the domain", "statement": "If the domain size is a multiple n of the cell size there are exactly n cells per direction, the i-th cell centre is origin+(i+1/2)*cell size, and the cells cover exactly the domain. For any positive sizes all cell centres lie inside the domain, are equally spaced and the uncovered or overhanging rest is at most half a cell.", "quantifier": "all origins, positive cell sizes and domain sizes (exact arithmetic)", "why_tests_cant": "Continuum of inputs.", "anchors": ["hyvr/geo/grid.py:Grid.__init__"]}
{"id": "C21", "title": "Output node coordinates fit the cell arrays", "statement": "The vtr output passes one more node coordinate than cells per direction, node i and i+1 bounding cell i.", "quantifier": "all grids", "why_tests_cant": "Continuum of inputs.", "anchors": ["hyvr/postprocess/output.py:to_vtr"]}
{"id": "C22", "title": "Surface clipping is a pointwise minimum / maximum", "statement": "After a.use_lower_surface_value(b), a is the pointwise minimum of both and b is unchanged; after a.use_higher_surface_value(b) it is the pointwise maximum. After any sequence of such calls zmin and zmax of the surface still bound all its values from below and above.", "quantifier": "all surfaces, all sequences of clipping calls between surfaces of a store", "why_tests_cant": "Histories of mutation on shared objects.", "anchors": ["hyvr/geo/contact_surface.py:ContactSurface"]}
{"id": "C23", "title": "Strata are stacked without gaps and without overlap", "statement": "In every grid column the strata surfaces are ordered: the bottom of each stratum is not above its top, the bottom of a stratum is the top of the next one, the first top is flat at the model top and the last bottom is not above the model base.", "quantifier": "all contact models, all random surfaces, all numbers of strata", "why_tests_cant": "All random outcomes.", "anchors": ["hyvr/geo/model.py:Model.generate_model"]}
{"id": "C24", "title": "The strata stack reaches from the bottom to the top of the grid", "statement": "The uppermost surface is at the top of the domain z0+lz so that every cell lies between the model top and base.", "quantifier": "all grids", "why_tests_cant": "Only shows up for an origin z0 different from zero.", "anchors": ["hyvr/geo/model.py:Model.generate_model"]}
{"id": "C25", "title": "Architectural elements tile their stratum", "statement": "In every grid column the AEs of a stratum are ordered from top to bottom, the first starts at the stratum top, each starts where the previous one ends and the last ends at the stratum bottom; every elevation between stratum bottom and top lies in at least one of them, and AE surfaces never leave the stratum.", "quantifier": "all draws of heights, types, avulsions and random surfaces; strata whose mean top is above their mean bottom", "why_tests_cant": "All random outcomes.", "anchors": ["hyvr/geo/stratum.py:Stratum.__init__"]}
{"id": "C26", "title": "Stratum generation terminates", "statement": "Generating the AEs of a stratum ends after finitely many AEs; if every drawn thickness (height minus avulsion) is at least eps > 0, after at most ceil(mean stratum thickness / eps) AEs.", "quantifier": "all sequences of draws", "why_tests_cant": "Non-termination cannot be tested.", "anchors": ["hyvr/geo/stratum.py:Stratum.__init__"]}
{"id": "C27", "title": "Depth bounds cover everything inside", "statement": "zmin and zmax of an AE bound its surfaces and all its objects, zmin and zmax of a stratum bound all its AEs, so the shortcuts in the cell assignment never skip an AE that contains the cell.", "quantifier": "all generated strata", "why_tests_cant": "All random outcomes.", "anchors": ["hyvr/geo/ae_realization.py:AERealization._add_object", "hyvr/geo/stratum.py:Stratum.__init__"]}
{"id": "C28", "title": "Sheets fill their architectural element", "statement": "The sheets of a sheet AE form a chain from the AE top to the AE bottom, so that every elevation between AE bottom and top in every column lies in at least one sheet, and generation ends after at most ceil(AE thickness / lens thickness) sheets for a positive lens thickness.", "quantifier": "all AE surfaces, all positive lens thicknesses", "why_tests_cant": "Continuum of surfaces and thicknesses.", "anchors": ["hyvr/geo/sheet_ae.py:SheetAE.generate_objects"]}
{"id": "C29", "title": "Sheets stay inside their architectural element", "statement": "No sheet contains a point below the bottom surface (or above the top surface) of its AE.", "quantifier": "all AE surfaces, all lens thicknesses", "why_tests_cant": "Only shows up with a non-flat bottom surface at special thicknesses.", "anchors": ["hyvr/geo/sheet_ae.py:SheetAE.generate_objects"]}
{"id": "C30", "title": "Sheet generation terminates", "statement": "For every lens thickness accepted by the ini parser the generation of sheets ends.", "quantifier": "all lens thicknesses", "why_tests_cant": "Non-termination cannot be tested.", "anchors": ["hyvr/geo/sheet_ae.py:SheetAE.generate_objects"]}
{"id": "C31", "title": "Background values fall back to the stratum", "statement": "The background facies, azimuth and dip of an AE are those of its element section if given there and otherwise those of the stratum, each of the three independently.", "quantifier": "all combinations of values", "why_tests_cant": "All values.", "anchors": ["hyvr/geo/ae_realization.py:AERealization.__init__"]}
{"id": "C32", "title": "Assigned cells really lie in the reported element", "statement": "If a cell is assigned a facies, then the reported stratum exists, the reported AE number belongs to an AE of this stratum with the reported type id, and the cell lies either in an object of this AE that returned this facies and angles, or between the AE's surfaces with the AE's background values.", "quantifier": "all models, all grids, all cells", "why_tests_cant": "All models and cells.", "anchors": ["hyvr/assign_points.py:assign_points", "hyvr/assign_points.py:maybe_assign_points_to_ae"]}
{"id": "C33", "title": "Resuming the search does not change the result", "statement": "The search through strata, AEs and objects resumes where the cell above was found. For a model whose objects are sorted by their top and whose objects and AEs have the property that a column left downwards is not entered again, every cell of a column down to the first cell that lies in no element gets the same result as an exhaustive search from the first stratum, AE and object.", "quantifier": "all such models, all columns, all cells", "why_tests_cant": "History of the whole column; optimisation must be invisible.", "anchors": ["hyvr/assign_points.py:assign_points", "hyvr/assign_points.py:maybe_assign_points_to_stratum", "hyvr/assign_points.py:maybe_assign_points_to_ae"]}
{"id": "C34", "title": "Every grid cell is assigned", "statement": "After assign_points every cell of the grid belongs to a stratum and an AE.", "quantifier": "all generated models", "why_tests_cant": "Only fails for cells exactly on a contact surface or above the uppermost surface.", "anchors": ["hyvr/assign_points.py:assign_points"]}
{"id": "C35", "title": "A missed cell does not affect the cells below", "statement": "If one cell cannot be assigned, the cells below it in the same column are still assigned.", "quantifier": "all models and columns", "why_tests_cant": "History of a column.", "anchors": ["hyvr/assign_points.py:assign_points"]}
{"id": "C36", "title": "Columns are independent of each other", "statement": "The result in one grid column does not depend on the order in which columns are visited nor on the other columns.", "quantifier": "all models without channels; with channels for cell size dy at most one", "why_tests_cant": "All schedules; precondition for the planned parallel loop.", "anchors": ["hyvr/assign_points.py:assign_points"]}
{"id": "C37", "title": "Geometrical objects have unique identifiers", "statement": "The ha array identifies the geometrical object of a cell: cells of different objects have different values.", "quantifier": "all models with at least two objects", "why_tests_cant": "All models.", "anchors": ["hyvr/geo/model.py:Model.generate_model", "hyvr/geo/ae_realization.py:AERealization._create_common_object_arrays"]}
{"id": "C38", "title": "A trough is exactly a lower half ellipsoid", "statement": "A cell is assigned to a trough exactly if it is not above the trough centre and inside the ellipsoid with semi axes a, b, c rotated by alpha; the shortcut tests on distance and depth never change the result.", "quantifier": "all positions, sizes, rotation angles and cells (exact arithmetic)", "why_tests_cant": "Continuum of inputs.", "anchors": ["hyvr/geo/trough_ae.pyx:TroughAE.maybe_assign_points_to_object", "hyvr/geo/trough.pyx:Trough.__init__"]}
{"id": "C39", "title": "Trough facies lookups stay inside the facies table", "statement": "For structure dip and bulb_sets the layer index computed for any cell inside the trough is a valid index of the trough's facies table.", "quantifier": "all troughs and cells (exact arithmetic), all random shifts", "why_tests_cant": "Continuum of inputs; an out-of-range read is silent because bounds checks are switched off.", "anchors": ["hyvr/geo/trough_ae.pyx:TroughAE.maybe_assign_points_to_object", "hyvr/geo/trough.pyx:Trough.__init__"]}
{"id": "C40", "title": "Dip and azimuth of bulb structures", "statement": "For bulb and bulb_sets the absolute value of the assigned dip never exceeds the trough's maximum dip and the azimuth lies between -90 and 90 degrees.", "quantifier": "all troughs with non-negative maximum dip and all cells", "why_tests_cant": "Continuum of inputs, degenerate directions.", "anchors": ["hyvr/geo/trough_ae.pyx:TroughAE.maybe_assign_points_to_object"]}
{"id": "C41", "title": "Bulb orientation follows the ellipsoid", "statement": "Documentation and comments: the bedding normal used for bulb azimuth and dip is the gradient direction of the rotated ellipsoid at the cell.", "quantifier": "all rotation angles", "why_tests_cant": "Visible only for rotated troughs.", "anchors": ["hyvr/geo/trough_ae.pyx:TroughAE.maybe_assign_points_to_object"]}
{"id": "C42", "title": "Lag facies", "statement": "The lag facies is assigned exactly to the cells of an object below its lowest point plus the lag height; with lag height zero it is never assigned.", "quantifier": "all troughs and channels, all cells", "why_tests_cant": "Continuum of inputs.", "anchors": ["hyvr/geo/trough_ae.pyx:TroughAE.maybe_assign_points_to_object", "hyvr/geo/channel_ae.pyx:ChannelAE.maybe_assign_points_to_object"]}
{"id": "C43", "title": "Periodic troughs", "statement": "In a periodic domain a cell belongs to a trough exactly if it lies in one of the trough's copies shifted by multiples of the domain size, for trough centres inside the domain and troughs not larger than half the domain.", "quantifier": "all troughs with centre in the domain, all cells", "why_tests_cant": "Continuum of inputs.", "anchors": ["hyvr/geo/trough_ae.pyx:TroughAE.maybe_assign_points_to_object"]}
{"id": "C44", "title": "Periodicity also holds for migrated troughs", "statement": "The same for trough centres that migrated out of the domain.", "quantifier": "all trough centres", "why_tests_cant": "Rare random outcome.", "anchors": ["hyvr/geo/trough_utils.py:generate_trough_positions", "hyvr/geo/trough_ae.pyx:TroughAE.maybe_assign_points_to_object"]}
{"id": "C45", "title": "Generated trough positions", "statement": "Trough positions are generated from top to bottom on planes with vertical distance agg, all strictly above the lower limit; without migration all centres lie inside the domain; with migration every plane holds the same number of troughs and each trough is displaced from its counterpart in the plane directly above.", "quantifier": "all draws", "why_tests_cant": "All random outcomes.", "anchors": ["hyvr/geo/trough_utils.py:generate_trough_positions"]}
{"id": "C46", "title": "Trough sizes follow the vertical trend", "statement": "The trough size factor is the linear interpolation of size_ztrend between domain bottom and top, so sizes between bottom and top of the domain lie between the two extremes and are positive for positive extremes.", "quantifier": "all elevations inside the domain, all trends", "why_tests_cant": "Continuum of inputs.", "anchors": ["hyvr/geo/trough_utils.py:rand_trough_params"]}
{"id": "C47", "title": "A channel is exactly the documented parabola", "statement": "A cell that was not excluded before is assigned to a channel exactly if it is not above the channel top and its horizontal distance D to the nearest centreline point satisfies D^2 <= w^2/4 + w^2 (z - z_ch)/(4 d); the result does not depend on whether the channel has dip sets.", "quantifier": "all centrelines, widths, depths and cells", "why_tests_cant": "Continuum of inputs.", "anchors": ["hyvr/geo/channel_ae.pyx:ChannelAE.maybe_assign_points_to_object", "docs/methods.rst"]}
{"id": "C48", "title": "Skipping far cells never loses channel cells", "statement": "The cells that are marked as not to be checked after a distance computation do not belong to the channel, so any order of column visits gives the same channel cells.", "quantifier": "all centrelines, grids and visiting orders", "why_tests_cant": "History of all previous distance computations.", "anchors": ["hyvr/geo/channel_ae.pyx:ChannelAE.maybe_assign_points_to_object"]}
{"id": "C49", "title": "Channel facies lookups stay inside the facies table", "statement": "For structure dip the layer index computed for any cell inside the channel is a valid index of the channel's facies table.", "quantifier": "all channels and cells", "why_tests_cant": "Out-of-range reads are silent.", "anchors": ["hyvr/geo/channel_ae.pyx:ChannelAE.maybe_assign_points_to_object", "hyvr/geo/channel.pyx:Channel.__init__"]}
{"id": "C50", "title": "Sheet facies lookups stay inside the facies table", "statement": "For structure dip the layer index computed for any cell of a sheet is a valid index of the sheet's facies table.", "quantifier": "all grids, sheets and cells", "why_tests_cant": "Depends on domain proportions.", "anchors": ["hyvr/geo/sheet.py:Sheet.__init__", "hyvr/geo/sheet_ae.py:SheetAE.maybe_assign_points_to_object"]}
{"id": "C51", "title": "Alternating facies obey altfacies", "statement": "A generated facies sequence has the requested length, starts with a facies of the element, and if altfacies is given every entry is one of the alternatives listed for its predecessor, otherwise every entry is one of the element's facies; with alternatives that are themselves element facies generation never fails.", "quantifier": "all facies lists, alternative lists, lengths and draws", "why_tests_cant": "All random outcomes.", "anchors": ["hyvr/utils.py:get_alternating_facies"]}
{"id": "C52", "title": "Conductivity tensor formula", "statement": "The tensor written for a cell with conductivity k, anisotropy ratio r, azimuth and dip equals k R diag(1,1,1/r) R^T with the rotation matrix R of the documentation; it is symmetric, for k,r>0 positive definite, has conductivity k along the bedding and k/r across it, and is k times the identity for r=1.", "quantifier": "all k, r, angles", "why_tests_cant": "Continuum of inputs; trigonometric identities.", "anchors": ["hyvr/optimized.py:set_anisotropic_ktensor", "docs/methods.rst"]}
{"id": "C53", "title": "Computing the tensors does not fail", "statement": "set_anisotropic_ktensor completes for every non-empty grid.", "quantifier": "all grids", "why_tests_cant": "No unit test calls it.", "anchors": ["hyvr/optimized.py:set_anisotropic_ktensor"]}
{"id": "C54", "title": "Facies-level hydraulic parameters", "statement": "With heterogeneity level 'facies' every cell's conductivity, porosity and anisotropy ratio are the values listed for the cell's facies, whatever the object numbering.", "quantifier": "all facies and object arrays", "why_tests_cant": "All arrays.", "anchors": ["hyvr/geo/model.py:Model.generate_hydraulic_parameters"]}
{"id": "C55", "title": "Internal heterogeneity uses the cell's facies", "statement": "With heterogeneity level 'internal' the anisotropy ratio of every cell is the value listed for the cell's facies.", "quantifier": "all models", "why_tests_cant": "All models.", "anchors": ["hyvr/geo/model.py:Model.generate_hydraulic_parameters"]}
{"id": "C56", "title": "Trends are stored", "statement": "The conductivity written to the outputs includes the configured x-trend.", "quantifier": "all models with a trend", "why_tests_cant": "Depends on array aliasing.", "anchors": ["hyvr/geo/model.py:Model.generate_hydraulic_parameters"]}
{"id": "C57", "title": "Homogeneous models", "statement": "With heterogeneity switched off every cell gets the values listed for its facies.", "quantifier": "all configurations in the current ini format", "why_tests_cant": "No test covers it.", "anchors": ["hyvr/geo/model.py:Model.generate_hydraulic_parameters"]}
{"id": "C58", "title": "Conductivity stays positive", "statement": "For positive listed conductivities (and positive trend factors) every cell's isotropic conductivity is positive whatever the random field.", "quantifier": "all random fields", "why_tests_cant": "All random outcomes.", "anchors": ["hyvr/geo/model.py:Model.generate_hydraulic_parameters"]}
{"id": "C59", "title": "Output formats", "statement": "All requested formats are written in order; a missing optional library only skips this format; an unknown format raises ValueError before anything of it is written, after the formats before it.", "quantifier": "all lists of formats and all subsets of missing libraries", "why_tests_cant": "All combinations.", "anchors": ["hyvr/postprocess/output.py:create_outputs"]}
{"id": "C60", "title": "MODFLOW layers have the conductivity of the same elevation", "statement": "MODFLOW numbers layers from the top; the conductivity of a MODFLOW cell is that of the HyVR cell at the same elevation.", "quantifier": "all grids with at least two layers", "why_tests_cant": "Needs comparison of two index conventions.", "anchors": ["hyvr/postprocess/output.py:to_modflow", "hyvr/postprocess/output.py:to_mf6"]}
{"id": "C61", "title": "MODFLOW cell widths match the grid", "statement": "The number and width of MODFLOW rows and columns match the HyVR cells they hold.", "quantifier": "all grids", "why_tests_cant": "Only visible for dx different from dy.", "anchors": ["hyvr/postprocess/output.py:to_modflow", "hyvr/postprocess/output.py:to_mf6"]}
{"id": "C62", "title": "HGS rows identify cells", "statement": "The HGS output has one row per cell, the row identifiers are 1..N without repetition, and tensor and porosity rows with the same identifier belong to the same cell.", "quantifier": "all grids", "why_tests_cant": "All sizes.", "anchors": ["hyvr/postprocess/output.py:to_hgs"]}
{"id": "C63", "title": "Centreline resampling", "statement": "curve_interp terminates, returns points of the resampled curve in order, starting with the first one, and consecutive points are further apart along the curve than the spacing.", "quantifier": "all curves and positive spacings", "why_tests_cant": "All curves; loop termination.", "anchors": ["hyvr/optimized.py:curve_interp"]}
{"id": "C64", "title": "Centreline velocities", "statement": "Before clipping to the domain, consecutive centreline points differ by exactly the velocity of the first of them and all velocities have length ds; rotating and shifting the curve preserves this.", "quantifier": "all angles sequences", "why_tests_cant": "Continuum.", "anchors": ["hyvr/geo/channel_utils.py:ferguson_curve"]}
{"id": "C65", "title": "Old ini format: background dip", "statement": "In the old format an element's bg option lists facies, azimuth and dip, and the dip is used as background dip.", "quantifier": "all old-format element sections", "why_tests_cant": "Only visible if azimuth and dip differ.", "anchors": ["hyvr/input/parameters.py:get_new_parameters_from_deprecated"]}
{"id": "C66", "title": "Old ini format: every accepted geometry can be generated", "statement": "Every geometry accepted in the old format can be realised.", "quantifier": "all accepted geometries", "why_tests_cant": "Composition of two modules.", "anchors": ["hyvr/input/parameters.py:get_new_parameters_from_deprecated", "hyvr/geo/ae_types.py:AEType.generate_realization"]}
{"id": "C67", "title": "Random values land on the selected cells", "statement": "The values returned by specsim for a selection are as many as there are selected cells, and assigning them with the same mask gives each selected cell the field value at its own position in the bounding box.", "quantifier": "all selection masks with at least one cell, all fields", "why_tests_cant": "All masks.", "anchors": ["hyvr/utils.py:specsim", "hyvr/geo/model.py:Model.generate_hydraulic_parameters"]}
{"id": "C68", "title": "Random fields have no hidden constraint", "statement": "The simulated field is not forced to a fixed average along the x-direction; in particular a selection one cell wide in x still gets random values.", "quantifier": "all fields", "why_tests_cant": "Statistical tests do not see an exact linear constraint on small regions.", "anchors": ["hyvr/utils.py:specsim"]}
{"id": "C69", "title": "Realizations are independent of earlier realizations", "statement": "The model of a realization only depends on the configuration and on the random draws made for this realization, not on previous realizations.", "quantifier": "all sequences of realizations", "why_tests_cant": "Histories.", "anchors": ["hyvr/sim.py:run", "hyvr/geo/model.py:Model.generate_model", "hyvr/geo/stratum.py:Stratum.__init__"]}
{"id": "C70", "title": "A failing configuration leaves the disk untouched", "statement": "If the ini file is rejected (missing sections or options, wrong shapes, invalid values), no file or directory is created or deleted.", "quantifier": "all rejected configurations", "why_tests_cant": "All rejected inputs.", "anchors": ["hyvr/input/parameters.py:setup_from_inifile"]}
{"id": "C71", "title": "A model with a single stratum can be configured", "statement": "Some accepted ini file describes a model with exactly one stratum.", "quantifier": "all accepted ini files", "why_tests_cant": "A negative statement over all files: no test can try every spelling of the contact model option.", "anchors": ["hyvr/input/parameters.py:parse_inifile", "hyvr/input/options.py:strata_options"]}
{"id": "C72", "title": "Lists may be broken over lines", "statement": "A list of lists written over several lines (with the line breaks that configparser keeps in a continued value) is read like the same literal on one line.", "quantifier": "all list-of-lists literals with line breaks between tokens", "why_tests_cant": "Infinite set of layouts.", "anchors": ["hyvr/input/option_parsing.py:parse_list"]}
{"id": "C73", "title": "The option modeldir chooses the output directory", "statement": "If modeldir is given in the ini file the run directory is modeldir/runname.", "quantifier": "all values of modeldir and runname", "why_tests_cant": "Needs all spellings of the option.", "anchors": ["hyvr/input/parameters.py:parameters", "docs/inout.rst"]}
{"id": "C74", "title": "A run name may contain a directory part", "statement": "A run with a run name a/b uses the run directory modeldir/a/b and finds its backup ini file there; old output is not deleted by a run that then fails.", "quantifier": "all run names", "why_tests_cant": "Needs the file system state after a failure.", "anchors": ["hyvr/input/parameters.py:set_up_directories"]}
{"id": "C75", "title": "Missing sections are reported as such", "statement": "An ini file without one of the sections run, model, strata, hydraulics is rejected with MissingSectionError.", "quantifier": "all ini files", "why_tests_cant": "All files.", "anchors": ["hyvr/input/parameters.py:parameters", "hyvr/input/parameters.py:parse_inifile"]}
{"id": "C77", "title": "A stratum that is thick somewhere contains an element", "statement": "If in some grid column the top of a stratum is above its bottom, then the stratum contains at least one architectural element.", "quantifier": "all generated models", "why_tests_cant": "Needs all pairs of random surfaces.", "anchors": ["hyvr/geo/stratum.py:Stratum.__init__"]}
{"id": "C78", "title": "Layers are parallel to the bedding planes of the tensor", "statement": "For objects with dip sets, two cells of an object that lie on one plane along which the conductivity is not reduced (the plane given by the azimuth and dip written for the cells) belong to the same layer and therefore have the same facies.", "quantifier": "all troughs, sheets and channels with dip sets, all pairs of cells", "why_tests_cant": "Two different modules use the angles; agreement is only visible for oblique angles and needs all pairs of cells.", "anchors": ["hyvr/geo/trough.py", "hyvr/geo/sheet.py:Sheet.__init__", "hyvr/geo/channel_ae.pyx", "hyvr/optimized.py:set_anisotropic_ktensor", "docs/methods.rst"]}
{"id": "C79", "title": "Sheets can be generated with the Python class", "statement": "An architectural element of sheets can be created when the classes of sheet.py and ae_realization.py are used.", "quantifier": "all settings", "why_tests_cant": "A missing attribute is only seen when the code runs; here no setting works.", "anchors": ["hyvr/geo/sheet.py:Sheet.__init__", "hyvr/geo/ae_realization.py:AERealization._create_common_object_arrays"]}
{"id": "C80", "title": "Channels start upstream of the domain", "statement": "The centreline of a channel starts half the length of the domain in flow direction plus half the channel width before the centre of the domain, shifted across the flow by the drawn offset, wherever the origin of the grid is.", "quantifier": "all grids, flow angles, widths and offsets", "why_tests_cant": "All grids; the examples of the repository start at the origin.", "anchors": ["hyvr/geo/channel_ae.pyx:ChannelAE.generate_objects"]}
{"id": "C81", "title": "Channel sizes can follow a trend", "statement": "With size_ztrend the channels of an element are generated with sizes scaled by the trend.", "quantifier": "all settings with size_ztrend", "why_tests_cant": "No setting works.", "anchors": ["hyvr/geo/channel_ae.pyx:ChannelAE.generate_objects"]}
{"id": "C82", "title": "Levels of channels", "statement": "For positive agg the generation of channels ends; there are channel_no channels on each of the levels top mean - k*agg (k = 1, 2, ...) above bottom mean + depth*buffer, listed from the top down, all with the given width and depth.", "quantifier": "all settings without size_ztrend with positive agg, all surfaces and draws", "why_tests_cant": "All settings; loop termination.", "anchors": ["hyvr/geo/channel_ae.pyx:ChannelAE.generate_objects"]}
{"id": "C83", "title": "The trend of an element changes the cells of this element", "statement": "k_ztrend and k_xtrend of an architectural element change the conductivities of the cells of this element and of no other cell.", "quantifier": "all models with several elements", "why_tests_cant": "All models; the effect on other elements depends on the numbering of objects.", "anchors": ["hyvr/geo/model.py:Model.generate_hydraulic_parameters", "docs/inout.rst"]}
{"id": "C84", "title": "Trends apply at every level of heterogeneity", "statement": "The configured conductivity and porosity trends are applied whatever the settings heterogeneity and heterogeneity_level.", "quantifier": "all models, all settings", "why_tests_cant": "All combinations of settings and models.", "anchors": ["hyvr/geo/model.py:Model.generate_hydraulic_parameters"]}
{"id": "C85", "title": "Porosity trends of elements are applied", "statement": "n_ztrend and n_xtrend of an element section change the porosities.", "quantifier": "all models with such options", "why_tests_cant": "The absence of any effect on every model.", "anchors": ["hyvr/geo/model.py:Model.generate_hydraulic_parameters", "docs/inout.rst"]}
{"id": "C86", "title": "Models without anisotropy are isotropic", "statement": "With anisotropy = false the conductivity tensors are multiples of the identity.", "quantifier": "all models", "why_tests_cant": "The setting has no effect for any model.", "anchors": ["hyvr/geo/model.py:Model.__init__", "hyvr/geo/model.py:Model.generate_hydraulic_parameters", "docs/inout.rst"]}
{"id": "C87", "title": "Porosities lie between 0 and 1", "statement": "If the listed porosities lie between 0 and 1, so do the porosities of all cells.", "quantifier": "all models, all random draws", "why_tests_cant": "Only violated for rare random draws.", "anchors": ["hyvr/geo/model.py:Model.generate_hydraulic_parameters"]}
{"id": "C88", "title": "Stored tensors belong to the stored conductivities", "statement": "The tensor of every cell is the documented tensor of the stored conductivity, the stored anisotropy ratio and the azimuth and dip (in degrees) of the cell.", "quantifier": "all models, settings and draws", "why_tests_cant": "Depends on which array a local name denotes after a trend; needs all combinations of trends.", "anchors": ["hyvr/geo/model.py:Model.generate_hydraulic_parameters", "docs/methods.rst"]}
{"id": "C89", "title": "The resampled centreline covers the curve", "statement": "curve_interp resamples the whole curve, and with positive length a generated centreline without noise gets across the domain in flow direction.", "quantifier": "all curves, spacings and domains", "why_tests_cant": "All curves; the returned list looks plausible for every single curve.", "anchors": ["hyvr/optimized.py:curve_interp", "hyvr/geo/channel_utils.py:ferguson_curve"]}
{"id": "C90", "title": "Channel directions stay bounded", "statement": "For positive k*h and bounded random draws all directions of a meandering channel are bounded by a constant that does not depend on the length of the channel.", "quantifier": "all lengths, all bounded sequences of draws", "why_tests_cant": "Stability of a recurrence over all lengths and draws.", "anchors": ["hyvr/geo/channel_utils.py:ferguson_theta", "hyvr/optimized.py:thetaAR2"]}
{"id": "C91", "title": "'Saved' is only reported for written formats", "statement": "The message 'Saved <format> output to <directory>' is printed exactly for the formats that were written.", "quantifier": "all lists of formats and missing libraries", "why_tests_cant": "All combinations of formats and libraries.", "anchors": ["hyvr/postprocess/output.py:create_outputs"]}
{"id": "C92", "title": "Heads are fixed at both ends of the x-axis", "statement": "In MODFLOW input the cells with fixed head are those with the first (head hin) and the last (head hout) x-index.", "quantifier": "all grids and heads", "why_tests_cant": "Only visible by comparing index conventions; for square grids the files look right.", "anchors": ["hyvr/postprocess/output.py:to_modflow", "hyvr/postprocess/output.py:to_mf6"]}
{"id": "C93", "title": "Every accepted flowtrans section can be used", "statement": "MODFLOW input can be written for every flowtrans section that is accepted, in particular with a head gradient or inflow instead of heads.", "quantifier": "all flowtrans sections", "why_tests_cant": "All combinations of optional options.", "anchors": ["hyvr/postprocess/output.py:to_modflow", "hyvr/postprocess/output.py:to_mf6", "hyvr/input/options.py"]}
{"id": "C94", "title": "Wells only if q_in is given", "statement": "The MODFLOW 6 input contains wells exactly if q_in is given; then there is one of rate q_in in every inlet cell.", "quantifier": "all settings", "why_tests_cant": "The unwanted boundary condition does not cause an error.", "anchors": ["hyvr/postprocess/output.py:to_mf6"]}
{"id": "C95", "title": "MODFLOW 6 gets the conductivity tensors", "statement": "With the conventions of MODFLOW 6 for the angles the conductivities and angles written for a cell give the conductivity tensor of the cell.", "quantifier": "all angles, conductivities and anisotropy ratios", "why_tests_cant": "Continuum of angles and two conventions.", "anchors": ["hyvr/postprocess/output.py:to_mf6", "hyvr/optimized.py:set_anisotropic_ktensor"]}
{"id": "C96", "title": "Output formats do not depend on hydraulics", "statement": "With hydraulics switched off, the formats that need conductivities are skipped or rejected with a clear message before the model is generated.", "quantifier": "all settings with hydraulics = false", "why_tests_cant": "All combinations of formats and settings.", "anchors": ["hyvr/postprocess/output.py", "hyvr/sim.py:run"]}
{"id": "C97", "title": "MODFLOW layers are the layers of the grid", "statement": "The number of MODFLOW layers and their tops and bottoms are those of the layers of cells.", "quantifier": "all grids of whole cells", "why_tests_cant": "All grids; rounding only shows for some thicknesses.", "anchors": ["hyvr/postprocess/output.py:to_modflow", "hyvr/postprocess/output.py:to_mf6"]}
{"id": "C98", "title": "Old ini format: converted elements are complete", "statement": "Every old-format trough or sheet section that is accepted gives, after conversion, an element with every option that the generation of elements later reads; no missing key can show up in the middle of a run.", "quantifier": "all old-format element sections with geometry trunc_ellip or sheet", "why_tests_cant": "Depends on two option tables, a conversion function and the reads in seven other modules; tests only show sections that somebody wrote.", "anchors": ["hyvr/input/options_deprecated.py", "hyvr/input/parameters.py:parse_deprecated_inifile", "hyvr/input/parameters.py:get_new_parameters_from_deprecated", "hyvr/geo/ae_types.py:AEType"]}
{"id": "C99", "title": "Old ini format: element tables are refused", "statement": "A file that asks for an element table (ae_table), which is not supported anymore, is refused with the ValueError that says so.", "quantifier": "all old-format files", "why_tests_cant": "An error path.", "anchors": ["hyvr/input/parameters.py:parse_deprecated_inifile", "hyvr/input/parameters.py:get_new_parameters_from_deprecated"]}
{"id": "C133", "title": "Random fields have the documented covariance", "statement": "The values of a random field (heterogeneity, trends excepted, and random contact surfaces) have expectation 0, the variance written in the ini-file, and between two cells the covariance of the chosen model: variance times exp(-h^2) or exp(-h), h being the distance divided by the correlation lengths.", "quantifier": "all boxes, coordinates, variances, correlation lengths, covariance models and all distributions of the draws that are uncorrelated with mean 0 and variance 1", "why_tests_cant": "A sample covariance has a sampling error and is computed for one box; that the error is systematic for every box needs the expectation.", "anchors": ["hyvr/utils.py:specsim", "docs/inout.rst (sig_y, ycorlengths)"]}
{"id": "C134", "title": "Layers have the thickness written in the ini-file", "statement": "The dipping layers of troughs, sheets and channels are dipset_dist thick, measured across the layers, and the nested layers of bulb sets are bulbset_dist thick below the centre: two cells of one object that are further apart than this across the layers are not in the same layer.", "quantifier": "all troughs, sheets and channels made with these structures, all positions, sizes, draws and layer distances", "why_tests_cant": "The facies of neighbouring layers may be equal by chance, so a model does not show where a layer ends; the claim is about every object and position.", "anchors": ["hyvr/geo/trough_ae.pyx:maybe_assign_points_to_object", "hyvr/geo/sheet_ae.py:maybe_assign_points_to_object", "hyvr/geo/channel_ae.pyx:maybe_assign_points_to_object", "docs/inout.rst (dipset_dist, bulbset_dist)"]}
{"id": "C135", "title": "Generating elements and sheets ends in double precision", "statement": "With positive thicknesses the loops that fill a stratum with elements and an element with sheets end, also when every subtraction is rounded to the nearest double.", "quantifier": "all grids, surfaces, positive lens thicknesses and sequences of drawn element thicknesses, in binary64 arithmetic", "why_tests_cant": "Whether a loop ends depends on the rounding of every step for elevations and thicknesses of any size; a test that does not end proves nothing.", "anchors": ["hyvr/geo/sheet_ae.py:generate_objects", "hyvr/geo/stratum.py:Stratum.__init__"]}
{"id": "C136", "title": "An element with lens_thickness -1 is one sheet", "statement": "A sheet element whose lens_thickness is -1 consists of exactly one object, from the bottom to the top of the element, also in double precision.", "quantifier": "all grids, surfaces of doubles and elements with lens_thickness -1", "why_tests_cant": "Whether the computed bottom hits the bottom of the element exactly depends on the rounding of two differences for every pair of elevations.", "anchors": ["hyvr/geo/sheet_ae.py:generate_objects", "docs/inout.rst (lens_thickness)"]}
{"id": "C137", "title": "The built-in test case leaves nothing behind", "statement": "Running the built-in test case (inifile == 0) writes only into a new temporary directory, changes nothing that was there before, and leaves the disk as it was.", "quantifier": "all file systems, temporary names, configurations, writers and points of interruption", "why_tests_cant": "A test sees one disk and one run that succeeds; the claim is about every disk, every failure and every interruption.", "anchors": ["hyvr/sim.py:run (l. 60-66)", "hyvr/input/parameters.py:set_up_directories (l. 480-485)", "hyvr/input/parameters.py:parameters (l. 88-90)"]}
{"id": "C138", "title": "The command line does what its help says", "statement": "hyvr [--overwrite] [filename] runs the named file, or the test case without a name; --overwrite makes it overwrite the old run directory; the exit status is 0 exactly if the run came to its end, and wrong arguments touch nothing.", "quantifier": "all lists of arguments, file systems and files", "why_tests_cant": "There are infinitely many argument lists, and the help, errors, abbreviations and separators of argparse interact with their order.", "anchors": ["hyvr/__main__.py"]}
{"id": "C139", "title": "Old ini format: options left out", "statement": "An accepted file of the old format gives every required option of the sections model, strata and hydraulics and of every element (by its geometry) under its name or one of its old names (l_ssm, r_ssm_top, ll_ssm_ae, ...). Options of run, model, strata and hydraulics that are given under none of their names have the default of the table after the conversion (numsim 1, anisotropy and heterogeneity on, no overwriting, origin 0, dy and dz equal to dx, flat contacts, generation of parameters on).", "quantifier": "all ini-files with dataoutputs in the section run; all float conversions", "why_tests_cant": "Quantifies over all files and all subsets of left out options; the tests have one old file.", "anchors": ["hyvr/input/options_deprecated.py", "hyvr/input/option_parsing.py:Section.parse", "hyvr/input/parameters.py:parse_deprecated_inifile", "hyvr/input/parameters.py:get_new_parameters_from_deprecated"]}
{"id": "C140", "title": "Cells inside several channels", "statement": "docs/methods.rst says that subsequent extruded parabolas supersede (erode) those previously generated. In the code it is the other way round: a cell inside several channels of an element shows the lag, facies, azimuth and dip of the first channel of the list, i.e. of the one generated first at the highest elevation, unless the cell belongs to an element above; two channels of one elevation with a cell in both give the cell the facies of the one generated first.", "quantifier": "all grids, parameter sets and random draws of a run with sensible parameters (C34), all elements, all lists of channels and all cells", "why_tests_cant": "Depends on overlapping random centrelines in arbitrary models; the tests contain no model with channels that overlap.", "anchors": ["docs/methods.rst", "hyvr/assign_points.py", "hyvr/geo/channel_ae.pyx:generate_objects", "hyvr/geo/channel.pyx:maybe_assign_facies_azim_dip"]}
{"id": "C141", "title": "Cells inside several troughs", "statement": "A cell inside several troughs of an element, and in no element above, shows facies, azimuth and dip of the first of them in the list (with the values this trough gives to the cell); the list of an element goes from high to low troughs. So of the overlapping troughs the uppermost wins, and among troughs at one elevation the one generated first.", "quantifier": "all grids, parameter sets and random draws of a run with sensible parameters (C34), with or without periodic boundaries, all elements, all lists of troughs and all cells", "why_tests_cant": "Depends on overlapping random troughs in arbitrary models.", "anchors": ["hyvr/assign_points.py:maybe_assign_points_to_ae", "hyvr/geo/trough_ae.pyx", "hyvr/geo/trough_utils.py"]}
{"id": "C142", "title": "Numbers have the value that is written", "statement": "An option of type float written in decimal notation (sign, digits, point, digits, exponent with e or E, blanks or line breaks around it) is read as exactly this number; lists and lists of lists of such numbers are read as these numbers, whatever spaces are put in. An option of type int takes a sign and digits only: a point or an exponent (numsim = 2.0, 1e3) is refused with ValueError, and so is any other text in place of a number.", "quantifier": "all decimal literals, all nested lists of them up to two levels, all placements of spaces", "why_tests_cant": "Infinite set of literals.", "anchors": ["hyvr/input/option_parsing.py:Option.parse", "hyvr/input/option_parsing.py:parse_list", "hyvr/input/options.py"]}
{"id": "C143", "title": "The origin of the horizontal axes does not matter", "statement": "Moving x0 and y0 (and the positions te_xyz given in the settings) by a and b with the same draws gives the same run: the same surfaces, elements and strata, arrays that agree cell by cell, or the same error.", "quantifier": "all grids, parameter sets, draws, shifts (a,b) and cells", "why_tests_cant": "Relates pairs of runs for unboundedly many shifts.", "anchors": ["hyvr/geo/grid.py", "hyvr/geo/model.py:generate_model", "hyvr/geo/trough_utils.py", "hyvr/geo/sheet.py", "hyvr/geo/channel_ae.pyx:generate_objects", "hyvr/geo/channel_utils.py:ferguson_curve"]}
{"id": "C144", "title": "The size of the cells does not change the model", "statement": "Two grids over the same domain with different dx, dy, dz give, with the same draws, the same surfaces, elements, strata and objects, or the same error; a point that is a cell centre in both grids gets the same values in both.", "quantifier": "all pairs of grids over one domain, parameter sets, draws and common cell centres", "why_tests_cant": "Relates pairs of runs with unboundedly many resolutions.", "anchors": ["hyvr/geo/grid.py", "hyvr/geo/model.py:generate_model", "hyvr/geo/contact_surface.py", "hyvr/assign_points.pyx:assign_points", "hyvr/geo/channel.pyx"]}
{"id": "C145", "title": "What lies below a contact surface does not change what lies above it", "statement": "Strata are generated from the top down. Two models on the same grid that agree in the settings, contacts and draws of their k uppermost strata, and each have at least one stratum more, have the same k uppermost strata with the same elements, objects and elevations; a cell that shows one of these strata in one model has the same values in the other.", "quantifier": "all grids, k, pairs of parameter sets and draws agreeing in the k uppermost strata, and cells", "why_tests_cant": "Relates pairs of runs whose remaining strata are arbitrary.", "anchors": ["hyvr/geo/model.py:generate_model", "hyvr/geo/stratum.py", "hyvr/geo/contact_surface.py", "hyvr/assign_points.pyx:assign_points"]}
{"id": "C146", "title": "References between options in the ini-file", "statement": "In a parameter file without a DEFAULT section, %(name)s in a value stands for the value of the option of that name in the same section (in any letter case), with its own references replaced in turn up to ten levels, and %% for a per cent sign. Reading the file gives exactly the values so obtained. What a value stands for is unique. Any other use of a per cent sign, a reference to a missing option, references nested deeper than ten levels and circular references make the file unreadable: an InterpolationError, no other error.", "quantifier": "all lists of sections and options, values with any per cent signs, and texts that write them", "why_tests_cant": "Chains and circles of references of any length, in any layout of the file.", "anchors": ["hyvr/input/parameters.py:setup_from_inifile", "docs/inout.rst"]}
{"id": "C147", "title": "The section DEFAULT of the ini-file", "statement": "A parameter file may contain one section DEFAULT, anywhere among the others. It is not a section of its own: every other section is read with its own options followed by the options of DEFAULT whose names it does not have. References %(name)s use these options as well, and a reference inside an option of DEFAULT is resolved separately in every section that takes it over. Reading fails only with an InterpolationError, and not at all if no value contains a per cent sign.", "quantifier": "all lists of sections before and after DEFAULT, options, layouts and texts", "why_tests_cant": "The position of DEFAULT, the sets of names and the layout combine freely.", "anchors": ["hyvr/input/parameters.py:setup_from_inifile", "docs/inout.rst"]}
{"id": "C148", "title": "The unit of length does not matter", "statement": "For a model of troughs and sheets: writing all lengths of the settings (grid, elevations, thicknesses, sizes, distances of layers, lags, positions, variance and correlation lengths of random surfaces) and all drawn lengths in another unit gives the same run: the same number of cells, the same surfaces, elements and strata in the other unit, arrays of facies, numbers and angles that agree cell by cell, or the same error. lens_thickness = -1 is not a length and stays.", "quantifier": "all grids, parameter sets of troughs and sheets of every structure, draws, factors c > 0 and cells", "why_tests_cant": "Relates pairs of runs for unboundedly many factors; every comparison of the code takes part.", "anchors": ["hyvr/geo/grid.py", "hyvr/geo/model.py:generate_model", "hyvr/geo/stratum.py", "hyvr/geo/contact_surface.py", "hyvr/geo/trough_utils.py", "hyvr/geo/trough.pyx", "hyvr/geo/trough_ae.pyx", "hyvr/geo/sheet.py", "hyvr/geo/sheet_ae.py", "hyvr/assign_points.py"]}
{"id": "C149", "title": "The unit of length does not matter for channels", "statement": "Writing all lengths of a model with channels in another unit (as C148) gives the same channels in the other unit, the same layers and the same values in every cell.", "quantifier": "all grids, channel parameters, centrelines, draws, factors c > 0, orders of cells and points", "why_tests_cant": "Relates pairs of runs for unboundedly many factors and marks left by earlier cells.", "anchors": ["hyvr/geo/channel.pyx", "hyvr/geo/channel_ae.pyx:maybe_assign_points_to_object", "hyvr/geo/channel_ae.pyx:generate_objects"]}
{"id": "C150", "title": "The order in the parameter file does not matter", "statement": "Putting the sections of a parameter file (of either format), and the options of each section, in another order does not change whether the file is accepted, nor the value of any option, contact model or element type; the model generated from it and its hydraulic parameters for the same draws are the same. For a file with several mistakes the exception may be another one.", "quantifier": "all files in which each section and each option occurs once, all reorderings, all converters, all draws", "why_tests_cant": "Factorially many orders of sections and options, each with values of every kind; tests try one order.", "anchors": ["hyvr/input/parameters.py:parse_inifile", "hyvr/input/option_parsing.py:Section.parse", "hyvr/input/parameters.py:setup_from_inifile", "hyvr/geo/model.py:Model.__init__"]}
{"id": "C151", "title": "An element type that no stratum uses does not matter", "statement": "Adding to a parameter file (new format) a section for one more element type, at the end, with its name last in the list of types (option ae of the section strata), changes no other setting; the model linked from the file and its hydraulic parameters are the same for the same draws. With its name first in the list, the other types get other numbers.", "quantifier": "all files accepted without and with the section, all names and texts of the section, all converters, all draws", "why_tests_cant": "The section may hold any options of any geometry; tests use every type they define.", "anchors": ["hyvr/input/parameters.py:parse_inifile", "hyvr/input/parameters.py:setup_from_inifile", "hyvr/geo/model.py:Model.__init__"]}
