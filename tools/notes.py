# notes for MANIFEST.json
NOTES = {}
PARTIAL = {}
NA = {}
PARTIAL["C07"] = "False for a file in which a header block is repeated after another one (C07_..._refuted, header blocks A, B, A); proved for files whose header blocks differ from each other."
PARTIAL["C16"] = "False when a new scan is textually the same as an earlier one (C16_..._refuted); proved for every history of readings of a file that grows as SpecHistory.grows says (old scans first, last one kept or lengthened, new ones distinct texts that do not open like the last scan held, the last scan held being the last of the file)."
PARTIAL["C17"] = "False when the last scan had fewer than five lines when first read (C17_..._refuted: it is stored twice); proved when its first five # lines are unchanged, which follows if five lines were there (C17_longer_scan_is_lengthened)."
PARTIAL["C18"] = "False when the chronologically last scan is not the last of the file (C18_..._refuted: reading again duplicates a scan); proved when it is."
PARTIAL["C19"] = "False: proved is that for every file read without scans every later reading with scans fails (C19_header_only_file_refuted)."
PARTIAL["C64"] = "False for sdf[a:]: proved is that it stops short of the number of the chronologically last scan (C64_slice_from_number); relative bounds and sdf[:] are proved as stated."
PARTIAL["C24"] = "Proved: distinct, same number and order, each label is the first of l, l_1, l_2, ... not used before it, labels that differ are unchanged, keys of data, RuntimeError only beyond 1000 labels. False: 'the first use of each label keeps its name' (C24_first_use_refuted: a, a, a_1)."
PARTIAL["C25"] = "Proved for all lines the code takes for data. A line with a single number and no blank is not taken for data, so a table with one column is lost (C25_single_column_refuted)."
PARTIAL["C26"] = "Proved for tables of at least two columns, for files with any number of scans, after any use of the other scans (C26_round_trip_partial), and in any file and history with other lines around the table (C26_table_read_back_partial). A table of one column is lost (C26_single_column_refuted), so the full claim is false of the code."
PARTIAL["C27"] = "Proved for rows cut anywhere into lines the code takes for data. False with spectra between the points (C27_split_rows_with_spectra_refuted: AttributeError) and for pieces of one number without a blank (C27_one_number_refuted)."
PARTIAL["C28"] = "Proved when @A lines are not indented and no column is called _mca_; false otherwise (C28_indented_line_refuted, C28_label_mca_refuted)."
PARTIAL["C32"] = "column_first proved. column_last is the last label as written: the last of L if the labels differ, not if the last label was renamed (C32_renamed_last_column_refuted)."
NOTES["C63"] = "Lines without a unit lose their last character (C63_no_unit_refuted)."
PARTIAL["C66"] = "False for files in which a scan has #O lines: they change the header shared with other scans (C66_order_of_use_refuted). Proved for all other files, errors included."
NOTES["C29"] = "The names in the header are those of its #O lines unless a scan has #O lines of its own (C29_names_of_positioners, C66)."
PARTIAL["C61"] = "Proved for keys not of the form MD_line_n; C61_..._refuted: a key MD_line_2 in the file is overwritten, '#MD k=1' is taken for badly formed, '#MD longkey=5' gets the key 'longkey=5'."
PARTIAL["C65"] = "False: proved is that every successful reading requires a valid date on every scan (C65_every_scan_has_a_date), and two files with a scan without date or with an ISO date cannot be opened (C65_bad_date_refuted)."
PARTIAL["C46"] = "All conversions but %o, which reads octal numbers in base 7 (C46_octal_refuted)."
PARTIAL["C49"] = "Which geometry is chosen is proved in full (C49_geometry_of_a_scan, C49_there_is_a_geometry). It is in the catalog unless the first comment states a geometry with a variation (C49_geometry_is_found_partial; C49_lookup_refuted: 'fourc.kappa User = me' raises RuntimeError)."
PARTIAL["C50"] = "False for the geometries in which #G0 and #G1 use the same names (surf, twoc_old; C50_overwritten_refuted: the numbers of #G1 win); proved for all other parameters."
NOTES["C40"] = "An item with two dashes raises TypeError, not the ValueError intended (C40_bad_item)."
NOTES["C42"] = "All states of the file system during the run are covered; reading and writing of files are arbitrary functions."
NOTES["C44"] = "Rows end to end for scans without spectra on their first use; str() of a float is an arbitrary function."
PARTIAL["C62"] = "Distinct for scan numbers without underscore (all numbers in files); '5.1' and '5_1' give one name, and no .dat is added if the data file has no extension (C62_names_refuted)."
PARTIAL["C68"] = "False for '-s all', which ends with ValueError (C68_all_refuted); proved for no -s and for lists and ranges."
PARTIAL["C69"] = "Proved without -f, and with -f when no output has the name of an input; false otherwise (C69_input_overwritten_refuted: -f -e spec run.spec)."

PARTIAL["C34"] = "False: 'a b' and 'a-b' have the same name (C34_..._refuted); C34 theorems say which column is lost: the dataset holds the values of the last such column, and labels with distinct clean names never clash."
PARTIAL["C56"] = "Proved for header mnemonics that are plain names and for ASCII keys without slash; a mnemonic starting with '/' makes another root entry (C56_..._refuted)."
PARTIAL["C58"] = "Proved for successful calls. A write that fails has already deleted the old dataset (C58_failed_write_refuted)."
PARTIAL["C59"] = "Proved for scans that are not meshes; a mesh scan is changed by saving it, and saving it again fails or differs (C59_..._refuted)."
PARTIAL["C60"] = "Proved for labels whose dataset name is their own (own_name, no_alias in SpecWriter.v); the third reciprocal axis of hklmesh is excluded, the code stores only its first value."
PARTIAL["C70"] = "False for meshes with more than one row and column (C70_values_at_their_coordinates_refuted: the array is stored with transposed shape); C70_where_values_are_partial says where each value is."
PARTIAL["C71"] = "Proved for one-dimensional scans. For a mesh the axes attribute holds the raw labels (C71_axes_name_datasets_refuted) and both indices are 0 (C71_axis_indices_refuted)."
PARTIAL["C72"] = "Proved with calibration. Without it every channel is at 1 (C72_uncalibrated_axis_refuted)."
PARTIAL["C73"] = "False: '#T 1' without unit raises ValueError (C73_can_be_saved_refuted); so do a hscan with four arguments (C73_short_hscan)."
PARTIAL["C74"] = "Proved for header mnemonics that are plain names and ASCII keys without slash."
NOTES["C75"] = "For detectors whose three dataset names are not those of another detector."

NOTES["C48"] = "Except for the key __default__, which auto() and add() give a meaning of its own (C48_default_key_refuted)."
NOTES["C55"] = "A data file with time 0 or less counts as not newer when there is no plot file."
PARTIAL["C76"] = "Proved for scans with distinct labels; with a repeated label the curve shows another column (C76_repeated_label_refuted)."
PARTIAL["C77"] = "Proved for mesh scans with two rows and columns or more whose last label is a valid name; otherwise no plot (C77_label_refuted) or IndexError (C77_single_row_refuted). hklmesh and meshes with spectra are not covered."
PARTIAL["C78"] = "Proved for columns without NaN; if nothing moves and there is no column L the scan is not plotted."
PARTIAL["C79"] = "Proved for line plots of scans with one date that are not aborted; false otherwise (C79_mesh_again_refuted: ValueError, C79_two_dates_refuted, C79_aborted_refuted)."

NOTES["C51"] = "For every history of checks by new cache objects, with any other files written or removed between; the cache file itself is touched only by the program."
PARTIAL["C52"] = "False: a change of the time alone (or size alone) is not noticed (C52_every_change_refuted). C52_exact_partial: the answer is True exactly when both differ from the last report."
PARTIAL["C53"] = "False: killed after the cache is written, the plots are never made up (C53_made_up_refuted, C53_killed_late); killed while it is written, all later runs fail (C53_broken_cache_refuted, C53_killed_while_writing_the_cache). Proved for every earlier crash point."
PARTIAL["C54"] = "Distinct for numbers without blanks and needless zeros; order below 100000. False otherwise ('1' and '01'; 99999 and 100000)."
PARTIAL["C80"] = "False: TypeError from a data file without date in its third line ends the run (C80_other_files_refuted). Proved: plots made for the data files before it stay, and problems of single scans keep nothing else from being plotted (C82, C83)."
PARTIAL["C81"] = "Proved for data files with different root names; false for one name in two directories (C81_same_name_refuted)."
PARTIAL["C82"] = "Proved for the first run over a data file (nothing in its directory yet), and for later runs which plots are kept and that all others are made from the current file: when whole scans were appended all plots there are kept (C82_appended_partial), when the last scan has grown all but the last one in order of names (C82_grown_partial), when the file is smaller none (C82_shrunk_partial). A first run and a second one after scans were appended, together: each scan of the file that can be plotted has the plot that would be made now, and no other plot is there (C82_two_runs_partial); the same when the last scan has grown, if it is also the last in order of the names (C82_two_runs_grown_partial). A first run over several data files, no two of which have a root name in common: each has in its directory what a first run over it alone leaves there (C82_all_files_partial; C82_command_partial for the command with files and directories). False in general: when scans are not in order of their numbers the wrong plot is made again (C82_later_run_refuted)."
PARTIAL["C83"] = "Proved for the first run over a data file and for later runs in which a plot was made: after whole scans were appended (C83_appended_partial), when the last scan has grown (C83_grown_partial) and when the file has become smaller (C83_shrunk_partial, where the index is that of a first run). False when no plot was made: a new scan with a problem is not listed (C83_later_problem_refuted), and the links to plots that were removed stay in the index (C83_stale_links_refuted)."

PARTIAL["C87"] = "Proved when every #@ROI line has blanks between name, first and last channel. Otherwise digits of the first channel are taken for the name (C87_no_name_refuted)."
NOTES["C89"] = "The three forms with numbers in fixed notation; other #X lines are ignored by the code or give other values."

PARTIAL["C90"] = "Title and command are saved without their characters that are not ASCII (C90_title_refuted); the number is proved for every scan."
NOTES["C91"] = "The date for scans with a #D line in one of the two formats of SpecTime.v."
PARTIAL["C93"] = "Proved for scans that can be saved; a scan with a #X line but no diffractometer geometry cannot (KeyError, C93_temperatures_refuted)."
PARTIAL["C94"] = "Proved for scans that can be saved; with #MD lines in header and scan it cannot (ValueError, C94_header_and_scan_refuted). Of keys with the same dataset name the last is saved."
PARTIAL["C96"] = "Proved for the last of the mnemonics with the same dataset name; the others are overwritten (C96_every_positioner_refuted)."
NOTES["C97"] = "Of labels with the same dataset name the last is saved."
PARTIAL["C98"] = "False: for each kind of line two files are given that differ in it and in what is read, with the same NeXus file (C98_scan_parameters_refuted)."
PARTIAL["C99"] = "Proved with start and end compared as texts, as the code does; compared as numbers it is false (C99_axes_that_move_refuted: 1 and 01)."
NOTES["C100"] = "Texts without their characters that are not ASCII."
PARTIAL["C105"] = "Refuted without the guard: a first comment that ends with '=' and names no user gives an empty SPEC_user (C105_made_up_refuted); C105_no_user_partial excludes such comments."
NOTES["C102"] = "Groups inside sample and instrument (reflections, monochromator, geometry_parameters) are not in the statement."
NOTES["C106"] = "A dataset without text is saved as the text None (C106_empty_text_refuted; the specification uxml_value says so)."
PARTIAL["C107"] = "Proved for the last hardlink of each target_id and names of ASCII characters. Refuted without these guards: of several links to one element only the last is made (C107_all_links_refuted); the link to an element with other characters is one to another object (C107_other_names_refuted)."
PARTIAL["C108"] = "Refuted: a comment in the XML makes the save fail with KeyError (C108_valid_trees_refuted). Proved: a tree that was saved has no comments, all its texts can be converted and the names of siblings differ; that these conditions are sufficient is not proved."
PARTIAL["C110"] = "Proved for different names, different mnemonics, and a mnemonic and a value for every name; and in general that the i-th positioner gets the i-th mnemonic, and that there are enough of them. Refuted without these guards (C110_positioner_mnemonics_refuted): two positioners with one name are one positioner, and those after them get the mnemonic of another one. With fewer mnemonics than positioners the save raises IndexError (C110_few_mnemonics)."
NOTES["C111"] = "The NX_class of the group and the identity of instrument/MCA with it are not claimed. Regions of interest (#@ROI) are read but never written by the code, so nothing is claimed of them."
PARTIAL["C112"] = "Proved for single values and lists of at least two. A list of one number is read as a number (C112_written_is_read_refuted), an empty column cannot be read (C112_columns_refuted: IndexError), and a missing field of a group gives None, not the documented KeyError (C112_missing_raises_refuted). The argument astype is not modelled."
PARTIAL["C113"] = "Refuted (C113_reports_refuted): without a #G4 line with a number for each name all three raise KeyError if the geometry has Miller indices, and without a #G3 line with nine numbers print_all raises AttributeError. Proved with these lines. The printed form of numbers, dates, lattices, reflections and arrays is left out of the model."
PARTIAL["C114"] = "Proved for scan numbers and commands without double quotes and names without <, > or single quotes. Refuted otherwise (C114_commands_refuted): a command with a double quote ends the alternative text, and what follows it becomes part of the page (a script element in the example). Character references are not decoded by the reader."
NOTES["C115"] = "The log file specplot_files_processing.log in the directory of the plots is not modelled. Arguments do not end with a slash."
