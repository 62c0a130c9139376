{
 "claims": [
  {
   "property": "C01",
   "status": "proved",
   "theorems": [
    "C01_lines_exist",
    "C01_dissect_loses_nothing"
   ],
   "note": ""
  },
  {
   "property": "C02",
   "status": "proved",
   "theorems": [
    "C02_dissect_accepts_exactly",
    "C02_no_section_rejected"
   ],
   "note": ""
  },
  {
   "property": "C03",
   "status": "proved",
   "theorems": [
    "C03_line_ends_do_not_matter"
   ],
   "note": ""
  },
  {
   "property": "C04",
   "status": "proved",
   "theorems": [
    "C04_header_test_exact",
    "C04_recognition_exact",
    "C04_constructor_errors"
   ],
   "note": ""
  },
  {
   "property": "C05",
   "status": "proved",
   "theorems": [
    "C05_first_read_keeps_every_scan",
    "C05_no_duplicate_scan_number",
    "C05_no_duplicate_scan_number_ever"
   ],
   "note": ""
  },
  {
   "property": "C06",
   "status": "proved",
   "theorems": [
    "C06_repeats_are_numbered"
   ],
   "note": ""
  },
  {
   "property": "C07",
   "status": "partial",
   "theorems": [
    "C07_scan_has_preceding_header_partial",
    "C07_scan_has_preceding_header_refuted"
   ],
   "note": "False for a file in which a header block is repeated after another one (C07_..._refuted, header blocks A, B, A); proved for files whose header blocks differ from each other."
  },
  {
   "property": "C08",
   "status": "proved",
   "theorems": [
    "C08_no_header_twice",
    "C08_reading_again_adds_no_header"
   ],
   "note": ""
  },
  {
   "property": "C09",
   "status": "proved",
   "theorems": [
    "C09_getScan_finds_the_scan",
    "C09_getScan_only_held_scans",
    "C09_getScan_by_position"
   ],
   "note": ""
  },
  {
   "property": "C10",
   "status": "proved",
   "theorems": [
    "C10_numbers_sorted",
    "C10_numbers_total"
   ],
   "note": ""
  },
  {
   "property": "C11",
   "status": "proved",
   "theorems": [
    "C11_chronological_list",
    "C11_first_scan",
    "C11_last_scan",
    "C11_bad_date"
   ],
   "note": ""
  },
  {
   "property": "C12",
   "status": "proved",
   "theorems": [
    "C12_min_bounds",
    "C12_max_bounds",
    "C12_min_max_exist"
   ],
   "note": ""
  },
  {
   "property": "C13",
   "status": "proved",
   "theorems": [
    "C13_commands_of_list",
    "C13_commands_of_all"
   ],
   "note": ""
  },
  {
   "property": "C14",
   "status": "proved",
   "theorems": [
    "C14_slice_selects_range",
    "C14_slice_succeeds",
    "C14_mixed_signs_rejected",
    "C14_step_selects_repeats",
    "C14_negative_index",
    "C14_tuple_is_concatenation"
   ],
   "note": ""
  },
  {
   "property": "C15",
   "status": "proved",
   "theorems": [
    "C15_reread_exactly_on_visible_change"
   ],
   "note": ""
  },
  {
   "property": "C16",
   "status": "partial",
   "theorems": [
    "C16_follows_the_file_partial",
    "C16_numbers_kept_partial",
    "C16_appended_scans_added_refuted"
   ],
   "note": "False when a new scan is textually the same as an earlier one (C16_..._refuted); proved for every history of readings of a file that grows as SpecHistory.grows says (old scans first, last one kept or lengthened, new ones distinct texts that do not open like the last scan held, the last scan held being the last of the file)."
  },
  {
   "property": "C17",
   "status": "partial",
   "theorems": [
    "C17_longer_scan_is_lengthened",
    "C17_last_scan_replaced_partial",
    "C17_last_scan_replaced_refuted"
   ],
   "note": "False when the last scan had fewer than five lines when first read (C17_..._refuted: it is stored twice); proved when its first five # lines are unchanged, which follows if five lines were there (C17_longer_scan_is_lengthened)."
  },
  {
   "property": "C18",
   "status": "partial",
   "theorems": [
    "C18_same_content_same_scans_partial",
    "C18_same_content_same_scans_refuted"
   ],
   "note": "False when the chronologically last scan is not the last of the file (C18_..._refuted: reading again duplicates a scan); proved when it is."
  },
  {
   "property": "C19",
   "status": "partial",
   "theorems": [
    "C19_header_only_file_refuted"
   ],
   "note": "False: proved is that for every file read without scans every later reading with scans fails (C19_header_only_file_refuted)."
  },
  {
   "property": "C20",
   "status": "proved",
   "theorems": [
    "C20_interpreted_once",
    "C20_first_use_interprets",
    "C20_first_read_value",
    "C20_after_failure_refuted"
   ],
   "note": ""
  },
  {
   "property": "C21",
   "status": "proved",
   "theorems": [
    "C21_order_of_plugins_irrelevant",
    "C21_one_handler",
    "C21_dispatch"
   ],
   "note": ""
  },
  {
   "property": "C22",
   "status": "proved",
   "theorems": [
    "C22_unknown_lines_are_kept"
   ],
   "note": ""
  },
  {
   "property": "C23",
   "status": "proved",
   "theorems": [
    "C23_comments",
    "C23_results",
    "C23_user_lines",
    "C23_data_lines",
    "C23_positions",
    "C23_geometry_lines"
   ],
   "note": ""
  },
  {
   "property": "C24",
   "status": "partial",
   "theorems": [
    "C24_labels_made_unique",
    "C24_unique_labels_kept",
    "C24_free_label_kept",
    "C24_only_failure",
    "C24_first_use_refuted"
   ],
   "note": "Proved: distinct, same number and order, each label is the first of l, l_1, l_2, ... not used before it, labels that differ are unchanged, keys of data, RuntimeError only beyond 1000 labels. False: 'the first use of each label keeps its name' (C24_first_use_refuted: a, a, a_1)."
  },
  {
   "property": "C25",
   "status": "partial",
   "theorems": [
    "C25_faithful_table_partial",
    "C25_number_of_columns",
    "C25_single_column_refuted"
   ],
   "note": "Proved for all lines the code takes for data. A line with a single number and no blank is not taken for data, so a table with one column is lost (C25_single_column_refuted)."
  },
  {
   "property": "C26",
   "status": "partial",
   "theorems": [
    "C26_round_trip_partial",
    "C26_table_read_back_partial",
    "C26_single_column_refuted"
   ],
   "note": "Proved for tables of at least two columns, for files with any number of scans, after any use of the other scans (C26_round_trip_partial), and in any file and history with other lines around the table (C26_table_read_back_partial). A table of one column is lost (C26_single_column_refuted), so the full claim is false of the code."
  },
  {
   "property": "C27",
   "status": "partial",
   "theorems": [
    "C27_split_rows_partial",
    "C27_split_rows_with_spectra_refuted",
    "C27_one_number_refuted"
   ],
   "note": "Proved for rows cut anywhere into lines the code takes for data. False with spectra between the points (C27_split_rows_with_spectra_refuted: AttributeError) and for pieces of one number without a blank (C27_one_number_refuted)."
  },
  {
   "property": "C28",
   "status": "partial",
   "theorems": [
    "C28_spectra_partial",
    "C28_indented_line_refuted",
    "C28_label_mca_refuted"
   ],
   "note": "Proved when @A lines are not indented and no column is called _mca_; false otherwise (C28_indented_line_refuted, C28_label_mca_refuted)."
  },
  {
   "property": "C29",
   "status": "proved",
   "theorems": [
    "C29_positioners",
    "C29_names_of_positioners"
   ],
   "note": "The names in the header are those of its #O lines unless a scan has #O lines of its own (C29_names_of_positioners, C66)."
  },
  {
   "property": "C30",
   "status": "proved",
   "theorems": [
    "C30_metadata"
   ],
   "note": ""
  },
  {
   "property": "C31",
   "status": "proved",
   "theorems": [
    "C31_cross_references"
   ],
   "note": ""
  },
  {
   "property": "C32",
   "status": "partial",
   "theorems": [
    "C32_first_and_last_column_partial",
    "C32_renamed_last_column_refuted"
   ],
   "note": "column_first proved. column_last is the last label as written: the last of L if the labels differ, not if the last label was renamed (C32_renamed_last_column_refuted)."
  },
  {
   "property": "C33",
   "status": "proved",
   "theorems": [
    "C33_empty_name_raises",
    "C33_clean_name_valid",
    "C33_valid_name_kept",
    "C33_idempotent"
   ],
   "note": ""
  },
  {
   "property": "C34",
   "status": "partial",
   "theorems": [
    "C34_lost_column",
    "C34_no_column_lost_partial",
    "C34_distinct_names_refuted"
   ],
   "note": "False: 'a b' and 'a-b' have the same name (C34_..._refuted); C34 theorems say which column is lost: the dataset holds the values of the last such column, and labels with distinct clean names never clash."
  },
  {
   "property": "C35",
   "status": "proved",
   "theorems": [
    "C35_labels_survive",
    "C35_no_separator_in_label"
   ],
   "note": ""
  },
  {
   "property": "C36",
   "status": "proved",
   "theorems": [
    "C36_number_and_repeat",
    "C36_distinct",
    "C36_accepts_exactly",
    "C36_else_ValueError"
   ],
   "note": ""
  },
  {
   "property": "C37",
   "status": "proved",
   "theorems": [
    "C37_spec_style",
    "C37_spock_style",
    "C37_nothing_else"
   ],
   "note": ""
  },
  {
   "property": "C38",
   "status": "proved",
   "theorems": [
    "C38_reshape"
   ],
   "note": ""
  },
  {
   "property": "C39",
   "status": "proved",
   "theorems": [
    "C39_strip_first_word",
    "C39_no_blank_keeps_last_char"
   ],
   "note": ""
  },
  {
   "property": "C40",
   "status": "proved",
   "theorems": [
    "C40_numbers_and_ranges",
    "C40_nothing_else",
    "C40_accepted"
   ],
   "note": "An item with two dashes raises TypeError, not the ValueError intended (C40_bad_item)."
  },
  {
   "property": "C41",
   "status": "proved",
   "theorems": [
    "C41_existing_scans_in_order",
    "C41_exactly",
    "C41_all"
   ],
   "note": ""
  },
  {
   "property": "C42",
   "status": "proved",
   "theorems": [
    "C42_existing_files_kept",
    "C42_output_name"
   ],
   "note": "All states of the file system during the run are covered; reading and writing of files are arbitrary functions."
  },
  {
   "property": "C43",
   "status": "proved",
   "theorems": [
    "C43_ranges_expanded",
    "C43_other_terms_raise"
   ],
   "note": ""
  },
  {
   "property": "C44",
   "status": "proved",
   "theorems": [
    "C44_rows",
    "C44_missing_label",
    "C44_no_data",
    "C44_names"
   ],
   "note": "Rows end to end for scans without spectra on their first use; str() of a float is an arbitrary function."
  },
  {
   "property": "C45",
   "status": "proved",
   "theorems": [
    "C45_history_does_not_matter"
   ],
   "note": ""
  },
  {
   "property": "C46",
   "status": "partial",
   "theorems": [
    "C46_scanf_reads_back_partial",
    "C46_octal_refuted"
   ],
   "note": "All conversions but %o, which reads octal numbers in base 7 (C46_octal_refuted)."
  },
  {
   "property": "C47",
   "status": "proved",
   "theorems": [
    "C47_registration"
   ],
   "note": ""
  },
  {
   "property": "C48",
   "status": "proved",
   "theorems": [
    "C48_macro_keeps_image_maker",
    "C48_stored_image_maker",
    "C48_errors_change_nothing",
    "C48_add_known",
    "C48_update_unknown",
    "C48_rules",
    "C48_there_is_a_default",
    "C48_default_stays",
    "C48_default_set",
    "C48_one_selector",
    "C48_get_changes_nothing",
    "C48_default_key_refuted"
   ],
   "note": "Except for the key __default__, which auto() and add() give a meaning of its own (C48_default_key_refuted)."
  },
  {
   "property": "C49",
   "status": "partial",
   "theorems": [
    "C49_geometry_of_a_scan",
    "C49_geometry_is_found_partial",
    "C49_there_is_a_geometry",
    "C49_lookup_refuted"
   ],
   "note": "Which geometry is chosen is proved in full (C49_geometry_of_a_scan, C49_there_is_a_geometry). It is in the catalog unless the first comment states a geometry with a variation (C49_geometry_is_found_partial; C49_lookup_refuted: 'fourc.kappa User = me' raises RuntimeError)."
  },
  {
   "property": "C50",
   "status": "partial",
   "theorems": [
    "C50_parameters_by_position_partial",
    "C50_sector_mode_wavelength_UB",
    "C50_lattice_and_reflections",
    "C50_names_differ",
    "C50_overwritten_refuted"
   ],
   "note": "False for the geometries in which #G0 and #G1 use the same names (surf, twoc_old; C50_overwritten_refuted: the numbers of #G1 win); proved for all other parameters."
  },
  {
   "property": "C51",
   "status": "proved",
   "theorems": [
    "C51_check_answers",
    "C51_reported_once"
   ],
   "note": "For every history of checks by new cache objects, with any other files written or removed between; the cache file itself is touched only by the program."
  },
  {
   "property": "C52",
   "status": "partial",
   "theorems": [
    "C52_exact_partial",
    "C52_every_change_refuted"
   ],
   "note": "False: a change of the time alone (or size alone) is not noticed (C52_every_change_refuted). C52_exact_partial: the answer is True exactly when both differ from the last report."
  },
  {
   "property": "C53",
   "status": "partial",
   "theorems": [
    "C53_killed_early_partial",
    "C53_killed_while_writing_the_cache",
    "C53_killed_late",
    "C53_made_up_refuted",
    "C53_broken_cache_refuted"
   ],
   "note": "False: killed after the cache is written, the plots are never made up (C53_made_up_refuted, C53_killed_late); killed while it is written, all later runs fail (C53_broken_cache_refuted, C53_killed_while_writing_the_cache). Proved for every earlier crash point."
  },
  {
   "property": "C54",
   "status": "partial",
   "theorems": [
    "C54_distinct_partial",
    "C54_integers",
    "C54_order_partial",
    "C54_distinct_refuted",
    "C54_order_refuted"
   ],
   "note": "Distinct for numbers without blanks and needless zeros; order below 100000. False otherwise ('1' and '01'; 99999 and 100000)."
  },
  {
   "property": "C55",
   "status": "proved",
   "theorems": [
    "C55_plot_made",
    "C55_need_to_make_plot"
   ],
   "note": "A data file with time 0 or less counts as not newer when there is no plot file."
  },
  {
   "property": "C56",
   "status": "partial",
   "theorems": [
    "C56_one_entry_per_key_partial",
    "C56_failed_save_partial",
    "C56_repeated_key_partial",
    "C56_one_entry_per_key_refuted"
   ],
   "note": "Proved for header mnemonics that are plain names and for ASCII keys without slash; a mnemonic starting with '/' makes another root entry (C56_..._refuted)."
  },
  {
   "property": "C57",
   "status": "proved",
   "theorems": [
    "C57_columns_stored"
   ],
   "note": ""
  },
  {
   "property": "C58",
   "status": "partial",
   "theorems": [
    "C58_write_dataset",
    "C58_open_group_keeps",
    "C58_make_group_keeps",
    "C58_open_existing",
    "C58_failed_write_refuted"
   ],
   "note": "Proved for successful calls. A write that fails has already deleted the old dataset (C58_failed_write_refuted)."
  },
  {
   "property": "C59",
   "status": "partial",
   "theorems": [
    "C59_saving_leaves_no_trace_partial",
    "C59_scans_unchanged_partial",
    "C59_mesh_saved_twice_refuted"
   ],
   "note": "Proved for scans that are not meshes; a mesh scan is changed by saving it, and saving it again fails or differs (C59_..._refuted)."
  },
  {
   "property": "C60",
   "status": "partial",
   "theorems": [
    "C60_mesh_stored_partial"
   ],
   "note": "Proved for labels whose dataset name is their own (own_name, no_alias in SpecWriter.v); the third reciprocal axis of hklmesh is excluded, the code stores only its first value."
  },
  {
   "property": "C61",
   "status": "partial",
   "theorems": [
    "C61_metadata_partial",
    "C61_metadata_refuted"
   ],
   "note": "Proved for keys not of the form MD_line_n; C61_..._refuted: a key MD_line_2 in the file is overwritten, '#MD k=1' is taken for badly formed, '#MD longkey=5' gets the key 'longkey=5'."
  },
  {
   "property": "C62",
   "status": "partial",
   "theorems": [
    "C62_distinct_names_partial",
    "C62_not_the_data_file",
    "C62_name",
    "C62_names_refuted"
   ],
   "note": "Distinct for scan numbers without underscore (all numbers in files); '5.1' and '5_1' give one name, and no .dat is added if the data file has no extension (C62_names_refuted)."
  },
  {
   "property": "C63",
   "status": "proved",
   "theorems": [
    "C63_time",
    "C63_monitor",
    "C63_no_unit_refuted"
   ],
   "note": "Lines without a unit lose their last character (C63_no_unit_refuted)."
  },
  {
   "property": "C64",
   "status": "partial",
   "theorems": [
    "C64_relative_slices",
    "C64_slice_from_number"
   ],
   "note": "False for sdf[a:]: proved is that it stops short of the number of the chronologically last scan (C64_slice_from_number); relative bounds and sdf[:] are proved as stated."
  },
  {
   "property": "C65",
   "status": "partial",
   "theorems": [
    "C65_every_scan_has_a_date",
    "C65_bad_date_refuted"
   ],
   "note": "False: proved is that every successful reading requires a valid date on every scan (C65_every_scan_has_a_date), and two files with a scan without date or with an ISO date cannot be opened (C65_bad_date_refuted)."
  },
  {
   "property": "C66",
   "status": "partial",
   "theorems": [
    "C66_order_of_use_partial",
    "C66_order_of_use_refuted"
   ],
   "note": "False for files in which a scan has #O lines: they change the header shared with other scans (C66_order_of_use_refuted). Proved for all other files, errors included."
  },
  {
   "property": "C67",
   "status": "proved",
   "theorems": [
    "C67_header_comments_and_labels"
   ],
   "note": ""
  },
  {
   "property": "C68",
   "status": "partial",
   "theorems": [
    "C68_all_refuted",
    "C68_scans_given_to_writer_partial"
   ],
   "note": "False for '-s all', which ends with ValueError (C68_all_refuted); proved for no -s and for lists and ranges."
  },
  {
   "property": "C69",
   "status": "partial",
   "theorems": [
    "C69_input_kept_partial",
    "C69_input_overwritten_refuted"
   ],
   "note": "Proved without -f, and with -f when no output has the name of an input; false otherwise (C69_input_overwritten_refuted: -f -e spec run.spec)."
  },
  {
   "property": "C70",
   "status": "partial",
   "theorems": [
    "C70_values_at_their_coordinates_refuted",
    "C70_where_values_are_partial"
   ],
   "note": "False for meshes with more than one row and column (C70_values_at_their_coordinates_refuted: the array is stored with transposed shape); C70_where_values_are_partial says where each value is."
  },
  {
   "property": "C71",
   "status": "partial",
   "theorems": [
    "C71_signal_and_axes_partial",
    "C71_axes_name_datasets_refuted",
    "C71_axis_indices_refuted"
   ],
   "note": "Proved for one-dimensional scans. For a mesh the axes attribute holds the raw labels (C71_axes_name_datasets_refuted) and both indices are 0 (C71_axis_indices_refuted)."
  },
  {
   "property": "C72",
   "status": "partial",
   "theorems": [
    "C72_uncalibrated_axis_refuted",
    "C72_scaled_axis_partial"
   ],
   "note": "Proved with calibration. Without it every channel is at 1 (C72_uncalibrated_axis_refuted)."
  },
  {
   "property": "C73",
   "status": "partial",
   "theorems": [
    "C73_can_be_saved_refuted"
   ],
   "note": "False: '#T 1' without unit raises ValueError (C73_can_be_saved_refuted); so do a hscan with four arguments (C73_short_hscan)."
  },
  {
   "property": "C74",
   "status": "partial",
   "theorems": [
    "C74_earlier_entries_unchanged_partial"
   ],
   "note": "Proved for header mnemonics that are plain names and ASCII keys without slash."
  },
  {
   "property": "C75",
   "status": "proved",
   "theorems": [
    "C75_spectra_stored"
   ],
   "note": "For detectors whose three dataset names are not those of another detector."
  },
  {
   "property": "C76",
   "status": "partial",
   "theorems": [
    "C76_last_against_first_partial",
    "C76_columns_shown",
    "C76_no_data",
    "C76_repeated_label_refuted"
   ],
   "note": "Proved for scans with distinct labels; with a repeated label the curve shows another column (C76_repeated_label_refuted)."
  },
  {
   "property": "C77",
   "status": "partial",
   "theorems": [
    "C77_mesh_plot_partial",
    "C77_label_refuted",
    "C77_single_row_refuted"
   ],
   "note": "Proved for mesh scans with two rows and columns or more whose last label is a valid name; otherwise no plot (C77_label_refuted) or IndexError (C77_single_row_refuted). hklmesh and meshes with spectra are not covered."
  },
  {
   "property": "C78",
   "status": "partial",
   "theorems": [
    "C78_moving_axis_partial",
    "C78_nothing_moves"
   ],
   "note": "Proved for columns without NaN; if nothing moves and there is no column L the scan is not plotted."
  },
  {
   "property": "C79",
   "status": "partial",
   "theorems": [
    "C79_line_plot_changes_nothing",
    "C79_line_plot_again_partial",
    "C79_mesh_again_refuted",
    "C79_two_dates_refuted",
    "C79_aborted_refuted"
   ],
   "note": "Proved for line plots of scans with one date that are not aborted; false otherwise (C79_mesh_again_refuted: ValueError, C79_two_dates_refuted, C79_aborted_refuted)."
  },
  {
   "property": "C80",
   "status": "partial",
   "theorems": [
    "C80_earlier_files_partial",
    "C80_other_files_refuted"
   ],
   "note": "False: TypeError from a data file without date in its third line ends the run (C80_other_files_refuted). Proved: plots made for the data files before it stay, and problems of single scans keep nothing else from being plotted (C82, C83)."
  },
  {
   "property": "C81",
   "status": "partial",
   "theorems": [
    "C81_files_do_not_mix_partial",
    "C81_same_name_refuted"
   ],
   "note": "Proved for data files with different root names; false for one name in two directories (C81_same_name_refuted)."
  },
  {
   "property": "C82",
   "status": "partial",
   "theorems": [
    "C82_first_run_partial",
    "C82_later_run_refuted",
    "C82_appended_partial",
    "C82_grown_partial",
    "C82_shrunk_partial",
    "C82_two_runs_partial",
    "C82_two_runs_grown_partial",
    "C82_all_files_partial",
    "C82_command_partial"
   ],
   "note": "Proved for the first run over a data file (nothing in its directory yet), and for later runs which plots are kept and that all others are made from the current file: when whole scans were appended all plots there are kept (C82_appended_partial), when the last scan has grown all but the last one in order of names (C82_grown_partial), when the file is smaller none (C82_shrunk_partial). A first run and a second one after scans were appended, together: each scan of the file that can be plotted has the plot that would be made now, and no other plot is there (C82_two_runs_partial); the same when the last scan has grown, if it is also the last in order of the names (C82_two_runs_grown_partial). A first run over several data files, no two of which have a root name in common: each has in its directory what a first run over it alone leaves there (C82_all_files_partial; C82_command_partial for the command with files and directories). False in general: when scans are not in order of their numbers the wrong plot is made again (C82_later_run_refuted)."
  },
  {
   "property": "C83",
   "status": "partial",
   "theorems": [
    "C83_index_partial",
    "C83_later_problem_refuted",
    "C83_appended_partial",
    "C83_grown_partial",
    "C83_shrunk_partial",
    "C83_stale_links_refuted"
   ],
   "note": "Proved for the first run over a data file and for later runs in which a plot was made: after whole scans were appended (C83_appended_partial), when the last scan has grown (C83_grown_partial) and when the file has become smaller (C83_shrunk_partial, where the index is that of a first run). False when no plot was made: a new scan with a problem is not listed (C83_later_problem_refuted), and the links to plots that were removed stay in the index (C83_stale_links_refuted)."
  },
  {
   "property": "C84",
   "status": "proved",
   "theorems": [
    "C84_nothing_else_changed"
   ],
   "note": ""
  },
  {
   "property": "C85",
   "status": "proved",
   "theorems": [
    "C85_second_run"
   ],
   "note": ""
  },
  {
   "property": "C86",
   "status": "proved",
   "theorems": [
    "C86_calibration",
    "C86_channels",
    "C86_times"
   ],
   "note": ""
  },
  {
   "property": "C87",
   "status": "partial",
   "theorems": [
    "C87_regions_partial",
    "C87_no_name_refuted"
   ],
   "note": "Proved when every #@ROI line has blanks between name, first and last channel. Otherwise digits of the first channel are taken for the name (C87_no_name_refuted)."
  },
  {
   "property": "C88",
   "status": "proved",
   "theorems": [
    "C88_VA_lines",
    "C88_VD_lines",
    "C88_VE_lines",
    "C88_XPCS_lines",
    "C88_CCD_lines",
    "C88_UIM_lines"
   ],
   "note": ""
  },
  {
   "property": "C89",
   "status": "proved",
   "theorems": [
    "C89_Q",
    "C89_X"
   ],
   "note": "The three forms with numbers in fixed notation; other #X lines are ignored by the code or give other values."
  },
  {
   "property": "C90",
   "status": "partial",
   "theorems": [
    "C90_title_and_command_partial",
    "C90_number",
    "C90_title_refuted"
   ],
   "note": "Title and command are saved without their characters that are not ASCII (C90_title_refuted); the number is proved for every scan."
  },
  {
   "property": "C91",
   "status": "proved",
   "theorems": [
    "C91_date",
    "C91_comments"
   ],
   "note": "The date for scans with a #D line in one of the two formats of SpecTime.v."
  },
  {
   "property": "C92",
   "status": "proved",
   "theorems": [
    "C92_monitor_count",
    "C92_counting_time"
   ],
   "note": ""
  },
  {
   "property": "C93",
   "status": "partial",
   "theorems": [
    "C93_position",
    "C93_temperatures_partial",
    "C93_temperatures_refuted"
   ],
   "note": "Proved for scans that can be saved; a scan with a #X line but no diffractometer geometry cannot (KeyError, C93_temperatures_refuted)."
  },
  {
   "property": "C94",
   "status": "partial",
   "theorems": [
    "C94_bluesky_metadata_partial",
    "C94_header_and_scan_refuted"
   ],
   "note": "Proved for scans that can be saved; with #MD lines in header and scan it cannot (ValueError, C94_header_and_scan_refuted). Of keys with the same dataset name the last is saved."
  },
  {
   "property": "C95",
   "status": "proved",
   "theorems": [
    "C95_unrecognized_lines"
   ],
   "note": ""
  },
  {
   "property": "C96",
   "status": "partial",
   "theorems": [
    "C96_positioners",
    "C96_every_positioner_refuted"
   ],
   "note": "Proved for the last of the mnemonics with the same dataset name; the others are overwritten (C96_every_positioner_refuted)."
  },
  {
   "property": "C97",
   "status": "proved",
   "theorems": [
    "C97_unicat_metadata"
   ],
   "note": "Of labels with the same dataset name the last is saved."
  },
  {
   "property": "C98",
   "status": "partial",
   "theorems": [
    "C98_scan_parameters_refuted"
   ],
   "note": "False: for each kind of line two files are given that differ in it and in what is read, with the same NeXus file (C98_scan_parameters_refuted)."
  },
  {
   "property": "C99",
   "status": "partial",
   "theorems": [
    "C99_axes_of_hkl_scans_partial",
    "C99_axes_that_move_refuted"
   ],
   "note": "Proved with start and end compared as texts, as the code does; compared as numbers it is false (C99_axes_that_move_refuted: 1 and 01)."
  },
  {
   "property": "C100",
   "status": "proved",
   "theorems": [
    "C100_user_lines"
   ],
   "note": "Texts without their characters that are not ASCII."
  },
  {
   "property": "C101",
   "status": "proved",
   "theorems": [
    "C101_geometry_arrays"
   ],
   "note": ""
  },
  {
   "property": "C102",
   "status": "proved",
   "theorems": [
    "C102_instrument_and_sample"
   ],
   "note": "Groups inside sample and instrument (reflections, monochromator, geometry_parameters) are not in the statement."
  },
  {
   "property": "C103",
   "status": "proved",
   "theorems": [
    "C103_links",
    "C103_preset"
   ],
   "note": ""
  },
  {
   "property": "C104",
   "status": "proved",
   "theorems": [
    "C104_root",
    "C104_nothing_without_date"
   ],
   "note": ""
  },
  {
   "property": "C105",
   "status": "partial",
   "theorems": [
    "C105_user",
    "C105_no_user_partial",
    "C105_made_up_refuted"
   ],
   "note": "Refuted without the guard: a first comment that ends with '=' and names no user gives an empty SPEC_user (C105_made_up_refuted); C105_no_user_partial excludes such comments."
  },
  {
   "property": "C106",
   "status": "proved",
   "theorems": [
    "C106_uxml_tree",
    "C106_empty_text_refuted"
   ],
   "note": "A dataset without text is saved as the text None (C106_empty_text_refuted; the specification uxml_value says so)."
  },
  {
   "property": "C107",
   "status": "partial",
   "theorems": [
    "C107_hardlinks_partial",
    "C107_all_links_refuted",
    "C107_other_names_refuted"
   ],
   "note": "Proved for the last hardlink of each target_id and names of ASCII characters. Refuted without these guards: of several links to one element only the last is made (C107_all_links_refuted); the link to an element with other characters is one to another object (C107_other_names_refuted)."
  },
  {
   "property": "C108",
   "status": "partial",
   "theorems": [
    "C108_saved_trees_partial",
    "C108_valid_trees_refuted"
   ],
   "note": "Refuted: a comment in the XML makes the save fail with KeyError (C108_valid_trees_refuted). Proved: a tree that was saved has no comments, all its texts can be converted and the names of siblings differ; that these conditions are sufficient is not proved."
  },
  {
   "property": "C109",
   "status": "proved",
   "theorems": [
    "C109_counter_cross_reference",
    "C109_positioner_cross_reference"
   ],
   "note": ""
  },
  {
   "property": "C110",
   "status": "partial",
   "theorems": [
    "C110_positioner_mnemonics_partial",
    "C110_mnemonics_in_order",
    "C110_enough_mnemonics",
    "C110_positioner_mnemonics_refuted"
   ],
   "note": "Proved for different names, different mnemonics, and a mnemonic and a value for every name; and in general that the i-th positioner gets the i-th mnemonic, and that there are enough of them. Refuted without these guards (C110_positioner_mnemonics_refuted): two positioners with one name are one positioner, and those after them get the mnemonic of another one. With fewer mnemonics than positioners the save raises IndexError (C110_few_mnemonics)."
  },
  {
   "property": "C111",
   "status": "proved",
   "theorems": [
    "C111_calibration",
    "C111_channels",
    "C111_times"
   ],
   "note": "The NX_class of the group and the identity of instrument/MCA with it are not claimed. Regions of interest (#@ROI) are read but never written by the code, so nothing is claimed of them."
  },
  {
   "property": "C112",
   "status": "partial",
   "theorems": [
    "C112_written_is_read_partial",
    "C112_still_read",
    "C112_fields_of_a_file",
    "C112_fields_refused",
    "C112_written_refused",
    "C112_missing_field",
    "C112_group_fields",
    "C112_columns_partial",
    "C112_title",
    "C112_written_is_read_refuted",
    "C112_columns_refuted",
    "C112_missing_raises_refuted"
   ],
   "note": "Proved for single values and lists of at least two. A list of one number is read as a number (C112_written_is_read_refuted), an empty column cannot be read (C112_columns_refuted: IndexError), and a missing field of a group gives None, not the documented KeyError (C112_missing_raises_refuted). The argument astype is not modelled."
  },
  {
   "property": "C113",
   "status": "partial",
   "theorems": [
    "C113_diffractometer_of_a_scan",
    "C113_there_is_one",
    "C113_reports_partial",
    "C113_reports_refuted"
   ],
   "note": "Refuted (C113_reports_refuted): without a #G4 line with a number for each name all three raise KeyError if the geometry has Miller indices, and without a #G3 line with nine numbers print_all raises AttributeError. Proved with these lines. The printed form of numbers, dates, lattices, reflections and arrays is left out of the model."
  },
  {
   "property": "C114",
   "status": "partial",
   "theorems": [
    "C114_page_partial",
    "C114_page_of_a_first_run_partial",
    "C114_commands_refuted"
   ],
   "note": "Proved for scan numbers and commands without double quotes and names without <, > or single quotes. Refuted otherwise (C114_commands_refuted): a command with a double quote ends the alternative text, and what follows it becomes part of the page (a script element in the example). Character references are not decoded by the reader."
  },
  {
   "property": "C115",
   "status": "proved",
   "theorems": [
    "C115_data_files",
    "C115_no_directory",
    "C115_nothing_else_changed"
   ],
   "note": "The log file specplot_files_processing.log in the directory of the plots is not modelled. Arguments do not end with a slash."
  }
 ]
}