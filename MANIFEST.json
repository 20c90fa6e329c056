{
 "claims": [
  {
   "property": "C01",
   "status": "proved",
   "theorems": [
    "C01_column_name_roundtrip",
    "C01_column_name_complete",
    "C01_column_name_injective",
    "C01_all_u16_refuted"
   ],
   "note": "Bijection proved for all columns < 65535 in debug and release arithmetic; finding: c = 65535 overflows (C01_all_u16_refuted)."
  },
  {
   "property": "C02",
   "status": "proved",
   "theorems": [
    "C02_cell_reference_roundtrip",
    "C02_absolute_reference_roundtrip",
    "C02_reference_injective"
   ],
   "note": ""
  },
  {
   "property": "C03",
   "status": "proved",
   "theorems": [
    "C03_cell_range_roundtrip",
    "C03_cell_range_absolute_roundtrip",
    "C03_sheet_range_roundtrip",
    "C03_sheet_range_absolute_roundtrip"
   ],
   "note": ""
  },
  {
   "property": "C04",
   "status": "proved",
   "theorems": [
    "C04_sheetname_validation_exact"
   ],
   "note": ""
  },
  {
   "property": "C05",
   "status": "partial",
   "theorems": [
    "C05_quote_unquote",
    "C05_quote_parses_back",
    "C05_bare_names_are_safe",
    "C05_quote_total_release",
    "C05_quote_total_debug_partial",
    "C05_quote_total_debug_refuted",
    "C05_unquote_total_refuted"
   ],
   "note": "Reversibility and safety of bare names proved; totality in debug builds refuted (sheet name \"A.1\" panics), proved for names without '.', and for release builds."
  },
  {
   "property": "C06",
   "status": "partial",
   "theorems": [
    "C06_text_has_no_markup",
    "C06_text_reads_back",
    "C06_all_scalars_refuted"
   ],
   "note": "Safety and lossless decoding proved for every string; well-formedness refuted for U+FFFE/U+FFFF, which XML 1.0 forbids and the library writes raw."
  },
  {
   "property": "C07",
   "status": "partial",
   "theorems": [
    "C07_string_item_roundtrip_partial",
    "C07_rich_lookalike_refuted"
   ],
   "note": "Round trip proved for all ordinary strings; refuted for strings beginning <r> and ending </r>, which are written raw as rich text."
  },
  {
   "property": "C08",
   "status": "partial",
   "theorems": [
    "C08_attribute_delimited",
    "C08_attribute_roundtrip_partial",
    "C08_attribute_roundtrip_refuted"
   ],
   "note": "Delimitation proved for all strings; exact recovery proved when no tab/newline/CR/control characters are involved and refuted for those."
  },
  {
   "property": "C09",
   "status": "partial",
   "theorems": [
    "C09_web_link",
    "C09_target_decodes",
    "C09_target_stable",
    "C09_file_link",
    "C09_internal_link",
    "C09_mailto_link",
    "C09_unknown_rejected",
    "C09_no_double_escape_refuted"
   ],
   "note": "Decode(escape u) = u for URLs without %; URLs with %XX unchanged; refuted for URLs mixing lower-case/other escapes (double escape)."
  },
  {
   "property": "C10",
   "status": "proved",
   "theorems": [
    "C10_indices_are_positions",
    "C10_equal_strings_share_index",
    "C10_indices_never_change"
   ],
   "note": ""
  },
  {
   "property": "C11",
   "status": "proved",
   "theorems": [
    "C11_serial_is_day_count",
    "C11_special_days",
    "C11_date_written_exactly",
    "C11_serial_monotone",
    "C11_serial_accuracy",
    "C11_serial_order"
   ],
   "note": "Integer day count, exact f64 for dates, accuracy 2^-29 day and order preservation at millisecond resolution. Rests on the standard library's real-number axioms (via Flocq) for the f64 part."
  },
  {
   "property": "C12",
   "status": "proved",
   "theorems": [
    "C12_timestamp_is_calendar_date",
    "C12_day_count_determines_date",
    "C12_timestamp_rejects",
    "C12_timestamp_serial",
    "C12_timestamp_order"
   ],
   "note": "All accepted timestamps; f64 part rests on the standard library's real-number axioms."
  },
  {
   "property": "C13",
   "status": "partial",
   "theorems": [
    "C13_ymd_exact",
    "C13_hms_milli_exact",
    "C13_hms_exact_partial",
    "C13_seconds_range_refuted",
    "C13_parse_datetime",
    "C13_parse_time",
    "C13_parse_total",
    "C13_parse_rejects_garbage_refuted"
   ],
   "note": "Date validation and integer times exact; f64 seconds have no lower limit (negative, NaN accepted: refuted); parse_from_str reads malformed fields as 0 (refuted), well-formed texts proved."
  },
  {
   "property": "C14",
   "status": "partial",
   "theorems": [
    "C14_decoration_unique",
    "C14_prefixed_unchanged",
    "C14_prefixes_inserted_partial",
    "C14_dynamic_iff_partial",
    "C14_prefixes_removable_partial",
    "C14_idempotent_partial",
    "C14_this_row",
    "C14_refuted_quote_after_name",
    "C14_refuted_array_constant",
    "C14_refuted_user_function",
    "C14_refuted_sheet_name"
   ],
   "note": "Proved for every formula in which no double quote directly follows a name character outside literals (refuted otherwise); refuted also: a formula ending in an array constant loses its closing brace, prefixes are inserted inside user function names and quoted sheet names."
  },
  {
   "property": "C15",
   "status": "proved",
   "theorems": [
    "C15_last_write_wins",
    "C15_last_blank_wins",
    "C15_untouched_cell_is_absent",
    "C15_cleared_cell_is_absent",
    "C15_other_cells_unaffected",
    "C15_set_formula_result"
   ],
   "note": "Standard mode: every history of the 26 modelled calls; stated on the rows of the saved file."
  },
  {
   "property": "C16",
   "status": "partial",
   "theorems": [
    "C16_used_range_never_shrinks",
    "C16_cells_within_dimension_partial",
    "C16_refuted_range_format",
    "C16_refuted_full_first_row",
    "C16_dimension_written",
    "C16_dimension_empty_written"
   ],
   "note": "False in general (two refutation theorems); proved for histories without set_range_format and outside the A1..XFD1 special case."
  },
  {
   "property": "C17",
   "status": "proved",
   "theorems": [
    "C17_out_of_limits_rejected",
    "C17_row_out_of_limits_rejected",
    "C17_column_out_of_limits_rejected",
    "C17_long_text_rejected",
    "C17_stored_cells_within_limits",
    "C17_streamed_cells_within_limits",
    "C17_refuted_rejected_text_grows_range",
    "C17_refuted_rejected_array_grows_range",
    "C17_refuted_empty_text_out_of_range"
   ],
   "note": "Proved in the reworded form; the three exceptions named in the statement are proved as refutations of the stronger form."
  },
  {
   "property": "C18",
   "status": "proved",
   "theorems": [
    "C18_streamed_cells_equal_standard_cells",
    "C18_refuted_cell_format_in_later_row",
    "C18_refuted_clear_ahead",
    "C18_refuted_formula_result_row"
   ],
   "note": "Simulation between the streaming and the in-memory store over all 26 calls; what row order does not cover is shown by three refutations (set_cell_format in a later row, clear_cell of a write-ahead cell, set_formula_result in another row)."
  },
  {
   "property": "C19",
   "status": "partial",
   "theorems": [
    "C19_standard_rows_and_cells_ordered",
    "C19_streamed_rows_ordered_partial",
    "C19_refuted_duplicate_row",
    "C19_refuted_options_only",
    "C19_streamed_cell_at_most_once",
    "C19_late_write_is_dropped"
   ],
   "note": "Standard mode fully proved. Constant-memory mode: strictly ordered except for at most one repeated, cell-less row element of a row with row options (the code really does this: C19_refuted_duplicate_row, C19_refuted_options_only); each cell at most once; late writes dropped."
  },
  {
   "property": "C20",
   "status": "proved",
   "theorems": [
    "C20_spans_are_exact"
   ],
   "note": "Spans are exact for every reachable standard worksheet."
  },
  {
   "property": "C21",
   "status": "partial",
   "theorems": [
    "C21_ranges_increasing",
    "C21_expands_to_settings",
    "C21_adjacent_elements_differ",
    "C21_adjacent_equal_elements_refuted"
   ],
   "note": "Ranges increasing/disjoint and expansion to the settings proved for every HashMap iteration order; 'never two adjacent elements with equal attributes' is refuted (hidden stale format field), proved up to internal settings."
  },
  {
   "property": "C22",
   "status": "partial",
   "theorems": [
    "C22_merged_ranges_disjoint",
    "C22_table_ranges_disjoint",
    "C22_overlapping_merge_rejected",
    "C22_overlapping_table_rejected",
    "C22_free_merge_accepted",
    "C22_rejected_keeps_ranges_partial",
    "C22_rejected_merge_changes_cells_refuted",
    "C22_merge_after_rejection_panics_refuted",
    "C22_table_after_rejection_panics_refuted"
   ],
   "note": "Disjointness, size and bounds of accepted ranges, rejection of every overlap and acceptance of every free range proved for all call histories; 'a rejected call changes nothing' is refuted (cells already overwritten; stale owner index panics later), accepted ranges unchanged is proved."
  },
  {
   "property": "C23",
   "status": "partial",
   "theorems": [
    "C23_breaks_written",
    "C23_breaks_stored",
    "C23_only_zero_panics_refuted"
   ],
   "note": "Stored list strictly increasing, without zero, exactly the given non-zero breaks, errors exactly when too many or beyond the limit; refuted for the list [0], which panics."
  },
  {
   "property": "C24",
   "status": "proved",
   "theorems": [
    "C24_indices_select",
    "C24_same_index_iff_equal",
    "C24_local_registry"
   ],
   "note": "Sequential histories, across worksheets, for every HashMap iteration order."
  },
  {
   "property": "C25",
   "status": "partial",
   "theorems": [
    "C25_consistent_without_clash_partial",
    "C25_every_schedule_if_preregistered_partial",
    "C25_any_schedule_refuted"
   ],
   "note": "Proved for every schedule in which no two threads are simultaneously between look-up and insertion of the same format (in particular whenever shared formats are registered beforehand); refuted in general: the read-then-write lock protocol does not re-check, so two threads registering the same new format corrupt the registry."
  },
  {
   "property": "C26",
   "status": "proved",
   "theorems": [
    "C26_ids_select_components",
    "C26_tables_and_counts",
    "C26_custom_number_formats",
    "C26_number_format_selected",
    "C26_hyperlink_style",
    "C26_user_index_above_163_refuted"
   ],
   "note": "For up to 65000 formats (u16 counters). Finding: set_num_format_index with a number above 163 selects another format's custom code (refutation theorem)."
  },
  {
   "property": "C27",
   "status": "proved",
   "theorems": [
    "C27_own_format_wins",
    "C27_row_format_next",
    "C27_column_format_last",
    "C27_default_otherwise",
    "C27_refuted_stale_row_format"
   ],
   "note": "Cell, row, column, default precedence over histories; the row/column crossing uses a stale row format (refutation theorem)."
  },
  {
   "property": "C28",
   "status": "proved",
   "theorems": [
    "C28_own_format_in_styles",
    "C28_row_format_in_styles",
    "C28_column_format_in_styles",
    "C28_default_in_styles"
   ],
   "note": "Cell-level theorems for standard worksheets; the shared registry of constant/low-memory worksheets is covered by C25's 'consistent'."
  },
  {
   "property": "C29",
   "status": "proved",
   "theorems": [
    "C29_saved_names_distinct",
    "C29_reused_reported_exactly",
    "C29_generated_names_distinct",
    "C29_added_sheets_never_reused",
    "C29_generated_names_valid",
    "C29_names_stay_valid_partial",
    "C29_empty_name_saved_refuted",
    "C29_push_names_collide_refuted"
   ],
   "note": "Saved names pairwise different for every workbook; generated names distinct for every history. Findings: push_worksheet auto names collide; worksheets_mut can save an empty name."
  },
  {
   "property": "C30",
   "status": "partial",
   "theorems": [
    "C30_active_tab_ok",
    "C30_active_tab_choice",
    "C30_first_sheet_exists_partial",
    "C30_first_sheet_hidden_refuted",
    "C30_first_sheet_stale_refuted"
   ],
   "note": "Active tab fully proved. First-tab part is false of the code (refutations): the flagged sheet can be hidden, and the index is stale after a save."
  },
  {
   "property": "C31",
   "status": "proved",
   "theorems": [
    "C31_worksheet_references",
    "C31_chartsheet_references_partial",
    "C31_chartsheet_notes_refuted",
    "C31_references_written"
   ],
   "note": "Worksheets: every r:id (hyperlinks, drawing, legacy drawing, header drawing, background, tables) opens the part holding that object, in the whole saved package, after any history of edits and saves. Chartsheets: same without notes/buttons; refuted with both notes and a header image."
  },
  {
   "property": "C32",
   "status": "partial",
   "theorems": [
    "C32_background_partial",
    "C32_images_partial",
    "C32_header_images_partial",
    "C32_embedded",
    "C32_header_first_refuted",
    "C32_embedded_header_refuted",
    "C32_shape_link_refuted",
    "C32_shared_anchor_refuted"
   ],
   "note": "Proved when header/footer images sit on sheets after every inserted/background image and there are no embedded images together with header images; refuted otherwise (header image first; embedded + header). Embedded images: unconditional."
  },
  {
   "property": "C33",
   "status": "proved",
   "theorems": [
    "C33_part_numbers",
    "C33_chart_references",
    "C33_table_references",
    "C33_tables_distinct"
   ],
   "note": "Up to the u16 counters."
  },
  {
   "property": "C34",
   "status": "partial",
   "theorems": [
    "C34_attributed_iff_partial",
    "C34_author_ids",
    "C34_wrong_author_refuted"
   ],
   "note": "Attribution proved equivalent to 'authors first used in sorted order'; refuted in general (author list sorted, ids in insertion order). Ids always valid and injective in the author."
  },
  {
   "property": "C35",
   "status": "partial",
   "theorems": [
    "C35_shape_ids_partial",
    "C35_notes_only",
    "C35_blocks_announced",
    "C35_header_ids",
    "C35_header_notes_refuted",
    "C35_many_buttons_refuted"
   ],
   "note": "Notes without buttons: unconditional. With buttons: when they fit the block reserved by the notes. Refuted: >1024 buttons; header image vs note ids."
  },
  {
   "property": "C36",
   "status": "partial",
   "theorems": [
    "C36_anchors_partial",
    "C36_emus_partial",
    "C36_zero_default_height_refuted",
    "C36_beyond_last_column_refuted"
   ],
   "note": "Proved for every history, overflow mode and object within 1,500,000 x 2,000,000,000 pixels on a sheet whose default row is at least one pixel high: positioning ends, its result is unique, the anchors denote the corners and the offsets lie inside their cells; EMU conversion exact for whole pixels. Refuted outside: a 0-pixel default row makes the loop endless, and an anchor may lie beyond the last column."
  },
  {
   "property": "C37",
   "status": "proved",
   "theorems": [
    "C37_column_pixels",
    "C37_column_zero",
    "C37_row_pixels",
    "C37_hidden_row",
    "C37_hidden_column",
    "C37_default_row_pixels"
   ],
   "note": "All u16 pixel values, checked by the kernel through vm_cast_no_check on an exhaustive list inside a forall-statement; result holds for every history."
  },
  {
   "property": "C38",
   "status": "partial",
   "theorems": [
    "C38_autofit",
    "C38_user_width_kept",
    "C38_user_width_refuted",
    "C38_autofit_width_call"
   ],
   "note": "Standard worksheets, every history of calls of Sheet_Model and autofit, with f64 widths that are not NaN: autofit ends, every cell gets its need or the limit, own widths are not narrowed, other columns get exactly the largest need, nothing else changes, HashMap order irrelevant (Permutation). Refuted: a second autofit can narrow a column below the user's width because the first one that widens it marks it as fitted. Missing: constant-memory sheets (only the current row is seen); text of numbers (f64::to_string) is a parameter."
  },
  {
   "property": "C39",
   "status": "partial",
   "theorems": [
    "C39_levels_written",
    "C39_levels_at_most_7",
    "C39_level_counts_groups",
    "C39_announced_level_partial",
    "C39_single_level_not_announced_refuted",
    "C39_rejected_group_half_applied_refuted"
   ],
   "note": "Levels <= 7 and level = number of covering accepted groups proved for all histories; the announced maximum is proved when it is at least 2 and refuted for one level (nothing announced)."
  },
  {
   "property": "C40",
   "status": "proved",
   "theorems": [
    "C40_condition_builder",
    "C40_rows_hidden_exactly",
    "C40_non_blanks_refuted",
    "C40_stale_hidden_refuted"
   ],
   "note": "For every history (including earlier saves) on standard-memory worksheets; lower-casing and number text are parameters. Refutations: the documented non-blanks filter hides numbers; rows stay hidden after the data changed."
  },
  {
   "property": "C41",
   "status": "proved",
   "theorems": [
    "C41_cells_of_the_range_are_outlined",
    "C41_no_cell_of_the_range_is_missed",
    "C41_other_cells_unchanged",
    "C41_contents_unchanged",
    "C41_rejected_iff"
   ],
   "note": "standard (non-streaming) worksheets"
  },
  {
   "property": "C42",
   "status": "partial",
   "theorems": [
    "C42_points_in_row_major_order_partial",
    "C42_cache_kind",
    "C42_every_range_is_filled_from_its_sheet",
    "C42_unknown_sheet_is_reported",
    "C42_points_written",
    "C42_refuted_missing_row",
    "C42_refuted_rich_text_and_results"
   ],
   "note": "every row of the range must hold a cell or the range be one column; rich text, booleans and formula results are cached as empty (both refuted in general)"
  },
  {
   "property": "C43",
   "status": "partial",
   "theorems": [
    "C43_result_read_back",
    "C43_reading_unique",
    "C43_refuted_special_words",
    "C43_refuted_literal_escape"
   ],
   "note": "Proved for plain results; refuted for nan/inf/infinity words (written untyped) and literal _xHHHH_ in results."
  },
  {
   "property": "C44",
   "status": "partial",
   "theorems": [
    "C44_legacy_algorithm",
    "C44_range",
    "C44_zero_partial",
    "C44_long_password_refuted"
   ],
   "note": "Algorithm, range: proved for every password. Zero only for the empty password: proved below 32768 bytes; refuted above (verifier 0 is silently dropped)."
  },
  {
   "property": "C45",
   "status": "proved",
   "theorems": [
    "C45_file_numbers_are_finite",
    "C45_streamed_numbers_are_finite",
    "C45_number_cell_shows"
   ],
   "note": "Both modes."
  },
  {
   "property": "C46",
   "status": "partial",
   "theorems": [
    "C46_define_name_validation",
    "C46_empty_name_panics_refuted",
    "C46_local_name_bound_to_sheet",
    "C46_global_name_written",
    "C46_unknown_sheet_refused",
    "C46_unknown_sheet_error_only_then",
    "C46_print_area_denotes",
    "C46_autofilter_name_denotes",
    "C46_print_titles_denote",
    "C46_list_complete_and_sorted",
    "C46_sorted_by_shown_name_partial",
    "C46_sorted_by_shown_name_refuted",
    "C46_bad_prefixes_refuted"
   ],
   "note": "Validation, binding, completeness and range texts proved; sorting by shown name holds except for names extending Print_Area/_FilterDatabase (refutation: unfilled '{}' in the sort key)."
  },
  {
   "property": "C47",
   "status": "partial",
   "theorems": [
    "C47_default_table_names_refuted",
    "C47_resave",
    "C47_failed_save_refuted",
    "C47_failed_save_shapes_refuted"
   ],
   "note": "Within the package model (which parts there are, their names, relationships, references and numbering): after any history of edits and successful saves, saving again any number of times writes the same parts. Refuted when there is an edit between the saves (default table names stick) and when the earlier save failed (notes and buttons doubled, wrong shapes). Not covered: part contents that the package model keeps opaque."
  },
  {
   "property": "C48",
   "status": "partial",
   "theorems": [
    "C48_header_first_refuted",
    "C48_package_closed_partial",
    "C48_names_and_types"
   ],
   "note": "Part names unique and types declared: always. Closure: same image condition as C32, refuted otherwise."
  },
  {
   "property": "C49",
   "status": "proved",
   "theorems": [
    "C49_worksheet_protection",
    "C49_chartsheet_refuted",
    "C49_unprotected_ranges"
   ],
   "note": "Worksheets. Chartsheets write contents/objects with the opposite polarity (refutation)."
  },
  {
   "property": "C50",
   "status": "proved",
   "theorems": [
    "C50_autofilter_element",
    "C50_pattern_meaning",
    "C50_wildcards_refuted"
   ],
   "note": "Text patterns: for texts without wildcard characters (refutation otherwise: wildcards are not quoted)."
  },
  {
   "property": "C51",
   "status": "proved",
   "theorems": [
    "C51_sheet_reads_back",
    "C51_last_write_reads_back"
   ],
   "note": "Whole text of <sheetData> and sharedStrings.xml read by an independent XML/A1 reader; hypotheses: texts without U+FFFE/U+FFFF, plain strings not of the form <r>...</r>, formula/result texts without control characters or literal _xHHHH_ (findings); number printing is an oracle with print/parse round trip."
  },
  {
   "property": "C52",
   "status": "proved",
   "theorems": [
    "C52_rich_string_reads_back",
    "C52_accepted_iff",
    "C52_refuted_literal_escape"
   ],
   "note": "Segment texts without control characters and literal _xHHHH_ (finding refuted separately)."
  },
  {
   "property": "C53",
   "status": "proved",
   "theorems": [
    "C53_merged_cells",
    "C53_merged_text",
    "C53_outside_unchanged",
    "C53_merge_cells_element"
   ],
   "note": "Cell part for standard-memory worksheets, any history and any later calls that do not touch the cell; element part for any reachable worksheet."
  },
  {
   "property": "C54",
   "status": "proved",
   "theorems": [
    "C54_columns",
    "C54_cells",
    "C54_outside_unchanged",
    "C54_file"
   ],
   "note": "Standard-memory worksheets; the case folding of names is an arbitrary function (Unicode lower-casing is an oracle)."
  },
  {
   "property": "C55",
   "status": "proved",
   "theorems": [
    "C55_group_rows",
    "C55_group_columns"
   ],
   "note": "Every state and range; settings compared row by row and column by column."
  },
  {
   "property": "C56",
   "status": "proved",
   "theorems": [
    "C56_app_titles"
   ],
   "note": "Fewer than 65536 sheets and names; names without CR."
  },
  {
   "property": "C57",
   "status": "partial",
   "theorems": [
    "C57_core_properties",
    "C57_custom_properties",
    "C57_dates_stored_partial",
    "C57_serial_date_lost_refuted",
    "C57_app_properties"
   ],
   "note": "Proved for every setter sequence; refuted for dates made from serial numbers (C57_serial_date_lost_refuted). Display of f64 is an oracle."
  },
  {
   "property": "C58",
   "status": "proved",
   "theorems": [
    "C58_workbook_part"
   ],
   "note": "Fewer than 65536 sheets; names an XML attribute can hold."
  },
  {
   "property": "C59",
   "status": "partial",
   "theorems": [
    "C59_sheet_view_partial",
    "C59_chartsheet_view_partial",
    "C59_refused_calls",
    "C59_top_left_first_cell_refuted"
   ],
   "note": "Proved for every history of view calls without a set_top_left_cell(0,0): the sheetView read back from the whole part states the latest settings; the refuted case (set_top_left_cell(0,0) keeps the stale cell) is proved as C59_top_left_first_cell_refuted."
  },
  {
   "property": "C60",
   "status": "partial",
   "theorems": [
    "C60_page_setup_partial",
    "C60_chartsheet_page_setup_partial",
    "C60_first_page_number_refuted"
   ],
   "note": "Proved for every history: printOptions, margins, pageSetup and headerFooter read back from the part give the latest settings, except the first page number, which is written under the wrong attribute (C60_first_page_number_refuted)."
  },
  {
   "property": "C61",
   "status": "partial",
   "theorems": [
    "C61_worksheet_structure_partial",
    "C61_two_extensions_malformed_refuted",
    "C61_sheet_properties_order_partial",
    "C61_sheet_properties_order_refuted",
    "C61_chartsheet_structure_partial",
    "C61_chartsheet_print_options_refuted"
   ],
   "note": "Well-formedness and schema order proved for worksheets without both x14 conditional formats and sparklines, and for sheetPr without fit-to-pages next to tab colour/outline; the excluded cases are refuted."
  },
  {
   "property": "C62",
   "status": "partial",
   "theorems": [
    "C62_ignored_errors_partial",
    "C62_entries_well_formed",
    "C62_two_digit_years_refuted",
    "C62_refused_calls"
   ],
   "note": "Proved for every kind except TwoDigitTextYear, whose attribute name is capitalised (refuted)."
  },
  {
   "property": "C63",
   "status": "partial",
   "theorems": [
    "C63_data_validations",
    "C63_by_range",
    "C63_refused",
    "C63_list_items_partial",
    "C63_list_commas_refuted",
    "C63_empty_list_refuted"
   ],
   "note": "Proved for every history: the saved part holds exactly the last accepted validation per range, over-long texts and improper ranges refused. List items come back when no item has a comma and the list is not empty; the other two cases are refuted."
  },
  {
   "property": "C64",
   "status": "partial",
   "theorems": [
    "C64_conditional_formats_partial",
    "C64_priorities",
    "C64_first_cell",
    "C64_texts_refuted",
    "C64_theme_color_refuted"
   ],
   "note": "Proved for every history of calls with any of the thirteen kinds of rule (C64_conditional_formats_partial, C64_priorities, C64_first_cell), reading the whole worksheet part back. Missing, because false of the code: texts searched for with quotes or non-ASCII characters (C64_texts_refuted) and theme colours (C64_theme_color_refuted); comparison with an empty text or a lone quote. Number texts and the test for 0..100 of parsed numbers are abstract."
  },
  {
   "property": "C65",
   "status": "partial",
   "theorems": [
    "C65_extended_formats_partial",
    "C65_bars_swapped_refuted",
    "C65_priority_shared_refuted",
    "C65_icon_options_refuted",
    "C65_negative_border_refuted"
   ],
   "note": "Proved (C65_extended_formats_partial) when ranges are first given in the order of their texts and the settings are ones the extension can carry; the code breaks the rest: C65_bars_swapped_refuted, C65_priority_shared_refuted, C65_icon_options_refuted, C65_negative_border_refuted."
  },
  {
   "property": "C66",
   "status": "proved",
   "theorems": [
    "C66_links",
    "C66_refused",
    "C66_returns",
    "C66_cell_text",
    "C66_embedded_place_twice_refuted"
   ],
   "note": "standard memory mode; texts made of characters an attribute keeps (C08); relationships as shown by C31. The link of an embedded image has its fragment both in the target and as location (refuted expectation stated)."
  },
  {
   "property": "C67",
   "status": "partial",
   "theorems": [
    "C67_cells",
    "C67_table_part",
    "C67_total_formula_partial",
    "C67_total_bracket_refuted",
    "C67_total_quote_refuted"
   ],
   "note": "Table part: proved for every accepted add_table, with texts an attribute can hold (C08) and formulas an element can hold; the part number/table id is C31's. Cells: C67_cells, every history before and after. dxf numbers as a function of the format (C68). Total formulas: proved for column names without opening bracket and double quote; refuted otherwise (the formula scanner prefixes functions inside the reference or repeats text). Tables made by the serializer: C86."
  },
  {
   "property": "C68",
   "status": "partial",
   "theorems": [
    "C68_rules",
    "C68_stable",
    "C68_columns_partial",
    "C68_second_save_refuted"
   ],
   "note": "Conditional formats: every history and save. Formats keep their numbers. Table columns: right in the first file after the table was added; refuted for later saves (numbers are translated again; wrong format, then a panic). The XML of the dxf elements themselves is not modelled."
  },
  {
   "property": "C69",
   "status": "partial",
   "theorems": [
    "C69_sparklines_partial",
    "C69_outside_data_refuted",
    "C69_block_refuted",
    "C69_dates_refuted",
    "C69_limit_refuted"
   ],
   "note": "Every sequence of add_sparkline/add_sparkline_group calls with sheet names the document can hold and (Debug) quotable; group cells are a row or column with as many cells as the data has slices. Refuted: the cell count is checked against either dimension of the data, so slices can lie outside it; a block of cells gets only its first row; date ranges are not checked; column 65535 panics in Debug. Text of f64 is a parameter; with both conditional-format and sparkline extensions only one is covered."
  },
  {
   "property": "C70",
   "status": "partial",
   "theorems": [
    "C70_range_text_partial",
    "C70_written_text_partial",
    "C70_apostrophe_refuted",
    "C70_bang_refuted",
    "C70_not_a_range_refuted",
    "C70_panics_refuted"
   ],
   "note": "For every text denoting a range (independent parser) whose sheet name has no quote or exclamation mark and does not begin with '='; and for the texts the library writes. Refuted: quoted names with doubled quotes keep them, names with '!' give an empty range, several texts that denote no range are accepted, a lone quote panics."
  },
  {
   "property": "C71",
   "status": "partial",
   "theorems": [
    "C71_cell_formats_read_back_partial",
    "C71_tables_state_their_counts",
    "C71_number_format_after_index_refuted",
    "C71_number_index_zero_refuted",
    "C71_unset_hyperlink_refuted",
    "C71_two_fill_colors_refuted",
    "C71_automatic_background_refuted",
    "C71_indent_with_top_refuted",
    "C71_solid_with_automatic_refuted"
   ],
   "note": "All setters and the whole part are covered; excluded are exactly the chains refuted beside it (code after built-in index, index 0 after a code, unset_hyperlink_style, two fill colours without pattern, automatic fill colours, indent with Top/Bottom) and user-chosen number format indices above 163 (refuted in C26)."
  },
  {
   "property": "C72",
   "status": "partial",
   "theorems": [
    "C72_differential_formats_read_back_partial",
    "C72_foreground_only_refuted",
    "C72_diagonal_lost_refuted"
   ],
   "note": "Covers every chain except a lone foreground colour in a solid fill (refuted); diagonal lines, scripts, alignment and protection are not part of what a differential format carries here (diagonal: refuted)."
  },
  {
   "property": "C73",
   "status": "partial",
   "theorems": [
    "C73_always_ends",
    "C73_accepted_images_have_a_size",
    "C73_png",
    "C73_jpeg",
    "C73_gif",
    "C73_bmp_partial",
    "C73_bmp_top_down_refuted",
    "C73_short_buffer_refuted",
    "C73_cut_png_refuted",
    "C73_jpeg_without_scan_refuted",
    "C73_jpeg_fill_bytes_refuted",
    "C73_jpeg_extension_refuted"
   ],
   "note": "PNG, JPEG and GIF proved for all files of the formats (JPEG: markers not preceded by fill bytes, APP0 segments being JFIF), BMP for bottom-up ones; panics and misreadings refuted beside it."
  },
  {
   "property": "C74",
   "status": "partial",
   "theorems": [
    "C74_refused_iff",
    "C74_notes_read_back",
    "C74_authors_iff_partial",
    "C74_wrong_author_shown_refuted"
   ],
   "note": "Everything but the authors is proved; attribution to the right author is characterised exactly (C74_authors_iff_partial) and refuted in general."
  },
  {
   "property": "C75",
   "status": "partial",
   "theorems": [
    "C75_shapes_read_back",
    "C75_show_all_sticks_refuted",
    "C75_theme_fill_refuted"
   ],
   "note": "Read-back is proved for all histories; after an earlier save the visibility is only characterised for notes that say it themselves or sheets that show all (refutation: it sticks). Theme fills are refuted."
  },
  {
   "property": "C76",
   "status": "partial",
   "theorems": [
    "C76_objects",
    "C76_ids_distinct",
    "C76_ids_refuted"
   ],
   "note": "Objects, places, names, links and contents read back for all lists; ids distinct on worksheets, refuted for a chartsheet with a picture. Places are the whole EMU values of C36; that the relationship ids point to the right part is C32/C33."
  },
  {
   "property": "C77",
   "status": "partial",
   "theorems": [
    "C77_text_boxes_partial",
    "C77_font_size",
    "C77_line_width",
    "C77_line_width_exact",
    "C77_strike_refuted",
    "C77_last_line_refuted",
    "C77_line_transparency_refuted",
    "C77_last_fill_refuted",
    "C77_no_stops_refuted",
    "C77_size_refuted"
   ],
   "note": "Everything read back for all call sequences; partial because of the calls that are dropped (refutations). The size of the font is exact when it is a whole number of hundredths after rounding; number formatting is the assumption shows_whole."
  },
  {
   "property": "C78",
   "status": "partial",
   "theorems": [
    "C78_series_numbered",
    "C78_axes_defined_partial",
    "C78_axes_undefined_refuted",
    "C78_axes_undefined_secondary_refuted"
   ],
   "note": "Proved for all charts without pies in a combination (theorem _partial); pies in combinations are refuted. First save of the chart; ids as in u32 below 423496 charts."
  },
  {
   "property": "C79",
   "status": "partial",
   "theorems": [
    "C79_series_read_back_partial",
    "C79_gap_refuted",
    "C79_gap_150_refuted",
    "C79_second_save_refuted",
    "C79_push_refuted",
    "C79_scatter_line_refuted",
    "C79_trend_limits_refuted",
    "C79_name_refuted"
   ],
   "note": "Read-back of every option proved for the model of all write functions; partial because of the refuted expectations (push_series, scatter line, gap leak, name order) that the specification carries as documented exceptions. Fonts' strikethrough is not written at all."
  },
  {
   "property": "C80",
   "status": "partial",
   "theorems": [
    "C80_axes_read_back_partial",
    "C80_bar_dates_refuted",
    "C80_automatic_refuted"
   ],
   "note": "Read-back of every axis option proved; partial because of refuted expectations."
  },
  {
   "property": "C81",
   "status": "partial",
   "theorems": [
    "C81_chart_reads_back_partial",
    "C81_combined_legend_refuted",
    "C81_legend_entry_refuted",
    "C81_title_font_refuted"
   ],
   "note": "asked_chart covers all options; partial because of refuted expectations about legend entries and the font of titles from cells."
  },
  {
   "property": "C82",
   "status": "partial",
   "theorems": [
    "C82_chart_elements_ordered_partial",
    "C82_legend_refuted",
    "C82_scatter_marker_refuted",
    "C82_scatter_format_refuted",
    "C82_date_interval_refuted",
    "C82_label_font_refuted",
    "C82_pie_trend_refuted",
    "C82_line_invert_refuted"
   ],
   "note": "proved for all calls in the table Chart_Order2.calls_fit; outside the table the code violates the schema (7 refutations). Attribute values are not judged here (C79-C81 read them); the number of series in a stock chart is not judged."
  },
  {
   "property": "C83",
   "status": "partial",
   "theorems": [
    "C83_serializing_is_writing_by_hand_partial",
    "C83_stops_at_the_first_error_partial",
    "C83_records_in_file_partial",
    "C83_refuted_fields_after_a_nested_struct_are_lost",
    "C83_refuted_a_sequence_field_keeps_its_last_element",
    "C83_refuted_a_bare_value_overwrites_the_last_field",
    "C83_refuted_records_without_headers_vanish",
    "C83_refuted_large_integers_change"
   ],
   "note": "Proved for records of single values in every successful history (exactly the calls by hand), exact behaviour at the first failing write, and the contents of the saved file. Nested structs, sequence fields, bare values, headerless records and large integers are refuted."
  },
  {
   "property": "C84",
   "status": "partial",
   "theorems": [
    "C84_dimensions_partial",
    "C84_column_dimensions_partial",
    "C84_shown_headers_have_dimensions",
    "C84_refuted_no_records_under_hidden_headers"
   ],
   "note": "Exact for every history; with hidden headers and no record yet the query panics at row 0 or returns an inverted range (refuted)."
  },
  {
   "property": "C85",
   "status": "partial",
   "theorems": [
    "C85_headers_outside_the_sheet_partial",
    "C85_parameter_errors_change_nothing",
    "C85_unknown_field_rejected",
    "C85_nameless_or_empty_struct_rejected",
    "C85_refuted_rejected_headers_are_partly_written"
   ],
   "note": "Parameter errors and positions outside the sheet change nothing; headers that cross the right edge are refuted (partly written)."
  },
  {
   "property": "C86",
   "status": "partial",
   "theorems": [
    "C86_tables_at_save_partial",
    "C86_saving_again_adds_nothing",
    "C86_refuted_table_without_records_is_lost",
    "C86_refuted_records_after_a_save_are_outside",
    "C86_refuted_order_of_tables",
    "C86_refuted_equal_headers_fail_at_save"
   ],
   "note": "Ranges and flags of the tables proved for every history and every visiting order; lost tables after a failed save, records after a save and the random order are refuted."
  },
  {
   "property": "C87",
   "status": "partial",
   "theorems": [
    "C87_written_cell_reads_back_partial",
    "C87_formatted_cell_reads_back_partial",
    "C87_range_format_reads_back_partial",
    "C87_cell_of_formatted_row_partial",
    "C87_cell_of_formatted_column_partial",
    "C87_plain_cell_reads_back"
   ],
   "note": "Composed from C15/C28/C51/C71 with new invariants (all formats of the file come from the calls and their merges; the hyperlink style exists whenever a format uses it). Partial: formats outside calls_ok (the refutations of C71) and range formats on cells never written (C27 refutation) are excluded; crossing rows and columns are C88; constant-memory sheets are C95."
  },
  {
   "property": "C88",
   "status": "partial",
   "theorems": [
    "C88_merge_is_later_calls_partial",
    "C88_merged_look_partial",
    "C88_merge_with_new_format",
    "C88_merge_into_new_format_partial",
    "C88_merge_idempotent",
    "C88_merge_associative",
    "C88_hyperlink_lost_refuted",
    "C88_explicit_default_refuted",
    "C88_number_format_refuted",
    "C88_crossing_reads_back_partial",
    "C88_height_before_format_refuted",
    "C88_formats_after_write_refuted"
   ],
   "note": "Laws for all formats; merge = later calls proved when each call of the primary sets a value other than the initial one and the secondary is no hyperlink format (otherwise refuted). Crossing cells proved when the formats are the first configuration of the row and column and precede the write (otherwise refuted)."
  },
  {
   "property": "C89",
   "status": "partial",
   "theorems": [
    "C89_calls_never_panic",
    "C89_numbers_exist",
    "C89_first_image_reached",
    "C89_image_reached_partial",
    "C89_values_fit",
    "C89_second_description_refuted",
    "C89_values_fit_refuted",
    "C89_constant_memory_refuted"
   ],
   "note": "proved for standard mode: no panics, numbers exist, the first image with the same hash is reached; with equal hash meaning equal image the embedded image itself. Refuted and proved as such: a second description, rich values when only some images are described (exact condition in C89_values_fit), constant memory mode."
  },
  {
   "property": "C90",
   "status": "proved",
   "theorems": [
    "C90_marks_denote",
    "C90_dynamic_marked"
   ],
   "note": "standard mode"
  },
  {
   "property": "C91",
   "status": "proved",
   "theorems": [
    "C91_declared_once",
    "C91_workbook_type",
    "C91_relationships",
    "C91_all_relationships_partial",
    "C91_image_types",
    "C91_relationships_typed",
    "C91_main_part",
    "C91_workbook_parts"
   ],
   "note": "relationships to parts that are missing (the header image findings of C48) are covered by the presence premise; C91_all_relationships_partial discharges it under the condition of C48"
  },
  {
   "property": "C92",
   "status": "proved",
   "theorems": [
    "C92_columns_read_back",
    "C92_rows_read_back",
    "C92_rows_follow_default_refuted"
   ],
   "note": "Histories in which a group call is rejected for exceeding level 7 (which leaves the group half applied, C21) are excluded by groups_accepted. The expectation that unheighted rows follow the default height is refuted."
  },
  {
   "property": "C93",
   "status": "proved",
   "theorems": [
    "C93_sheet_reads_back",
    "C93_table_cell_reads_back",
    "C93_merged_cell_reads_back"
   ],
   "note": "Assumes number_display (printing and parsing of f64), as C51 does; strings must be storable (text_ok), as the refutations of C08 and C51 require."
  },
  {
   "property": "C94",
   "status": "proved",
   "theorems": [
    "C94_streamed_sheet_reads_back",
    "C94_one_cell_per_position",
    "C94_streamed_text_shows_the_standard_sheet",
    "C94_last_write_reads_back",
    "C94_outline_refuted"
   ],
   "note": "rows are shown as they were when flushed; late writes and row options after the flush are lost as C18/C19 describe; strings other sheets add to the shared table are taken before or after the calls on this sheet, not between them; outline refuted (C94_outline_refuted)"
  },
  {
   "property": "C95",
   "status": "partial",
   "theorems": [
    "C95_written_cell_reads_back_partial",
    "C95_cell_of_formatted_row_partial",
    "C95_cell_of_formatted_column_partial",
    "C95_plain_cell_reads_back"
   ],
   "note": "Partial as C87: formats outside calls_ok (refutations of C71) and cells where a formatted row and column cross are excluded; histories out of row order are C94 (what was flushed)."
  },
  {
   "property": "C96",
   "status": "proved",
   "theorems": [
    "C96_filter_reads_back",
    "C96_test_meaning",
    "C96_rejected_call_refuted"
   ],
   "note": "Calls rejected for overlapping a table are excluded (C96_rejected_call_refuted). Number texts are a parameter (their text must fit in an attribute)."
  },
  {
   "property": "C97",
   "status": "proved",
   "theorems": [
    "C97_accepted",
    "C97_rejected_unchanged",
    "C97_pictures_read_back",
    "C97_one_picture",
    "C97_no_letter_refuted",
    "C97_ampersand_refuted",
    "C97_orphan_refuted"
   ],
   "note": "Findings in C97_no_letter_refuted, C97_ampersand_refuted, C97_orphan_refuted. Pixel sizes (one f64 expression) are a parameter; pictures with equal hashes are assumed to have equal extensions."
  },
  {
   "property": "C98",
   "status": "proved",
   "theorems": [
    "C98_styles",
    "C98_workbook",
    "C98_comments",
    "C98_drawing",
    "C98_table"
   ],
   "note": "Worksheet order: C61; chart order: C82. The tables leave out elements the library never writes; the properties of a font and of a run may stand in any order (a choice, as Excel reads it)."
  },
  {
   "property": "C99",
   "status": "proved",
   "theorems": [
    "C99_placed_strings",
    "C99_place_kept",
    "C99_only_then",
    "C99_gap_refuted",
    "C99_twice_refuted"
   ],
   "note": "C99_placed_strings and C99_only_then together are the exact condition; the refutations show what happens outside it. u32 counters as in C10."
  }
 ]
}