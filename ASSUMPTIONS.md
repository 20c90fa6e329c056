# Print Assumptions for every property theorem

Generated by tools/assumptions.py.

## `ClassicalDedekindReals.sig_forall_dec`, `ClassicalDedekindReals.sig_not_dec`, `Classical_Prop.classic`, `FunctionalExtensionality.functional_extensionality_dep`

`C11_date_written_exactly`, `C11_serial_accuracy`, `C11_serial_order`, `C12_timestamp_order`, `C12_timestamp_serial`, `C36_anchors_partial`, `C36_emus_partial`, `C37_column_pixels`, `C37_default_row_pixels`, `C37_row_pixels`, `C38_autofit`, `C38_autofit_width_call`, `C38_user_width_kept`, `C77_font_size`, `C77_line_width`, `C77_line_width_exact`

## `closed under the global context`

`C01_all_u16_refuted`, `C01_column_name_complete`, `C01_column_name_injective`, `C01_column_name_roundtrip`, `C02_absolute_reference_roundtrip`, `C02_cell_reference_roundtrip`, `C02_reference_injective`, `C03_cell_range_absolute_roundtrip`, `C03_cell_range_roundtrip`, `C03_sheet_range_absolute_roundtrip`, `C03_sheet_range_roundtrip`, `C04_sheetname_validation_exact`, `C05_bare_names_are_safe`, `C05_quote_parses_back`, `C05_quote_total_debug_partial`, `C05_quote_total_debug_refuted`, `C05_quote_total_release`, `C05_quote_unquote`, `C05_unquote_total_refuted`, `C06_all_scalars_refuted`, `C06_text_has_no_markup`, `C06_text_reads_back`, `C07_rich_lookalike_refuted`, `C07_string_item_roundtrip_partial`, `C08_attribute_delimited`, `C08_attribute_roundtrip_partial`, `C08_attribute_roundtrip_refuted`, `C09_file_link`, `C09_internal_link`, `C09_mailto_link`, `C09_no_double_escape_refuted`, `C09_target_decodes`, `C09_target_stable`, `C09_unknown_rejected`, `C09_web_link`, `C10_equal_strings_share_index`, `C10_indices_are_positions`, `C10_indices_never_change`, `C11_serial_is_day_count`, `C11_serial_monotone`, `C11_special_days`, `C12_day_count_determines_date`, `C12_timestamp_is_calendar_date`, `C12_timestamp_rejects`, `C13_hms_exact_partial`, `C13_hms_milli_exact`, `C13_parse_datetime`, `C13_parse_rejects_garbage_refuted`, `C13_parse_time`, `C13_parse_total`, `C13_seconds_range_refuted`, `C13_ymd_exact`, `C14_decoration_unique`, `C14_dynamic_iff_partial`, `C14_idempotent_partial`, `C14_prefixed_unchanged`, `C14_prefixes_inserted_partial`, `C14_prefixes_removable_partial`, `C14_refuted_array_constant`, `C14_refuted_quote_after_name`, `C14_refuted_sheet_name`, `C14_refuted_user_function`, `C14_this_row`, `C15_cleared_cell_is_absent`, `C15_last_blank_wins`, `C15_last_write_wins`, `C15_other_cells_unaffected`, `C15_set_formula_result`, `C15_untouched_cell_is_absent`, `C16_cells_within_dimension_partial`, `C16_dimension_empty_written`, `C16_dimension_written`, `C16_refuted_full_first_row`, `C16_refuted_range_format`, `C16_used_range_never_shrinks`, `C17_column_out_of_limits_rejected`, `C17_long_text_rejected`, `C17_out_of_limits_rejected`, `C17_refuted_empty_text_out_of_range`, `C17_refuted_rejected_array_grows_range`, `C17_refuted_rejected_text_grows_range`, `C17_row_out_of_limits_rejected`, `C17_stored_cells_within_limits`, `C17_streamed_cells_within_limits`, `C18_refuted_cell_format_in_later_row`, `C18_refuted_clear_ahead`, `C18_refuted_formula_result_row`, `C18_streamed_cells_equal_standard_cells`, `C19_late_write_is_dropped`, `C19_refuted_duplicate_row`, `C19_refuted_options_only`, `C19_standard_rows_and_cells_ordered`, `C19_streamed_cell_at_most_once`, `C19_streamed_rows_ordered_partial`, `C20_spans_are_exact`, `C21_adjacent_elements_differ`, `C21_adjacent_equal_elements_refuted`, `C21_expands_to_settings`, `C21_ranges_increasing`, `C22_free_merge_accepted`, `C22_merge_after_rejection_panics_refuted`, `C22_merged_ranges_disjoint`, `C22_overlapping_merge_rejected`, `C22_overlapping_table_rejected`, `C22_rejected_keeps_ranges_partial`, `C22_rejected_merge_changes_cells_refuted`, `C22_table_after_rejection_panics_refuted`, `C22_table_ranges_disjoint`, `C23_breaks_stored`, `C23_breaks_written`, `C23_only_zero_panics_refuted`, `C24_indices_select`, `C24_local_registry`, `C24_same_index_iff_equal`, `C25_any_schedule_refuted`, `C25_consistent_without_clash_partial`, `C25_every_schedule_if_preregistered_partial`, `C26_custom_number_formats`, `C26_hyperlink_style`, `C26_ids_select_components`, `C26_number_format_selected`, `C26_tables_and_counts`, `C26_user_index_above_163_refuted`, `C27_column_format_last`, `C27_default_otherwise`, `C27_own_format_wins`, `C27_refuted_stale_row_format`, `C27_row_format_next`, `C28_column_format_in_styles`, `C28_default_in_styles`, `C28_own_format_in_styles`, `C28_row_format_in_styles`, `C29_added_sheets_never_reused`, `C29_empty_name_saved_refuted`, `C29_generated_names_distinct`, `C29_generated_names_valid`, `C29_names_stay_valid_partial`, `C29_push_names_collide_refuted`, `C29_reused_reported_exactly`, `C29_saved_names_distinct`, `C30_active_tab_choice`, `C30_active_tab_ok`, `C30_first_sheet_exists_partial`, `C30_first_sheet_hidden_refuted`, `C30_first_sheet_stale_refuted`, `C31_chartsheet_notes_refuted`, `C31_chartsheet_references_partial`, `C31_references_written`, `C31_worksheet_references`, `C32_background_partial`, `C32_embedded`, `C32_embedded_header_refuted`, `C32_header_first_refuted`, `C32_header_images_partial`, `C32_images_partial`, `C32_shape_link_refuted`, `C32_shared_anchor_refuted`, `C33_chart_references`, `C33_part_numbers`, `C33_table_references`, `C33_tables_distinct`, `C34_attributed_iff_partial`, `C34_author_ids`, `C34_wrong_author_refuted`, `C35_blocks_announced`, `C35_header_ids`, `C35_header_notes_refuted`, `C35_many_buttons_refuted`, `C35_notes_only`, `C35_shape_ids_partial`, `C36_beyond_last_column_refuted`, `C36_zero_default_height_refuted`, `C37_column_zero`, `C37_hidden_column`, `C37_hidden_row`, `C38_user_width_refuted`, `C39_announced_level_partial`, `C39_level_counts_groups`, `C39_levels_at_most_7`, `C39_levels_written`, `C39_rejected_group_half_applied_refuted`, `C39_single_level_not_announced_refuted`, `C40_condition_builder`, `C40_non_blanks_refuted`, `C40_rows_hidden_exactly`, `C40_stale_hidden_refuted`, `C41_cells_of_the_range_are_outlined`, `C41_contents_unchanged`, `C41_no_cell_of_the_range_is_missed`, `C41_other_cells_unchanged`, `C41_rejected_iff`, `C42_cache_kind`, `C42_every_range_is_filled_from_its_sheet`, `C42_points_in_row_major_order_partial`, `C42_points_written`, `C42_refuted_missing_row`, `C42_refuted_rich_text_and_results`, `C42_unknown_sheet_is_reported`, `C43_reading_unique`, `C43_refuted_literal_escape`, `C43_refuted_special_words`, `C43_result_read_back`, `C44_legacy_algorithm`, `C44_long_password_refuted`, `C44_range`, `C44_zero_partial`, `C45_file_numbers_are_finite`, `C45_number_cell_shows`, `C45_streamed_numbers_are_finite`, `C46_autofilter_name_denotes`, `C46_bad_prefixes_refuted`, `C46_define_name_validation`, `C46_empty_name_panics_refuted`, `C46_global_name_written`, `C46_list_complete_and_sorted`, `C46_local_name_bound_to_sheet`, `C46_print_area_denotes`, `C46_print_titles_denote`, `C46_sorted_by_shown_name_partial`, `C46_sorted_by_shown_name_refuted`, `C46_unknown_sheet_error_only_then`, `C46_unknown_sheet_refused`, `C47_default_table_names_refuted`, `C47_failed_save_refuted`, `C47_failed_save_shapes_refuted`, `C47_resave`, `C48_header_first_refuted`, `C48_names_and_types`, `C48_package_closed_partial`, `C49_chartsheet_refuted`, `C49_unprotected_ranges`, `C49_worksheet_protection`, `C50_autofilter_element`, `C50_pattern_meaning`, `C50_wildcards_refuted`, `C51_last_write_reads_back`, `C51_sheet_reads_back`, `C52_accepted_iff`, `C52_refuted_literal_escape`, `C52_rich_string_reads_back`, `C53_merge_cells_element`, `C53_merged_cells`, `C53_merged_text`, `C53_outside_unchanged`, `C54_cells`, `C54_columns`, `C54_file`, `C54_outside_unchanged`, `C55_group_columns`, `C55_group_rows`, `C56_app_titles`, `C57_app_properties`, `C57_core_properties`, `C57_custom_properties`, `C57_dates_stored_partial`, `C57_serial_date_lost_refuted`, `C58_workbook_part`, `C59_chartsheet_view_partial`, `C59_refused_calls`, `C59_sheet_view_partial`, `C59_top_left_first_cell_refuted`, `C60_chartsheet_page_setup_partial`, `C60_first_page_number_refuted`, `C60_page_setup_partial`, `C61_chartsheet_print_options_refuted`, `C61_chartsheet_structure_partial`, `C61_sheet_properties_order_partial`, `C61_sheet_properties_order_refuted`, `C61_two_extensions_malformed_refuted`, `C61_worksheet_structure_partial`, `C62_entries_well_formed`, `C62_ignored_errors_partial`, `C62_refused_calls`, `C62_two_digit_years_refuted`, `C63_by_range`, `C63_data_validations`, `C63_empty_list_refuted`, `C63_list_commas_refuted`, `C63_list_items_partial`, `C63_refused`, `C64_conditional_formats_partial`, `C64_first_cell`, `C64_priorities`, `C64_texts_refuted`, `C64_theme_color_refuted`, `C65_bars_swapped_refuted`, `C65_extended_formats_partial`, `C65_icon_options_refuted`, `C65_negative_border_refuted`, `C65_priority_shared_refuted`, `C66_cell_text`, `C66_embedded_place_twice_refuted`, `C66_links`, `C66_refused`, `C66_returns`, `C67_cells`, `C67_table_part`, `C67_total_bracket_refuted`, `C67_total_formula_partial`, `C67_total_quote_refuted`, `C68_columns_partial`, `C68_rules`, `C68_second_save_refuted`, `C68_stable`, `C69_block_refuted`, `C69_dates_refuted`, `C69_limit_refuted`, `C69_outside_data_refuted`, `C69_sparklines_partial`, `C70_apostrophe_refuted`, `C70_bang_refuted`, `C70_not_a_range_refuted`, `C70_panics_refuted`, `C70_range_text_partial`, `C70_written_text_partial`, `C71_automatic_background_refuted`, `C71_cell_formats_read_back_partial`, `C71_indent_with_top_refuted`, `C71_number_format_after_index_refuted`, `C71_number_index_zero_refuted`, `C71_solid_with_automatic_refuted`, `C71_tables_state_their_counts`, `C71_two_fill_colors_refuted`, `C71_unset_hyperlink_refuted`, `C72_diagonal_lost_refuted`, `C72_differential_formats_read_back_partial`, `C72_foreground_only_refuted`, `C73_accepted_images_have_a_size`, `C73_always_ends`, `C73_bmp_partial`, `C73_bmp_top_down_refuted`, `C73_cut_png_refuted`, `C73_gif`, `C73_jpeg`, `C73_jpeg_extension_refuted`, `C73_jpeg_fill_bytes_refuted`, `C73_jpeg_without_scan_refuted`, `C73_png`, `C73_short_buffer_refuted`, `C74_authors_iff_partial`, `C74_notes_read_back`, `C74_refused_iff`, `C74_wrong_author_shown_refuted`, `C75_shapes_read_back`, `C75_show_all_sticks_refuted`, `C75_theme_fill_refuted`, `C76_ids_distinct`, `C76_ids_refuted`, `C76_objects`, `C77_last_fill_refuted`, `C77_last_line_refuted`, `C77_line_transparency_refuted`, `C77_no_stops_refuted`, `C77_size_refuted`, `C77_strike_refuted`, `C77_text_boxes_partial`, `C78_axes_defined_partial`, `C78_axes_undefined_refuted`, `C78_axes_undefined_secondary_refuted`, `C78_series_numbered`, `C79_gap_150_refuted`, `C79_gap_refuted`, `C79_name_refuted`, `C79_push_refuted`, `C79_scatter_line_refuted`, `C79_second_save_refuted`, `C79_series_read_back_partial`, `C79_trend_limits_refuted`, `C80_automatic_refuted`, `C80_axes_read_back_partial`, `C80_bar_dates_refuted`, `C81_chart_reads_back_partial`, `C81_combined_legend_refuted`, `C81_legend_entry_refuted`, `C81_title_font_refuted`, `C82_chart_elements_ordered_partial`, `C82_date_interval_refuted`, `C82_label_font_refuted`, `C82_legend_refuted`, `C82_line_invert_refuted`, `C82_pie_trend_refuted`, `C82_scatter_format_refuted`, `C82_scatter_marker_refuted`, `C83_records_in_file_partial`, `C83_refuted_a_bare_value_overwrites_the_last_field`, `C83_refuted_a_sequence_field_keeps_its_last_element`, `C83_refuted_fields_after_a_nested_struct_are_lost`, `C83_refuted_large_integers_change`, `C83_refuted_records_without_headers_vanish`, `C83_serializing_is_writing_by_hand_partial`, `C83_stops_at_the_first_error_partial`, `C84_column_dimensions_partial`, `C84_dimensions_partial`, `C84_refuted_no_records_under_hidden_headers`, `C84_shown_headers_have_dimensions`, `C85_headers_outside_the_sheet_partial`, `C85_nameless_or_empty_struct_rejected`, `C85_parameter_errors_change_nothing`, `C85_refuted_rejected_headers_are_partly_written`, `C85_unknown_field_rejected`, `C86_refuted_equal_headers_fail_at_save`, `C86_refuted_order_of_tables`, `C86_refuted_records_after_a_save_are_outside`, `C86_refuted_table_without_records_is_lost`, `C86_saving_again_adds_nothing`, `C86_tables_at_save_partial`, `C87_cell_of_formatted_column_partial`, `C87_cell_of_formatted_row_partial`, `C87_formatted_cell_reads_back_partial`, `C87_plain_cell_reads_back`, `C87_range_format_reads_back_partial`, `C87_written_cell_reads_back_partial`, `C88_crossing_reads_back_partial`, `C88_explicit_default_refuted`, `C88_formats_after_write_refuted`, `C88_height_before_format_refuted`, `C88_hyperlink_lost_refuted`, `C88_merge_associative`, `C88_merge_idempotent`, `C88_merge_into_new_format_partial`, `C88_merge_is_later_calls_partial`, `C88_merge_with_new_format`, `C88_merged_look_partial`, `C88_number_format_refuted`, `C89_calls_never_panic`, `C89_constant_memory_refuted`, `C89_first_image_reached`, `C89_image_reached_partial`, `C89_numbers_exist`, `C89_second_description_refuted`, `C89_values_fit`, `C89_values_fit_refuted`, `C90_dynamic_marked`, `C90_marks_denote`, `C91_all_relationships_partial`, `C91_declared_once`, `C91_image_types`, `C91_main_part`, `C91_relationships`, `C91_relationships_typed`, `C91_workbook_parts`, `C91_workbook_type`, `C92_columns_read_back`, `C92_rows_follow_default_refuted`, `C92_rows_read_back`, `C93_merged_cell_reads_back`, `C93_sheet_reads_back`, `C93_table_cell_reads_back`, `C94_last_write_reads_back`, `C94_one_cell_per_position`, `C94_outline_refuted`, `C94_streamed_sheet_reads_back`, `C94_streamed_text_shows_the_standard_sheet`, `C95_cell_of_formatted_column_partial`, `C95_cell_of_formatted_row_partial`, `C95_plain_cell_reads_back`, `C95_written_cell_reads_back_partial`, `C96_filter_reads_back`, `C96_rejected_call_refuted`, `C96_test_meaning`, `C97_accepted`, `C97_ampersand_refuted`, `C97_no_letter_refuted`, `C97_one_picture`, `C97_orphan_refuted`, `C97_pictures_read_back`, `C97_rejected_unchanged`, `C98_comments`, `C98_drawing`, `C98_styles`, `C98_table`, `C98_workbook`, `C99_gap_refuted`, `C99_only_then`, `C99_place_kept`, `C99_placed_strings`, `C99_twice_refuted`
