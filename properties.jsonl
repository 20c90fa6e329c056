{"id": "C01", "title": "Column names are a bijection", "statement": "column_number_to_name(c) is a non-empty string of capital letters A-Z and column_name_to_number maps it back to c; conversely every non-empty upper-case column name whose number fits in 16 bits is the name produced for its number. Hence two different columns never share a name.", "quantifier": "every 16-bit column number for which the library's arithmetic does not overflow, and every upper-case letter string in range", "why_tests_cant": "65535 columns and unboundedly many names; tests sample a dozen boundary columns", "anchors": ["src/utility.rs: column_number_to_name, column_name_to_number"]}
{"id": "C02", "title": "A1 cell references denote the cell they were made from", "statement": "The text produced by row_col_to_cell / row_col_to_cell_absolute for (row, col), read as an A1 reference (letters, then decimal row, with optional $ markers), denotes exactly (row, col); absolute references carry both $ markers and relative ones none. Distinct cells get distinct texts.", "quantifier": "every row number (u32, < 2^32-1) and every column number (u16, < 65535)", "why_tests_cant": "2^48 cells", "anchors": ["src/utility.rs: row_col_to_cell, row_col_to_cell_absolute"]}
{"id": "C03", "title": "Range references denote the range they were made from", "statement": "cell_range / cell_range_absolute and the chart range text made from (first_row, first_col, last_row, last_col) parse back as an A1 range to exactly those corners, the single-cell form being used exactly when both corners coincide, and the sheet part unquotes to the sheet name given.", "quantifier": "every pair of corners, every sheet name", "why_tests_cant": "unbounded input space", "anchors": ["src/utility.rs: cell_range, cell_range_absolute, chart_range, chart_range_abs, chart_error_range, worksheet_range"]}
{"id": "C04", "title": "Worksheet name validation is exact", "statement": "set_name accepts a name if and only if it is non-blank, has at most 31 characters, contains none of [ ] : * ? / \\ and neither starts nor ends with an apostrophe; the first violated rule in that order determines the error returned.", "quantifier": "every Unicode string of any length", "why_tests_cant": "infinite input space, interactions between rules", "anchors": ["src/utility.rs: validate_sheetname, check_sheet_name", "src/worksheet.rs: set_name"]}
{"id": "C05", "title": "Sheet-name quoting is reversible and quotes whenever a formula parser would need it", "statement": "For every name, the quoted form produced for use in formulas un-quotes to the original name; a name left unquoted contains only characters legal in an unquoted reference, does not start with a digit, and cannot be confused with an A1 or R1C1 cell reference.", "quantifier": "every sheet name", "why_tests_cant": "infinite input space; each rule interacts with the column-number parser", "anchors": ["src/utility.rs: quote_sheet_name, unquote_sheetname, split_cell_reference"]}
{"id": "C06", "title": "XML text escaping is safe and lossless", "statement": "The text written between tags for a string contains no markup characters (<, >, or & other than as the start of one of the three entities) and an XML parser resolving entities recovers the string with every control character replaced by its _xHHHH_ code.", "quantifier": "every string of XML-legal characters and controls", "why_tests_cant": "infinite input space; escaping bugs appear at rare combinations", "anchors": ["src/xmlwriter.rs: escape_xml_data, xml_data_element, xml_si_element"]}
{"id": "C07", "title": "String cells round-trip through the file", "statement": "A string written to a cell and read back from the shared string table by a reader that resolves XML entities and then Excel's _xHHHH_ escapes is exactly the string written, including strings that themselves contain literal text such as _x0041_, and leading/trailing white space is protected by xml:space=\"preserve\".", "quantifier": "every string up to the cell limit", "why_tests_cant": "combinations of literal escape look-alikes, overlapping occurrences and control characters are unbounded", "anchors": ["src/xmlwriter.rs: escape_xml_escapes, escape_xml_data, xml_si_element", "src/shared_strings.rs: write_sst_strings"]}
{"id": "C08", "title": "Attribute values round-trip", "statement": "An attribute value written by the library is delimited correctly (never contains a raw double quote, < or >) and XML attribute-value parsing recovers the string given.", "quantifier": "every string used as an attribute value (sheet names, defined names, tooltips, validation messages, ...)", "why_tests_cant": "infinite input space; attribute-value normalisation of white space is invisible in text comparisons", "anchors": ["src/xmlwriter.rs: escape_attributes, xml_start_tag"]}
{"id": "C09", "title": "URL escaping is injective on unescaped URLs and stable on escaped ones", "statement": "Escaping a URL that has no percent escapes and then percent-decoding it gives back the URL; a URL that already contains percent escapes is left unchanged (no double escaping); over-long URLs, link texts and tooltips are rejected rather than truncated.", "quantifier": "every URL string", "why_tests_cant": "infinite input space", "anchors": ["src/url.rs: Url::initialize/parse_url, escape_strings, is_escaped", "src/xmlwriter.rs: escape_url"]}
{"id": "C10", "title": "Shared string table: one dense index per distinct string, over any history", "statement": "For any sequence of string writes from any number of worksheets, the index stored in each cell is the position at which its string is written in sharedStrings.xml; equal strings get equal indices, different strings different ones; uniqueCount equals the number of entries written and count the number of references.", "quantifier": "every sequence of string insertions (any length, any interleaving between sheets)", "why_tests_cant": "histories are unbounded", "anchors": ["src/shared_strings_table.rs: SharedStringsTable::shared_string_index, populate_string_index", "src/shared_strings.rs: write_sst_strings", "src/worksheet.rs: store_string, update_string_table_ids"]}
{"id": "C11", "title": "Date serial numbers equal the true Gregorian day count", "statement": "For every valid date from 1900-01-01 to 9999-12-31 the serial day written is the number of days elapsed since 1899-12-31 in the proleptic Gregorian calendar, plus one from 1900-03-01 on (Excel's fictitious 1900-02-29); in the 1904 system it is the number of days since 1904-01-01. Serial days are strictly increasing in the date, so distinct dates never collide.", "quantifier": "every valid year/month/day, both epochs", "why_tests_cant": "3 million dates; leap rules interact across centuries", "anchors": ["src/datetime.rs: to_excel_from_ymd_hms, is_leap_year, from_ymd"]}
{"id": "C12", "title": "Unix timestamps convert to the right calendar date", "statement": "from_timestamp(t) yields the calendar date and time of day of the proleptic Gregorian calendar for t seconds after 1970-01-01, for all supported t, and agrees with from_ymd/and_hms on the same instant.", "quantifier": "every supported 64-bit timestamp (about 2.5e11 values)", "why_tests_cant": "too many values to enumerate", "anchors": ["src/datetime.rs: from_timestamp, unix_time_to_date_parts"]}
{"id": "C13", "title": "Date and time validation is exact", "statement": "from_ymd accepts exactly the real calendar dates with 1900 <= year <= 9999 and and_hms exactly the times with minute and second in range; everything else is rejected with an error, never a panic or a different date.", "quantifier": "every u16 year, u8 month, u8 day, u16 hour, u8 minute, every float second", "why_tests_cant": "product space too large; NaN and negative seconds", "anchors": ["src/datetime.rs: validate_ymd, validate_hms, from_ymd, and_hms, from_serial_datetime"]}
{"id": "C14", "title": "Formula preparation only inserts future-function prefixes", "statement": "Preparing a formula for storage strips at most the leading {= / = and trailing } and otherwise only inserts _xlfn./_xlfn._xlws. prefixes in front of known function names outside string literals: deleting inserted prefixes recovers the user's formula, and a formula that already has prefixes is unchanged.", "quantifier": "every formula string", "why_tests_cant": "the scanner is a state machine over unbounded text", "anchors": ["src/formula.rs: Formula::new, escape_formula, copy_escaped_formula, escape_table_functions, expand_formula"]}
{"id": "C15", "title": "Cell store is a map: last write wins, nothing else changes", "statement": "After any sequence of successful cell writes, clears and format changes, the content saved for (row, col) is determined by the last operation on (row, col), and operations on one cell never affect another.", "quantifier": "every operation sequence on every pair of cells", "why_tests_cant": "histories are unbounded", "anchors": ["src/worksheet.rs: insert_cell, insert_cell_to_table, clear_cell, clear_cell_format, insert_cell_format, store_number_type, store_string, store_blank, store_boolean, store_formula"]}
{"id": "C16", "title": "The <dimension> reference is the bounding box of what was written", "statement": "After any history of writes, every stored cell lies in the used range reported in <dimension>, so that every cell is emitted; the range never shrinks.", "quantifier": "every operation sequence", "why_tests_cant": "histories are unbounded", "anchors": ["src/worksheet.rs: check_dimensions, write_dimension, write_data_table, calculate_spans"]}
{"id": "C17", "title": "Out-of-limit writes are rejected and change no cell", "statement": "A single-cell write with row >= 1048576 or col >= 16384 returns an error and changes nothing at all; a text longer than 32767 characters returns an error and stores no cell; row and column option calls outside the limits are rejected; and no cell outside the limits is ever stored, streamed or shown, whatever the history. (Exceptions, shown as refutations: an unformatted empty text outside the limits is ignored without an error, and rejected long texts and arrays still extend the used range.)", "quantifier": "every row/column/value, after every history", "why_tests_cant": "boundary behaviour must hold in every state", "anchors": ["src/worksheet.rs: check_dimensions, store_string, store_rich_string, store_formula"]}
{"id": "C18", "title": "Constant-memory mode writes the same cells as standard mode for row-ordered input", "statement": "If cells are written in non-decreasing row order (row options for the current or later rows, corrections only in the current row, column formats before leaving the first row), the rows streamed out by a constant-memory or low-memory worksheet contain exactly the same cells, with the same styles, as a standard worksheet given the same calls.", "quantifier": "every row-ordered write sequence", "why_tests_cant": "streaming state machine over unbounded histories", "anchors": ["src/worksheet.rs: insert_cell, flush_to_row, flush_last_row, flush_data_row, write_constant_table_row"]}
{"id": "C19", "title": "Emitted sheet data is strictly ordered", "statement": "Row elements are emitted in strictly increasing row order and cells within a row in strictly increasing column order, each cell at most once, in standard and in constant-memory mode, even for out-of-order writes; writes to rows before the current row are dropped in constant-memory mode instead of corrupting the stream.", "quantifier": "every write sequence", "why_tests_cant": "a corrupt order makes Excel refuse the file; histories are unbounded", "anchors": ["src/worksheet.rs: write_data_table, flush_to_row, insert_cell"]}
{"id": "C20", "title": "Row spans cover the row's cells", "statement": "The spans attribute written for a row has the form a:b with 1 <= a <= b and is 16-row-block aligned: every cell stored in any row of the same block of 16 has its 1-based column within [a, b].", "quantifier": "every worksheet table", "why_tests_cant": "every table shape", "anchors": ["src/worksheet.rs: calculate_spans"]}
{"id": "C21", "title": "Column definitions are emitted once, in order, and expand to what was set", "statement": "The <col> ranges written are disjoint, strictly increasing and non-adjacent-equal; expanding them gives back exactly the columns that were configured with their settings.", "quantifier": "every set of configured columns", "why_tests_cant": "coalescing bugs only show on particular adjacency patterns", "anchors": ["src/worksheet.rs: write_cols, write_col_element"]}
{"id": "C22", "title": "Merged ranges and tables never overlap", "statement": "After any sequence of merge_range / add_table calls, the accepted ranges are pairwise disjoint, contain more than one cell (merge) and are inside the worksheet limits; a rejected call changes nothing.", "quantifier": "every call sequence", "why_tests_cant": "pairwise invariants over unbounded histories", "anchors": ["src/worksheet.rs: merge_range, add_table, check_for_overlap"]}
{"id": "C23", "title": "Page breaks are sorted, unique and bounded", "statement": "set_page_breaks / set_vertical_page_breaks store a strictly increasing list with no zero containing exactly the given non-zero breaks, or return an error if a break is beyond the sheet limit or there are more than 1023.", "quantifier": "every list of break positions", "why_tests_cant": "unbounded lists", "anchors": ["src/worksheet.rs: set_page_breaks, set_vertical_page_breaks, process_pagebreaks"]}
{"id": "C24", "title": "Format registry: one dense index per distinct format", "statement": "Registering any sequence of formats yields for each the index at which it is written in styles.xml; equal formats share an index, different formats never do; the default format is always index 0.", "quantifier": "every sequence of formats, including across worksheets (local registries merged at save)", "why_tests_cant": "histories are unbounded", "anchors": ["src/worksheet.rs: format_xf_index, format_xf_index_local, format_xf_index_global, set_global_xf_indices", "src/workbook.rs: format_xf_index, save_internal"]}
{"id": "C25", "title": "Format registry stays consistent under concurrent registration", "statement": "When several constant- or low-memory worksheets of one workbook are filled from different threads, distinct formats still get distinct indices and equal formats equal ones, for every interleaving of the registry's lock operations.", "quantifier": "every schedule of any number of threads", "why_tests_cant": "races depend on the schedule", "anchors": ["src/worksheet.rs: format_xf_index_global"]}
{"id": "C26", "title": "Font/fill/border/number-format tables agree with the cell formats", "statement": "For any list of cell formats, the fontId/fillId/borderId/numFmtId given to each format selects, in the table written to styles.xml, exactly that format's own font/fill/border/number format; the counts written equal the number of entries; the two reserved fills stay first; custom number formats are numbered from 164 without gaps.", "quantifier": "every list of formats", "why_tests_cant": "dedup over unbounded lists", "anchors": ["src/workbook.rs: prepare_fonts, prepare_fills, prepare_borders, prepare_num_formats", "src/styles.rs"]}
{"id": "C27", "title": "Cell format precedence is cell, then row, then column", "statement": "A written or blank cell shows its own format if it has one, otherwise its row's format, otherwise its column's, otherwise the default.", "quantifier": "every combination and every history of row/column format settings", "why_tests_cant": "state space product", "anchors": ["src/worksheet.rs: get_cell_xf_index"]}
{"id": "C28", "title": "Local format indices are remapped to the right global format", "statement": "When a workbook is saved, the style index written for a cell of any worksheet selects in styles.xml the format the user gave for that cell, however many worksheets there are and in whatever order their formats were first used.", "quantifier": "every set of worksheets and registration histories", "why_tests_cant": "unbounded", "anchors": ["src/workbook.rs: save_internal", "src/worksheet.rs: set_global_xf_indices, get_cell_xf_index"]}
{"id": "C29", "title": "Saved workbooks never contain two sheets with equal names", "statement": "save() succeeds only if all worksheet names differ case-insensitively; automatically generated names never collide with one another.", "quantifier": "every sequence of add_worksheet/push_worksheet/set_name", "why_tests_cant": "history-dependent counter", "anchors": ["src/workbook.rs: save_internal, add_worksheet, push_worksheet"]}
{"id": "C30", "title": "Exactly one active sheet", "statement": "In a saved workbook with at least one sheet the active tab and first visible sheet refer to an existing sheet, and that sheet is visible and selected.", "quantifier": "every combination of set_active/set_hidden/set_first_tab flags", "why_tests_cant": "flag combinations and sheet counts are unbounded", "anchors": ["src/workbook.rs: set_active_worksheets"]}
{"id": "C31", "title": "Every r:id in a worksheet resolves to the intended part", "statement": "For every worksheet, hyperlinks, drawings, background image, tables, comments: the rIdN written in the worksheet XML is the id of exactly the relationship entry for that object in the sheet's .rels part.", "quantifier": "every combination of worksheet features", "why_tests_cant": "order coupling between two writers", "anchors": ["src/worksheet.rs: rel ids", "src/packager.rs: write_worksheet_rels", "src/relationship.rs"]}
{"id": "C32", "title": "Every image relationship points to that image's media file", "statement": "For any distribution of embedded, worksheet, background and header/footer images over worksheets, the media/imageN target recorded for an image is the file into which the packager writes that image's bytes.", "quantifier": "every workbook image layout", "why_tests_cant": "global counters coupled across three passes", "anchors": ["src/workbook.rs: prepare_drawings, prepare_embedded_images", "src/worksheet.rs: prepare_worksheet_images, prepare_header_footer_images, prepare_background_image", "src/packager.rs: write_image_files"]}
{"id": "C33", "title": "Chart, table and drawing part numbers match the packaged files", "statement": "The chart/table/drawing numbers recorded in relationships are exactly the file numbers under which the packager writes those parts, without gaps or repeats across worksheets; table ids and names are unique in the workbook.", "quantifier": "every workbook layout", "why_tests_cant": "global counters", "anchors": ["src/workbook.rs: prepare_drawings, prepare_tables", "src/packager.rs: write_chart_files, write_table_files, write_drawing_files"]}
{"id": "C34", "title": "Notes are attributed to the right author", "statement": "For any sequence of insert_note calls with any authors, the author id written for each note indexes that note's author in the authors list of the comments part.", "quantifier": "every sequence of notes and authors", "why_tests_cant": "histories are unbounded", "anchors": ["src/worksheet.rs: insert_note, prepare_vml_objects", "src/comment.rs: write_authors", "src/packager.rs: write_comment_files"]}
{"id": "C35", "title": "VML shape ids are unique in the workbook", "statement": "The shape ids allocated to notes, buttons and header images on different worksheets never collide, for any number of objects per sheet.", "quantifier": "every number of notes/buttons per sheet", "why_tests_cant": "block allocation arithmetic over unbounded counts", "anchors": ["src/workbook.rs: prepare_vml", "src/worksheet.rs: prepare_vml_objects", "src/vml.rs"]}
{"id": "C36", "title": "Objects are anchored at the pixel position requested", "statement": "For any column widths/row heights and any offset and size, the from/to cell+offset anchors computed for an image, chart or shape denote exactly the requested top-left corner and size in pixels, and offsets are strictly inside their cell.", "quantifier": "every column-width and row-height assignment, every offset and size", "why_tests_cant": "unbounded geometry", "anchors": ["src/worksheet.rs: position_object_pixels, position_object_emus, column_pixel_width, row_pixel_height"]}
{"id": "C37", "title": "Pixel column widths and row heights are honoured", "statement": "A column width set in pixels is converted to character units and back to the same pixel width; likewise for row heights.", "quantifier": "every pixel width in the allowed range", "why_tests_cant": "floating point rounding for every value", "anchors": ["src/worksheet.rs: set_column_width_pixels, pixels_to_width, column_pixel_width, set_row_height_pixels, row_pixel_height"]}
{"id": "C38", "title": "Autofit never shrinks user widths and never exceeds the maximum", "statement": "autofit gives every column at least the width of its widest cell (or the maximum), never decreases a width already set by the user, and never exceeds the maximum width.", "quantifier": "every table and every user width", "why_tests_cant": "unbounded tables", "anchors": ["src/worksheet.rs: autofit, autofit_worksheet, store_column_width", "src/utility.rs: pixel_width, cell_autofit_width"]}
{"id": "C39", "title": "Outline levels stay within Excel's limit of 7", "statement": "After any sequence of group_rows/group_columns calls, levels are at most 7, each row's level is the number of groups covering it (if no call was rejected) and the maximum level written in sheetFormatPr is the maximum over all rows.", "quantifier": "every call sequence", "why_tests_cant": "histories are unbounded", "anchors": ["src/worksheet.rs: group_rows, group_columns, set_grouped_rows, set_grouped_row, set_grouped_columns"]}
{"id": "C40", "title": "Autofilter hides exactly the rows that do not match", "statement": "For any table contents and filter conditions, a data row in the autofilter range is hidden exactly when some filtered column's cell fails its condition (list: equals one of the values; custom: and/or of two comparisons).", "quantifier": "every table, every filter", "why_tests_cant": "product space", "anchors": ["src/worksheet.rs: hide_autofilter_rows, row_matches_list_filter, row_matches_custom_filters", "src/filter.rs"]}
{"id": "C41", "title": "Range border formatting draws exactly the outer border", "statement": "set_range_format_with_border gives each cell of the range the cell format plus precisely those outer border sides lying on the range's edge; no cell outside the range changes.", "quantifier": "every rectangle including single rows, columns and cells", "why_tests_cant": "degenerate rectangles and every size", "anchors": ["src/worksheet.rs: set_range_format_with_border, combined_border_format, border functions"]}
{"id": "C42", "title": "Chart data caches mirror the worksheet", "statement": "For a chart series referring to a worksheet range, the cached points are the values of the cells of that range in row-major order, one per cell, with blanks where no cell is stored.", "quantifier": "every range and every table", "why_tests_cant": "product space", "anchors": ["src/worksheet.rs: get_cache_data", "src/workbook.rs: prepare chart cache"]}
{"id": "C43", "title": "Formula results are stored with the right type", "statement": "The cached result of a formula is written as a number exactly if it is a decimal number, as t=b for TRUE/FALSE, t=e for Excel error values and as a string otherwise, and reads back as the text given.", "quantifier": "every result string", "why_tests_cant": "infinite input space", "anchors": ["src/worksheet.rs: write_formula_cell, write_array_formula_cell"]}
{"id": "C44", "title": "Sheet protection password hash is a 16-bit value depending on every character", "statement": "The protection hash is always in 0..=0xFFFF, never panics, is 0 only as 'no password', and is computed by Excel's legacy rotate-xor algorithm.", "quantifier": "every password string", "why_tests_cant": "infinite input space", "anchors": ["src/utility.rs: hash_password"]}
{"id": "C45", "title": "Non-finite numbers never reach the file as numbers", "statement": "Writing a NaN or an infinity stores a string cell instead of a numeric cell, so no numeric cell ever contains a non-finite value; finite numbers are stored unchanged as numbers.", "quantifier": "every f64, every history", "why_tests_cant": "every history", "anchors": ["src/worksheet.rs: store_number_type"]}
{"id": "C46", "title": "Defined names are validated, sorted and bound to their sheet", "statement": "define_name accepts exactly syntactically valid names; local names written with a sheet prefix get the index of the sheet with that name, and the list written is sorted case-insensitively as Excel requires.", "quantifier": "every sequence of definitions and sheet orders", "why_tests_cant": "unbounded histories", "anchors": ["src/workbook.rs: define_name, set_package_options", "src/worksheet.rs: DefinedName"]}
{"id": "C47", "title": "Saving twice produces the same workbook", "statement": "Saving a workbook a second time without changes writes the same parts as the first time.", "quantifier": "every workbook state", "why_tests_cant": "state leaking between saves depends on features used", "anchors": ["src/workbook.rs: save_internal", "src/worksheet.rs: reset"]}
{"id": "C48", "title": "The package is closed: every part is declared and every relationship target exists", "statement": "Every part in the zip has a content type (by Default or Override), every relationship target names a part in the zip and part names are unique.", "quantifier": "every workbook layout", "why_tests_cant": "product space of features", "anchors": ["src/packager.rs", "src/content_types.rs", "src/relationship.rs"]}
{"id": "C49", "title": "Worksheet protection says what was asked", "statement": "After any sequence of protect, protect_with_password, protect_with_options and unprotect_range calls, the saved worksheet is marked protected iff a protect call was made, every permission of the last options is readable from the element with its schema default, the password attribute is the verifier of the last password, and the unprotected ranges are exactly those of the accepted calls, in order, with their names and passwords.", "quantifier": "every history of protection calls, every option combination", "why_tests_cant": "2^16 option combinations times unbounded histories; the attributes have mixed polarities and defaults", "anchors": ["src/worksheet.rs: protect, protect_with_password, protect_with_options, unprotect_range_with_options, write_sheet_protection, write_protected_ranges", "src/protection.rs: ProtectionOptions"]}
{"id": "C50", "title": "The autofilter stored in the file is the one asked for", "statement": "After any history of calls the saved autofilter element has the range of the last accepted autofilter call and exactly one filterColumn per column with an accepted condition, numbered relative to the first column and in increasing order; each one lists the given values or the given comparisons, and a stored text pattern means the comparison asked for.", "quantifier": "every history of autofilter/filter_column calls, every condition, every text", "why_tests_cant": "unbounded histories and texts; wildcard patterns have a semantics of their own", "anchors": ["src/worksheet.rs: autofilter, filter_column, write_auto_filter, write_filter_column, write_list_filters, write_custom_filters", "src/filter.rs: FilterCondition, FilterData::value, FilterCriteria::operator"]}
{"id": "C51", "title": "A saved sheet reads back cell by cell", "statement": "Reading the saved worksheet part together with the shared string part gives, for every row and column, exactly the cells the calls left there: the same text (any characters), number, boolean, formula text and cached result, rich string runs and style, and no other cells; rows appear once each in increasing order with their hidden flag, height, format and outline level; the string part is well-formed and its declared unique count is the number of its items.", "quantifier": "every history of calls on a worksheet, every set of strings of the other sheets before and after it, every iteration order of the string table, every cell position", "why_tests_cant": "Tests compare a few generated files with stored XML; they cannot show that every text, in every history and with every other sheet's strings, survives escaping, string ids and A1 references.", "anchors": ["src/worksheet.rs: write_data_table, write_row, write_number_cell, write_string_cell, write_formula_cell, write_array_formula_cell, write_blank_cell, write_boolean_cell, update_string_table_ids", "src/shared_strings.rs: SharedStringsTable::assemble_xml_file", "src/xmlwriter.rs"]}
{"id": "C52", "title": "Rich strings keep their segments", "statement": "write_rich_string accepts a list of segments exactly when it is not empty and no segment is empty; the run mark-up is well-formed and read back it has one run per segment, in order, with that segment's text and the font (bold, italic, strikethrough, underline, script, size, name, colour, family, charset, scheme) of its format; only a first segment in the default format goes without font properties.", "quantifier": "every list of segments of any length with any fonts and storable texts", "why_tests_cant": "The space of segment lists, fonts and texts is infinite; unit tests fix a handful of strings.", "anchors": ["src/worksheet.rs: get_rich_string, write_rich_string", "src/styles.rs: write_font", "src/color.rs: attributes"]}
{"id": "C53", "title": "Merging shows the text once and blanks elsewhere", "statement": "An accepted merge_range shows its text with its format in the top-left cell of the range and a formatted blank in every other cell of the range, leaves every cell outside the range as it was, and the saved mergeCells element lists exactly the merged ranges, in order, with the right count, readable back as ranges.", "quantifier": "every history of worksheet calls, every range, text and format, every cell", "why_tests_cant": "The range and the history before the call are unbounded; tests fix a few ranges.", "anchors": ["src/worksheet.rs: merge_range, write_merge_cells, write_merge_cell"]}
{"id": "C54", "title": "A table's columns, header, data and totals agree with the cells", "statement": "An accepted table has exactly one column per column of its range, with pairwise different names ignoring case; a column's name is the one given, else the text already in the header cell, else ColumnN. The header row shows the column names, the data rows show the column formulas, the total row shows the total label or formula, and every other cell is unchanged.", "quantifier": "every history of worksheet calls, every table and range", "why_tests_cant": "Unbounded ranges, names and histories; name clashes depend on earlier cells.", "anchors": ["src/worksheet.rs: add_table, default_table_headers", "src/table.rs: initialize_columns"]}
{"id": "C55", "title": "Grouping changes the outline of exactly the group", "statement": "Grouping rows or columns deepens exactly the rows/columns of the group by one level, hides them exactly when the collapsed form was used, marks the row/column after the group as collapsed then, and changes no other row, column or cell.", "quantifier": "every history of worksheet calls, every range", "why_tests_cant": "Nesting depth, range and previous settings are unbounded.", "anchors": ["src/worksheet.rs: group_rows, group_rows_collapsed, group_columns, group_columns_collapsed"]}
{"id": "C56", "title": "docProps/app.xml lists the sheets and names of the workbook", "statement": "The saved application properties list the titles of all worksheets in tab order, then of all chartsheets, then the defined names, leaving out very hidden sheets; the heading pairs name exactly the non-empty groups with their exact sizes, and both vectors declare their true lengths.", "quantifier": "every history of workbook calls that saves, every sheet name and visibility", "why_tests_cant": "Sheets, names and visibilities are unbounded; tests compare a few stored files.", "anchors": ["src/packager.rs: write_app_file", "src/app.rs: assemble_xml_file, add_heading_pair"]}
{"id": "C57", "title": "Document properties come back as given", "statement": "Every document property reads back from docProps/core.xml, app.xml and custom.xml with the value last given to its setter (empty if never given); custom properties come back in order, numbered from 2, with their type and value; a date is stored as the ISO 8601 text of that date.", "quantifier": "every sequence of setter calls, every text without CR", "why_tests_cant": "Arbitrary texts and call sequences; tests compare stored files.", "anchors": ["src/properties.rs: DocProperties", "src/core.rs", "src/custom.rs", "src/app.rs", "src/datetime.rs: to_rfc3339"]}
{"id": "C58", "title": "The workbook part lists every sheet and name", "statement": "Read back, the saved xl/workbook.xml has one sheet element per sheet in tab order with its name and visibility, numbered 1,2,... and pointing at rId1, rId2, ..., one defined name element per defined name with scope, hidden flag and text, and the first-tab and active-tab attributes of the saved state.", "quantifier": "every history of workbook calls that saves", "why_tests_cant": "Unbounded sheets, names and texts.", "anchors": ["src/workbook.rs: assemble_xml_file, write_sheets, write_defined_names, write_workbook_view"]}
{"id": "C59", "title": "Sheet view settings are stored as last given", "statement": "For every history of calls to set_screen_gridlines, set_right_to_left, set_view_*, set_zoom, set_freeze_panes, set_freeze_panes_top_cell, set_selection and set_top_left_cell on a worksheet or chartsheet, no call panics, a call with a cell outside the grid returns an error and changes nothing, and the sheet part of the saved file is a well-formed document whose single <sheetView> holds, for each setting, the value given by the last call with allowed arguments (zoom 10 to 400), else the default.", "quantifier": "all call histories with any arguments; worksheets and chartsheets", "why_tests_cant": "The settings share attributes, flags and pane/selection sub-elements; only a proof over all histories excludes a value leaking from an earlier call.", "anchors": ["src/worksheet.rs:set_freeze_panes", "src/worksheet.rs:set_selection", "src/worksheet.rs:write_sheet_view", "src/worksheet.rs:write_panes"]}
{"id": "C60", "title": "Print settings are stored as last given", "statement": "For every history of calls to the page setup methods (paper, order, orientation, margins, scale, fit to pages, first page number, centring, headings, gridlines, black and white, draft, header, footer and their options) the saved sheet part holds, for each setting, the last allowed value, else the default; scale and fit-to-pages exclude each other in favour of the later; headers and footers longer than 255 characters after code shortening are ignored and the long codes are replaced in one left-to-right pass.", "quantifier": "all call histories with any arguments and header texts; worksheets and chartsheets", "why_tests_cant": "Elements are written only when change flags are set, so a history that sets and unsets could lose or keep a value; the eight successive replacements could interfere.", "anchors": ["src/worksheet.rs:set_print_fit_to_pages", "src/worksheet.rs:set_header", "src/worksheet.rs:write_page_setup", "src/worksheet.rs:write_header_footer"]}
{"id": "C61", "title": "A sheet part is one well-formed document in schema order", "statement": "For every combination of features of a worksheet or chartsheet the saved part is a single well-formed XML document whose root children occur in the order the schema prescribes, each at most once except conditionalFormatting, and the children of sheetPr are in schema order.", "quantifier": "all combinations of the optional sections, of any size", "why_tests_cant": "There are 2^20 combinations of sections; the start and end tags are written by separate calls.", "anchors": ["src/worksheet.rs:assemble_xml_file", "src/worksheet.rs:write_extensions", "src/worksheet.rs:write_sheet_pr"]}
{"id": "C62", "title": "Ignored errors are listed under their kind", "statement": "For every history of ignore_error and ignore_error_range calls the saved sheet lists, under the schema's attribute for each kind of error, exactly the ranges of the accepted calls of that kind, in order; a call is refused exactly when its range is not on the grid, reversed, or was already given.", "quantifier": "all call histories over all kinds and ranges", "why_tests_cant": "Ranges are accumulated in one text per kind and duplicates are checked across kinds.", "anchors": ["src/worksheet.rs:ignore_error_range", "src/worksheet.rs:write_ignored_errors"]}
{"id": "C63", "title": "Data validations are stored as asked", "statement": "For every history of add_data_validation calls, each with any DataValidation built by any history of builder calls, the saved worksheet holds, for each range (or multi-range text), at most one validation: that of the last accepted call for it, with the type, operator, values, messages, error style and flags last asked for. A builder call whose text is over Excel's limit and an add for an improper range are refused and change nothing. The items of a string list are offered as given.", "quantifier": "all histories of calls, ranges, rules and texts", "why_tests_cant": "Rules are kept in a map keyed by range text and each builder call overrides some fields of earlier ones; any order and overlap is possible.", "anchors": ["src/data_validation.rs:DataValidation", "src/worksheet.rs:add_data_validation", "src/worksheet.rs:write_data_validations"]}
{"id": "C64", "title": "Conditional formats say what was asked, in order", "statement": "For every history of add_conditional_format calls, each with a rule of any of the thirteen kinds built by any history of builder calls, a call fails exactly if its range is not proper or its rule is incomplete or out of limits, and then changes nothing; the saved worksheet has, for each range (or multi-range) in the order first given, the rules of the accepted calls in order with increasing priorities, each with the type, operator, values, formula about the first cell of the range, format, stop flag, scale points, colours, bar ends and icon thresholds last asked for.", "quantifier": "all histories of calls, ranges, kinds, values and texts", "why_tests_cant": "Builder calls override parts of earlier ones, rules are collected per range text in a map with a separate order list, and priorities and names are counted through the whole sheet.", "anchors": ["src/conditional_format.rs", "src/worksheet.rs:add_conditional_format", "src/worksheet.rs:write_conditional_formats"]}
{"id": "C65", "title": "Extended conditional formats belong to the rule they extend", "statement": "For every history of add_conditional_format calls, each data bar in the newer style and each icon set that needs an extension has exactly one extended rule in the worksheet, in the same ranges, under the name its rule refers to, with its own priority, and saying everything asked for it: ends, direction, colours, borders, axis, thresholds, pictures, reversal and visibility of values.", "quantifier": "all histories of calls, ranges and settings", "why_tests_cant": "The classic and extended sections are written by two independent passes which must number rules identically for any order of ranges.", "anchors": ["src/conditional_format.rs:ConditionalFormatDataBar", "src/conditional_format.rs:ConditionalFormatIconSet", "src/worksheet.rs:write_conditional_formattings"]}
{"id": "C66", "title": "Each cell has the last hyperlink written to it", "statement": "For every history of write_url and embed_image calls with a link (and any other sheet calls between them), the saved worksheet has, in row order, exactly one hyperlink for each cell where one was accepted, and it is the last: a reader who follows its relationship reaches the target given, at the place given after '#', with its tip; links inside the workbook need no relationship. A call whose link, place, tip or text is too long, of unknown kind or outside the sheet fails and changes no link, and the shown text is in the cell in the given (or the hyperlink) format.", "quantifier": "all histories of link and sheet calls, links, texts and tips", "why_tests_cant": "Links, cells and relationships are written by separate passes that number identifiers independently, for any order of cells and any mix of kinds.", "anchors": ["src/worksheet.rs:store_url", "src/worksheet.rs:store_embedded_image", "src/worksheet.rs:write_hyperlinks", "src/url.rs:Url::initialize"]}
{"id": "C67", "title": "The table part, and the cells, describe the table that was asked for", "statement": "When add_table succeeds, the saved table part reads back as that table: the given range, name (or TableN), columns numbered from 1 with pairwise different names (ignoring case) that are the given headers, or the text already in the header cell, or ColumnN; the last given totals label or function, calculated and custom total formulas and column format of each column; header, total, banding, first/last column and style settings as last given; an autofilter over the rows without the total row exactly if both header and filter are on. The formula written for a built-in total function refers to that column. In the file the header cells show these names, the data cells of a column its formula, and the total cells the label or the total formula, unless a later call writes to the cell.", "quantifier": "all sheets, ranges, sequences of table and column setter calls, names and formats", "why_tests_cant": "The setters interact (header switches the filter off, the label hides the function), names come from the cells, and any text may occur in a name.", "anchors": ["src/table.rs:Table", "src/table.rs:TableColumn", "src/table.rs:assemble_xml_file", "src/table.rs:initialize_columns", "src/worksheet.rs:add_table"]}
{"id": "C68", "title": "A differential format number selects the format that was given", "statement": "In every file a program saves, the dxfId of each conditional format and the dataDxfId of each table column select, in the list of differential formats of the styles part, the format given for that rule or column; and formats once written keep their number in later files.", "quantifier": "all programs: any number of sheets, rules and table columns with formats, in any order, with any number of saves in between", "why_tests_cant": "Numbers are local to a sheet until saving and are translated at every save, so an error shows only for particular combinations of sheets, formats and repeated saves.", "anchors": ["src/worksheet.rs:format_dxf_index", "src/workbook.rs:format_dxf_index", "src/workbook.rs:save_internal", "src/worksheet.rs:prepare_worksheet_tables"]}
{"id": "C69", "title": "Sparklines: every option and every cell is in the file as asked", "statement": "For any sequence of add_sparkline and add_sparkline_group calls, invalid calls fail and change nothing, and reading the worksheet part back gives one group per successful call, with the kind, axis ends, shown points, colours, style, dates and, cell by cell, the rows or columns of the data that were asked for.", "quantifier": "all sequences of calls, cell ranges, data ranges, sheet names and option sequences", "why_tests_cant": "Options interact (style and colours, custom and group axis ends, row and column order) and cells and data slices are paired by position for every size.", "anchors": ["src/sparkline.rs:Sparkline", "src/worksheet.rs:add_sparkline", "src/worksheet.rs:add_sparkline_group", "src/worksheet.rs:write_sparkline_groups"]}
{"id": "C70", "title": "A range given as text is the range that text denotes", "statement": "Giving a chart or sparkline range as text (sheet name, quoted or not, with or without leading '=' and '$') is the same as giving its sheet, rows and columns as numbers; in particular the text form in which the library itself writes a range denotes that range. Texts that denote no range are not taken as one.", "quantifier": "all texts; all sheet names, rows and columns", "why_tests_cant": "Texts are unbounded and names may contain quotes, exclamation marks and things that look like references.", "anchors": ["src/chart.rs:ChartRange::new_from_string", "src/utility.rs:is_valid_range", "src/utility.rs:split_cell_reference"]}
{"id": "C71", "title": "A cell format in the file is the one that was built", "statement": "For any chains of calls on Format objects that end up as the cell formats of a workbook, reading the style with a given index from xl/styles.xml - through the tables of fonts, fills, borders, number formats and cell styles - gives exactly the properties the last relevant call of the chain asked for, and the defaults elsewhere; every table states its true number of entries.", "quantifier": "all lists of chains of setter calls with all argument values", "why_tests_cant": "Formats share table entries and setters interact (font name and theme, indent and alignment, pattern and colours, codes and built-in formats); the number of combinations is unbounded.", "anchors": ["src/format.rs:Format", "src/styles.rs:Styles::assemble_xml_file", "src/workbook.rs:prepare_fonts, prepare_fills, prepare_borders, prepare_num_formats"]}
{"id": "C72", "title": "A differential format in the file is the one that was built", "statement": "For any chains of calls on Format objects used by conditional formats or table columns, reading the differential format with a given index from xl/styles.xml gives the font effects and colour, number format, fill, edges and checkbox that the last relevant calls asked for.", "quantifier": "all lists of chains of setter calls with all argument values", "why_tests_cant": "Same as for cell formats, with other defaults, swapped fill colours and number format ids shared with the cell formats.", "anchors": ["src/styles.rs:write_dxfs", "src/styles.rs:write_fill", "src/styles.rs:write_border", "src/workbook.rs:prepare_num_formats"]}
{"id": "C73", "title": "The size, resolution and type of an image are those its bytes state", "statement": "For every buffer, creating an image ends with an image, an error or (never) a panic. For every well-formed PNG, JPEG/JFIF, GIF or BMP file the image has the type, the width and height of its header and the resolution it states (96 dpi without one), whatever other chunks or segments it contains and whatever follows its end. An image that is accepted never has a zero width, height or resolution.", "quantifier": "all byte buffers; all lists of PNG chunks and JPEG segments with any content", "why_tests_cant": "Files are unbounded sequences of chunks; a reader that walks them by stated lengths can be thrown off by any of them.", "anchors": ["src/image.rs:Image::new_from_buffer", "src/image.rs:process_png", "src/image.rs:process_jpg", "src/image.rs:process_bmp", "src/image.rs:process_gif"]}
{"id": "C74", "title": "Every note comes back from the comments part with its text, font and author", "statement": "After any history of insert_note, set_default_note_author, show_all_notes and saves, the comments part of the next save is well-formed, has exactly one comment for every cell whose last accepted insert_note call put a note there and none for any other cell; the comment has the note's text, font name, size and family, starts (unless the prefix is switched off) with the author in bold, and is attributed to the author of the note. insert_note is refused exactly off the grid or for a text over 32713 characters, and then nothing changes.", "quantifier": "all histories of calls and saves on a worksheet; all note option sequences and texts", "why_tests_cant": "The comments are rebuilt at every save from a sorted map and an author index; a wrong order, a lost overwrite or an escaping error depends on the combination of calls and texts.", "anchors": ["src/worksheet.rs:insert_note", "src/worksheet.rs:prepare_vml_objects", "src/note.rs:Note", "src/comment.rs:Comment"]}
{"id": "C75", "title": "The shapes of notes and buttons come back from the VML part", "statement": "After any history of calls and saves, with any buttons, the VML part of a sheet is well-formed; its shapes have consecutive ids from the first id given to the sheet and are stacked in that order; the buttons come first, in order, with the caption, macro, size, place and alternative text set on them (or the numbered defaults); each cell with a note has exactly one shape, with its cell, place, size, fill, alternative text and visibility: the note's own, or else whether the sheet shows all notes.", "quantifier": "all histories of calls and saves; all lists of buttons and option sequences; all places", "why_tests_cant": "The ids, z order and default names are counters over two collections, and visibility depends on the order of calls and saves.", "anchors": ["src/vml.rs:Vml", "src/note.rs:Note", "src/button.rs:Button", "src/worksheet.rs:show_all_notes", "src/worksheet.rs:insert_button"]}
{"id": "C76", "title": "Every image, chart and text box comes back from the drawing part", "statement": "Whatever images, charts and text boxes are put on a sheet, with any names, alternative texts and links XML can hold, saving writes a well-formed drawing part (without a crash) with exactly one item for each of them, in order, with its corners, its way of moving with the cells, its number, its name (or Picture n, Chart n, TextBox n), alternative text, decorative mark and link, and the relationship of its picture or chart. On a worksheet no two items have the same id.", "quantifier": "all lists of images, charts, chartsheet charts and text boxes; all places, names, texts and links", "why_tests_cant": "Numbers, ids and the pairing of shapes with their text are counters and an index over three collections; escaping and optional elements depend on the combination of settings.", "anchors": ["src/drawing.rs:Drawing", "src/worksheet.rs:prepare_worksheet_images", "src/worksheet.rs:prepare_worksheet_charts", "src/worksheet.rs:prepare_worksheet_shapes", "src/worksheet.rs:insert_image", "src/worksheet.rs:insert_shape"]}
{"id": "C77", "title": "A text box comes back with its text, font, fill, line and alignment", "statement": "For any sequence of calls on a Shape and its font, format and text options, the text box in the drawing part has the text last set (one paragraph per line), the font last set (bold, italic, underline, name, colour, pitch, character set, size in hundredths of a point), the fill and line asked for (theme colours as percent lighter or darker, transparency, pattern, gradient stops, dash, and width to the nearest quarter of a point), the alignment, anchor and direction of the text, and the cell it is linked to; calls with values out of range change nothing.", "quantifier": "all sequences of calls on text boxes, fonts, formats and text options; all objects before and after it on the sheet", "why_tests_cant": "Every setter interacts with defaults, guards and the omission of default elements; line widths and sizes go through floating point.", "anchors": ["src/shape.rs:Shape", "src/shape.rs:ShapeFont", "src/shape.rs:ShapeFormat", "src/shape.rs:ShapeText", "src/drawing.rs:Drawing"]}
{"id": "C78", "title": "Every series of a chart is in the file once, on axes that the file defines", "statement": "For every sequence of calls on a chart (and on the chart combined with it), the series of the saved chart part are numbered 0, 1, 2, ... without gaps or repeats, there are as many as were added to both charts, and each axis id that a group of series refers to is defined by exactly one axis of the part; the axes come in pairs that cross each other.", "quantifier": "all call sequences on a chart and an optional combined chart, all 23 chart types and their combinations, any mix of primary and secondary series", "why_tests_cant": "The numbering and the axis ids depend on the order of calls, on the split in primary and secondary series and on the combined chart; examples cover only a few of the combinations.", "anchors": ["src/chart.rs: write_plot_area, write_chart_type, write_ax_ids, set_axis_ids, set_axis2_ids, get_series", "src/chart.rs: Chart::add_series, Chart::push_series, Chart::combine"]}
{"id": "C79", "title": "What was asked of a chart series is what the chart part says", "statement": "For every sequence of calls, each series added to a chart (or to the combined chart) is in the part with the values and categories ranges it was given and the cached data of those cells, its name (text or range), its format, marker, data labels (of the series and of single points), point formats, trendline, error bars, inversion of negative values and smoothing as last asked.", "quantifier": "all sequences of calls on ChartSeries and its parts, all chart types, all data in the cells", "why_tests_cant": "The options interact (defaults of the chart type, later calls override earlier ones, automatic options), the number of combinations is unbounded.", "anchors": ["src/chart.rs: write_series, write_scatter_series, write_data_labels, write_custom_data_label, write_trendline, write_error_bar, write_marker, write_d_pt, write_cat, write_val, write_x_val, write_y_val", "src/chart.rs: ChartSeries, ChartMarker, ChartDataLabel, ChartPoint, ChartTrendline, ChartErrorBars"]}
{"id": "C80", "title": "What was asked of a chart axis is what the chart part says", "statement": "For every sequence of calls on the four axes of a chart, the axes of the saved part say the last values asked: kind (category, date, value), position, limits, log base, orientation, hidden, gridlines and their lines, title, number format, tick marks, labels, font, format, crossing, label alignment and intervals, units, time units and display units.", "quantifier": "all sequences of calls on ChartAxis for x, y, x2 and y2, all chart types and combinations", "why_tests_cant": "Each option is filtered by the kind of the axis, the chart type and the crossing axis; the combinations are not covered by example files.", "anchors": ["src/chart.rs: write_cat_ax, write_date_ax, write_val_ax, write_cat_val_ax, write_scaling, write_crosses, write_ax_pos, ChartAxis"]}
{"id": "C81", "title": "Title, legend, data table and options of a chart are what was asked", "statement": "For every sequence of calls on a chart, reading the saved part gives the title (text or range, layout, overlay, format, font) or its absence, the legend with its position, layout, format, font and removed entries, the data table, the plot area and chart area formats, the style, the treatment of empty and hidden cells, drop lines, high-low lines, up-down bars, gaps, rotation and hole size as last asked, and nothing else.", "quantifier": "all sequences of calls on a chart and its parts, all chart types", "why_tests_cant": "The whole option space is unbounded; the read-back must hold for all of it.", "anchors": ["src/chart.rs: assemble_xml_file, write_chart, write_title, write_legend, write_data_table, write_plot_area, write_print_settings, Chart, ChartTitle, ChartLegend, ChartDataTable"]}
{"id": "C82", "title": "Chart parts respect the element order of the chart schema", "statement": "For every chart (of any of the 22 types, with any combined chart) whose calls stay within the stated table of calls that fit its type, the chart part that is saved is well-formed XML in which every element's children occur in the sequence, with the required elements present and no element from elsewhere, that the ECMA-376 chart schema (dml-chart.xsd) prescribes for it: chart space, chart, plot area, the groups of series of each type, series of each type, points, labels, trendlines, error bars, references and caches, the four kinds of axes, titles, legend, data table, text properties. Calls outside the table that put elements out of order are listed and refuted.", "quantifier": "all chart types, all sequences of chart, series, axis, title, legend, label, marker, trendline, error bar and format calls in the table, all combined charts, all cached data, all ids, embedded or chartsheet", "why_tests_cant": "the sequence depends on which of dozens of optional parts were asked for; only a proof covers all the combinations, and tests compare with files that Excel wrote for a few of them", "anchors": ["src/chart.rs: assemble_xml_file", "src/chart.rs: write_series, write_scatter_series", "src/chart.rs: write_cat_axis, write_date_axis, write_val_axis, write_cat_val_axis", "src/chart.rs: write_legend, write_data_labels, write_custom_data_labels, write_trendline, write_error_bar"]}
{"id": "C83", "title": "Serialized structs land in the cells of their headers, as if written by hand", "statement": "For every history of header calls (serialize_headers*, deserialize_headers*, set_serialize_headers with any field options), serialized records (structs of single values, alone or in sequences, tuples, options and newtypes), other worksheet calls and saves, in which every call succeeds, the worksheet is exactly the one that the ordinary write_*, set_column_width, set_column_format and add_table calls would give: the k-th record of a struct since its last headers goes to the k-th row below them, each field to the column of its header with its value format. Serializing stops at the first write that fails, with its error, and never panics. In the saved file of a new worksheet the headers and the values are in those cells and nothing else is in the sheet.", "quantifier": "all histories of successful calls, all structs, values, options, positions, any number of records; the file theorem: one heading followed by any list of serialized values on a new worksheet", "why_tests_cant": "the row of a record depends on all the records of that struct serialized before and on which headers came last; tests serialize a handful of records in one order", "anchors": ["src/serializer.rs: SerializerState, write_token, set_current_struct, impl Serializer for &mut Worksheet", "src/worksheet.rs: serialize, serialize_data_structure, store_serialization_headers, store_custom_serialization_headers, serialize_to_worksheet_cell"]}
{"id": "C84", "title": "Reported dimensions of serialized data", "statement": "get_serialize_dimensions and get_serialize_column_dimensions return, after every successful history, the rectangle from the header row (or first row, with hidden headers) to the row of the struct's last record, over the columns of its headers, respectively of the field; with visible headers they always exist and the last row is the header row plus the number of records; unknown structs and fields are reported as such.", "quantifier": "all successful histories as in C83, all struct and field names", "why_tests_cant": "the count ranges over all histories of records and repeated headers", "anchors": ["src/serializer.rs: get_dimensions, get_column_dimensions", "src/worksheet.rs: get_serialize_dimensions, get_serialize_column_dimensions"]}
{"id": "C85", "title": "Rejected header calls", "statement": "A header call whose first cell is outside the worksheet, whose struct has no name or no fields, or whose options name a field that the struct does not have is rejected, and every header call that returns a parameter error leaves the worksheet and the stored headers unchanged.", "quantifier": "all worksheet states, positions, structs and options", "why_tests_cant": "must hold in every state of the worksheet and for every struct", "anchors": ["src/worksheet.rs: store_serialization_headers_with_options, store_custom_serialization_headers"]}
{"id": "C86", "title": "Worksheet tables made from serialized data", "statement": "Saving adds, for each struct whose options ask for a table, exactly one table: it spans the struct's header row and columns down to its last record, plus one row if the table has a total row, without a header row if the headers are hidden; structs without a table get none; a second save adds none.", "quantifier": "all successful histories as in C83, all tables, every order in which the structs are visited", "why_tests_cant": "the range depends on all the records serialized before the save; the order of visiting is that of a hash map", "anchors": ["src/serializer.rs: get_tables, SerializationHeaderConfig::write_table", "src/worksheet.rs: store_serialized_tables, add_table", "src/workbook.rs: prepare_tables"]}
{"id": "C87", "title": "The look and value of a cell, across the parts of the file", "statement": "In a saved workbook, the worksheet part contains a cell that was written exactly once; its value is the one written last, and its style number selects, in the styles part of the same file, the font, fill, borders, number format, alignment and protection that the setter calls on its format ask for: on the format given with the cell or set for it afterwards (directly, or by a range format), else on that of its row, else on that of its column, else the default look.", "quantifier": "all workbooks of standard worksheets, all histories of calls on each, all formats made by chains of setter calls, formats registered in advance, differential formats, every hash-map iteration order", "why_tests_cant": "the style number goes through a per-sheet registry, a workbook registry and the component tables of the styles part, each depending on all the formats used before in any sheet", "anchors": ["src/worksheet.rs: format_xf_index_local, get_global_xf_index, write_data_table", "src/workbook.rs: save_internal, format_xf_index", "src/styles.rs: Styles", "src/format.rs: setters"]}
{"id": "C88", "title": "Merging formats", "statement": "format.merge(other) gives the format that the calls on other followed by the calls on format would give: what was set on format has precedence, everything else comes from other. Merging is associative and idempotent, and merging with a new format changes nothing. A cell written without a format where a formatted row and a formatted column cross has, in the file, the look of the column's calls overridden by the row's.", "quantifier": "all formats, all chains of setter calls on them; all worksheets and histories", "why_tests_cant": "about forty properties with any combination of values", "anchors": ["src/format.rs: Format::merge, merge_with, merge_fill, merge_font, merge_border, merge_alignment", "src/worksheet.rs: get_cell_xf_index, row_col_format"]}
{"id": "C89", "title": "Images embedded in cells", "statement": "After embed_image the saved cell leads, through its vm number, the metadata, the rich value, its structure and the relationships of the rich value part, to a file with exactly the bytes of the image, with its description (alt text) and decorative mark; every rich value has one value for each key of its structure; no call and no save panics.", "quantifier": "all workbooks of worksheets in standard mode, all histories of embed_image calls, cell writes and other calls on each, all images, all hash-map iteration orders of the strings", "why_tests_cant": "the number in the cell is per sheet, the number in the file per workbook and depends on all images of all earlier sheets; equal images are stored once", "anchors": ["src/worksheet.rs: embed_image, embed_image_with_format, write_error_cell", "src/workbook.rs: prepare_embedded_images", "src/metadata.rs", "src/rich_value.rs", "src/rich_value_structure.rs", "src/rich_value_rel.rs", "src/packager.rs: write_rich_value_rels_file"]}
{"id": "C90", "title": "Dynamic array formulas are marked", "statement": "In a saved workbook the cell of a formula written with a dynamic array call (or recognised as dynamic) carries a metadata number that the metadata part resolves to a dynamic array record; no other written cell carries one, and every such number present in a sheet resolves.", "quantifier": "all workbooks of worksheets in standard mode, all histories of calls, all cells", "why_tests_cant": "the flag is kept per worksheet and per workbook over all calls, and shares the metadata part with embedded images", "anchors": ["src/worksheet.rs: write_dynamic_formula, write_dynamic_array_formula, store_array_formula, write_array_formula_cell", "src/workbook.rs: set_package_options (has_dynamic_functions)", "src/metadata.rs: write_cell_metadata"]}
{"id": "C91", "title": "Content types and relationship types agree", "statement": "Read from the texts of [Content_Types].xml and of the relationships parts of a saved package: no part name and no extension is declared twice; the workbook part has the macro-enabled type exactly when a VBA project was added; an image file has the type of its format; every relationships part has the type of relationships; every relationship has a unique id and is a hyperlink or, where its part is in the package, leads to a part whose content type is one of those belonging to the type of the relationship; the package leads to exactly one main part, the workbook, and the workbook leads exactly once to each single part present (styles, theme, strings, metadata, VBA project, rich data, feature property bag).", "quantifier": "all workbooks, all histories of edits and saves, all sheets, images, charts, tables, notes, links", "why_tests_cant": "types, names and relationships are produced by four independent passes over all sheets, with separate counters and flags", "anchors": ["src/content_types.rs", "src/relationship.rs", "src/packager.rs: write_content_types_file, write_root_rels_file, write_workbook_rels_file", "src/workbook.rs: set_package_options", "src/worksheet.rs: relationship lists"]}
{"id": "C92", "title": "Row and column settings reach the file", "statement": "Whatever calls were made on a worksheet (widths, heights, formats, hiding, showing, groups, among all other calls, with rejected calls in between): reading the text of the sheet back, exactly the columns some accepted call was about are described, each by one element, with the width last given (an automatic width does not narrow a configured column), the format last given, hidden if a call hid it, the outline level equal to the number of groups around it and the mark of a collapsed group; and every row some accepted call was about is found, once, with the height, format, visibility, level and mark the accepted calls gave it.", "quantifier": "all histories of calls in which no group call is rejected half way, all rows and columns, all formats; rows in standard mode, columns in every mode", "why_tests_cant": "settings of one row or column are spread over many calls in any order and merged per attribute; columns are coalesced into runs; only a proof covers every history", "anchors": ["src/worksheet.rs: set_row_height, set_row_format, set_row_hidden, set_row_unhidden, set_default_row_height, set_column_width, set_column_format, set_column_hidden, group_rows, group_columns, write_row, write_cols, write_col"]}
{"id": "C93", "title": "A sheet built with merges, tables, filters and groups reads back", "statement": "For every history of worksheet calls, merged ranges, tables with headers, formulas and total rows, filters and groups included, the text of the sheet and of the string table read back to exactly the cells the writer was asked for; the header, formula and total cells of an accepted table and the text and blanks of an accepted merged range are read at their positions with their values, whatever calls that do not mention the cell follow.", "quantifier": "all histories of calls in standard mode with storable strings, all ranges, tables, texts, strings of the other sheets", "why_tests_cant": "the cells come from compound calls whose effects depend on the cells already there and on each other", "anchors": ["src/worksheet.rs: merge_range, add_table, write_data_table, write_row"]}
{"id": "C94", "title": "A sheet written in constant memory reads back", "statement": "Whatever calls are made on a constant-memory or low-memory sheet, in whatever order, its sheet data is well formed and reading it finds exactly the cells that were streamed out, each at its position with its value and style and none twice, and the rows with their height, format and hidden state as they were when the row left memory. Filled in row order, the text shows exactly what the same calls show on a standard sheet; in particular a value written last at a position is the one read there.", "quantifier": "all histories of calls in all orders, both low-memory modes, all cell contents and formats, all strings of other sheets, all orders of the string table", "why_tests_cant": "rows are flushed at points that depend on the order of all calls, to a temporary file assembled later with parts written by other code, and refer to a string table that grows until the save", "anchors": ["src/worksheet.rs: flush_data_row, flush_to_row, flush_last_row, write_data_row, write_constant_table_row, write_inline_rich_string_cell", "src/packager.rs: constant memory branch of write_worksheet_file"]}
{"id": "C95", "title": "A cell of a constant-memory sheet has its value and its look in the file", "statement": "When a constant-memory or low-memory sheet is filled in row order, in a workbook that may already have formats and strings and gets more afterwards, then for a cell written with a format and not touched later, the saved worksheet part has one cell at its position, with the value written, and its style number selects in the styles part a cell format whose font, fill, border, alignment, number format and protection are what the calls on the Format asked for; a cell without a format has the look of its row, else of its column, else the default.", "quantifier": "all row-ordered histories of calls, all formats made by calls (outside the refuted cases of C71), both low-memory modes, all earlier and later formats and strings of the workbook, all orders of the string table", "why_tests_cant": "style numbers are taken at the time of the call from a registry shared with the whole workbook and written to a temporary file long before the styles part exists", "anchors": ["src/worksheet.rs: format_xf_index_global, flush_data_row, get_cell_xf_index", "src/workbook.rs: add_worksheet_with_constant_memory, add_worksheet_with_low_memory, save", "src/styles.rs"]}
{"id": "C96", "title": "The text of the autofilter reads back as the filter asked for", "statement": "In the saved worksheet part there is an autoFilter element exactly when an autofilter call was accepted; an XML reader finds in it the range of the last accepted call and, for each column with an accepted condition and no other, by increasing position relative to the first column, either the list of values given (and whether blanks are included) or the one or two comparisons given, joined by and/or as asked, with the standard operator for each criterion; for texts without pattern characters a stored comparison accepts exactly the texts the criterion describes. Calls rejected for overlapping a table are excepted (see the refutation).", "quantifier": "all histories of worksheet, autofilter, filter_column and save calls, all conditions built by any series of calls, all values whose text fits in an attribute", "why_tests_cant": "unbounded histories, series of builder calls and texts; the file must be read by another program, with its own defaults for absent attributes", "anchors": ["src/worksheet.rs: write_auto_filter, write_filter_column, write_list_filters, write_custom_filters, autofilter, filter_column", "src/filter.rs: FilterCondition, FilterCriteria::operator, FilterData::value"]}
{"id": "C97", "title": "Pictures in headers and footers: what is accepted, and what the part says", "statement": "set_header_image and set_footer_image succeed exactly when the header (footer) in force has one section of the position asked for and that section contains a picture code (&G or &[Picture]); a rejected call changes nothing. In the saved workbook a sheet has a header-picture VML part exactly when some picture was accepted; the part, read by an XML reader, has for each of the six places the picture of the last accepted call for that place and no other, with its name, size in points, aspect lock, and a relationship whose target is the media file numbered after the picture's contents (equal contents share one file over all sheets); shape ids are distinct and lie in the block of 1024 the part reserves, and blocks of different sheets are different.", "quantifier": "all workbooks of any number of sheets, all histories of header/footer texts and picture calls on each, all picture names whose text fits in an attribute", "why_tests_cant": "unbounded histories and header texts; the sharing of files and the disjointness of ids is a relation between all sheets of a workbook", "anchors": ["src/worksheet.rs: set_header, set_footer, set_header_image, set_footer_image, verify_header_footer_image, prepare_header_footer_images", "src/vml.rs: write_image_shape, write_image_shape_type, write_imagedata, write_shapelayout", "src/packager.rs: write_vml_files", "src/image.rs: vml_position"]}
{"id": "C98", "title": "Parts other than worksheets and charts stand in schema order too", "statement": "Whatever formats, names, notes, tables and drawn objects a program asks for, the elements of xl/styles.xml, xl/workbook.xml, xl/comments*.xml, xl/tables/table*.xml and xl/drawings/drawing*.xml stand, at every depth, in the order and number of the schemas of ECMA-376 (each element only where its parent's sequence or choice has a place for it, required ones present): an XML reader that then checks the sequences finds nothing wrong.", "quantifier": "all lists of cell formats and differential formats (built by any chains of calls), all saved workbooks of any number of sheets and names, all histories of notes, all accepted tables of any columns and options, all lists of pictures, charts, buttons and text boxes", "why_tests_cant": "the order depends on which optional children are present, and there are unboundedly many combinations; Excel repairs or refuses a file in which one of them stands in the wrong place", "anchors": ["src/styles.rs: assemble_xml_file, write_xf, write_dxf, write_font, write_fill, write_border", "src/workbook.rs: assemble_xml_file", "src/comment.rs: assemble_xml_file, write_comment", "src/table.rs: assemble_xml_file, write_column", "src/drawing.rs: assemble_xml_file, write_two_cell_anchor"]}
{"id": "C99", "title": "Strings placed in the shared string table beforehand", "statement": "If calls of Workbook::populate_string_table before any string is written give their strings (the first call for each string counts) the places 0..n-1 in some order, then after any writes by any number of worksheets every cell's index is the place of its string in sharedStrings.xml, placed strings keep the place asked for, every placed or written string is listed exactly once, and the counters are the number of strings and of cells. With any other places some cell points at another string, or behind the end of the table.", "quantifier": "all lists of placing calls, all histories of string writes after them, all orders of the hash map", "why_tests_cant": "unbounded lists of strings and arbitrary places; the exact condition on the places is an equivalence over all histories", "anchors": ["src/workbook.rs: populate_string_table", "src/shared_strings_table.rs: populate_string_index, shared_string_index", "src/shared_strings.rs: write_sst_strings"]}
