{
 "C01": {
  "status": "proved",
  "note": "Bijection proved for all columns < 65535 in debug and release arithmetic; finding: c = 65535 overflows (C01_all_u16_refuted)."
 },
 "C02": {
  "status": "proved",
  "note": ""
 },
 "C03": {
  "status": "proved",
  "note": ""
 },
 "C04": {
  "status": "proved",
  "note": ""
 },
 "C05": {
  "status": "partial",
  "note": "Reversibility and safety of bare names proved; totality in debug builds refuted (sheet name \"A.1\" panics), proved for names without '.', and for release builds."
 },
 "C06": {
  "status": "partial",
  "note": "Safety and lossless decoding proved for every string; well-formedness refuted for U+FFFE/U+FFFF, which XML 1.0 forbids and the library writes raw."
 },
 "C07": {
  "status": "partial",
  "note": "Round trip proved for all ordinary strings; refuted for strings beginning <r> and ending </r>, which are written raw as rich text."
 },
 "C08": {
  "status": "partial",
  "note": "Delimitation proved for all strings; exact recovery proved when no tab/newline/CR/control characters are involved and refuted for those."
 },
 "C09": {
  "status": "partial",
  "note": "Decode(escape u) = u for URLs without %; URLs with %XX unchanged; refuted for URLs mixing lower-case/other escapes (double escape)."
 },
 "C10": {
  "status": "proved",
  "note": ""
 },
 "C11": {
  "status": "proved",
  "note": "Integer day count, exact f64 for dates, accuracy 2^-29 day and order preservation at millisecond resolution. Rests on the standard library's real-number axioms (via Flocq) for the f64 part."
 },
 "C12": {
  "status": "proved",
  "note": "All accepted timestamps; f64 part rests on the standard library's real-number axioms."
 },
 "C13": {
  "status": "partial",
  "note": "Date validation and integer times exact; f64 seconds have no lower limit (negative, NaN accepted: refuted); parse_from_str reads malformed fields as 0 (refuted), well-formed texts proved."
 },
 "C15": {
  "status": "proved",
  "note": "Standard mode: every history of the 26 modelled calls; stated on the rows of the saved file."
 },
 "C16": {
  "status": "partial",
  "note": "False in general (two refutation theorems); proved for histories without set_range_format and outside the A1..XFD1 special case."
 },
 "C17": {
  "status": "proved",
  "note": "Proved in the reworded form; the three exceptions named in the statement are proved as refutations of the stronger form."
 },
 "C19": {
  "status": "partial",
  "note": "Standard mode fully proved. Constant-memory mode: strictly ordered except for at most one repeated, cell-less row element of a row with row options (the code really does this: C19_refuted_duplicate_row, C19_refuted_options_only); each cell at most once; late writes dropped."
 },
 "C20": {
  "status": "proved",
  "note": "Spans are exact for every reachable standard worksheet."
 },
 "C27": {
  "status": "proved",
  "note": "Cell, row, column, default precedence over histories; the row/column crossing uses a stale row format (refutation theorem)."
 },
 "C45": {
  "status": "proved",
  "note": "Both modes."
 },
 "C18": {
  "status": "proved",
  "note": "Simulation between the streaming and the in-memory store over all 26 calls; what row order does not cover is shown by three refutations (set_cell_format in a later row, clear_cell of a write-ahead cell, set_formula_result in another row)."
 },
 "C21": {
  "status": "partial",
  "note": "Ranges increasing/disjoint and expansion to the settings proved for every HashMap iteration order; 'never two adjacent elements with equal attributes' is refuted (hidden stale format field), proved up to internal settings."
 },
 "C22": {
  "status": "partial",
  "note": "Disjointness, size and bounds of accepted ranges, rejection of every overlap and acceptance of every free range proved for all call histories; 'a rejected call changes nothing' is refuted (cells already overwritten; stale owner index panics later), accepted ranges unchanged is proved."
 },
 "C23": {
  "status": "partial",
  "note": "Stored list strictly increasing, without zero, exactly the given non-zero breaks, errors exactly when too many or beyond the limit; refuted for the list [0], which panics."
 },
 "C39": {
  "status": "partial",
  "note": "Levels <= 7 and level = number of covering accepted groups proved for all histories; the announced maximum is proved when it is at least 2 and refuted for one level (nothing announced)."
 },
 "C24": {
  "status": "proved",
  "note": "Sequential histories, across worksheets, for every HashMap iteration order."
 },
 "C25": {
  "status": "partial",
  "note": "Proved for every schedule in which no two threads are simultaneously between look-up and insertion of the same format (in particular whenever shared formats are registered beforehand); refuted in general: the read-then-write lock protocol does not re-check, so two threads registering the same new format corrupt the registry."
 },
 "C26": {
  "status": "proved",
  "note": "For up to 65000 formats (u16 counters). Finding: set_num_format_index with a number above 163 selects another format's custom code (refutation theorem)."
 },
 "C28": {
  "status": "proved",
  "note": "Cell-level theorems for standard worksheets; the shared registry of constant/low-memory worksheets is covered by C25's 'consistent'."
 },
 "C29": {
  "status": "proved",
  "note": "Saved names pairwise different for every workbook; generated names distinct for every history. Findings: push_worksheet auto names collide; worksheets_mut can save an empty name."
 },
 "C30": {
  "status": "partial",
  "note": "Active tab fully proved. First-tab part is false of the code (refutations): the flagged sheet can be hidden, and the index is stale after a save."
 },
 "C46": {
  "status": "partial",
  "note": "Validation, binding, completeness and range texts proved; sorting by shown name holds except for names extending Print_Area/_FilterDatabase (refutation: unfilled '{}' in the sort key)."
 },
 "C31": {
  "status": "proved",
  "note": "Worksheets: every r:id (hyperlinks, drawing, legacy drawing, header drawing, background, tables) opens the part holding that object, in the whole saved package, after any history of edits and saves. Chartsheets: same without notes/buttons; refuted with both notes and a header image."
 },
 "C32": {
  "status": "partial",
  "note": "Proved when header/footer images sit on sheets after every inserted/background image and there are no embedded images together with header images; refuted otherwise (header image first; embedded + header). Embedded images: unconditional."
 },
 "C33": {
  "status": "proved",
  "note": "Up to the u16 counters."
 },
 "C34": {
  "status": "partial",
  "note": "Attribution proved equivalent to 'authors first used in sorted order'; refuted in general (author list sorted, ids in insertion order). Ids always valid and injective in the author."
 },
 "C35": {
  "status": "partial",
  "note": "Notes without buttons: unconditional. With buttons: when they fit the block reserved by the notes. Refuted: >1024 buttons; header image vs note ids."
 },
 "C47": {
  "status": "partial",
  "note": "Within the package model (which parts there are, their names, relationships, references and numbering): after any history of edits and successful saves, saving again any number of times writes the same parts. Refuted when there is an edit between the saves (default table names stick) and when the earlier save failed (notes and buttons doubled, wrong shapes). Not covered: part contents that the package model keeps opaque."
 },
 "C48": {
  "status": "partial",
  "note": "Part names unique and types declared: always. Closure: same image condition as C32, refuted otherwise."
 },
 "C44": {
  "status": "partial",
  "note": "Algorithm, range: proved for every password. Zero only for the empty password: proved below 32768 bytes; refuted above (verifier 0 is silently dropped)."
 },
 "C49": {
  "status": "proved",
  "note": "Worksheets. Chartsheets write contents/objects with the opposite polarity (refutation)."
 },
 "C40": {
  "status": "proved",
  "note": "For every history (including earlier saves) on standard-memory worksheets; lower-casing and number text are parameters. Refutations: the documented non-blanks filter hides numbers; rows stay hidden after the data changed."
 },
 "C50": {
  "status": "proved",
  "note": "Text patterns: for texts without wildcard characters (refutation otherwise: wildcards are not quoted)."
 },
 "C41": {
  "status": "proved",
  "note": "standard (non-streaming) worksheets"
 },
 "C42": {
  "status": "partial",
  "note": "every row of the range must hold a cell or the range be one column; rich text, booleans and formula results are cached as empty (both refuted in general)"
 },
 "C51": {
  "status": "proved",
  "note": "Whole text of <sheetData> and sharedStrings.xml read by an independent XML/A1 reader; hypotheses: texts without U+FFFE/U+FFFF, plain strings not of the form <r>...</r>, formula/result texts without control characters or literal _xHHHH_ (findings); number printing is an oracle with print/parse round trip."
 },
 "C52": {
  "status": "proved",
  "note": "Segment texts without control characters and literal _xHHHH_ (finding refuted separately)."
 },
 "C43": {
  "status": "partial",
  "note": "Proved for plain results; refuted for nan/inf/infinity words (written untyped) and literal _xHHHH_ in results."
 },
 "C14": {
  "status": "partial",
  "note": "Proved for every formula in which no double quote directly follows a name character outside literals (refuted otherwise); refuted also: a formula ending in an array constant loses its closing brace, prefixes are inserted inside user function names and quoted sheet names."
 },
 "C36": {
  "status": "partial",
  "note": "Proved for every history, overflow mode and object within 1,500,000 x 2,000,000,000 pixels on a sheet whose default row is at least one pixel high: positioning ends, its result is unique, the anchors denote the corners and the offsets lie inside their cells; EMU conversion exact for whole pixels. Refuted outside: a 0-pixel default row makes the loop endless, and an anchor may lie beyond the last column."
 },
 "C37": {
  "status": "proved",
  "note": "All u16 pixel values, checked by the kernel through vm_cast_no_check on an exhaustive list inside a forall-statement; result holds for every history."
 },
 "C53": {
  "status": "proved",
  "note": "Cell part for standard-memory worksheets, any history and any later calls that do not touch the cell; element part for any reachable worksheet."
 },
 "C54": {
  "status": "proved",
  "note": "Standard-memory worksheets; the case folding of names is an arbitrary function (Unicode lower-casing is an oracle)."
 },
 "C55": {
  "status": "proved",
  "note": "Every state and range; settings compared row by row and column by column."
 },
 "C56": {
  "status": "proved",
  "note": "Fewer than 65536 sheets and names; names without CR."
 },
 "C57": {
  "status": "partial",
  "note": "Proved for every setter sequence; refuted for dates made from serial numbers (C57_serial_date_lost_refuted). Display of f64 is an oracle."
 },
 "C58": {
  "status": "proved",
  "note": "Fewer than 65536 sheets; names an XML attribute can hold."
 },
 "C59": {
  "status": "partial",
  "note": "Proved for every history of view calls without a set_top_left_cell(0,0): the sheetView read back from the whole part states the latest settings; the refuted case (set_top_left_cell(0,0) keeps the stale cell) is proved as C59_top_left_first_cell_refuted."
 },
 "C60": {
  "status": "partial",
  "note": "Proved for every history: printOptions, margins, pageSetup and headerFooter read back from the part give the latest settings, except the first page number, which is written under the wrong attribute (C60_first_page_number_refuted)."
 },
 "C61": {
  "status": "partial",
  "note": "Well-formedness and schema order proved for worksheets without both x14 conditional formats and sparklines, and for sheetPr without fit-to-pages next to tab colour/outline; the excluded cases are refuted."
 },
 "C62": {
  "status": "partial",
  "note": "Proved for every kind except TwoDigitTextYear, whose attribute name is capitalised (refuted)."
 },
 "C63": {
  "status": "partial",
  "note": "Proved for every history: the saved part holds exactly the last accepted validation per range, over-long texts and improper ranges refused. List items come back when no item has a comma and the list is not empty; the other two cases are refuted."
 },
 "C64": {
  "status": "partial",
  "note": "Proved for every history of calls with any of the thirteen kinds of rule (C64_conditional_formats_partial, C64_priorities, C64_first_cell), reading the whole worksheet part back. Missing, because false of the code: texts searched for with quotes or non-ASCII characters (C64_texts_refuted) and theme colours (C64_theme_color_refuted); comparison with an empty text or a lone quote. Number texts and the test for 0..100 of parsed numbers are abstract."
 },
 "C65": {
  "status": "partial",
  "note": "Proved (C65_extended_formats_partial) when ranges are first given in the order of their texts and the settings are ones the extension can carry; the code breaks the rest: C65_bars_swapped_refuted, C65_priority_shared_refuted, C65_icon_options_refuted, C65_negative_border_refuted."
 },
 "C66": {
  "status": "proved",
  "note": "standard memory mode; texts made of characters an attribute keeps (C08); relationships as shown by C31. The link of an embedded image has its fragment both in the target and as location (refuted expectation stated)."
 },
 "C38": {
  "status": "partial",
  "note": "Standard worksheets, every history of calls of Sheet_Model and autofit, with f64 widths that are not NaN: autofit ends, every cell gets its need or the limit, own widths are not narrowed, other columns get exactly the largest need, nothing else changes, HashMap order irrelevant (Permutation). Refuted: a second autofit can narrow a column below the user's width because the first one that widens it marks it as fitted. Missing: constant-memory sheets (only the current row is seen); text of numbers (f64::to_string) is a parameter."
 },
 "C67": {
  "status": "partial",
  "note": "Table part: proved for every accepted add_table, with texts an attribute can hold (C08) and formulas an element can hold; the part number/table id is C31's. Cells: C67_cells, every history before and after. dxf numbers as a function of the format (C68). Total formulas: proved for column names without opening bracket and double quote; refuted otherwise (the formula scanner prefixes functions inside the reference or repeats text). Tables made by the serializer: C86."
 },
 "C68": {
  "status": "partial",
  "note": "Conditional formats: every history and save. Formats keep their numbers. Table columns: right in the first file after the table was added; refuted for later saves (numbers are translated again; wrong format, then a panic). The XML of the dxf elements themselves is not modelled."
 },
 "C69": {
  "status": "partial",
  "note": "Every sequence of add_sparkline/add_sparkline_group calls with sheet names the document can hold and (Debug) quotable; group cells are a row or column with as many cells as the data has slices. Refuted: the cell count is checked against either dimension of the data, so slices can lie outside it; a block of cells gets only its first row; date ranges are not checked; column 65535 panics in Debug. Text of f64 is a parameter; with both conditional-format and sparkline extensions only one is covered."
 },
 "C70": {
  "status": "partial",
  "note": "For every text denoting a range (independent parser) whose sheet name has no quote or exclamation mark and does not begin with '='; and for the texts the library writes. Refuted: quoted names with doubled quotes keep them, names with '!' give an empty range, several texts that denote no range are accepted, a lone quote panics."
 },
 "C71": {
  "status": "partial",
  "note": "All setters and the whole part are covered; excluded are exactly the chains refuted beside it (code after built-in index, index 0 after a code, unset_hyperlink_style, two fill colours without pattern, automatic fill colours, indent with Top/Bottom) and user-chosen number format indices above 163 (refuted in C26)."
 },
 "C72": {
  "status": "partial",
  "note": "Covers every chain except a lone foreground colour in a solid fill (refuted); diagonal lines, scripts, alignment and protection are not part of what a differential format carries here (diagonal: refuted)."
 },
 "C73": {
  "status": "partial",
  "note": "PNG, JPEG and GIF proved for all files of the formats (JPEG: markers not preceded by fill bytes, APP0 segments being JFIF), BMP for bottom-up ones; panics and misreadings refuted beside it."
 },
 "C74": {
  "status": "partial",
  "note": "Everything but the authors is proved; attribution to the right author is characterised exactly (C74_authors_iff_partial) and refuted in general."
 },
 "C75": {
  "status": "partial",
  "note": "Read-back is proved for all histories; after an earlier save the visibility is only characterised for notes that say it themselves or sheets that show all (refutation: it sticks). Theme fills are refuted."
 },
 "C76": {
  "status": "partial",
  "note": "Objects, places, names, links and contents read back for all lists; ids distinct on worksheets, refuted for a chartsheet with a picture. Places are the whole EMU values of C36; that the relationship ids point to the right part is C32/C33."
 },
 "C77": {
  "status": "partial",
  "note": "Everything read back for all call sequences; partial because of the calls that are dropped (refutations). The size of the font is exact when it is a whole number of hundredths after rounding; number formatting is the assumption shows_whole."
 },
 "C78": {
  "status": "partial",
  "note": "Proved for all charts without pies in a combination (theorem _partial); pies in combinations are refuted. First save of the chart; ids as in u32 below 423496 charts."
 },
 "C79": {
  "status": "partial",
  "note": "Read-back of every option proved for the model of all write functions; partial because of the refuted expectations (push_series, scatter line, gap leak, name order) that the specification carries as documented exceptions. Fonts' strikethrough is not written at all."
 },
 "C80": {
  "status": "partial",
  "note": "Read-back of every axis option proved; partial because of refuted expectations."
 },
 "C81": {
  "status": "partial",
  "note": "asked_chart covers all options; partial because of refuted expectations about legend entries and the font of titles from cells."
 },
 "C82": {
  "status": "partial",
  "note": "proved for all calls in the table Chart_Order2.calls_fit; outside the table the code violates the schema (7 refutations). Attribute values are not judged here (C79-C81 read them); the number of series in a stock chart is not judged."
 },
 "C83": {
  "status": "partial",
  "note": "Proved for records of single values in every successful history (exactly the calls by hand), exact behaviour at the first failing write, and the contents of the saved file. Nested structs, sequence fields, bare values, headerless records and large integers are refuted."
 },
 "C84": {
  "status": "partial",
  "note": "Exact for every history; with hidden headers and no record yet the query panics at row 0 or returns an inverted range (refuted)."
 },
 "C85": {
  "status": "partial",
  "note": "Parameter errors and positions outside the sheet change nothing; headers that cross the right edge are refuted (partly written)."
 },
 "C86": {
  "status": "partial",
  "note": "Ranges and flags of the tables proved for every history and every visiting order; lost tables after a failed save, records after a save and the random order are refuted."
 },
 "C87": {
  "status": "partial",
  "note": "Composed from C15/C28/C51/C71 with new invariants (all formats of the file come from the calls and their merges; the hyperlink style exists whenever a format uses it). Partial: formats outside calls_ok (the refutations of C71) and range formats on cells never written (C27 refutation) are excluded; crossing rows and columns are C88; constant-memory sheets are C95."
 },
 "C88": {
  "status": "partial",
  "note": "Laws for all formats; merge = later calls proved when each call of the primary sets a value other than the initial one and the secondary is no hyperlink format (otherwise refuted). Crossing cells proved when the formats are the first configuration of the row and column and precede the write (otherwise refuted)."
 },
 "C89": {
  "status": "partial",
  "note": "proved for standard mode: no panics, numbers exist, the first image with the same hash is reached; with equal hash meaning equal image the embedded image itself. Refuted and proved as such: a second description, rich values when only some images are described (exact condition in C89_values_fit), constant memory mode."
 },
 "C90": {
  "status": "proved",
  "note": "standard mode"
 },
 "C91": {
  "status": "proved",
  "note": "relationships to parts that are missing (the header image findings of C48) are covered by the presence premise; C91_all_relationships_partial discharges it under the condition of C48"
 },
 "C92": {
  "status": "proved",
  "note": "Histories in which a group call is rejected for exceeding level 7 (which leaves the group half applied, C21) are excluded by groups_accepted. The expectation that unheighted rows follow the default height is refuted."
 },
 "C93": {
  "status": "proved",
  "note": "Assumes number_display (printing and parsing of f64), as C51 does; strings must be storable (text_ok), as the refutations of C08 and C51 require."
 },
 "C94": {
  "status": "proved",
  "note": "rows are shown as they were when flushed; late writes and row options after the flush are lost as C18/C19 describe; strings other sheets add to the shared table are taken before or after the calls on this sheet, not between them; outline refuted (C94_outline_refuted)"
 },
 "C95": {
  "status": "partial",
  "note": "Partial as C87: formats outside calls_ok (refutations of C71) and cells where a formatted row and column cross are excluded; histories out of row order are C94 (what was flushed)."
 },
 "C96": {
  "status": "proved",
  "note": "Calls rejected for overlapping a table are excluded (C96_rejected_call_refuted). Number texts are a parameter (their text must fit in an attribute)."
 },
 "C97": {
  "status": "proved",
  "note": "Findings in C97_no_letter_refuted, C97_ampersand_refuted, C97_orphan_refuted. Pixel sizes (one f64 expression) are a parameter; pictures with equal hashes are assumed to have equal extensions."
 },
 "C98": {
  "status": "proved",
  "note": "Worksheet order: C61; chart order: C82. The tables leave out elements the library never writes; the properties of a font and of a run may stand in any order (a choice, as Excel reads it)."
 },
 "C99": {
  "status": "proved",
  "note": "C99_placed_strings and C99_only_then together are the exact condition; the refutations show what happens outside it. u32 counters as in C10."
 }
}