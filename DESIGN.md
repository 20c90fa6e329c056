# Formal model of rust_xlsxwriter in Rocq (Coq 8.16.1)

## 1. Approach

* `/repo` (rust_xlsxwriter 0.86.0) is read as text.  Each modelled function is transcribed into a
  total Gallina function in `rocq/theories/*_Model.v` with a comment citing the file and lines.
* Specifications that say what the English property means (an XML entity decoder, an A1 reference
  parser, the Gregorian calendar, ...) live in `*_Spec.v` and use no model helper beyond the data types.
* Proofs live in `*_Proofs*.v`, `*_Hist*.v`, `*_Inv.v`, ...; the property theorems (`Theorem Cnn_...`) are in
  `Props_*.v`, with a non-vacuity `Example` beside each.  `ASSUMPTIONS.md` (generated by
  `tools/assumptions.py`) gives the Print Assumptions output for every one of them.
* A Rust panic is an explicit error value (`None`/`Panic`).  Debug-build arithmetic overflow is
  treated as a panic where the property depends on it; elsewhere the comment says why it cannot occur.
* If the faithful model violates a property the file contains `..._refuted` with a concrete witness,
  and usually a `..._partial` theorem under the hypothesis that excludes exactly the failing inputs.

## 2. Data representation

* `String`/`&str`: `list N` of Unicode scalar values (`str` in `Base.v`); byte lengths are computed
  with the UTF-8 length of each scalar.  Coq string literals are converted by `s"..."`.
* integers: `N`/`Z`, with the Rust width written explicitly where overflow is possible.
* `BTreeMap<K,V>`: association list sorted by key (`SMap.v`), so iteration order is the model's order.
* `HashMap<K,V>`: association list with unique keys; no theorem depends on its order.
* `f64`: where only comparisons/finite-ness matter an abstract datum; where the value matters
  `SpecFloat` binary64 from Coq's standard library.

## 3. Plan per property

(one line each: what is modelled; how proved)

| id | model | proof idea |
|----|-------|-----------|
| C01 | column_number_to_name / column_name_to_number, u16 arithmetic explicit | bijective base 26, induction on digits |
| C02 | row_col_to_cell(_absolute), decimal printing | independent A1 parser, round trip |
| C03 | cell_range*, chart_range* | same parser, case on collapse |
| C04 | check_sheet_name | boolean reflection |
| C05 | quote_sheet_name, unquote_sheetname | induction on string; refutation for panic inputs |
| C06 | escape_xml_data | entity decoder, induction |
| C07 | escape_xml_escapes, xml_si_element | spec of `_xHHHH_` decoder, induction from the right |
| C08 | escape_attributes | attribute value normaliser; refuted for tab/CR |
| C09 | escape_url, Url::parse_url | percent decoder |
| C10 | SharedStringsTable | invariant over op list |
| C11-C13 | ExcelDateTime | calendar spec by counting days; Z arithmetic |
| C14 | Formula escape scanner | state machine simulation |
| C15-C19 | Worksheet cell table, constant memory | refinement to a finite map |
| C20 | calculate_spans | fold invariant |
| C21 | write_cols | run-length encode/decode |
| C22 | merge_range/add_table | pairwise disjoint invariant |
| C23 | process_pagebreaks | sort/dedup lemmas; refuted on empty list |
| C24,C25,C28 | format registries | invariant, interleaving semantics; race refuted |
| C26 | prepare_fonts/fills/borders/num_formats | invariant over format list |
| C27 | get_cell_xf_index | decision rule |
| C29,C30 | add/push worksheet, save checks | induction on ops |
| C31-C35 | relationship/drawing/media numbering | counters as folds over sheets |
| C36,C37 | positioning, pixel widths | induction over columns; SpecFloat sweep |
| C38 | autofit_worksheet, pixel_width, store_column_width after any history of calls and autofits (Autofit_Model) | text widths and lines against Autofit_Spec; the map of widths holds the largest need per column; monotonicity of the width-to-pixel conversion (Flocq); frame of widths over every call |
| C39 | grouping | invariant |
| C40 | filters | reflection |
| C41 | border functions | case analysis on position |
| C42 | get_cache_data | induction; refuted for missing rows |
| C43 | write_formula_cell | decision rule |
| C44 | hash_password | bit-width invariant |
| C45 | store_number_type | decision rule + history invariant |
| C46 | define_name | reflection, sortedness |
| C47 | reset/save: Pkg_Model's save_pkg run again on the state it leaves | simulation: each sheet prepared twice gives twins, which are written alike (Pkg_Resave) |
| C48 | packager part list | list inclusion |
| C49-C50 | protection, autofilter text | element read-back |
| C51-C52 | worksheet data text, rich strings | tokenizer/tree reader, read-back theorems |
| C53-C55 | merge, table, grouping over histories | write-list frames, induction over columns |
| C56-C58 | docProps parts and workbook.xml as writer trees | tree read-back, lookup lemmas |
| C59 | View_Model: the sheet-view setters as a step function on a setup record, sheetViews as writer trees; part assembled in Part_Model | history folds (`latest`), tree read-back of the whole part |
| C60 | View_Model: page setup setters, printOptions/pageMargins/pageSetup/headerFooter trees; hf shortening as one pass | same, plus a code-by-code proof for header shortening |
| C61 | Part_Model: all sections of a worksheet / chartsheet in writing order | reads of the text, order of sections by structural lemmas |
| C62 | View_Model: ignore_error(_range) histories, ignoredErrors tree | per-kind list read back with sqref words |
| C63 | DV_Model: builder steps, add_data_validation histories, dataValidations tree; DV_Spec: what a reader of the part finds | induction over histories with a map invariant; whole-part read-back |
| C64 | CF_Model: the thirteen kinds of rule, their builders, add_conditional_format histories and the written `<conditionalFormatting>` sections; CF_Spec: a reader of them and what the calls ask for | builder lemmas by induction over the calls, map/order invariant over histories, whole-part read-back; refutations for texts with quotes or non-ASCII characters and theme colours |
| C65 | the extended (x14) rules of CF_Model, read back and matched by name with the rules they extend | same invariant; holds if ranges are first given in the order of their texts (the second pass walks the map); refutations otherwise |
| C66 | Link_Model: store_url, store_embedded_image, write_hyperlinks with their numbering; Link_Spec says what a link text leads to and reads <hyperlinks> through the relationships | invariant: the map of links holds the last accepted call of each cell; the loop numbers relationships as C31's writer; read-back through the whole worksheet text |
| C67 | Tbl_Model: the builders of tables and columns, initialize_columns, total formulas, table.rs XML writer; linked to add_table of Sheet_Model by to_tbl; Tbl_Spec reads a table part and says what was asked for | last-setter folds; read-back of the written document; escape_formula leaves text without brackets and quotes alone; refuted for column names with an opening bracket or a quote; cells (Props_TableCells): the general theorem on the cells of a table (C54) joined with the names and columns the builder calls ask for |
| C68 | Dxf_Model: per-sheet and workbook registries of differential formats, the translation at save, rule and column numbers | invariant over all histories; column numbers only for the first save after the table (partial); refuted: a second save translates them again |
| C69 | Spark_Model: Sparkline options, add_sparkline(_group), the extension XML of the sheet; Color_Spec: reading a colour element | induction over calls and options, read back from the text of the whole part (partial: groups of one row or column whose cell count is that of the slices); refuted: cells beyond the data, blocks of cells, unchecked date ranges |
| C70 | Crange_Model: ChartRange::new_from_string | inversion of the independent reference parser (Ref_Spec) for every text; refuted: quotes in names, exclamation marks in names, texts that are no ranges |
| C71 | FmtOps_Model (all setters of Format), StylesXml_Model (the whole of xl/styles.xml) | independent reader of a style through the tables (StylesXml_Spec) composed with C26; fold lemmas for the setters; partial because of refutations (number formats, hyperlink flag, fills, indent) |
| C72 | same, dxfs table | same with read_dxf; refuted for a lone foreground colour and diagonal lines |
| C73 | Image_Model: new_from_buffer over byte lists with panics explicit | file formats as encoders (Image_Spec); induction over chunks and segments; termination by the growing offset; refuted: panics on short and cut buffers, top-down bitmaps, JPEG fill bytes and JFXX segments |
| C74 | Note_Model: the setters of Note, insert_note, the author table, the text of comment.rs; Note_Spec reads the part | an invariant over histories links the sheet's map of notes with the last accepted call of each cell; the part is shown to be read back by the XML reader |
| C75 | Note_Model: vml.rs for notes and buttons, button.rs; places are inputs (C36, C37 are about them) | invariant over histories and the XML reader; numbers of the style attribute are read back as hundredths of points |
| C76 | Draw_Model (drawing part) / Draw_Spec (reader of xdr:wsDr) | induction over the objects with the running number; reading back each element |
| C77 | Dml_Model (colours, fills, lines), Draw_Model (text boxes) / Dml_Spec, Draw_Spec (readers, what was asked) | last-write functions by induction over calls; read back of DrawingML; Flocq for widths and sizes |
| C78 | Chart_Model/Chart_Series/Chart_Axis/Chart_Whole: the chart part as a tree of elements built by the write_* functions from the calls; the part is read back by an independent reader (Chart_Spec*) | theorem on the text of the part: read_document then read_chart; numbering by induction on the series, ids by cases over the families; refuted for pies combined with other charts |
| C79 | Chart_Series: one function per write_* function; Chart_Spec2, Chart_Spec3: readers and what was asked as functions of the list of calls | text of the part read back equals what was asked for the i-th series; per-part says lemmas; refutations by computation |
| C80 | Chart_Axis: the axes; Chart_Whole: first_x.. tables of a new chart; Chart_Spec3: reader and asked_axis | read-back for the pair of primary and of secondary axes; refutations |
| C81 | Chart_Whole: chart_part; Chart_Spec4: read_chart and asked_chart | text of the part read back equals asked_chart |
| C82 | Chart_* with the schema's sequences as a separate table (Chart_Order) and the table of fitting calls (Chart_Order2) | one lemma per element written (places filled part by part), invariants of the calls by induction over the call lists; refutations by evaluation |
| C83 | Serde_Model (the serde data model as a tree, header storage, serialization, tables), Serde_Spec (events, areas, the calls by hand) on Cells/Sheet models | simulation: the serializer's map tracks the areas of the event history (induction over calls and value trees); file contents via C15; refutations by evaluation |
| C84 | Serde_Model.get_dimensions, get_column_dimensions against the areas of the event history | the tracking invariant of C83; refutation by evaluation |
| C85 | Serde_Model.store_headers_with, store_custom_headers | case analysis over the checks in every state; refutation by evaluation |
| C86 | Serde_Model.store_tables with the HashMap order as a parameter, on Sheet_Model.add_table | the tracking invariant of C83 and the frame of add_table; refutations by evaluation |
| C87 | Cells_Model, Reg_Model, SheetXml_Model, StylesXml_Model put together (Props_EndToEnd.saved_registry, styles_file, parts_read) | invariant that every registered format comes from the calls (E2E_Proofs.run_fp), C28, C51 and C71 composed |
| C88 | Fmt_Model.format_merge, FmtOps_Model.fmt_step, Cells_Model.row_col_format | commutation of merge with each setter, induction on the calls; C87's composition for the crossing; refutations by evaluation |
| C89 | Embed_Model: embed_image per sheet, the numbering of the images of the workbook, the metadata and rich value parts, the relationships part as texts. Embed_Spec: the chain from a cell to the file as a reader follows it, XML reader only. Invariant over histories (Embed_Hist2), numbering by hash (Embed_Proofs3), part texts read back by the XML reader (Embed_Proofs, Embed_Proofs2), sheet text by SheetXml_General. Refuted: equal bytes with a second description; the rich values when only some images are described; constant memory mode panics |
| C90 | Same model and reader as C89 (is_dynamic_array of Embed_Spec); invariant: the flag of a sheet is set when one of its cells is dynamic (Embed_Hist); cm numbers of the sheet text by SheetXml_Spec.metas_at and Embed_Sheet.metas_table |
| C91 | Types_Model: the text of the two kinds of part, names proved equal to those of Pkg_Model (typed_names); Types_Spec: how a consumer finds the content type of a part, and the table of relationship types of ECMA-376/MS-XLSX; all_kinds runs through every relationship list of the package with its source part |
| C92 | Opts_Spec: what a history of accepted calls says about a row and a column (told_*), without the stored options; Opts_Hist*: every call keeps the stored options equal to it; Cols_Model/Cols_Spec/Props_Cols: text of <cols> and its reader; SheetXml_Rows/Props_Rows: rows of <sheetData>, configured rows are inside the used range |
| C93 | SheetXml_Sops: every compound call keeps the contents storable; SheetXml_General: reading back an arbitrary such state; Props_Rows: the composition with C53 and C54 |
| C94 | Stream_Model: the text of flushed rows and the assembly of the part, from the rows Cells_Model flushes (file_log); Stream_Inv/2: an invariant of every call in every mode (string ids, writable texts, rows within limits, nothing flushed while the table is empty); Stream_Inv3: the log is what was flushed; reading by SheetXml_Spec; equality with standard mode through C18 |
| C95 | Composition of C94 (text of the streamed rows), C18 (equality with standard mode; registries equal by the simulation), the C15/C27 results for any first registry (Stream_From), C71 (styles part): looks_in is stated with the XML readers only |
| C96 | Filter_Xml models the text over the state of Filter_Model; Filter_Read is a reader (ECMA 18.3.2, 18.18.31) and the meaning of the builder calls; proved by composing the structural theorem of C50, the builder theorem of C40 and write_reads |
| C97 | Hf_Model: the two setters, the section check with str::split, the save-time numbering and the VML part; Hf_Spec: sections of a header text, the picture asked for at a place, a reader of the part; split_mark proved equal to the section relation, then invariants over the fold and write_reads for the text; f64 size to pixels is a parameter |
| C98 | Order_Spec: the sequences of sml.xsd and dml-*.xsd as two tables, read from the standard; Order_Proofs/2: each writer function stands in the table, bottom up, for all data; with the read-back of C71, C58, C74, C67 and C76 this is a property of the text |
| C99 | Sst_Populate: populate_string_index beside shared_string_index of Sst_Model; the invariant of C10 up to permutation, started from the placed strings; the converse by writing every placed string once |

## 4. Trusted base

* Coq 8.16.1's kernel (and `coqchk`, which re-checks the compiled files).  No plugin, no functor, no module type, no
  `Declare Module`, no axiom of ours, nothing admitted, no kernel check switched off.
* Axioms: 477 of the 493 theorems are closed under the global context.  The 16 that speak about binary64 rounding or
  real-valued sizes (see `ASSUMPTIONS.md` for which) use Flocq's *lemmas* for relating `SpecFloat` to the reals and hence the
  axioms of the standard library's real numbers: `ClassicalDedekindReals.sig_forall_dec`,
  `ClassicalDedekindReals.sig_not_dec`, `Classical_Prop.classic`,
  `FunctionalExtensionality.functional_extensionality_dep`.  The per-theorem list is in `ASSUMPTIONS.md`.
* The hand transcription from Rust to Gallina: every definition cites the lines it models.  It was exercised with
  seeded wrong programs (`seeded/LOG.jsonl`), not with the Rust compiler, which is absent here.
* Specification readers: the XML reader of `Xml_Read.v`, the A1 reader of `Ref_Spec.v`, the calendar of
  `Date_Spec.v`, ... are what gives a theorem its meaning; they are small and independent of the writer.

### Parameters standing for code outside the crate

These are universally quantified in the theorems (never axioms); where a property needs something of them it is an
explicit hypothesis of the theorem:

* Unicode tables of std: `char::is_alphanumeric`, `is_alphabetic`, lower-casing (`str::to_lowercase`);
* `f64` to decimal text (`ryu`/`Display`) and `str::parse::<f64>`;
* SHA-free: image decoding, zip compression and the hashing of image bytes are not modelled; images are compared by
  an abstract hash.

## 5. What is modelled

`utility.rs` (references, names, quoting, dates helpers, password hash, pixel widths), `xmlwriter.rs`, `url.rs`,
`shared_strings_table.rs`/`shared_strings.rs`, `datetime.rs`, `formula.rs` (prefix insertion), `format.rs` and
`styles.rs` (registries, component tables, font element), `color.rs`, the cell store, constant-memory streaming,
row/column options, grouping, merging, tables, page breaks, autofilter, protection, view and print settings, ignored
errors and the assembly of the sheet part of `worksheet.rs`, `filter.rs`, `protection.rs`, sheet list, defined
names, chart caches and save-time numbering of `workbook.rs`, `relationship.rs`, `content_types.rs` (declared part
names and extensions), `packager.rs` (set of parts and their relationships), `comment.rs`/`vml.rs` (ids and author
ids), `app.rs`, `core.rs`, `custom.rs`, `properties.rs`.

Added later: `data_validation.rs`, `conditional_format.rs`, `hyperlink`s, `table.rs` (the table part), the dxf
section of `styles.rs`, `sparkline.rs`, `chart_range.rs`, the whole of the text of `styles.xml`, `image.rs` (file
headers), `note.rs`/`comment.rs`/`vml.rs` (text of the parts), `drawing.rs`/`shape.rs`, `chart.rs` (text of the chart
parts, element order), `serializer.rs` (feature `serde`).

Added last: embedded images and the rich value parts (Embed_*), the relationships and content types parts as text
(Types_*), the histories of row, column and sheet options read back from the whole sheet part (Opts_*, Cols_*,
SheetXml_General, SheetXml_Rows, SheetXml_Sops), the file written by constant-memory sheets (Stream_*), the text of
the autofilter element (Filter_Xml, Filter_Read), pictures in headers and footers and their VML part (Hf_*), the
schema order of the remaining parts (Order_*), and the cells of tables built by the builder calls (Props_TableCells).

Not modelled: the zip container, `theme.rs` (a constant text), `rdRichValueTypes.xml` (a constant text),
locale/Unicode tables, allocation failure, and running out of disk.  Files under `tests/`, the derive macro crate
(`rust_xlsxwriter_derive`) and feature-gated `polars` code are ignored.

## 6. Findings (deviations of the code from the property; those with a theorem are named `_refuted`)

* c=65535 column overflow
* sheet name "A.1" panics when quoted in a debug build
* U+FFFE/FFFF written raw to XML
* strings looking like `<r>...</r>` written raw
* URLs with escapes double-escaped
* dynamic formulas drop the user's format
* set_range_format cells outside the used range are not emitted
* dimension of a full first row
* rich-string length limit counts markup
* set_formula_result in constant memory uses the current row
* constant-memory duplicate/lost rows
* set_cell_format on a later row lost
* clear_cell does not clear write-ahead data
* write_constant_table_row omits outlineLevel/collapsed/spans
* set_row/column_format keep a stale format
* a rejected merge has already overwritten cells
* after a rejected merge/table a later free range panics
* set_page_breaks(&[0]) panics
* single-level grouping not announced
* rejected grouping half-applied
* adjacent equal `<col>` elements not coalesced
* set_column_width(NaN) writes NaN
* an error inside add_table leaves the write-ahead flag set
* autofilter overlap error leaves the defined name changed
* merges vs tables overlap unchecked
* format registry race between threads
* set_num_format_index >= 164 clashes with custom codes
* unset_hyperlink_style sets the flag
* formula preparation: a name character directly followed by a quote duplicates text, prefixes inserted in quoted sheet names and user function names, `={1,2,3}` loses its closing brace
* push_worksheet name collision
* an empty sheet name can be saved
* define_name with an empty name panics
* "!Foo" bound to sheet 0
* "'!x" panics at save
* first_sheet may denote a hidden tab and is stale after save
* duplicate defined names not rejected
* set_print_area(whole sheet) keeps the stale area
* image URLs differing only in the anchor share a relationship
* Shape::set_url drops the anchor
* note author ids
* shape hyperlink relationship ids with >= 2 charts
* a second save remaps table dxf ids twice and can fail with TableNameReused
* chart caches miss rich strings, booleans, formula results and missing rows
* text "nan"/"inf" in a chart value range and in formula results
* media numbering mismatch for header images
* chartsheet with notes and header image has a wrong legacyDrawingHF id
* >1024 buttons collide VML shape ids
* a password of >= 32768 bytes can hash to 0 and be dropped
* chartsheet protection polarity
* non-blanks autofilter hides numeric cells
* autofilter-hidden rows stay hidden after resave
* wildcards not quoted
* object offsets beyond the last column
* default row height < 0.75pt makes positioning loop forever
* serial dates in document properties become "0-00-00T00:00:00Z"
* sheetPr child order
* chartsheet printOptions
* two `<ext>` starts and one end with both x14 conditional formats and sparklines
* first page number written under the wrong attribute
* twoDigitTextYear attribute capitalised
* x14 data-bar ids/priorities numbered in a different order in the two passes
* set_top_left_cell(0,0) keeps the stale cell
* data validation list items containing commas are split in two; an empty list is accepted and offers one empty item; the error style of a validation of type Any is dropped (with the default messages)
* x14 icon sets drop reverse, show-icons-only, stop-if-true and strictly-greater thresholds, and thresholds of type Lowest/Automatic; x14 icon priorities restart counting without ranges that have no extension, so they can equal that of another rule
* the formula of a text rule (contains/begins/ends) does not double quotes and counts UTF-8 bytes, not characters
* theme colours of scales and bars are written as black; a negative bar border equal to the fill but not to the border is lost
* the link of an embedded image is written with its fragment twice: in the target and as location
* a second autofit can narrow a column below the width the user set: widening marks the column as fitted
* table columns with a format: each save translates their dxf number again, so a second save of the workbook selects another format and a further one can panic (index out of range)
* a table column whose name has an opening bracket after a function name, or a double quote after a capital letter, gets a damaged SUBTOTAL formula in its total row
* a save that fails late leaves state behind: notes and buttons are written twice by the next save, and shapes can be lost or misplaced (C47)
* sparkline groups: the number of cells is compared with the wrong dimension of the data, so sparklines can refer to cells outside it; a two-dimensional block of cells gets sparklines in its first row only; the date range is never validated (C69)
* a chart or sparkline range given as text: doubled quotes in a sheet name are kept, a name with '!' gives an empty range, texts like A1B2 or A1:B2:C3 are accepted, a lone quote before '!' panics (C70)
* formats: set_num_format after set_num_format_index is ignored, set_num_format_index(0) does not reset; unset_hyperlink_style sets the hyperlink flag; both fill colours without a pattern give no fill; an automatic background colour fills the cell; indent with Top/Bottom keeps an alignment that ignores it (C71)
* differential formats lose a lone foreground colour and diagonal lines (C72)
* Image::new_from_buffer panics on buffers of fewer than 4 bytes, on PNG files cut inside a chunk header and on JPEG files without a scan; a top-down BMP gets a height of about 4 billion; JPEG fill bytes hide the size; a JFXX segment is read as a resolution (C73)
* **C74**: a note's text shows the wrong author's name in front when the authors of a sheet do not first appear in increasing order (with C34) (`C74_wrong_author_shown_refuted`).
* **C75**: `show_all_notes(true)` sticks: a save makes all notes visible for good, so that `show_all_notes(false)` before the next save has no effect (`C75_show_all_sticks_refuted`).
* **C75**: a theme colour given to `Note::set_background_color` is dropped, the note is the default yellow (`C75_theme_fill_refuted`).
* A picture on a chartsheet gets the id of the chart (2): the ids of a drawing part are not unique (C76_ids_refuted).
* ShapeFont::set_strikethrough and set_right_to_left have no effect: nothing is written (C77_strike_refuted).
* A line end at the end of the text of a shape is lost (C77_last_line_refuted).
* The transparency of a shape's line is dropped unless the line has its own (not automatic) colour (C77_line_transparency_refuted).
* With several fills the last one does not win: no fill, then solid, then pattern, then gradient (C77_last_fill_refuted).
* ShapeGradientFill without accepted stops writes an empty list of stops, which the schema forbids (C77_no_stops_refuted).
* A font size such as 8.2 is written as 819.9999999999999, no valid size (C77_size_refuted).
* C78: a pie or doughnut chart combined with a column (line, bar, ...) chart writes groups of series whose axis ids no axis defines (src/chart.rs:3533-3609: the main chart's type alone decides which axes are written); the same for series on secondary axes if the combined chart is a pie.
* C79: push_series on a scatter chart replaces the format of the series, on line, radar and some scatter charts its marker (src/chart.rs:1254-1276).
* C79: a format without a line given to a series of a marker-only scatter chart makes a visible 2.25 pt line (3893-3897).
* C79: a gap (or overlap) asked of the primary columns is also written for the secondary ones, an explicit 150 does not undo it, and after a save it also leaks to the primary group (3776-3783).
* C79: Polynomial(6) and MovingAverage(4) are refused although the error message calls 2-6 and 2-4 valid (2722-2740).
* C79: a series name given as text and then as a range stays the text.
* C80: set_date_axis on the category axis of a bar chart (its y axis) does not make a date axis: the code asks the x axis (3533-3609).
* C80: set_automatic_axis(true) and set_text_axis(true) write the same category axis: the automatic flag is missing in both.
* C81: a title taken from a cell loses its font if it also has a format.
* C81: removing legend entries of the combined chart has no effect, and an entry removed from a series is the wrong one if series on the secondary axes were added before (2837-2868).
* C82: legends with both overlay and a format, markers of scatter charts, formats of straight or smooth scatter series, intervals on date axes, custom labels with text and a font, trendlines or error bars of pie, doughnut and radar charts, inverted colours with smoothed lines put elements where the chart schema does not allow them
* C83: a struct field that is itself a struct loses all fields after it; a field that is a sequence, tuple or map keeps only its last element; a bare value serialized after a record overwrites the record's last field; a record of a struct without headers vanishes silently; integers beyond 2^53 change (src/serializer.rs:1997-2025, 3522-3890).
* C84: hidden headers at row 0 without a record: get_serialize_dimensions panics (debug build); at other rows the last row is before the first.
* C85: headers that run past the last column are rejected with an error after the first of them have been written (and their column widths and formats set).
* C86: a table over headers without a record makes save fail, and the next save succeeds with the table silently gone; records serialized after a save lie outside the table; two columns with equal headers are accepted and fail at save; the order of several tables, and so their ids and default names, is that of a HashMap with a random seed, so that equal programs give different files.
* C88: merge: a property explicitly set to its initial value (size 11, not bold, locked) is overridden by the secondary format; a number format code loses against the secondary format's built-in index; a hyperlink format merged into another loses its hyperlink flag.
* C88: set_row_height before set_row_format (or set_column_width before set_column_format) makes a cell at the crossing of a formatted row and column lose the merged format; likewise if the formats are set after the cell was written.
* C89: embed_image of the same bytes with another alt text or decorative mark: only the first description and mark are in the file (src/workbook.rs, images compared by hash of the bytes).
* C89: when only some embedded images have an alt text, the rich values of the others have fewer values than the shared structure has keys.
* C89: embed_image in constant memory mode: the next row written panics (src/worksheet.rs:18806 indexes the not yet assigned image numbers).
* C92: set_default_row_height does not apply to rows configured before (formatted, hidden or grouped without a height): they are written with the old default height (src/worksheet.rs:6589, 7622).
* C94: the outline of a constant-memory sheet is lost (C94_outline_refuted): group_rows succeeds but write_constant_table_row (worksheet.rs:18946-18998) writes neither outlineLevel nor collapsed.
* C96: an autofilter call rejected for overlapping a table leaves the new columns in force over the old range: filter_column then writes a filterColumn outside the element's range.
* C97: text before any section letter is the centre section in Excel, but set_header_image refuses a picture there although it has a picture code; an ampersand written && counts as the start of a section or picture code; a later set_header leaves accepted pictures behind that the new text has no code for.
* C99: populate_string_table accepts any place: a gap makes cells point at wrong strings or behind the end of the table (C99_gap_refuted, C99_twice_refuted).
