(** The text of [Content_Types].xml and of the relationship parts.
    content_types.rs and packager.rs 229-329, with the names of Pkg_Model. *)
From Verif Require Import Base Xml_Model Xml_Tree Pkg_Model Embed_Model.

Definition office_type (t : string) : str := lit "application/vnd.openxmlformats-officedocument." ++ lit t.
Definition sheetml (t : string) : str := office_type "spreadsheetml." ++ lit t.

(** src/packager.rs:301-312: the defaults of the image formats. *)
Definition image_type (e : img_ext) : str := lit "image/" ++ ext_name e.

(** ContentTypes.defaults: content_types.rs:24-33 (new), packager.rs:293-312, 318-320. *)
Definition typed_defaults (o : popts) (l : list prep) : list (str * str) :=
  [(lit "rels", lit "application/vnd.openxmlformats-package.relationships+xml"); (lit "xml", lit "application/xml")]
  ++ when (o_vml o) [(lit "vml", office_type "vmlDrawing")]
  ++ when (uses_ext Png l) [(lit "png", lit "image/png")] ++ when (uses_ext Jpg l) [(lit "jpeg", lit "image/jpeg")]
  ++ when (uses_ext Gif l) [(lit "gif", lit "image/gif")] ++ when (uses_ext Bmp l) [(lit "bmp", lit "image/bmp")]
  ++ when (o_xlsm o) [(lit "bin", lit "application/vnd.ms-office.vbaProject")].

(** ContentTypes.overrides: content_types.rs:35-56, the add_ functions of
    content_types.rs:78-188 in the order of packager.rs:232-291, 314-316. *)
Definition typed_overrides (o : popts) (l : list prep) : list (str * str) :=
  [(lit "/docProps/app.xml", office_type "extended-properties+xml");
   (lit "/docProps/core.xml", lit "application/vnd.openxmlformats-package.core-properties+xml");
   (lit "/xl/styles.xml", sheetml "styles+xml"); (lit "/xl/theme/theme1.xml", office_type "theme+xml");
   (lit "/xl/workbook.xml", if o_xlsm o then lit "application/vnd.ms-excel.sheet.macroEnabled.main+xml" else sheetml "sheet.main+xml")]
  ++ when (o_sig o) [(lit "/xl/vbaProjectSignature.bin", lit "application/vnd.ms-office.vbaProjectSignature")]
  ++ map (fun i => (numbered "/xl/worksheets/sheet" i ".xml", sheetml "worksheet+xml")) (up_to (count_if (fun p => negb (u_chartsheet (p_u p))) l))
  ++ map (fun i => (numbered "/xl/chartsheets/sheet" i ".xml", sheetml "chartsheet+xml")) (up_to (count_if (fun p => u_chartsheet (p_u p)) l))
  ++ map (fun i => (numbered "/xl/drawings/drawing" i ".xml", office_type "drawing+xml")) (up_to (count_if (fun p => negb (is_nil (d_infos (p_d p)))) l))
  ++ map (fun i => (numbered "/xl/charts/chart" i ".xml", office_type "drawingml.chart+xml")) (up_to (sum_len (fun p => u_charts (p_u p)) l))
  ++ map (fun i => (numbered "/xl/tables/table" i ".xml", sheetml "table+xml")) (up_to (sum_len (fun p => u_tables (p_u p)) l))
  ++ map (fun i => (numbered "/xl/comments" i ".xml", sheetml "comments+xml")) (up_to (count_if (fun p => negb (is_nil (u_notes (p_u p)))) l))
  ++ when (o_sst o) [(lit "/xl/sharedStrings.xml", sheetml "sharedStrings+xml")]
  ++ when (o_metadata o) [(lit "/xl/metadata.xml", sheetml "sheetMetadata+xml")]
  ++ when (o_embedded o)
       [(lit "/xl/richData/rdRichValueTypes.xml", lit "application/vnd.ms-excel.rdrichvaluetypes+xml");
        (lit "/xl/richData/rdrichvalue.xml", lit "application/vnd.ms-excel.rdrichvalue+xml");
        (lit "/xl/richData/rdrichvaluestructure.xml", lit "application/vnd.ms-excel.rdrichvaluestructure+xml");
        (lit "/xl/richData/richValueRel.xml", lit "application/vnd.ms-excel.richvaluerel+xml")]
  ++ when (o_bags o) [(lit "/xl/featurePropertyBag/featurePropertyBag.xml", lit "application/vnd.ms-excel.featurepropertybag+xml")]
  ++ when (o_custom o) [(lit "/docProps/custom.xml", office_type "custom-properties+xml")].

(** content_types.rs:195-249 *)
Definition write_default (e : str * str) : wx := WEmpty (lit "Default") [(lit "Extension", fst e); (lit "ContentType", snd e)].
Definition write_override (e : str * str) : wx := WEmpty (lit "Override") [(lit "PartName", fst e); (lit "ContentType", snd e)].
Definition types_text (o : popts) (l : list prep) : str :=
  document (WElem (lit "Types") [(lit "xmlns", lit "http://schemas.openxmlformats.org/package/2006/content-types")]
    (map write_default (typed_defaults o l) ++ map write_override (typed_overrides o l))).
(** The text of [Content_Types].xml of a saved workbook: save_internal, then
    write_content_types_file. *)
Definition saved_types_text (b : pbook) : str := let l := snd (prepare b) in types_text (package_options b l) l.
(** relationship.rs:80-145 for any relationships part: [Embed_Model.relationships_part]. *)
