(** The parts docProps/app.xml, docProps/core.xml, docProps/custom.xml and
    xl/workbook.xml, as trees of writer calls. *)
From Verif Require Import Base F64 Xml_Model Xml_Tree Date_Model Book_Model.

(** src/properties.rs:626-698 CustomProperty, by its constructors (the unused
    fields of each are left out). *)
Inductive custom_value := CText (s : str) | CInt (z : Z) | CReal (x : f64) | CBool (b : bool) | CDate (s : str).
Record custom_prop := { cu_name : str; cu_value : custom_value }.
(** src/properties.rs:344-357 DocProperties; [creation_time] is the text
    already made by utc_now or to_rfc3339. *)
Record docprops := {
  dp_author : str; dp_title : str; dp_comment : str; dp_company : str; dp_manager : str; dp_status : str;
  dp_subject : str; dp_category : str; dp_keywords : str; dp_hyperlink_base : str; dp_created : str;
  dp_custom : list custom_prop }.
(** src/properties.rs:367-382 *)
Definition docprops_new (now : str) : docprops :=
  {| dp_author := []; dp_title := []; dp_comment := []; dp_company := []; dp_manager := []; dp_status := [];
     dp_subject := []; dp_category := []; dp_keywords := []; dp_hyperlink_base := []; dp_created := now; dp_custom := [] |}.
(** src/properties.rs:393-615: the setters; the last call of a kind wins, custom
    properties accumulate. *)
Inductive doc_op :=
| DTitle (s : str) | DSubject (s : str) | DManager (s : str) | DCompany (s : str) | DCategory (s : str)
| DAuthor (s : str) | DKeywords (s : str) | DComment (s : str) | DStatus (s : str) | DBase (s : str)
| DCreated (s : str) | DCustom (name : str) (v : custom_value).
Definition doc_step (p : docprops) (o : doc_op) : docprops :=
  match p with
  | Build_docprops au ti co cm ma st su ca ke hb cr cu =>
    match o with
    | DTitle s => Build_docprops au s co cm ma st su ca ke hb cr cu
    | DSubject s => Build_docprops au ti co cm ma st s ca ke hb cr cu
    | DManager s => Build_docprops au ti co cm s st su ca ke hb cr cu
    | DCompany s => Build_docprops au ti co s ma st su ca ke hb cr cu
    | DCategory s => Build_docprops au ti co cm ma st su s ke hb cr cu
    | DAuthor s => Build_docprops s ti co cm ma st su ca ke hb cr cu
    | DKeywords s => Build_docprops au ti co cm ma st su ca s hb cr cu
    | DComment s => Build_docprops au ti s cm ma st su ca ke hb cr cu
    | DStatus s => Build_docprops au ti co cm ma s su ca ke hb cr cu
    | DBase s => Build_docprops au ti co cm ma st su ca ke s cr cu
    | DCreated s => Build_docprops au ti co cm ma st su ca ke hb s cu
    | DCustom n v => Build_docprops au ti co cm ma st su ca ke hb cr (cu ++ [{| cu_name := n; cu_value := v |}])
    end
  end.
Definition doc_run (now : str) (l : list doc_op) : docprops := fold_left doc_step l (docprops_new now).

From Verif Require Import Rich_Model.
Definition data_only (tag : string) (s : str) : wx := WData (lit tag) s [].
(** xml_data_element_only under [!s.is_empty()]. *)
Definition data_opt (tag : string) (s : str) : list wx := when (nonempty s) [data_only tag s].

(** src/core.rs:41-176 *)
Definition core_xml (p : docprops) : wx :=
  WElem (lit "cp:coreProperties")
    [(lit "xmlns:cp", lit "http://schemas.openxmlformats.org/package/2006/metadata/core-properties");
     (lit "xmlns:dc", lit "http://purl.org/dc/elements/1.1/");
     (lit "xmlns:dcterms", lit "http://purl.org/dc/terms/");
     (lit "xmlns:dcmitype", lit "http://purl.org/dc/dcmitype/");
     (lit "xmlns:xsi", lit "http://www.w3.org/2001/XMLSchema-instance")]
    (data_opt "dc:title" (dp_title p) ++ data_opt "dc:subject" (dp_subject p) ++
     [data_only "dc:creator" (dp_author p)] ++
     data_opt "cp:keywords" (dp_keywords p) ++ data_opt "dc:description" (dp_comment p) ++
     [data_only "cp:lastModifiedBy" (dp_author p);
      WData (lit "dcterms:created") (dp_created p) [(lit "xsi:type", lit "dcterms:W3CDTF")];
      WData (lit "dcterms:modified") (dp_created p) [(lit "xsi:type", lit "dcterms:W3CDTF")]] ++
     data_opt "cp:category" (dp_category p) ++ data_opt "cp:contentStatus" (dp_status p)).

(** i32 and bool Display. *)
Definition int_text (z : Z) : str := if (z <? 0)%Z then 45 :: dec (Z.to_N (- z)) else dec (Z.to_N z).
Definition bool_text (b : bool) : str := if b then lit "true" else lit "false".

Section Custom.
  Variable num_text : f64 -> str.     (* Display of f64 *)
  (** src/custom.rs:67-111 *)
  Definition custom_value_xml (v : custom_value) : wx :=
    match v with
    | CText s => data_only "vt:lpwstr" s
    | CDate s => data_only "vt:filetime" s
    | CInt z => data_only "vt:i4" (int_text z)
    | CReal x => data_only "vt:r8" (num_text x)
    | CBool b => data_only "vt:bool" (bool_text b)
    end.
  Fixpoint custom_props_xml (pid : N) (l : list custom_prop) : list wx :=
    match l with
    | [] => []
    | p :: r => WElem (lit "property")
                  [(lit "fmtid", lit "{D5CDD505-2E9C-101B-9397-08002B2CF9AE}"); (lit "pid", dec pid); (lit "name", cu_name p)]
                  [custom_value_xml (cu_value p)] :: custom_props_xml (pid + 1) r
    end.
  (** src/custom.rs:40-64; packager.rs writes the part when there is a custom
      property. *)
  Definition custom_xml (p : docprops) : wx :=
    WElem (lit "Properties")
      [(lit "xmlns", lit "http://schemas.openxmlformats.org/officeDocument/2006/custom-properties");
       (lit "xmlns:vt", lit "http://schemas.openxmlformats.org/officeDocument/2006/docPropsVTypes")]
      (custom_props_xml 2 (dp_custom p)).

  (** src/datetime.rs:1280-1285 to_rfc3339: [{:02}] pads on the left with zeros. *)
  Definition pad2 (s : str) : str := match s with [] => lit "00" | [c] => [48; c] | _ => s end.
  Definition to_rfc3339 (d : exceldt) : str :=
    dec (year d) ++ 45 :: pad2 (dec (month d)) ++ 45 :: pad2 (dec (day d)) ++ 84 ::
    pad2 (dec (hour d)) ++ 58 :: pad2 (dec (minute d)) ++ 58 :: pad2 (num_text (sec d)) ++ [90].
End Custom.

(** src/packager.rs:735-777 write_app_file: titles and heading pairs.  The
    counters of sheets are u16 ([+= 1] panics in a debug build); the number of
    names is truncated with [as u16].  src/app.rs:43-48: a pair is kept when its
    value is positive. *)
Definition count16 (m : ovf) (n : N) : option N :=
  match m with Debug => if n <? 65536 then Some n else None | Release => Some (as_u16 n) end.
Definition pair_opt (k : string) (n : N) : list (str * N) := when (0 <? n) [(lit k, n)].
Definition app_pairs (m : ovf) (f : book_file) : option (list (str * N)) :=
  nw <- count16 m (N.of_nat (length (bf_app_sheets f))) ;;
  nc <- count16 m (N.of_nat (length (bf_app_charts f))) ;;
  Some (pair_opt "Worksheets" nw ++ pair_opt "Charts" nc ++
        match bf_app_names f with [] => [] | l => pair_opt "Named Ranges" (as_u16 (N.of_nat (length l))) end).
Definition app_titles (f : book_file) : list str := bf_app_sheets f ++ bf_app_charts f ++ bf_app_names f.

(** src/app.rs:59-243 *)
Definition pair_xml (p : str * N) : list wx :=
  [WElem (lit "vt:variant") [] [data_only "vt:lpstr" (fst p)];
   WElem (lit "vt:variant") [] [data_only "vt:i4" (dec (snd p))]].
Definition app_xml (security : N) (p : docprops) (pairs : list (str * N)) (titles : list str) : wx :=
  WElem (lit "Properties")
    [(lit "xmlns", lit "http://schemas.openxmlformats.org/officeDocument/2006/extended-properties");
     (lit "xmlns:vt", lit "http://schemas.openxmlformats.org/officeDocument/2006/docPropsVTypes")]
    ([data_only "Application" (lit "Microsoft Excel"); data_only "DocSecurity" (dec security);
      data_only "ScaleCrop" (lit "false");
      WElem (lit "HeadingPairs") []
        [WElem (lit "vt:vector") [(lit "size", dec (N.of_nat (length pairs) * 2)); (lit "baseType", lit "variant")]
           (flat_map pair_xml pairs)];
      WElem (lit "TitlesOfParts") []
        [WElem (lit "vt:vector") [(lit "size", dec (N.of_nat (length titles))); (lit "baseType", lit "lpstr")]
           (map (data_only "vt:lpstr") titles)]] ++
     data_opt "Manager" (dp_manager p) ++
     [data_only "Company" (dp_company p); data_only "LinksUpToDate" (lit "false"); data_only "SharedDoc" (lit "false")] ++
     data_opt "HyperlinkBase" (dp_hyperlink_base p) ++
     [data_only "HyperlinksChanged" (lit "false"); data_only "AppVersion" (lit "12.0000")]).

(** ** xl/workbook.xml *)
(** Workbook settings outside [book]: is_xlsm_file, read_only_mode (0 or 2),
    vba_codename. *)
Record book_extra := { x_xlsm : bool; x_read_only : N; x_vba : option str }.
(** src/workbook.rs:3003-3018 *)
Definition sheet_xml (e : sheet_entry) : wx :=
  WEmpty (lit "sheet")
    ([(lit "name", se_name e); (lit "sheetId", dec (se_id e))] ++
     match se_state e with VDefault => [] | VHidden => [(lit "state", lit "hidden")] | VVeryHidden => [(lit "state", lit "veryHidden")] end ++
     [(lit "r:id", lit "rId" ++ dec (se_rid e))]).
(** src/workbook.rs:3024-3044 *)
Definition name_xml (e : name_entry) : wx :=
  WData (lit "definedName") (ne_range e)
    ([(lit "name", ne_name e)] ++
     match ne_local e with Some i => [(lit "localSheetId", dec i)] | None => [] end ++
     when (ne_hidden e) [(lit "hidden", lit "1")]).
Definition opt_attr (k : string) (o : option N) : list (str * str) :=
  match o with Some n => [(lit k, dec n)] | None => [] end.
(** src/workbook.rs:2871-3054 *)
Definition workbook_xml (x : book_extra) (f : book_file) : wx :=
  WElem (lit "workbook")
    [(lit "xmlns", lit "http://schemas.openxmlformats.org/spreadsheetml/2006/main");
     (lit "xmlns:r", lit "http://schemas.openxmlformats.org/officeDocument/2006/relationships")]
    ([WEmpty (lit "fileVersion")
       ([(lit "appName", lit "xl"); (lit "lastEdited", lit "4"); (lit "lowestEdited", lit "4"); (lit "rupBuild", lit "4505")] ++
        when (x_xlsm x) [(lit "codeName", lit "{37E998C4-C9E5-D4B9-71C8-EB1FF731991C}")])] ++
     when (x_read_only x =? 2) [WEmpty (lit "fileSharing") [(lit "readOnlyRecommended", lit "1")]] ++
     [WEmpty (lit "workbookPr")
       (match x_vba x with Some n => [(lit "codeName", n)] | None => [] end ++ [(lit "defaultThemeVersion", lit "124226")]);
      WElem (lit "bookViews") []
       [WEmpty (lit "workbookView")
          ([(lit "xWindow", lit "240"); (lit "yWindow", lit "15"); (lit "windowWidth", lit "16095"); (lit "windowHeight", lit "9660")] ++
           opt_attr "firstSheet" (bf_first f) ++ opt_attr "activeTab" (bf_active f))];
      WElem (lit "sheets") [] (map sheet_xml (bf_sheets f))] ++
     match bf_names f with [] => [] | l => [WElem (lit "definedNames") [] (map name_xml l)] end ++
     [WEmpty (lit "calcPr") [(lit "calcId", lit "124519"); (lit "fullCalcOnLoad", lit "1")]]).
