(** Model of a whole worksheet or chartsheet part: the order and presence of its
    elements (src/worksheet.rs:17325-17537), and the elements no other model has:
    <worksheet>, <dimension>, <sheetFormatPr>, the page breaks, <ignoredErrors>,
    the elements that name a related part, and <extLst>. *)
From Verif Require Import Base F64 Ref_Model Xml_Model Xml_Tree Cells_Model Rich_Model View_Model.

(** What the part is written from.  The contents of the elements modelled
    elsewhere are given as trees: [n_cols] (Sheet_Model), [n_protection] and
    [n_ranges] (Prot_Model), [n_filter] (Filter_Model), [n_merges]
    (Merge_Model), [n_cf], [n_dv]; [n_data] is the text of <sheetData>
    (SheetXml_Model).  [n_x14_cf] and [n_sparklines] are the contents of
    <x14:conditionalFormattings> and <x14:sparklineGroups>, when there are any;
    [use_x14_extensions] is set exactly when one of the two flags is (9045-9046,
    9320-9321, 9475-9476). *)
Record sheet_in := {
  n_setup : setup; n_pr : pr_extra;
  n_dims : N * N * N * N;                      (* first_row, first_col, last_row, last_col *)
  n_row_height : f64; n_hide_rows : bool; n_row_level : N; n_col_level : N;
  n_cols : list wx; n_data : str;
  n_protection : list wx; n_ranges : list wx; n_filter : list wx; n_merges : list wx;
  n_cf : list wx; n_dv : list wx; n_links : list wx;
  n_row_breaks : list N; n_col_breaks : list N;
  n_ignored : list (string * str);             (* attribute name, ranges *)
  n_rel_count : N; n_drawing : bool; n_vml : bool; n_hf_images : bool; n_background : bool; n_tables : nat;
  n_x14_cf : option (list wx); n_sparklines : option (list wx) }.
Definition present {A} (o : option A) : bool := match o with Some _ => true | None => false end.
Definition use_x14 (i : sheet_in) : bool := present (n_x14_cf i) || present (n_sparklines i).

Definition main_ns : str := lit "http://schemas.openxmlformats.org/spreadsheetml/2006/main".
Definition rel_ns : str := lit "http://schemas.openxmlformats.org/officeDocument/2006/relationships".
(** 17540-17565 *)
Definition worksheet_attrs (x14 : bool) : list (str * str) :=
  [(lit "xmlns", main_ns); (lit "xmlns:r", rel_ns)] ++
  when x14 [(lit "xmlns:mc", lit "http://schemas.openxmlformats.org/markup-compatibility/2006");
            (lit "xmlns:x14ac", lit "http://schemas.microsoft.com/office/spreadsheetml/2009/9/ac");
            (lit "mc:Ignorable", lit "x14ac")].
(** 17568-17581 *)
Definition chartsheet_attrs : list (str * str) := [(lit "xmlns", main_ns); (lit "xmlns:r", rel_ns)].
(** 17668-17697 *)
Definition dimension_xml (m : ovf) (d : N * N * N * N) : option wx :=
  let '(fr, fc, lr, lc) := d in
  ref <- (if (fr =? 0) && (fc =? 0) && (lr =? 0) && (lc =? COL_MAX - 1) then Some (lit "A1")
          else if negb (fr =? ROW_MAX) || negb (fc =? COL_MAX) || negb (lr =? 0) || negb (lc =? 0)
               then cell_range m fr fc lr lc
               else Some (lit "A1")) ;;
  Some (WEmpty (lit "dimension") [(lit "ref", ref)]).
(** 17854-17878 *)
Definition format_pr_xml (num_text : f64 -> str) (i : sheet_in) : wx :=
  WEmpty (lit "sheetFormatPr")
    ([(lit "defaultRowHeight", num_text (n_row_height i))] ++
     yes (negb (feq (n_row_height i) DEFAULT_ROW_HEIGHT)) "customHeight" ++
     yes (n_hide_rows i) "zeroHeight" ++
     when (0 <? n_row_level i) [(lit "outlineLevelRow", dec (n_row_level i))] ++
     when (0 <? n_col_level i) [(lit "outlineLevelCol", dec (n_col_level i))] ++
     when (use_x14 i) [(lit "x14ac:dyDescent", lit "0.25")]).
(** An element around contents, absent when there are none. *)
Definition wrap (tag : string) (l : list wx) : list wx := match l with [] => [] | _ => [WElem (lit tag) [] l] end.
(** 19615-19668 *)
Definition breaks_xml (tag max : string) (l : list N) : list wx :=
  match l with
  | [] => []
  | _ => [WElem (lit tag) [(lit "count", dec (N.of_nat (length l))); (lit "manualBreakCount", dec (N.of_nat (length l)))]
            (map (fun n => WEmpty (lit "brk") [(lit "id", dec n); (lit "max", lit max); (lit "man", lit "1")]) l)]
  end.
(** 19854-19870; 20771-20804: the error kinds in the order of [iterator] with the
    attribute name of their [Display]. *)
Inductive ignore_kind :=
| NumberStoredAsText | FormulaError | FormulaDiffers | FormulaOmitsCells | UnlockedCellsWithFormula
| InconsistentColumnFormula | FormulaRefersToEmptyCells | DataValidationError | TwoDigitTextYear.
Definition ignore_kinds : list ignore_kind :=
  [NumberStoredAsText; FormulaError; FormulaDiffers; FormulaOmitsCells; UnlockedCellsWithFormula;
   InconsistentColumnFormula; FormulaRefersToEmptyCells; DataValidationError; TwoDigitTextYear].
Definition ignore_name (k : ignore_kind) : string :=
  match k with
  | FormulaError => "evalError" | FormulaDiffers => "formula" | TwoDigitTextYear => "TwoDigitTextYear"
  | FormulaOmitsCells => "formulaRange" | DataValidationError => "listDataValidation"
  | NumberStoredAsText => "numberStoredAsText" | UnlockedCellsWithFormula => "unlockedFormula"
  | InconsistentColumnFormula => "calculatedColumn" | FormulaRefersToEmptyCells => "emptyCellReference"
  end%string.
Definition ignore_eqb (a b : ignore_kind) : bool := String.eqb (ignore_name a) (ignore_name b).
(** The fields ignored_errors (a map from kinds to range texts) and
    ignored_error_cells, and ignore_error_range (14653-14694). *)
Record ignored := { ig_ranges : list (ignore_kind * str); ig_cells : list (N * N * N * N) }.
Definition ignored_new : ignored := {| ig_ranges := []; ig_cells := [] |}.
Definition quad_eqb (a b : N * N * N * N) : bool :=
  let '(a1, a2, a3, a4) := a in let '(b1, b2, b3, b4) := b in (a1 =? b1) && (a2 =? b2) && (a3 =? b3) && (a4 =? b4).
Fixpoint ig_add (k : ignore_kind) (range : str) (l : list (ignore_kind * str)) : list (ignore_kind * str) :=
  match l with
  | [] => [(k, range)]
  | (k', t) :: r => if ignore_eqb k k' then (k', t ++ lit " " ++ range) :: r else (k', t) :: ig_add k range r
  end.
Definition ignore_error_range (m : ovf) (s : ignored) (fr fc lr lc : N) (k : ignore_kind) : option (ignored * bool) :=
  if negb (check_dimensions_only fr fc) || negb (check_dimensions_only lr lc) then Some (s, true)
  else if (lr <? fr) || (lc <? fc) then Some (s, true)
  else range <- cell_range m fr fc lr lc ;;
       if existsb (quad_eqb (fr, fc, lr, lc)) (ig_cells s) then Some (s, true)
       else Some ({| ig_ranges := ig_add k range (ig_ranges s); ig_cells := (fr, fc, lr, lc) :: ig_cells s |}, false).
Definition ig_get (k : ignore_kind) (s : ignored) : list (string * str) :=
  match find (fun p => ignore_eqb k (fst p)) (ig_ranges s) with Some p => [(ignore_name k, snd p)] | None => [] end.
Definition ignored_out (s : ignored) : list (string * str) := flat_map (fun k => ig_get k s) ignore_kinds.
Definition ignored_xml (l : list (string * str)) : list wx :=
  wrap "ignoredErrors" (map (fun p => WEmpty (lit "ignoredError") [(lit "sqref", snd p); (lit (fst p), lit "1")]) l).
(** 19450-19504: each element takes the next relationship id. *)
Definition rel_xml (tag : string) (id : N) : wx := WEmpty (lit tag) [(lit "r:id", lit "rId" ++ dec id)].
Definition rel_opt (b : bool) (tag : string) (id : N) : list wx * N := if b then ([rel_xml tag (id + 1)], id + 1) else ([], id).
Fixpoint table_part_xml (n : nat) (id : N) : list wx :=
  match n with O => [] | S n' => rel_xml "tablePart" (id + 1) :: table_part_xml n' (id + 1) end.
Definition table_parts_xml (n : nat) (id : N) : list wx :=
  match n with O => [] | _ => [WElem (lit "tableParts") [(lit "count", dec (N.of_nat n))] (table_part_xml n id)] end.
Definition rels_xml (i : sheet_in) : list wx :=
  let '(a, id) := rel_opt (n_drawing i) "drawing" (n_rel_count i) in
  let '(b, id) := rel_opt (n_vml i) "legacyDrawing" id in
  let '(c, id) := rel_opt (n_hf_images i) "legacyDrawingHF" id in
  let '(d, id) := rel_opt (n_background i) "picture" id in
  a ++ b ++ c ++ d ++ table_parts_xml (n_tables i) id.

(** 19671-19703: one end tag, whatever was started.  The calls are kept apart
    because they need not match. *)
Definition ext_attrs (uri : string) : list (str * str) :=
  [(lit "xmlns:x14", lit "http://schemas.microsoft.com/office/spreadsheetml/2009/9/main"); (lit "uri", lit uri)].
Definition cf_ext_uri : string := "{78C0D931-6437-407d-A8EE-F0AAD7539E65}".
Definition spark_ext_uri : string := "{05C60535-1F16-4fd2-B633-F4F36F0B64E0}".
Definition cf_ext_body (l : list wx) : wx := WElem (lit "x14:conditionalFormattings") [] l.
Definition spark_ext_body (l : list wx) : wx :=
  WElem (lit "x14:sparklineGroups") [(lit "xmlns:xm", lit "http://schemas.microsoft.com/office/excel/2006/main")] l.
Definition extensions_text (i : sheet_in) : str :=
  xml_start_tag (lit "extLst") [] ++
  match n_x14_cf i with
  | Some l => xml_start_tag (lit "ext") (ext_attrs cf_ext_uri) ++ write_wx (cf_ext_body l)
  | None => []
  end ++
  match n_sparklines i with
  | Some l => xml_start_tag (lit "ext") (ext_attrs spark_ext_uri) ++ write_wx (spark_ext_body l)
  | None => []
  end ++
  xml_end_tag (lit "ext") ++ xml_end_tag (lit "extLst").

Section Part.
  Variable num_text : f64 -> str.
  Variable m : ovf.
  Definition texts (l : list wx) : str := flat_map write_wx l.
  (** 17341-17360 *)
  Definition part_head (i : sheet_in) : option (list wx) :=
    d <- dimension_xml m (n_dims i) ;;
    v <- sheet_views_xml m false (n_setup i) ;;
    Some (sheet_pr_xml (n_pr i) (n_setup i) ++ [d; v; format_pr_xml num_text i] ++ wrap "cols" (n_cols i)).
  (** 17382-17473 *)
  Definition part_tail (i : sheet_in) : list wx :=
    n_protection i ++ n_ranges i ++ n_filter i ++ n_merges i ++ n_cf i ++ n_dv i ++ n_links i ++
    page_xml num_text (n_setup i) ++
    breaks_xml "rowBreaks" "16383" (n_row_breaks i) ++ breaks_xml "colBreaks" "1048575" (n_col_breaks i) ++
    ignored_xml (n_ignored i) ++ rels_xml i.
  (** 17325-17482 *)
  Definition worksheet_text (i : sheet_in) : option str :=
    head <- part_head i ;;
    Some (xml_declaration ++ xml_start_tag (lit "worksheet") (worksheet_attrs (use_x14 i)) ++
          texts head ++ n_data i ++ texts (part_tail i) ++ (if use_x14 i then extensions_text i else []) ++
          xml_end_tag (lit "worksheet")).
  (** 17485-17537 *)
  Definition chartsheet_kids (i : sheet_in) : option (list wx) :=
    v <- sheet_views_xml m true (n_setup i) ;;
    let '(a, id) := rel_opt (n_drawing i) "drawing" (n_rel_count i) in
    let '(c, _) := rel_opt (n_hf_images i) "legacyDrawingHF" id in
    Some (sheet_pr_xml (n_pr i) (n_setup i) ++ [v] ++ n_protection i ++ n_ranges i ++
          page_xml num_text (n_setup i) ++ a ++ c).
  Definition chartsheet_text (i : sheet_in) : option str :=
    kids <- chartsheet_kids i ;;
    Some (document (WElem (lit "chartsheet") chartsheet_attrs kids)).
End Part.
