(** Reading a worksheet part: its view, print setup and tab, and the order of its
    elements.  Uses the XML and A1 readers only; no writer function. *)
From Verif Require Import Base Xml_Spec Xml_Read Ref_Spec SheetXml_Spec Doc_Spec.

Definition cell_of (s : str) : option (N * N) := bind (parse_a1 s) (fun a => Some (a1_row a, a1_col a)).
Definition range_of (s : str) : option (N * N * (N * N)) :=
  match parse_range s with
  | Some (a, b) => Some (a1_row a, a1_col a, (a1_row b, a1_col b))
  | None => bind (cell_of s) (fun c => Some (fst c, snd c, c))          (* a single cell *)
  end.
Definition num_default (k : string) (d : N) (l : list (str * str)) : option N :=
  match attr k l with None => Some d | Some s => number_of s end.
(** A flag that is on unless it says "0". *)
Definition on_default (k : string) (l : list (str * str)) : bool :=
  match attr k l with Some v => negb (str_eqb v (lit "0")) | None => true end.

(** ** The view *)
Inductive view_mode := ModeNormal | ModePageLayout | ModePageBreaks.
Record fview := {
  w_gridlines : bool; w_right_to_left : bool; w_selected : bool; w_mode : view_mode;
  w_top_left : option (N * N);
  w_zoom : N;
  w_frozen : option (N * N * (N * N));         (* rows and columns above and left of the split; first visible cell below *)
  w_selection : option (N * N * (N * N * (N * N))) }.   (* active cell, range *)
Definition mode_of (l : list (str * str)) : option view_mode :=
  match attr "view" l with
  | None => Some ModeNormal
  | Some s => if str_eqb s (lit "pageLayout") then Some ModePageLayout
              else if str_eqb s (lit "pageBreakPreview") then Some ModePageBreaks
              else if str_eqb s (lit "normal") then Some ModeNormal else None
  end.
(** <pane>: the split must be frozen and the active pane the last one. *)
Definition active_pane (rows cols : N) : string :=
  if (0 <? rows) && (0 <? cols) then "bottomRight" else if 0 <? cols then "topRight" else "bottomLeft".
Definition frozen_of (kids : list node) : option (option (N * N * (N * N))) :=
  match kid "pane" kids with
  | None => Some None
  | Some p =>
      let l := attrs_of p in
      bind (num_default "ySplit" 0 l) (fun rows => bind (num_default "xSplit" 0 l) (fun cols =>
      bind (attr "topLeftCell" l) (fun t => bind (cell_of t) (fun c =>
      bind (attr "activePane" l) (fun a => bind (attr "state" l) (fun st =>
      if str_eqb st (lit "frozen") && str_eqb a (lit (active_pane rows cols)) then Some (Some (rows, cols, c)) else None))))))
  end.
(** The selection that is not tied to a pane. *)
Definition selection_of (kids : list node) : option (option (N * N * (N * N * (N * N)))) :=
  match find (fun n => is_elem "selection" n && match attr "pane" (attrs_of n) with None => true | _ => false end) kids with
  | None => Some None
  | Some n => bind (attr "activeCell" (attrs_of n)) (fun a => bind (cell_of a) (fun c =>
              bind (attr "sqref" (attrs_of n)) (fun r => bind (range_of r) (fun g => Some (Some (c, g))))))
  end.
Definition read_sheet_view (n : node) : option fview :=
  let l := attrs_of n in
  bind (mode_of l) (fun mode => bind (num_default "zoomScale" 100 l) (fun zoom =>
  bind (match attr "topLeftCell" l with None => Some None | Some s => bind (cell_of s) (fun c => Some (Some c)) end) (fun tl =>
  bind (frozen_of (kids_of n)) (fun fr => bind (selection_of (kids_of n)) (fun sel =>
  Some {| w_gridlines := on_default "showGridLines" l; w_right_to_left := flag_of "rightToLeft" l;
          w_selected := flag_of "tabSelected" l; w_mode := mode; w_top_left := tl; w_zoom := zoom;
          w_frozen := fr; w_selection := sel |}))))).
(** The one view of the sheet. *)
Definition sheet_view (root : node) : option fview :=
  bind (kid "sheetViews" (kids_of root)) (fun v =>
  match kids_of v with [n] => if is_elem "sheetView" n then read_sheet_view n else None | _ => None end).

(** ** Printing *)
Inductive scaling := Percent (n : N) | Pages (w h : N).
Record fpage := {
  g_margins : list str;        (* left, right, top, bottom, header, footer: as decimal texts *)
  g_paper : N;                 (* 0: the printer's default *)
  g_down_first : bool; g_portrait : bool; g_scaling : scaling; g_black_white : bool; g_draft : bool;
  g_first_page : option N;
  g_center_h : bool; g_center_v : bool; g_headings : bool; g_gridlines : bool;
  g_header : str; g_footer : str; g_scale_with_doc : bool; g_align : bool }.
Definition attrs_kid (k : string) (l : list node) : list (str * str) := match kid k l with Some n => attrs_of n | None => [] end.
Definition kids_kid (k : string) (l : list node) : list node := match kid k l with Some n => kids_of n | None => [] end.
(** A chart sheet that says nothing is printed in landscape. *)
Definition orientation_of (chartsheet : bool) (l : list (str * str)) : option bool :=
  match attr "orientation" l with
  | None => Some (negb chartsheet)
  | Some s => if str_eqb s (lit "portrait") then Some true else if str_eqb s (lit "landscape") then Some false else None
  end.
Definition order_of (l : list (str * str)) : option bool :=
  match attr "pageOrder" l with
  | None => Some true
  | Some s => if str_eqb s (lit "overThenDown") then Some false else if str_eqb s (lit "downThenOver") then Some true else None
  end.
Definition fit_flag (kids : list node) : bool := flag_of "fitToPage" (attrs_kid "pageSetUpPr" (kids_kid "sheetPr" kids)).
Definition first_page_of (l : list (str * str)) : option (option N) :=
  if flag_of "useFirstPageNumber" l then opt_number "firstPageNumber" l else Some None.
Definition read_page (chartsheet : bool) (root : node) : option fpage :=
  let kids := kids_of root in
  let s := attrs_kid "pageSetup" kids in
  let o := attrs_kid "printOptions" kids in
  let h := attrs_kid "headerFooter" kids in
  bind (kid "pageMargins" kids) (fun pm =>
  bind (read_all (fun k => attr k (attrs_of pm)) ["left"; "right"; "top"; "bottom"; "header"; "footer"]%string) (fun mg =>
  bind (num_default "paperSize" 0 s) (fun paper => bind (order_of s) (fun down => bind (orientation_of chartsheet s) (fun por =>
  bind (num_default "scale" 100 s) (fun sc => bind (num_default "fitToWidth" 1 s) (fun fw => bind (num_default "fitToHeight" 1 s) (fun fh =>
  bind (first_page_of s) (fun fp =>
  bind (prop "oddHeader" (Elem [] [] (kids_kid "headerFooter" kids))) (fun hd =>
  bind (prop "oddFooter" (Elem [] [] (kids_kid "headerFooter" kids))) (fun ft =>
  Some {| g_margins := mg; g_paper := paper; g_down_first := down; g_portrait := por;
          g_scaling := if fit_flag kids then Pages fw fh else Percent sc;
          g_black_white := flag_of "blackAndWhite" s; g_draft := flag_of "draft" s; g_first_page := fp;
          g_center_h := flag_of "horizontalCentered" o; g_center_v := flag_of "verticalCentered" o;
          g_headings := flag_of "headings" o; g_gridlines := flag_of "gridLines" o;
          g_header := hd; g_footer := ft; g_scale_with_doc := on_default "scaleWithDoc" h;
          g_align := on_default "alignWithMargins" h |}))))))))))).

(** Header and footer codes: the long forms stand for the short ones. *)
Definition codes : list (str * str) :=
  [(lit "&[Tab]", lit "&A"); (lit "&[Date]", lit "&D"); (lit "&[File]", lit "&F"); (lit "&[Page]", lit "&P");
   (lit "&[Path]", lit "&Z"); (lit "&[Time]", lit "&T"); (lit "&[Pages]", lit "&N"); (lit "&[Picture]", lit "&G")].
(** Every long code replaced by its short one, in one pass from the left. *)
Fixpoint shorten_loop (table : list (str * str)) (fuel : nat) (s : str) : str :=
  match fuel with
  | O => s
  | S f => match find (fun p => match strip_prefix (fst p) s with Some _ => true | None => false end) table with
           | Some (long, abbr) => abbr ++ shorten_loop table f (skipn (length long) s)
           | None => match s with [] => [] | c :: r => c :: shorten_loop table f r end
           end
  end.
Definition shorten (s : str) : str := shorten_loop codes (S (length s)) s.
Example shorten_example : shorten (lit "&L&[Page] of &[Pages]&[tab]&[&[Tab]") = lit "&L&P of &N&[tab]&[&A".
Proof. reflexivity. Qed.

(** ** Order of the elements: CT_Worksheet and CT_Chartsheet of ECMA-376 part 1,
    18.3.1.99 and 18.3.1.12 *)
Definition worksheet_order : list str := map lit
  ["sheetPr"; "dimension"; "sheetViews"; "sheetFormatPr"; "cols"; "sheetData"; "sheetCalcPr"; "sheetProtection";
   "protectedRanges"; "scenarios"; "autoFilter"; "sortState"; "dataConsolidate"; "customSheetViews"; "mergeCells";
   "phoneticPr"; "conditionalFormatting"; "dataValidations"; "hyperlinks"; "printOptions"; "pageMargins"; "pageSetup";
   "headerFooter"; "rowBreaks"; "colBreaks"; "customProperties"; "cellWatches"; "ignoredErrors"; "smartTags"; "drawing";
   "legacyDrawing"; "legacyDrawingHF"; "drawingHF"; "picture"; "oleObjects"; "controls"; "webPublishItems"; "tableParts"; "extLst"]%string.
Definition chartsheet_order : list str := map lit
  ["sheetPr"; "sheetViews"; "sheetProtection"; "customSheetViews"; "pageMargins"; "pageSetup"; "headerFooter"; "drawing";
   "legacyDrawing"; "legacyDrawingHF"; "drawingHF"; "picture"; "webPublishItems"; "extLst"]%string.
Definition sheet_pr_order : list str := map lit ["tabColor"; "outlinePr"; "pageSetUpPr"]%string.
(** [follows many order names]: the names come in the given order, each at most
    once unless [many] allows it more often. *)
Inductive follows (many : str -> Prop) : list str -> list str -> Prop :=
| follows_nil os : follows many os []
| follows_skip o os ns : follows many os ns -> follows many (o :: os) ns
| follows_once o os ns : follows many os ns -> follows many (o :: os) (o :: ns)
| follows_many o os ns : many o -> follows many (o :: os) ns -> follows many (o :: os) (o :: ns).
Definition elem_name (n : node) : str := match n with Elem k _ _ => k | Txt _ => [] end.
Definition names_of (n : node) : list str := map elem_name (kids_of n).
