(** Model of xl/styles.xml: src/styles.rs:77-911. *)
From Verif Require Import Base Xml_Model Xml_Tree Fmt_Model Styles_Model Rich_Model.

Definition auto_or_default (c : Color) : bool := match c with CDefault | CAutomatic => true | _ => false end.
(** The [Display] texts: src/format.rs:2870-2894 (patterns) and 2944-2963 (borders), listed in
    declaration order (2810-2868, 2899-2942). *)
Definition pattern_names : list string :=
  ["none"; "solid"; "mediumGray"; "darkGray"; "lightGray"; "darkHorizontal"; "darkVertical"; "darkDown"; "darkUp"; "darkGrid"; "darkTrellis";
   "lightHorizontal"; "lightVertical"; "lightDown"; "lightUp"; "lightGrid"; "lightTrellis"; "gray125"; "gray0625"]%string.
Definition border_names : list string :=
  ["none"; "thin"; "medium"; "dashed"; "dotted"; "thick"; "double"; "hair"; "mediumDashed"; "dashDot"; "mediumDashDot"; "dashDotDot"; "mediumDashDotDot"; "slantDashDot"]%string.
Definition pattern_name (n : N) : str := lit (nth (N.to_nat n) pattern_names "none"%string).
Definition border_name (n : N) : str := lit (nth (N.to_nat n) border_names "none"%string).

(** src/styles.rs:353-359 *)
Definition default_fill (name : str) : wx := WElem (lit "fill") [] [WEmpty (lit "patternFill") [(lit "patternType", name)]].
(** src/styles.rs:362-418 *)
Definition fill_xml (dxf : bool) (f : Fill) : wx :=
  if negb (pattern f =? 0) && auto_or_default (background_color f) && auto_or_default (foreground_color f) then default_fill (pattern_name (pattern f))
  else
    let fg := color_attributes (foreground_color f) in let bg := color_attributes (background_color f) in
    let swap := negb dxf && (pattern f =? 1) && negb (color_is_default (background_color f)) && negb (color_is_default (foreground_color f)) in
    let '(fg, bg) := if swap then (bg, fg) else (fg, bg) in
    WElem (lit "fill") [] [WElem (lit "patternFill") (if dxf && none_or_solid f then [] else [(lit "patternType", pattern_name (pattern f))])
      (when (negb (auto_or_default (foreground_color f))) [WEmpty (lit "fgColor") fg] ++
       [WEmpty (lit "bgColor") (if auto_or_default (background_color f) then [(lit "indexed", lit "64")] else bg)])].

(** src/styles.rs:476-499 *)
Definition side_xml (tag : string) (style : N) (c : Color) : wx :=
  if style =? 0 then WEmpty (lit tag) []
  else WElem (lit tag) [(lit "style", border_name style)]
         [WEmpty (lit "color") (if auto_or_default c then [(lit "auto", lit "1")] else color_attributes c)].
(** src/styles.rs:438-473; FormatDiagonalBorder: None, BorderUp, BorderDown, BorderUpDown. *)
Definition border_xml (dxf : bool) (b : Border) : wx :=
  WElem (lit "border") (when ((diagonal_type b =? 1) || (diagonal_type b =? 3)) [(lit "diagonalUp", lit "1")] ++
                        when ((diagonal_type b =? 2) || (diagonal_type b =? 3)) [(lit "diagonalDown", lit "1")])
    ([side_xml "left" (left_style b) (left_color b); side_xml "right" (right_style b) (right_color b);
      side_xml "top" (top_style b) (top_color b); side_xml "bottom" (bottom_style b) (bottom_color b)] ++
     (if dxf then [WEmpty (lit "vertical") []; WEmpty (lit "horizontal") []] else [side_xml "diagonal" (diagonal_style b) (diagonal_color b)])).

(** src/styles.rs:302-312 *)
Definition comment_font : wx :=
  WElem (lit "font") [] [WEmpty (lit "sz") [(lit "val", lit "8")]; WEmpty (lit "color") [(lit "indexed", lit "81")];
                         WEmpty (lit "name") [(lit "val", lit "Tahoma")]; WEmpty (lit "family") [(lit "val", lit "2")]].

(** src/format.rs:2483-2504 *)
Definition apply_alignment (a : Alignment) : bool :=
  negb (horizontal a =? 0) || negb (vertical a =? 0) || negb (indent a =? 0) || negb (rotation a =? 0)%Z || text_wrap a || shrink a || negb (reading_direction a =? 0).
Definition has_alignment (a : Alignment) : bool :=
  negb (horizontal a =? 0) || negb ((vertical a =? 0) || (vertical a =? 9)) || negb (indent a =? 0) || negb (rotation a =? 0)%Z || text_wrap a || shrink a || negb (reading_direction a =? 0).
(** src/format.rs:2507-2509 *)
Definition has_protection (f : Format) : bool := hidden f || negb (locked f).
(** src/styles.rs:676-685; FormatAlign: General, Left, Center, Right, Fill, Justify, CenterAcross,
    Distributed, Top, Bottom, VerticalCenter, VerticalJustify, VerticalDistributed. *)
Definition horizontal_used (a : Alignment) : N :=
  let h := horizontal a in
  if (0 <? indent a) && negb (h =? 1) && negb (h =? 3) && negb (h =? 7) && negb (vertical a =? 8) && negb (vertical a =? 9) && negb (vertical a =? 7) then 1 else h.
(** src/styles.rs:688-694 *)
Definition shrink_used (a : Alignment) : bool :=
  let h := horizontal_used a in if text_wrap a || (h =? 4) || (h =? 5) || (h =? 7) then false else shrink a.
(** src/styles.rs:697-737 *)
Definition horizontal_name (h : N) : option str :=
  option_map lit (match h with 1 => Some "left" | 2 => Some "center" | 3 => Some "right" | 4 => Some "fill" | 5 => Some "justify"
                  | 6 => Some "centerContinuous" | 7 => Some "distributed" | _ => None end%string).
Definition vertical_name (v : N) : option str :=
  option_map lit (match v with 8 => Some "top" | 10 => Some "center" | 11 => Some "justify" | 12 => Some "distributed" | _ => None end%string).
Definition opt_attr (k : string) (o : option str) : list (str * str) := match o with Some v => [(lit k, v)] | None => [] end.
(** src/styles.rs:668-761; the rotation is never negative ([set_rotation]). *)
Definition alignment_xml (a : Alignment) : wx :=
  WEmpty (lit "alignment")
    (opt_attr "horizontal" (horizontal_name (horizontal_used a)) ++ opt_attr "vertical" (vertical_name (vertical a)) ++
     when (negb (rotation a =? 0)%Z) [(lit "textRotation", dec (Z.to_N (rotation a)))] ++
     when (negb (indent a =? 0)) [(lit "indent", dec (indent a))] ++
     when (text_wrap a) [(lit "wrapText", lit "1")] ++ when (shrink_used a) [(lit "shrinkToFit", lit "1")] ++
     when ((0 <? reading_direction a) && (reading_direction a <=? 2)) [(lit "readingOrder", dec (reading_direction a))]).
(** src/styles.rs:653-665 *)
Definition protection_xml (f : Format) : wx :=
  WEmpty (lit "protection") (when (negb (locked f)) [(lit "locked", lit "0")] ++ when (hidden f) [(lit "hidden", lit "1")]).
(** src/styles.rs:875-910 *)
Definition complement (uri tag : string) : wx :=
  WElem (lit "extLst") []
    [WElem (lit "ext") [(lit "uri", lit uri); (lit "xmlns:xfpb", lit "http://schemas.microsoft.com/office/spreadsheetml/2022/featurepropertybag")]
       [WEmpty (lit tag) [(lit "i", lit "0")]]].
Definition xf_extension : wx := complement "{C7286773-470A-42A8-94C5-96B5CB345126}" "xfpb:xfComplement".
Definition dxf_extension : wx := complement "{0417FA29-78FA-4A13-93AC-8FF0FAFDF519}" "xfpb:DXFComplement".
(** src/styles.rs:584-650 *)
Definition one_attr (k : string) : list (str * str) := [(lit k, lit "1")].
Definition xf_attrs (f : Format) (x : xf) : list (str * str) :=
  let link := is_hyperlink (font f) in
  [(lit "numFmtId", dec (xf_numFmtId x)); (lit "fontId", dec (xf_fontId x)); (lit "fillId", dec (xf_fillId x)); (lit "borderId", dec (xf_borderId x)); (lit "xfId", dec (xf_xfId x))] ++
  when (quote_prefix f) (one_attr "quotePrefix") ++ when (0 <? xf_numFmtId x) (one_attr "applyNumberFormat") ++
  when ((0 <? xf_fontId x) && negb link) (one_attr "applyFont") ++ when (0 <? xf_fillId x) (one_attr "applyFill") ++
  when (0 <? xf_borderId x) (one_attr "applyBorder") ++ when (apply_alignment (alignment f) || link) (one_attr "applyAlignment") ++
  when (has_protection f || link) (one_attr "applyProtection").
Definition xf_xml (p : Format * xf) : wx :=
  let '(f, x) := p in
  if has_alignment (alignment f) || has_protection f || checkbox f
  then WElem (lit "xf") (xf_attrs f x) (when (has_alignment (alignment f)) [alignment_xml (alignment f)] ++ when (has_protection f) [protection_xml f] ++ when (checkbox f) [xf_extension])
  else WEmpty (lit "xf") (xf_attrs f x).

(** src/styles.rs:865-872 *)
Definition num_fmt_xml (p : N * str) : wx := WEmpty (lit "numFmt") [(lit "numFmtId", dec (fst p)); (lit "formatCode", snd p)].
(** src/format.rs:2451-2464 *)
Definition has_dxf_font (f : Font) : bool :=
  bold f || italic f || negb (underline f =? 0) || strikethrough f || negb (auto_or_default (font_color f)).
Definition has_dxf_fill (f : Fill) : bool :=
  negb (pattern f =? 0) || negb (auto_or_default (background_color f)) || negb (auto_or_default (foreground_color f)).
(** src/styles.rs:806-830; [has_border] is set by src/workbook.rs:2664-2667. *)
Definition dxf_xml (p : Format * N) : wx :=
  let '(f, n) := p in
  WElem (lit "dxf") []
    (when (has_dxf_font (font f)) [font_xml false true (font f)] ++ when (0 <? n) [num_fmt_xml (n, num_format f)] ++
     when (has_dxf_fill (fill f)) [fill_xml true (fill f)] ++
     when (if border_eq_dec (borders f) border_default then false else true) [border_xml true (borders f)] ++
     when (checkbox f) [dxf_extension]).
(** src/styles.rs:798-834: with the indices that prepare_num_formats gives the DXF formats. *)
Definition dxf_nums (xfs dxfs : list Format) : list N := skipn (length xfs) (fst (prepare_num_formats xfs dxfs)).
Definition dxfs_xml (xfs dxfs : list Format) : wx :=
  let a := [(lit "count", dec (N.of_nat (length dxfs)))] in
  match dxfs with [] => WEmpty (lit "dxfs") a | _ => WElem (lit "dxfs") a (map dxf_xml (combine dxfs (dxf_nums xfs dxfs))) end.

(** src/styles.rs:502-566 *)
Definition style_xf_ids (font : N) : list (str * str) :=
  [(lit "numFmtId", lit "0"); (lit "fontId", dec font); (lit "fillId", lit "0"); (lit "borderId", lit "0")].
Definition link_style_xf (font : N) : wx :=
  WElem (lit "xf") (style_xf_ids font ++ [(lit "applyNumberFormat", lit "0"); (lit "applyFill", lit "0"); (lit "applyBorder", lit "0");
                                          (lit "applyAlignment", lit "0"); (lit "applyProtection", lit "0")])
    [WEmpty (lit "alignment") [(lit "vertical", lit "top")]; WEmpty (lit "protection") [(lit "locked", lit "0")]].
Definition cell_style_xfs_xml (hyper : bool) (font : N) : wx :=
  WElem (lit "cellStyleXfs") [(lit "count", lit (if hyper then "2" else "1"))] (WEmpty (lit "xf") (style_xf_ids 0) :: when hyper [link_style_xf font]).
(** src/styles.rs:764-795 *)
Definition cell_style_xml (name id builtin : string) : wx := WEmpty (lit "cellStyle") [(lit "name", lit name); (lit "xfId", lit id); (lit "builtinId", lit builtin)].
Definition cell_styles_xml (hyper : bool) : wx :=
  WElem (lit "cellStyles") [(lit "count", lit (if hyper then "2" else "1"))] (when hyper [cell_style_xml "Hyperlink" "1" "8"] ++ [cell_style_xml "Normal" "0" "0"]).

(** src/styles.rs:77-112: the whole part.  [hyper] is the workbook's [has_hyperlink_style], which is
    set when a format with the hyperlink property is registered (src/worksheet.rs:16023-16027,
    src/workbook.rs:2050-2065). *)
Definition counted (tag : string) (n : N) (kids : list wx) : wx := WElem (lit tag) [(lit "count", dec n)] kids.
Definition styles_root (xfs dxfs : list Format) (hyper comments : bool) : wx :=
  WElem (lit "styleSheet") [(lit "xmlns", lit "http://schemas.openxmlformats.org/spreadsheetml/2006/main")]
    ((match num_fmts_written xfs dxfs with [] => [] | l => [counted "numFmts" (N.of_nat (length l)) (map num_fmt_xml l)] end) ++
     [counted "fonts" (fonts_count xfs comments) (map (font_xml false false) (fonts_written xfs) ++ when comments [comment_font]);
      counted "fills" (snd (prepare_fills xfs)) (default_fill (lit "none") :: default_fill (lit "gray125") :: map (fill_xml false) (skipn 2 (fills_written xfs)));
      counted "borders" (snd (prepare_borders xfs)) (map (border_xml false) (borders_written xfs));
      cell_style_xfs_xml hyper (hyperlink_font_id xfs);
      counted "cellXfs" (N.of_nat (length xfs)) (map xf_xml (combine xfs (cell_xfs xfs dxfs)));
      cell_styles_xml hyper;
      dxfs_xml xfs dxfs;
      WEmpty (lit "tableStyles") [(lit "count", lit "0"); (lit "defaultTableStyle", lit "TableStyleMedium9"); (lit "defaultPivotStyle", lit "PivotStyleLight16")]]).
Definition styles_part (xfs dxfs : list Format) (hyper comments : bool) : str := document (styles_root xfs dxfs hyper comments).
