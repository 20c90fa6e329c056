(** Model of charts (src/chart.rs): the pieces from which titles, series and axes are made: shapes, fonts, layouts, ranges
    and titles.  The calls a user makes on an object are lists of operations, in their order.
    The children of an element are written as a list of parts, each of which is one kind of element.
    Enums without fields are numbered in the order of their declaration.  Shared with text boxes: Dml_Model. *)
From Verif Require Import Base F64 Xml_Model Xml_Tree Fmt_Model Ref_Model Rich_Model CF_Model Doc_Model Cache_Model Spark_Model Dml_Model Draw_Model.

(** What the charts depend on: the mode of the build, the tables of characters, the decimal text of numbers,
    [str::parse::<f64>().is_ok()], and the data that was read from the worksheets (C42). *)
Record env := { e_mode : ovf; e_chars : unicode; e_num : f64 -> str; e_parses : str -> bool; e_cache : crange -> cache }.

Definition elem (tag : string) (parts : list (list wx)) : wx := WElem (lit tag) [] (concat parts).
Definition word_xml (tag : string) (s : str) : wx := WEmpty (lit tag) [(lit "val", s)].
(** The flags that are written are all written with 1. *)
Definition flag_xml (tag : string) : wx := word_xml tag (lit "1").
Definition num_xml (tag : string) (n : N) : wx := word_xml tag (dec n).
Definition opt_xml {A} (o : option A) (f : A -> wx) : list wx := match o with Some a => [f a] | None => [] end.
(** src/xmlwriter.rs: bool::to_xml_bool *)
Definition bit (b : bool) : str := if b then lit "1" else lit "0".

(** ** Shapes *)
(** src/chart.rs:5868-5904 *)
Definition chart_ln (l : dline) : wx :=
  let attrs := match ln_width l with Some w => [(lit "w", dec (line_emus w))] | None => [] end in
  if negb (is_default (ln_color l)) || negb (ln_dash l =? 0) || ln_hidden l then
    WElem (lit "a:ln") attrs
      (if ln_hidden l then [WEmpty (lit "a:noFill") []]
       else when (negb (is_default (ln_color l))) [solid_xml (ln_color l) (ln_transparency l)] ++ dash_xml (ln_dash l))
  else WEmpty (lit "a:ln") attrs.
(** src/chart.rs:5907-5914 *)
Definition ln_none : wx := WElem (lit "a:ln") [] [WEmpty (lit "a:noFill") []].
(** src/chart.rs:13808-13815 *)
Definition some {A} (o : option A) : bool := match o with Some _ => true | None => false end.
Definition has_formatting (f : dformat) : bool :=
  some (df_line f) || some (df_solid f) || some (df_patt f) || some (df_grad f) || df_no_fill f || df_no_line f.
(** src/chart.rs:5837-5865 *)
Definition sp_pr (f : dformat) : list wx :=
  when (has_formatting f)
    [elem "c:spPr" [match fill_xml f with Some x => [x] | None => [] end;
                    if df_no_line f then [ln_none] else opt_xml (df_line f) chart_ln]].

(** ** Fonts *)
(** src/chart.rs:15127-15625 *)
Record cfont := {
  cf_bold : option bool; cf_italic : bool; cf_underline : bool; cf_name : str; cf_size : f64; cf_color : Color; cf_strike : bool; cf_pitch : N; cf_charset : N;
  cf_rotation : option Z; cf_baseline : bool; cf_default_bold : bool; cf_rtl : option bool }.
Inductive font_op := CfBold | CfUnbold | CfItalic | CfUnderline | CfStrike | CfName (s : str) | CfSize (x : f64) | CfColor (c : Color) | CfPitch (n : N) | CfCharset (n : N)
| CfRotation (z : Z) | CfRtl (b : bool) | CfDefaultBold (b : bool).
Definition font_new : cfont :=
  {| cf_bold := None; cf_italic := false; cf_underline := false; cf_name := []; cf_size := f_of_N 0; cf_color := CDefault; cf_strike := false; cf_pitch := 0; cf_charset := 0;
     cf_rotation := None; cf_baseline := false; cf_default_bold := false; cf_rtl := None |}.
(** src/chart.rs:15528-15535 *)
Definition angle_ok (z : Z) : bool := ((270 <=? z) && (z <=? 271) || (-90 <=? z) && (z <=? 90))%Z.
Definition font_step (f : cfont) (o : font_op) : cfont :=
  {| cf_bold := match o with CfBold => Some true | CfUnbold => Some false | _ => cf_bold f end;
     cf_italic := match o with CfItalic => true | _ => cf_italic f end;
     cf_underline := match o with CfUnderline => true | _ => cf_underline f end;
     cf_name := match o with CfName s => s | _ => cf_name f end;
     cf_size := match o with CfSize x => fmul x (f_of_N 100) | _ => cf_size f end;
     cf_color := match o with CfColor c => if color_valid c then c else cf_color f | _ => cf_color f end;
     cf_strike := match o with CfStrike => true | _ => cf_strike f end;
     cf_pitch := match o with CfPitch n => n | _ => cf_pitch f end;
     cf_charset := match o with CfCharset n => n | _ => cf_charset f end;
     cf_rotation := match o with CfRotation z => if angle_ok z then Some z else cf_rotation f | _ => cf_rotation f end;
     cf_baseline := cf_baseline f;
     cf_default_bold := match o with CfDefaultBold b => b | _ => cf_default_bold f end;
     cf_rtl := match o with CfRtl b => Some b | _ => cf_rtl f end |}.
Definition make_font (l : list font_op) : cfont := fold_left font_step l font_new.
Definition is_latin (f : cfont) : bool := negb (is_nil (cf_name f)) || (0 <? cf_pitch f) || (0 <? cf_charset f).     (* 15622-15624 *)
Definition with_font (f : cfont) (bold : option bool) (baseline default_bold : bool) (rtl : option bool) : cfont :=
  {| cf_bold := bold; cf_italic := cf_italic f; cf_underline := cf_underline f; cf_name := cf_name f; cf_size := cf_size f; cf_color := cf_color f; cf_strike := cf_strike f;
     cf_pitch := cf_pitch f; cf_charset := cf_charset f; cf_rotation := cf_rotation f; cf_baseline := baseline; cf_default_bold := default_bold; cf_rtl := rtl |}.
(** src/chart.rs:5806-5822 *)
Definition chart_latin (f : cfont) : wx :=
  WEmpty (lit "a:latin") (when (negb (is_nil (cf_name f))) [(lit "typeface", cf_name f)] ++ when (0 <? cf_pitch f) [(lit "pitchFamily", dec (cf_pitch f))] ++
                          when ((0 <? cf_charset f) || (0 <? cf_pitch f)) [(lit "charset", dec (cf_charset f))]).
Section Env.
Variable E : env.
(** src/chart.rs:5760-5803 *)
Definition font_attrs (lang : bool) (f : cfont) : list (str * str) :=
  when lang [(lit "lang", lit "en-US")] ++ when (flt (f_of_N 0) (cf_size f)) [(lit "sz", e_num E (cf_size f))] ++
  match cf_bold f with Some b => [(lit "b", bit b)] | None => [] end ++
  when (cf_italic f || (some (cf_bold f) && negb (cf_default_bold f))) [(lit "i", bit (cf_italic f))] ++
  when (cf_underline f) [(lit "u", lit "sng")] ++ when (cf_baseline f) [(lit "baseline", lit "0")].
Definition props_xml (tag : string) (lang : bool) (f : cfont) : wx :=
  if is_latin f || negb (auto_or_default (cf_color f))
  then WElem (lit tag) (font_attrs lang f) (concat [when (negb (auto_or_default (cf_color f))) [solid_xml (cf_color f) 0]; when (is_latin f) [chart_latin f]])
  else WEmpty (lit tag) (font_attrs lang f).
(** src/chart.rs:5706-5742 *)
Definition body_xml (f : cfont) (horizontal : bool) : wx :=
  WEmpty (lit "a:bodyPr")
    match (match cf_rotation f with Some r => Some r | None => if horizontal then Some (-90)%Z else None end) with
    | None => []
    | Some r => if (r =? 270)%Z then [(lit "rot", lit "0"); (lit "vert", lit "wordArtVert")]
                else if (r =? 271)%Z then [(lit "rot", lit "0"); (lit "vert", lit "eaVert")]
                else [(lit "rot", int_text (r * 60000)); (lit "vert", lit "horz")]
    end.
Definition lst_style : wx := WEmpty (lit "a:lstStyle") [].
(** src/chart.rs:5690-5703, 6349-6362 *)
Definition p_pr (f : cfont) : wx :=
  WElem (lit "a:pPr") match cf_rtl f with Some b => [(lit "rtl", bit b)] | None => [] end [props_xml "a:defRPr" false f].
Definition end_para : wx := WEmpty (lit "a:endParaRPr") [(lit "lang", lit "en-US")].
(** src/chart.rs:5638-5674: write_axis_font and write_tx_pr write the same *)
Definition tx_pr (f : cfont) (horizontal : bool) : wx :=
  elem "c:txPr" [[body_xml f horizontal]; [lst_style]; [elem "a:p" [[p_pr f]; [end_para]]]].

(** ** Layouts *)
(** src/chart.rs:17880-18007 *)
Record clayout := { ly_x : option f64; ly_y : option f64; ly_w : option f64; ly_h : option f64; ly_inner : bool; ly_sized : bool }.
Inductive layout_op := LyOffset (x y : f64) | LySize (w h : f64).
Definition layout_new : clayout := {| ly_x := None; ly_y := None; ly_w := None; ly_h := None; ly_inner := false; ly_sized := false |}.
Definition fraction (x : f64) : bool := fle (f_of_N 0) x && fle x (f_of_N 1).
Definition layout_step (l : clayout) (o : layout_op) : clayout :=
  {| ly_x := match o with LyOffset x y => if fraction x && fraction y then Some x else ly_x l | _ => ly_x l end;
     ly_y := match o with LyOffset x y => if fraction x && fraction y then Some y else ly_y l | _ => ly_y l end;
     ly_w := match o with LySize w h => if fraction w && fraction h then Some w else ly_w l | _ => ly_w l end;
     ly_h := match o with LySize w h => if fraction w && fraction h then Some h else ly_h l | _ => ly_h l end;
     ly_inner := ly_inner l; ly_sized := ly_sized l |}.
Definition make_layout (l : list layout_op) : clayout := fold_left layout_step l layout_new.
Definition with_layout (l : clayout) (inner sized : bool) : clayout :=
  {| ly_x := ly_x l; ly_y := ly_y l; ly_w := ly_w l; ly_h := ly_h l; ly_inner := inner; ly_sized := sized |}.
(** src/chart.rs:3677-3724 *)
Definition layout_xml (l : clayout) : wx :=
  let real (tag : string) o := opt_xml o (fun x => word_xml tag (e_num E x)) in
  if some (ly_x l) || some (ly_y l) || some (ly_w l) || some (ly_h l) then
    elem "c:layout" [[elem "c:manualLayout"
      [when (ly_inner l) [word_xml "c:layoutTarget" (lit "inner")]; [word_xml "c:xMode" (lit "edge")]; [word_xml "c:yMode" (lit "edge")];
       real "c:x"%string (ly_x l); real "c:y"%string (ly_y l); when (ly_sized l) (real "c:w"%string (ly_w l)); when (ly_sized l) (real "c:h"%string (ly_h l))]]]
  else WEmpty (lit "c:layout") [].

(** ** Ranges *)
(** src/chart.rs:8450-8458; where the code panics, nothing is written. *)
Definition formula_abs (c : crange) : str :=
  match chart_range_abs (e_mode E) (e_chars E) (g_sheet c) (g_fr c) (g_fc c) (g_lr c) (g_lc c) with Some s => s | None => [] end.
(** src/chart.rs:8488-8493; ranges whose end is before their start wrap around in the code. *)
Definition number_of_points (c : crange) : N := N.max (g_lr c - g_fr c + 1) (g_lc c - g_fc c + 1).
(** src/chart.rs:4170-4176 *)
Definition pt_xml (p : N * str) : wx := WElem (lit "c:pt") [(lit "idx", dec (fst p))] [WData (lit "c:v") (snd p) []].
(** src/chart.rs:4078-4150 *)
Definition num_ref (c : crange) : wx :=
  let k := e_cache E c in
  elem "c:numRef" [[WData (lit "c:f") (formula_abs c) []];
    when (negb (is_nil (c_data k)))
      [elem "c:numCache" [[WData (lit "c:formatCode") (match c_type k with TDate => lit "dd/mm/yyyy" | _ => lit "General" end) []];
                          [num_xml "c:ptCount" (N.of_nat (length (c_data k)))]; map pt_xml (num_pts (e_parses E) 0 (c_data k))]]].
Definition str_ref (c : crange) : wx :=
  let k := e_cache E c in
  elem "c:strRef" [[WData (lit "c:f") (formula_abs c) []];
    when (negb (is_nil (c_data k))) [elem "c:strCache" [[num_xml "c:ptCount" (N.of_nat (length (c_data k)))]; map pt_xml (str_pts 0 (c_data k))]]].
(** src/chart.rs:4069-4075 *)
Definition cache_ref (c : crange) (num_only : bool) : wx :=
  match c_type (e_cache E c), num_only with TString, false => str_ref c | _, _ => num_ref c end.

(** ** Titles *)
(** What a name, values or categories are given with: a range, and the text it came from if it was a text (C70). *)
Record carg := { a_range : crange; a_text : str }.
(** src/chart.rs:8767-9067 *)
Record ctitle := { ti_range : crange; ti_name : str; ti_hidden : bool; ti_format : dformat; ti_font : cfont; ti_horizontal : bool; ti_plain : bool; ti_layout : clayout; ti_overlay : bool }.
Definition title_new : ctitle :=
  {| ti_range := no_range; ti_name := []; ti_hidden := false; ti_format := format_new; ti_font := font_new; ti_horizontal := false; ti_plain := false; ti_layout := layout_new; ti_overlay := false |}.
Inductive title_op := TiName (a : carg) | TiHidden | TiFormat (l : list format_op) | TiFont (l : list font_op) | TiLayout (l : list layout_op) | TiOverlay (b : bool).
Definition chart_format (l : list format_op) : dformat := make_format None l.
(** src/chart.rs:9028-9038 *)
Definition title_font (f : cfont) : cfont := with_font f (cf_bold f) (cf_baseline f || cf_italic f || is_latin f) true (cf_rtl f).
Definition title_step (t : ctitle) (o : title_op) : ctitle :=
  {| ti_range := match o with TiName a => a_range a | _ => ti_range t end;
     ti_name := match o with TiName a => if range_given (a_range a) then ti_name t else a_text a | _ => ti_name t end;
     ti_hidden := match o with TiHidden => true | _ => ti_hidden t end;
     ti_format := match o with TiFormat l => chart_format l | _ => ti_format t end;
     ti_font := match o with TiFont l => title_font (make_font l) | _ => ti_font t end;
     ti_horizontal := ti_horizontal t; ti_plain := ti_plain t;
     ti_layout := match o with TiLayout l => make_layout l | _ => ti_layout t end;
     ti_overlay := match o with TiOverlay b => b | _ => ti_overlay t end |}.
Definition make_title (l : list title_op) : ctitle := fold_left title_step l title_new.
Definition named (t : ctitle) : bool := negb (is_nil (ti_name t)).
(** src/chart.rs:6299-6346, 6365-6375 *)
Definition rich_xml (t : ctitle) : wx :=
  elem "c:rich" [[body_xml (ti_font t) (ti_horizontal t)]; [lst_style];
    [elem "a:p" [when (negb (ti_plain t)) [p_pr (ti_font t)]; [elem "a:r" [[props_xml "a:rPr" true (ti_font t)]; [WData (lit "a:t") (ti_name t) []]]]]]].
Definition tx_rich (t : ctitle) : wx := elem "c:tx" [[rich_xml t]].
Definition tx_formula (c : crange) : wx := elem "c:tx" [[str_ref c]].                        (* 6248-6255 *)
Definition tx_value (s : str) : wx := elem "c:tx" [[WData (lit "c:v") s []]].               (* 6309-6315 *)
(** src/chart.rs:3492-3500, 6222-6296 *)
Definition title_xml (t : ctitle) : list wx :=
  let whole tx text := [elem "c:title" [tx; [layout_xml (ti_layout t)]; when (ti_overlay t) [flag_xml "c:overlay"]; sp_pr (ti_format t); text]] in
  if named t then whole [tx_rich t] []
  else if range_given (ti_range t) then whole [tx_formula (ti_range t)] (when (negb (has_formatting (ti_format t))) [tx_pr (ti_font t) (ti_horizontal t)])
  else if has_formatting (ti_format t) then whole [] []
  else [].
(** src/chart.rs:3503-3509 *)
Definition series_title (t : ctitle) : list wx :=
  if named t then [tx_value (ti_name t)] else when (range_given (ti_range t)) [tx_formula (ti_range t)].
End Env.
