(** Model of the drawing part of a sheet: src/drawing.rs:50-1228 (pictures, charts and text boxes with
    their anchors) and the text boxes of src/shape.rs.
    Places and sizes are whole numbers of EMUs here: they are the results of
    position_object_emus (src/worksheet.rs:16566-16586; Geom_Model, C36), whose offsets are rounded f64 values. *)
From Verif Require Import Base F64 Xml_Model Xml_Tree Fmt_Model Rich_Model CF_Model Dml_Model.
From Coq Require Import SpecFloat.

(** ** Text boxes *)
(** src/shape.rs:2830-3182 *)
Record sfont := { sf_bold : bool; sf_italic : bool; sf_underline : bool; sf_name : str; sf_size : f64; sf_color : Color;
                  sf_strike : bool; sf_pitch : N; sf_charset : N; sf_rtl : option bool }.
Inductive sfont_op := SfBold | SfItalic | SfUnderline | SfName (s : str) | SfSize (x : f64) | SfColor (c : Color) | SfStrike | SfUnbold | SfRtl (b : bool) | SfPitch (n : N) | SfCharset (n : N).
Definition sfont_new : sfont :=
  {| sf_bold := false; sf_italic := false; sf_underline := false; sf_name := []; sf_size := f_of_N 1100; sf_color := CDefault; sf_strike := false; sf_pitch := 0; sf_charset := 0; sf_rtl := None |}.
Definition sfont_step (f : sfont) (o : sfont_op) : sfont :=
  let mk b i u n z c s p h r := {| sf_bold := b; sf_italic := i; sf_underline := u; sf_name := n; sf_size := z; sf_color := c; sf_strike := s; sf_pitch := p; sf_charset := h; sf_rtl := r |} in
  let '(b, i, u, n, z) := (sf_bold f, sf_italic f, sf_underline f, sf_name f, sf_size f) in
  let '(c, s, p, h, r) := (sf_color f, sf_strike f, sf_pitch f, sf_charset f, sf_rtl f) in
  match o with
  | SfBold => mk true i u n z c s p h r
  | SfItalic => mk b true u n z c s p h r
  | SfUnderline => mk b i true n z c s p h r
  | SfName x => mk b i u x z c s p h r
  | SfSize x => mk b i u n (fmul x (f_of_N 100)) c s p h r
  | SfColor x => if color_valid x then mk b i u n z x s p h r else f
  | SfStrike => mk b i u n z c true p h r
  | SfUnbold => mk false i u n z c s p h r
  | SfRtl x => mk b i u n z c s p h (Some x)
  | SfPitch x => mk b i u n z c s x h r
  | SfCharset x => mk b i u n z c s p x r
  end.
Definition make_sfont (l : list sfont_op) : sfont := fold_left sfont_step l sfont_new.
(** src/shape.rs:2136-2297 *)
Inductive halign := HDefault | HLeft | HCenter | HRight.
Inductive valign := VTop | VMiddle | VBottom | VTopCentered | VMiddleCentered | VBottomCentered.
Inductive direction := DirHorizontal | Dir270 | Dir90 | Dir90EastAsian | DirStacked.
Record stext := { st_h : halign; st_v : valign; st_dir : direction }.
Inductive stext_op := StH (a : halign) | StV (a : valign) | StDir (d : direction).
Definition stext_step (t : stext) (o : stext_op) : stext :=
  match o with
  | StH a => {| st_h := a; st_v := st_v t; st_dir := st_dir t |}
  | StV a => {| st_h := st_h t; st_v := a; st_dir := st_dir t |}
  | StDir d => {| st_h := st_h t; st_v := st_v t; st_dir := d |}
  end.
Definition stext_new : stext := {| st_h := HDefault; st_v := VTop; st_dir := DirHorizontal |}.
Definition make_stext (l : list stext_op) : stext := fold_left stext_step l stext_new.

(** src/shape.rs:81-621. The formula of a link is the formula_string of its Formula (C14); set_format with a line or a
    fill makes a format with just that. The address (set_url) is an argument of the anchor below. *)
Inductive movement := MoveAndSize | MoveOnly | DontMove | MoveAndSizeAfter.
Record tbox := { tb_width : N; tb_height : N; tb_text : str; tb_link : option str; tb_alt : str; tb_move : movement;
                 tb_format : dformat; tb_font : sfont; tb_options : stext }.
Inductive tbox_op := TbText (s : str) | TbLink (s : str) | TbWidth (n : N) | TbHeight (n : N) | TbFormat (l : list format_op) | TbFont (l : list sfont_op) | TbOptions (l : list stext_op)
                   | TbAlt (s : str) | TbMove (m : movement).
(** 0.75 *)
Definition three_quarters : f64 := fdiv (f_of_N 3) (f_of_N 4).
Definition tbox_new : tbox :=
  {| tb_width := 192; tb_height := 120; tb_text := []; tb_link := None; tb_alt := []; tb_move := MoveAndSize; tb_format := format_new; tb_font := sfont_new; tb_options := stext_new |}.
Definition tbox_step (t : tbox) (o : tbox_op) : tbox :=
  let mk w h s l a m f n p := {| tb_width := w; tb_height := h; tb_text := s; tb_link := l; tb_alt := a; tb_move := m; tb_format := f; tb_font := n; tb_options := p |} in
  let '(w, h, s, l) := (tb_width t, tb_height t, tb_text t, tb_link t) in
  let '(a, m, f, n, p) := (tb_alt t, tb_move t, tb_format t, tb_font t, tb_options t) in
  match o with
  | TbText x => mk w h x l a m f n p
  | TbLink x => mk w h s (Some x) a m f n p
  | TbWidth x => if x <? 5 then t else mk x h s l a m f n p
  | TbHeight x => if x <? 5 then t else mk w x s l a m f n p
  | TbFormat x => mk w h s l a m (make_format (Some three_quarters) x) n p
  | TbFont x => mk w h s l a m f (make_sfont x) p
  | TbOptions x => mk w h s l a m f n (make_stext x)
  | TbAlt x => if 255 <? N.of_nat (length x) then t else mk w h s l x m f n p
  | TbMove x => mk w h s l a x f n p
  end.
Definition make_tbox (l : list tbox_op) : tbox := fold_left tbox_step l tbox_new.

(** ** Objects on a sheet: src/drawing.rs:1234-1302 *)
Record corner := { cn_col : N; cn_row : N; cn_x : N; cn_y : N }.
Inductive dtype := TChart | TChartSheet | TImage | TShape.
Record info := { in_from : corner; in_to : corner; in_x : N; in_y : N; in_cx : N; in_cy : N; in_name : str; in_descr : str; in_decorative : bool;
                 in_move : movement; in_rel : N; in_type : dtype; in_url : option (N * str); in_portrait : bool }.

(** src/drawing.rs:125-162 *)
Definition corner_xml (tag : string) (c : corner) : wx :=
  WElem (lit tag) [] [WData (lit "xdr:col") (dec (cn_col c)) []; WData (lit "xdr:colOff") (dec (cn_x c)) []; WData (lit "xdr:row") (dec (cn_row c)) []; WData (lit "xdr:rowOff") (dec (cn_y c)) []].
Definition rid (n : N) : str := lit "rId" ++ dec n.
(** src/drawing.rs:229-277 *)
Definition decorative_xml : wx :=
  WElem (lit "a:extLst") []
    [WElem (lit "a:ext") [(lit "uri", lit "{FF2B5EF4-FFF2-40B4-BE49-F238E27FC236}")]
       [WEmpty (lit "a16:creationId") [(lit "xmlns:a16", lit "http://schemas.microsoft.com/office/drawing/2014/main"); (lit "id", lit "{00000000-0008-0000-0000-000002000000}")]];
     WElem (lit "a:ext") [(lit "uri", lit "{C183D7F6-B498-43B3-948B-1728B52AA6E4}")]
       [WEmpty (lit "adec:decorative") [(lit "xmlns:adec", lit "http://schemas.microsoft.com/office/drawing/2017/decorative"); (lit "val", lit "1")]]].
Definition xmlns_r : str * str := (lit "xmlns:r", lit "http://schemas.openxmlformats.org/officeDocument/2006/relationships").
Definition is_nil {A} (l : list A) : bool := match l with [] => true | _ => false end.
Definition link_xml (u : N * str) : wx := WEmpty (lit "a:hlinkClick") (xmlns_r :: (lit "r:id", rid (fst u)) :: when (negb (is_nil (snd u))) [(lit "tooltip", snd u)]).
(** src/drawing.rs:196-226. [name] is Picture, Chart or TextBox; only for the last does name.starts_with hold. *)
Definition c_nv_pr (index : N) (d : info) (name : string) : wx :=
  let shown := if negb (String.eqb name "TextBox") && negb (is_nil (in_name d)) then in_name d else lit name ++ lit " " ++ dec index in
  let attrs := (lit "id", dec (index + 1)) :: (lit "name", shown) :: when (negb (is_nil (in_descr d))) [(lit "descr", in_descr d)] in
  if in_decorative d || match in_url d with Some _ => true | None => false end
  then WElem (lit "xdr:cNvPr") attrs (match in_url d with Some u => [link_xml u] | None => [] end ++ when (in_decorative d) [decorative_xml])
  else WEmpty (lit "xdr:cNvPr") attrs.
(** src/drawing.rs:355-381 *)
Definition xfrm_xml (d : info) : wx :=
  WElem (lit "a:xfrm") [] [WEmpty (lit "a:off") [(lit "x", dec (in_x d)); (lit "y", dec (in_y d))]; WEmpty (lit "a:ext") [(lit "cx", dec (in_cx d)); (lit "cy", dec (in_cy d))]].
Definition geom_xml : wx := WElem (lit "a:prstGeom") [(lit "prst", lit "rect")] [WEmpty (lit "a:avLst") []].
(** src/drawing.rs:165-193, 287-330 *)
Definition pic_xml (index : N) (d : info) : wx :=
  WElem (lit "xdr:pic") []
    [WElem (lit "xdr:nvPicPr") [] [c_nv_pr index d "Picture"; WElem (lit "xdr:cNvPicPr") [] [WEmpty (lit "a:picLocks") [(lit "noChangeAspect", lit "1")]]];
     WElem (lit "xdr:blipFill") [] [WEmpty (lit "a:blip") [xmlns_r; (lit "r:embed", rid (in_rel d))]; WElem (lit "a:stretch") [] [WEmpty (lit "a:fillRect") []]];
     WElem (lit "xdr:spPr") [] [xfrm_xml d; geom_xml]].
(** src/drawing.rs:384-494 *)
Definition frame_xml (index : N) (d : info) : wx :=
  WElem (lit "xdr:graphicFrame") [(lit "macro", [])]
    [WElem (lit "xdr:nvGraphicFramePr") [] [c_nv_pr index d "Chart";
       match in_type d with
       | TChartSheet => WElem (lit "xdr:cNvGraphicFramePr") [] [WEmpty (lit "a:graphicFrameLocks") [(lit "noGrp", lit "1")]]
       | _ => WEmpty (lit "xdr:cNvGraphicFramePr") []
       end];
     WElem (lit "xdr:xfrm") [] [WEmpty (lit "a:off") [(lit "x", lit "0"); (lit "y", lit "0")]; WEmpty (lit "a:ext") [(lit "cx", lit "0"); (lit "cy", lit "0")]];
     WElem (lit "a:graphic") [] [WElem (lit "a:graphicData") [(lit "uri", lit "http://schemas.openxmlformats.org/drawingml/2006/chart")]
       [WEmpty (lit "c:chart") [(lit "xmlns:c", lit "http://schemas.openxmlformats.org/drawingml/2006/chart"); xmlns_r; (lit "r:id", rid (in_rel d))]]]].

(** src/drawing.rs:892-911 *)
Definition default_scheme (tone : string) (line : bool) : wx :=
  if line then WElem (lit "a:schemeClr") [(lit "val", lit tone)] [WEmpty (lit "a:shade") [(lit "val", lit "50000")]] else WEmpty (lit "a:schemeClr") [(lit "val", lit tone)].
(** src/drawing.rs:578-639. The line of a text box always has a width. *)
Definition line_fill_xml : wx := WElem (lit "a:solidFill") [] [default_scheme "lt1" true].
Definition line_xml (l : dline) : wx :=
  WElem (lit "a:ln") [(lit "w", dec (line_emus (match ln_width l with Some w => w | None => f_of_N 0 end))); (lit "cmpd", lit "sng")]
    (if negb (is_default (ln_color l)) || negb (ln_dash l =? 0) || ln_hidden l then
       if ln_hidden l then [WEmpty (lit "a:noFill") []]
       else (if is_default (ln_color l) then [line_fill_xml] else [solid_xml (ln_color l) (ln_transparency l)]) ++ dash_xml (ln_dash l)
     else [line_fill_xml]).
Definition no_line_xml : wx := WElem (lit "a:ln") [(lit "w", lit "9525"); (lit "cmpd", lit "sng")] [WEmpty (lit "a:noFill") []].
(** src/drawing.rs:547-575, 642-648 *)
Definition tbox_fill (f : dformat) : wx := match fill_xml f with Some x => x | None => WElem (lit "a:solidFill") [] [default_scheme "lt1" false] end.
Definition tbox_line (f : dformat) : wx :=
  if df_no_line f then no_line_xml else match df_line f with Some l => line_xml l | None => line_xml (make_line (Some three_quarters) []) end.
(** src/drawing.rs:914-985 *)
Definition scrgb : wx := WEmpty (lit "a:scrgbClr") [(lit "r", lit "0"); (lit "g", lit "0"); (lit "b", lit "0")].
Definition style_xml : wx :=
  WElem (lit "xdr:style") [] [WElem (lit "a:lnRef") [(lit "idx", lit "0")] [scrgb]; WElem (lit "a:fillRef") [(lit "idx", lit "0")] [scrgb]; WElem (lit "a:effectRef") [(lit "idx", lit "0")] [scrgb];
    WElem (lit "a:fontRef") [(lit "idx", lit "minor")] [default_scheme "dk1" false]].
(** src/drawing.rs:1013-1056 *)
Definition body_pr (t : stext) : wx :=
  WEmpty (lit "a:bodyPr")
    (match st_dir t with
     | DirHorizontal => [] | DirStacked => [(lit "vert", lit "wordArtVert")] | Dir90 => [(lit "vert", lit "vert")] | Dir270 => [(lit "vert", lit "vert270")] | Dir90EastAsian => [(lit "vert", lit "eaVert")]
     end ++ [(lit "wrap", lit "square"); (lit "rtlCol", lit "0")] ++
     match st_v t with
     | VTop => [(lit "anchor", lit "t")]
     | VMiddle => [(lit "anchor", lit "ctr"); (lit "anchorCtr", lit "0")]
     | VBottom => [(lit "anchor", lit "b"); (lit "anchorCtr", lit "0")]
     | VTopCentered => [(lit "anchor", lit "t"); (lit "anchorCtr", lit "1")]
     | VMiddleCentered => [(lit "anchor", lit "ctr"); (lit "anchorCtr", lit "1")]
     | VBottomCentered => [(lit "anchor", lit "b"); (lit "anchorCtr", lit "1")]
     end).
(** src/drawing.rs:1169-1182 *)
Definition align_xml (t : stext) : list wx :=
  match st_h t with HDefault => [] | HLeft => [WEmpty (lit "a:pPr") [(lit "algn", lit "l")]] | HCenter => [WEmpty (lit "a:pPr") [(lit "algn", lit "ctr")]] | HRight => [WEmpty (lit "a:pPr") [(lit "algn", lit "r")]] end.
(** std: str::lines *)
Definition strip_cr (s : str) : str := match rev s with 13 :: r => rev r | _ => s end.
Fixpoint lines_from (cur s : str) : list str :=
  match s with
  | [] => match cur with [] => [] | _ => [rev cur] end
  | c :: r => if c =? 10 then strip_cr (rev cur) :: lines_from [] r else lines_from (c :: cur) r
  end.
Definition lines (s : str) : list str := lines_from [] s.

Section Numbers.
  Variable num_text : f64 -> str.   (* Display of f64 *)
  (** src/shape.rs:3180-3182, src/drawing.rs:1099-1156. [has_baseline] is never set for text boxes. *)
  Definition is_latin (f : sfont) : bool := negb (is_nil (sf_name f)) || (0 <? sf_pitch f) || (0 <? sf_charset f).
  Definition latin_xml (tag : string) (f : sfont) : wx :=
    WEmpty (lit tag) (when (negb (is_nil (sf_name f))) [(lit "typeface", sf_name f)] ++ when (0 <? sf_pitch f) [(lit "pitchFamily", dec (sf_pitch f))] ++
      when ((0 <? sf_charset f) || (0 <? sf_pitch f)) [(lit "charset", dec (sf_charset f))]).
  Definition font_attrs (f : sfont) : list (str * str) :=
    (lit "lang", lit "en-US") :: when (flt (f_of_N 0) (sf_size f)) [(lit "sz", num_text (sf_size f))] ++ when (sf_bold f) [(lit "b", lit "1")] ++ when (sf_italic f) [(lit "i", lit "1")] ++
    when (sf_underline f) [(lit "u", lit "sng")].
  Definition tfont_xml (tag : string) (f : sfont) : wx :=
    if is_latin f || negb (auto_or_default (sf_color f))
    then WElem (lit tag) (font_attrs f) (when (negb (auto_or_default (sf_color f))) [solid_xml (sf_color f) 0] ++ when (is_latin f) [latin_xml "a:latin" f; latin_xml "a:cs" f])
    else WEmpty (lit tag) (font_attrs f).
  (** src/drawing.rs:1064-1096, 1159-1166 *)
  Definition para_xml (t : tbox) (s : str) : wx :=
    WElem (lit "a:p") [] (align_xml (tb_options t) ++
      match tb_link t with
      | Some _ => [WElem (lit "a:fld") [(lit "id", lit "{B8ADDEFE-BF52-4FD4-8C5D-6B85EF6FF707}"); (lit "type", lit "TxLink")]
                     (tfont_xml "a:rPr" (tb_font t) :: (if is_nil s then [WData (lit "a:t") (lit " ") []] else [WEmpty (lit "a:pPr") []; WData (lit "a:t") s []]));
                   tfont_xml "a:endParaRPr" (tb_font t)]
      | None => if is_nil s then [tfont_xml "a:endParaRPr" (tb_font t)] else [WElem (lit "a:r") [] [tfont_xml "a:rPr" (tb_font t); WData (lit "a:t") s []]]
      end).
  (** src/drawing.rs:988-1010. The name of the object is the text of the box (src/shape.rs:3237-3239). *)
  Definition tx_body (d : info) (t : tbox) : wx :=
    WElem (lit "xdr:txBody") [] (body_pr (tb_options t) :: WEmpty (lit "a:lstStyle") [] :: map (para_xml t) (lines (if is_nil (in_name d) then [10] else in_name d))).
  (** src/drawing.rs:497-544, 333-352 *)
  Definition sp_xml (index : N) (d : info) (t : tbox) : wx :=
    WElem (lit "xdr:sp") [(lit "macro", []); (lit "textlink", match tb_link t with Some l => l | None => [] end)]
      [WElem (lit "xdr:nvSpPr") [] [c_nv_pr index d "TextBox"; WEmpty (lit "xdr:cNvSpPr") [(lit "txBox", lit "1")]];
       WElem (lit "xdr:spPr") [] [xfrm_xml d; geom_xml; tbox_fill (tb_format t); tbox_line (tb_format t)];
       style_xml; tx_body d t].

  (** src/drawing.rs:89-122. Fails if there are more shapes than text boxes (index out of bounds). *)
  Definition two_cell (index : N) (d : info) (body : wx) : wx :=
    WElem (lit "xdr:twoCellAnchor") (match in_move d with MoveOnly => [(lit "editAs", lit "oneCell")] | DontMove => [(lit "editAs", lit "absolute")] | MoveAndSize | MoveAndSizeAfter => [] end)
      [corner_xml "xdr:from" (in_from d); corner_xml "xdr:to" (in_to d); body; WEmpty (lit "xdr:clientData") []].
  (** src/drawing.rs:1185-1228 *)
  Definition absolute_xml (d : info) : wx :=
    WElem (lit "xdr:absoluteAnchor") []
      [WEmpty (lit "xdr:pos") [(lit "x", lit "0"); (lit "y", if in_portrait d then lit "-47625" else lit "0")];
       WEmpty (lit "xdr:ext") (if in_portrait d then [(lit "cx", lit "6162675"); (lit "cy", lit "6124575")] else [(lit "cx", lit "9308969"); (lit "cy", lit "6078325")]);
       frame_xml 1 d; WEmpty (lit "xdr:clientData") []].
  (** src/drawing.rs:50-70 *)
  Fixpoint anchors (index : N) (shapes : list tbox) (l : list info) : option (list wx) :=
    match l with
    | [] => Some []
    | d :: r =>
        match in_type d with
        | TChartSheet => option_map (cons (absolute_xml d)) (anchors index shapes r)
        | TImage => option_map (cons (two_cell index d (pic_xml index d))) (anchors (index + 1) shapes r)
        | TChart => option_map (cons (two_cell index d (frame_xml index d))) (anchors (index + 1) shapes r)
        | TShape => match shapes with
                    | t :: ts => option_map (cons (two_cell index d (sp_xml index d t))) (anchors (index + 1) ts r)
                    | [] => None
                    end
        end
    end.
  Definition drawing_part (l : list info) (shapes : list tbox) : option str :=
    option_map (fun k => document (WElem (lit "xdr:wsDr")
      [(lit "xmlns:xdr", lit "http://schemas.openxmlformats.org/drawingml/2006/spreadsheetDrawing"); (lit "xmlns:a", lit "http://schemas.openxmlformats.org/drawingml/2006/main")] k))
      (anchors 1 shapes l).
End Numbers.

(** ** What a save puts on the list: src/worksheet.rs:16158-16320, 16479-16532 (images, charts, then text boxes) *)
Record spot := { sp_from : corner; sp_to : corner; sp_x : N; sp_y : N; sp_cx : N; sp_cy : N }.
Inductive object :=
| OImage (p : spot) (name alt : str) (decorative : bool) (m : movement) (rel : N) (url : option (N * str))
| OChart (p : spot) (name alt : str) (decorative : bool) (m : movement) (rel : N)
| OChartSheet (name alt : str) (decorative : bool) (rel : N) (portrait : bool)
| OText (p : spot) (t : tbox) (url : option (N * str)).
Definition mk_info p name alt dec0 m rel ty url portrait : info :=
  {| in_from := sp_from p; in_to := sp_to p; in_x := sp_x p; in_y := sp_y p; in_cx := sp_cx p; in_cy := sp_cy p; in_name := name; in_descr := alt; in_decorative := dec0; in_move := m; in_rel := rel;
     in_type := ty; in_url := url; in_portrait := portrait |}.
Definition zero_corner : corner := {| cn_col := 0; cn_row := 0; cn_x := 0; cn_y := 0 |}.
Definition zero_spot : spot := {| sp_from := zero_corner; sp_to := zero_corner; sp_x := 0; sp_y := 0; sp_cx := 0; sp_cy := 0 |}.
(** The place of the chart of a chartsheet is computed too (src/worksheet.rs:16503), but not written. The number of a text box
    (its rel_id) is not written either: 0 here. *)
Definition info_of (o : object) : info :=
  match o with
  | OImage p n a d m r u => mk_info p n a d m r TImage u false
  | OChart p n a d m r => mk_info p n a d m r TChart None false
  | OChartSheet n a d r portrait => mk_info zero_spot n a d MoveAndSize r TChartSheet None portrait
  | OText p t u => mk_info p (tb_text t) (tb_alt t) false (tb_move t) 0 TShape u false
  end.
Definition shapes_in (l : list object) : list tbox := flat_map (fun o => match o with OText _ t _ => [t] | _ => [] end) l.
Definition drawing_file (num_text : f64 -> str) (l : list object) : option str := drawing_part num_text (map info_of l) (shapes_in l).
