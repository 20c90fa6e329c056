(** Reading the style of a cell from xl/styles.xml (ECMA-376 part 1, 18.8), and the style that a
    chain of calls on Format asks for.  Uses the XML reader; no writer function. *)
From Verif Require Import Base Xml_Spec Xml_Read Ref_Spec SheetXml_Spec Fmt_Model FmtOps_Model Doc_Spec DV_Spec Color_Spec.

(** ** What a consumer sees *)
(** A number format: General, a built-in one or a code. *)
Inductive rnumber := NGeneral | NBuiltin (n : N) | NCode (code : str).
(** A fill: none, one colour all over ([None]: the colour of the system), or a pattern with its colours. *)
Inductive rfill := FNone | FSolid (c : option rcolor) | FPattern (name : str) (fg bg : option rcolor).
(** A line: its style and colour ([None]: automatic). *)
Definition rline := option (str * option rcolor).
Record rstyle := {
  s_number : rnumber;
  s_bold : bool; s_italic : bool; s_strike : bool; s_underline : str; s_script : str;
  s_color : option rcolor; s_name : str; s_size : str; s_family : N; s_charset : N; s_scheme : option str;
  s_horizontal : str; s_vertical : str; s_rotation : Z; s_indent : N; s_wrap : bool; s_shrink : bool; s_reading : N;
  s_fill : rfill;
  s_left : rline; s_right : rline; s_top : rline; s_bottom : rline; s_diagonal : rline; s_up : bool; s_down : bool;
  s_locked : bool; s_hidden : bool; s_quote : bool; s_checkbox : bool;
  s_style : str }.

(** ** The reader *)
Definition tagged_val (k : string) (l : list node) : option str := bind (kid k l) (fun n => attr "val" (attrs_of n)).
Definition present (k : string) (l : list node) : bool := match kid k l with Some _ => true | None => false end.
Definition or_text (o : option str) (d : string) : str := match o with Some s => s | None => lit d end.
Definition or_num (o : option str) : option N := match o with Some s => number_of s | None => Some 0 end.
(** A colour element: [None] if it has no colour of its own (automatic or of the system). *)
Definition own_color (n : node) : option (option rcolor) :=
  let a := attrs_of n in
  if existsb (fun k => match attr k a with Some _ => true | None => false end) ["auto"; "indexed"]%string then Some None
  else bind (read_rcolor a) (fun c => Some (Some c)).
Definition kid_color (k : string) (l : list node) : option (option rcolor) := match kid k l with Some n => own_color n | None => Some None end.
Definition read_underline (l : list node) : str := match kid "u" l with Some n => or_text (attr "val" (attrs_of n)) "single" | None => lit "none" end.
(** A solid fill of a cell shows its fgColor; one of a differential format its bgColor, and solid
    is then the default pattern. *)
Definition read_fill (dxf : bool) (n : node) : option rfill :=
  bind (kid "patternFill" (kids_of n)) (fun p =>
    let name := or_text (attr "patternType" (attrs_of p)) (if dxf then "solid" else "none") in
    bind (kid_color "fgColor" (kids_of p)) (fun fg => bind (kid_color "bgColor" (kids_of p)) (fun bg =>
      Some (if str_eqb name (lit "none") then FNone else if str_eqb name (lit "solid") then FSolid (if dxf then bg else fg) else FPattern name fg bg)))).
Definition read_line (k : string) (l : list node) : option rline :=
  match kid k l with
  | Some n => match attr "style" (attrs_of n) with
              | Some s => if str_eqb s (lit "none") then Some None else bind (kid_color "color" (kids_of n)) (fun c => Some (Some (s, c)))
              | None => Some None
              end
  | None => Some None
  end.
(** Degrees: 0 to 90 upwards, 91 to 180 downwards, 255 for text set vertically, which the API calls 270. *)
Definition read_rotation (o : option str) : option Z :=
  bind (or_num o) (fun v => if v <=? 90 then Some (Z.of_N v) else if v <=? 180 then Some (90 - Z.of_N v)%Z else if v =? 255 then Some 270%Z else None).
(** The number format with a given id. *)
Definition read_number (root : list node) (id : N) : option rnumber :=
  if id =? 0 then Some NGeneral
  else if id <? 164 then Some (NBuiltin id)
  else bind (kid "numFmts" root) (fun l =>
       bind (find (fun n => match bind (attr "numFmtId" (attrs_of n)) number_of with Some i => i =? id | None => false end) (kids_of l)) (fun n =>
       bind (attr "formatCode" (attrs_of n)) (fun code => Some (NCode code)))).
Definition entry (root : list node) (table : string) (id : N) : option node := bind (kid table root) (fun t => nth_error (kids_of t) (N.to_nat id)).
Definition id_attr (k : string) (a : list (str * str)) : option N := bind (attr k a) number_of.
(** The cell style that an entry of cellStyleXfs belongs to. *)
Definition style_name (root : list node) (id : N) : option str :=
  bind (entry root "cellStyleXfs" id) (fun _ =>
  bind (kid "cellStyles" root) (fun t =>
  bind (find (fun n => match id_attr "xfId" (attrs_of n) with Some i => i =? id | None => false end) (kids_of t)) (fun n => attr "name" (attrs_of n)))).
(** Checkbox: the extension that refers to the feature property bag. *)
Definition read_checkbox (uri tag : string) (l : list node) : bool :=
  match kid "extLst" l with
  | Some e => existsb (fun x => match attr "uri" (attrs_of x) with Some u => str_eqb u (lit uri) | None => false end && present tag (kids_of x)) (kids_of e)
  | None => false
  end.
Definition read_style (doc : node) (k : N) : option rstyle :=
  let root := kids_of doc in
  bind (entry root "cellXfs" k) (fun x =>
  let a := attrs_of x in let sub := kids_of x in
  bind (bind (id_attr "numFmtId" a) (read_number root)) (fun number =>
  bind (bind (id_attr "fontId" a) (entry root "fonts")) (fun font =>
  bind (bind (id_attr "fillId" a) (entry root "fills")) (fun fill =>
  bind (bind (id_attr "borderId" a) (entry root "borders")) (fun border =>
  bind (bind (id_attr "xfId" a) (style_name root)) (fun style =>
  let fo := kids_of font in let bo := kids_of border in
  let al := match kid "alignment" sub with Some n => attrs_of n | None => [] end in
  let pr := match kid "protection" sub with Some n => attrs_of n | None => [] end in
  bind (kid_color "color" fo) (fun color => bind (tagged_val "name" fo) (fun name => bind (tagged_val "sz" fo) (fun size =>
  bind (or_num (tagged_val "family" fo)) (fun family => bind (or_num (tagged_val "charset" fo)) (fun charset =>
  bind (read_rotation (attr "textRotation" al)) (fun rotation => bind (or_num (attr "indent" al)) (fun indent => bind (or_num (attr "readingOrder" al)) (fun reading =>
  bind (read_fill false fill) (fun fill =>
  bind (read_line "left" bo) (fun left => bind (read_line "right" bo) (fun right => bind (read_line "top" bo) (fun top =>
  bind (read_line "bottom" bo) (fun bottom => bind (read_line "diagonal" bo) (fun diagonal =>
  Some {| s_number := number; s_bold := present "b" fo; s_italic := present "i" fo; s_strike := present "strike" fo; s_underline := read_underline fo;
          s_script := or_text (tagged_val "vertAlign" fo) "baseline"; s_color := color; s_name := name; s_size := size; s_family := family; s_charset := charset;
          s_scheme := tagged_val "scheme" fo; s_horizontal := or_text (attr "horizontal" al) "general"; s_vertical := or_text (attr "vertical" al) "bottom";
          s_rotation := rotation; s_indent := indent; s_wrap := flag_of "wrapText" al; s_shrink := flag_of "shrinkToFit" al; s_reading := reading;
          s_fill := fill; s_left := left; s_right := right; s_top := top; s_bottom := bottom; s_diagonal := diagonal;
          s_up := flag_of "diagonalUp" (attrs_of border); s_down := flag_of "diagonalDown" (attrs_of border);
          s_locked := negb (match attr "locked" pr with Some v => str_eqb v (lit "0") | None => false end); s_hidden := flag_of "hidden" pr;
          s_quote := flag_of "quotePrefix" a; s_checkbox := read_checkbox "{C7286773-470A-42A8-94C5-96B5CB345126}" "xfpb:xfComplement" sub;
          s_style := style |})))))))))))))))))))).

(** ** What a chain of calls asks for *)
Definition if_real (c : Color) : option Color := if real_color c then Some c else None.
Definition shown (c : Color) : option rcolor := match c with CDefault | CAutomatic => None | c => Some (color_seen c) end.
Section Asked.
  Definition of_bold o := match o with OBold b => Some b | _ => None end.
  Definition of_italic o := match o with OItalic b => Some b | _ => None end.
  Definition of_strike o := match o with OStrike b => Some b | _ => None end.
  (** set_hyperlink underlines, colours and takes the font out of the theme. *)
  Definition of_underline o := match o with OUnderline n => Some n | OHyperlink => Some 1 | _ => None end.
  Definition of_script o := match o with OScript n => Some n | _ => None end.
  Definition of_color o := match o with OFontColor c => if_real c | OHyperlink => Some (CTheme 10 0) | _ => None end.
  Definition of_name o := match o with OFontName s => Some s | _ => None end.
  Definition of_size o := match o with OFontSize s => Some s | _ => None end.
  Definition of_family o := match o with OFamily n => Some n | _ => None end.
  Definition of_charset o := match o with OCharset n => Some n | _ => None end.
  (** A font other than Calibri is not a font of the theme. *)
  Definition of_scheme o := match o with OScheme s => Some s | OFontName n => if str_eqb n (lit "Calibri") then None else Some [] | OHyperlink => Some [] | _ => None end.
  Definition of_horizontal o := match o with OAlign a => if a <=? 7 then Some a else None | _ => None end.
  Definition of_vertical o := match o with OAlign a => if a =? 0 then Some 0 else if 8 <=? a then Some a else None | _ => None end.
  Definition of_wrap o := match o with OWrap b => Some b | _ => None end.
  Definition of_indent o := match o with OIndent n => Some n | _ => None end.
  Definition of_rotation o := match o with ORotation z => if ((-90 <=? z) && (z <=? 90) || (z =? 270))%Z then Some z else None | _ => None end.
  Definition of_reading o := match o with OReading n => if n <=? 2 then Some n else None | _ => None end.
  Definition of_shrink o := match o with OShrink b => Some b | _ => None end.
  Definition of_pattern o := match o with OPattern n => Some n | _ => None end.
  Definition of_foreground o := match o with OForeground c => if_real c | _ => None end.
  Definition of_background o := match o with OBackground c => if_real c | _ => None end.
  Definition side_eqb (a b : side) : bool :=
    match a, b with STop, STop | SBottom, SBottom | SLeft, SLeft | SRight, SRight | SDiagonal, SDiagonal => true | _, _ => false end.
  (** set_border means the four edges, not the diagonal. *)
  Definition of_line (s : side) o := match o with OBorder n => if side_eqb s SDiagonal then None else Some n | OSide t n => if side_eqb s t then Some n else None | _ => None end.
  Definition of_line_color (s : side) o :=
    match o with OBorderColor c => if side_eqb s SDiagonal then None else if_real c | OSideColor t c => if side_eqb s t then if_real c else None | _ => None end.
  Definition of_diagonal o := match o with ODiagonalType n => Some n | _ => None end.
  Definition of_locked o := match o with OLocked b => Some b | _ => None end.
  Definition of_hidden o := match o with OHidden b => Some b | _ => None end.
  Definition of_quote o := match o with OQuote b => Some b | _ => None end.
  Definition of_checkbox o := match o with OCheckbox b => Some b | _ => None end.
  Definition of_link o := match o with OHyperlink => Some true | OUnsetHyperlink => Some false | _ => None end.
  Definition of_number o := match o with ONumFormat [] => Some NGeneral | ONumFormat code => Some (NCode code)
                            | ONumIndex n => Some (if n =? 0 then NGeneral else NBuiltin n) | _ => None end.

  Definition underline_text (n : N) : str := lit (nth (N.to_nat n) ["none"; "single"; "double"; "singleAccounting"; "doubleAccounting"]%string "none"%string).
  Definition script_text (n : N) : str := lit (nth (N.to_nat n) ["baseline"; "superscript"; "subscript"]%string "baseline"%string).
  Definition horizontal_text (n : N) : str :=
    lit (nth (N.to_nat n) ["general"; "left"; "center"; "right"; "fill"; "justify"; "centerContinuous"; "distributed"]%string "general"%string).
  (** Top, Bottom, VerticalCenter, VerticalJustify and VerticalDistributed follow the eight horizontal ones. *)
  Definition vertical_text (n : N) : str := lit (if n <? 8 then "bottom"%string else nth (N.to_nat n - 8) ["top"; "bottom"; "center"; "justify"; "distributed"]%string "bottom"%string).
  Definition pattern_text (n : N) : str :=
    lit (nth (N.to_nat n) ["none"; "solid"; "mediumGray"; "darkGray"; "lightGray"; "darkHorizontal"; "darkVertical"; "darkDown"; "darkUp"; "darkGrid"; "darkTrellis";
                           "lightHorizontal"; "lightVertical"; "lightDown"; "lightUp"; "lightGrid"; "lightTrellis"; "gray125"; "gray0625"]%string "none"%string).
  Definition line_text (n : N) : str :=
    lit (nth (N.to_nat n) ["none"; "thin"; "medium"; "dashed"; "dotted"; "thick"; "double"; "hair"; "mediumDashed"; "dashDot"; "mediumDashDot"; "dashDotDot";
                           "mediumDashDotDot"; "slantDashDot"]%string "none"%string).

  (** An indent overrides a horizontal alignment that does not support it (all but left, right and
      distributed); text that is wrapped, filled, justified or distributed is not shrunk. *)
  Definition horizontal_asked ops : N :=
    let h := last_given of_horizontal 0 ops in
    if (last_given of_indent 0 ops =? 0) || (h =? 1) || (h =? 3) || (h =? 7) then h else 1.
  Definition shrink_asked ops : bool :=
    let h := horizontal_asked ops in last_given of_shrink false ops && negb (last_given of_wrap false ops || (h =? 4) || (h =? 5) || (h =? 7)).
  (** Without a pattern, or with the solid one, the background colour fills the cell, or the foreground
      colour if there is no background colour. *)
  Definition fill_asked ops : rfill :=
    let p := last_given of_pattern 0 ops in
    let fg := shown (last_given of_foreground CDefault ops) in let bg := shown (last_given of_background CDefault ops) in
    if p <=? 1 then match bg, fg with Some c, _ => FSolid (Some c) | None, Some c => FSolid (Some c) | None, None => if p =? 0 then FNone else FSolid None end
    else FPattern (pattern_text p) fg bg.
  Definition line_asked (s : side) ops : rline :=
    let n := last_given (of_line s) 0 ops in if n =? 0 then None else Some (line_text n, shown (last_given (of_line_color s) CDefault ops)).
  (** The default font colour is the text colour of the theme. *)
  Definition color_asked ops : option rcolor := match last_given of_color CDefault ops with CDefault => Some (RTheme 1 0) | c => shown c end.
  Definition style_asked (ops : list fmt_op) : rstyle :=
    let diagonal := last_given of_diagonal 0 ops in
    {| s_number := last_given of_number NGeneral ops;
       s_bold := last_given of_bold false ops; s_italic := last_given of_italic false ops; s_strike := last_given of_strike false ops;
       s_underline := underline_text (last_given of_underline 0 ops); s_script := script_text (last_given of_script 0 ops);
       s_color := color_asked ops; s_name := last_given of_name (lit "Calibri") ops; s_size := last_given of_size (lit "11") ops;
       s_family := last_given of_family 2 ops; s_charset := last_given of_charset 0 ops;
       s_scheme := match last_given of_scheme (lit "minor") ops with [] => None | s => Some s end;
       s_horizontal := horizontal_text (horizontal_asked ops); s_vertical := vertical_text (last_given of_vertical 0 ops);
       s_rotation := last_given of_rotation 0%Z ops; s_indent := last_given of_indent 0 ops; s_wrap := last_given of_wrap false ops;
       s_shrink := shrink_asked ops; s_reading := last_given of_reading 0 ops;
       s_fill := fill_asked ops;
       s_left := line_asked SLeft ops; s_right := line_asked SRight ops; s_top := line_asked STop ops; s_bottom := line_asked SBottom ops;
       s_diagonal := line_asked SDiagonal ops; s_up := (diagonal =? 1) || (diagonal =? 3); s_down := (diagonal =? 2) || (diagonal =? 3);
       s_locked := last_given of_locked true ops; s_hidden := last_given of_hidden false ops; s_quote := last_given of_quote false ops;
       s_checkbox := last_given of_checkbox false ops;
       s_style := lit (if last_given of_link false ops then "Hyperlink" else "Normal") |}.
End Asked.

(** ** Calls that are covered *)
(** Enum arguments in range (the Rust types allow no other), named colours that exist, texts that an XML attribute can
    hold; a built-in number format below 164. *)
Definition named_ok (c : Color) : bool := match c with CNamed n => n <? 16 | _ => true end.
Definition call_text (text_ok : str -> bool) (o : fmt_op) : bool := match o with ONumFormat s | OFontName s | OFontSize s | OScheme s => text_ok s | _ => true end.
Definition call_ok (text_ok : str -> bool) (o : fmt_op) : bool :=
  match o with
  | ONumFormat s | OFontName s | OFontSize s | OScheme s => text_ok s
  | ONumIndex n => n <? 164
  | OUnderline n => n <=? 4 | OScript n => n <=? 2 | OAlign n => n <=? 12 | OPattern n => n <=? 18 | OBorder n | OSide _ n => n <=? 13
  | ODiagonalType n => n <=? 3
  | OFontColor c | OBackground c | OForeground c | OBorderColor c | OSideColor _ c => named_ok c
  | OUnsetHyperlink => false
  | _ => true
  end.
(** Not covered, because the library departs from the above (see the refutations in Props_StylesXml): a number format code
    after a built-in format, or the built-in format 0 after either; both fill colours without a pattern, or
    an automatic colour in a solid fill; an indent with Top or Bottom and a horizontal alignment that it overrides. *)
Fixpoint numbers_ok (code builtin : bool) (ops : list fmt_op) : bool :=
  match ops with
  | [] => true
  | ONumFormat s :: r => negb builtin && numbers_ok (negb (str_eqb s [])) false r
  | ONumIndex n :: r => negb ((n =? 0) && code) && numbers_ok (code || negb (n =? 0)) (negb (n =? 0)) r
  | _ :: r => numbers_ok code builtin r
  end.
Definition fill_ok ops : bool :=
  let p := last_given of_pattern 0 ops in let fg := last_given of_foreground CDefault ops in let bg := last_given of_background CDefault ops in
  (2 <=? p) ||
  (negb (if color_eq_dec fg CAutomatic then true else false) && negb (if color_eq_dec bg CAutomatic then true else false) &&
   ((p =? 1) || (if color_eq_dec fg CDefault then true else false) || (if color_eq_dec bg CDefault then true else false))).
Definition indent_ok ops : bool :=
  let h := last_given of_horizontal 0 ops in let v := last_given of_vertical 0 ops in
  (last_given of_indent 0 ops =? 0) || (h =? 1) || (h =? 3) || (h =? 7) || negb ((v =? 8) || (v =? 9)).
Definition calls_ok (text_ok : str -> bool) (ops : list fmt_op) : bool :=
  forallb (call_ok text_ok) ops && numbers_ok false false ops && fill_ok ops && indent_ok ops.

(** ** Differential formats *)
(** What a conditional format or a table column changes in the look of a cell: fonts are bold or not, ...;
    a colour of [None], the number format General, the fill FNone and a missing line leave the cell as it is. *)
Record dstyle := { d_bold : bool; d_italic : bool; d_strike : bool; d_underline : str; d_color : option rcolor; d_number : rnumber; d_fill : rfill;
                   d_left : rline; d_right : rline; d_top : rline; d_bottom : rline; d_checkbox : bool }.
Definition read_dnumber (n : node) : option rnumber :=
  bind (id_attr "numFmtId" (attrs_of n)) (fun id => bind (attr "formatCode" (attrs_of n)) (fun code =>
    Some (if id =? 0 then NGeneral else if id <? 164 then NBuiltin id else NCode code))).
Definition read_dxf (doc : node) (k : N) : option dstyle :=
  bind (entry (kids_of doc) "dxfs" k) (fun d =>
  let l := kids_of d in
  let fo := match kid "font" l with Some n => kids_of n | None => [] end in
  let bo := match kid "border" l with Some n => kids_of n | None => [] end in
  bind (kid_color "color" fo) (fun color =>
  bind (match kid "numFmt" l with Some n => read_dnumber n | None => Some NGeneral end) (fun number =>
  bind (match kid "fill" l with Some n => read_fill true n | None => Some FNone end) (fun fill =>
  bind (read_line "left" bo) (fun left => bind (read_line "right" bo) (fun right => bind (read_line "top" bo) (fun top => bind (read_line "bottom" bo) (fun bottom =>
  Some {| d_bold := present "b" fo; d_italic := present "i" fo; d_strike := present "strike" fo; d_underline := read_underline fo; d_color := color;
          d_number := number; d_fill := fill; d_left := left; d_right := right; d_top := top; d_bottom := bottom;
          d_checkbox := read_checkbox "{0417FA29-78FA-4A13-93AC-8FF0FAFDF519}" "xfpb:DXFComplement" l |})))))))).
Definition dxf_asked (ops : list fmt_op) : dstyle :=
  {| d_bold := last_given of_bold false ops; d_italic := last_given of_italic false ops; d_strike := last_given of_strike false ops;
     d_underline := underline_text (last_given of_underline 0 ops); d_color := shown (last_given of_color CDefault ops);
     d_number := last_given of_number NGeneral ops; d_fill := fill_asked ops;
     d_left := line_asked SLeft ops; d_right := line_asked SRight ops; d_top := line_asked STop ops; d_bottom := line_asked SBottom ops;
     d_checkbox := last_given of_checkbox false ops |}.
(** Not covered: a foreground colour without a background colour in a solid fill. *)
Definition dxf_fill_ok ops : bool :=
  let p := last_given of_pattern 0 ops in
  (2 <=? p) || match shown (last_given of_background CDefault ops), shown (last_given of_foreground CDefault ops) with None, Some _ => false | _, _ => true end.
Definition dxf_calls_ok (text_ok : str -> bool) (ops : list fmt_op) : bool := forallb (call_ok text_ok) ops && numbers_ok false false ops && dxf_fill_ok ops.
