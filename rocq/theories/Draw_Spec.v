(** What a drawing part says (ECMA-376 part 1, 20.5 and 20.1.2.2), and what was asked for.
    Of the model only the names of the calls, their arguments and the list of objects are used. *)
From Verif Require Import Base F64 Xml_Spec Xml_Read Fmt_Model SheetXml_Spec Doc_Spec CF_Spec Note_Spec Dml_Model Dml_Spec Draw_Model.
From Verif Require Color_Spec Date_Parse.
From Coq Require Import SpecFloat.

(** ** Reading *)
Definition num (k : string) (l : list (str * str)) : option N := bind (attr k l) number_of.
Definition read_corner (k : string) (l : list node) : option corner :=
  bind (kid k l) (fun n => let d j := bind (kid_text j (kids_of n)) number_of in
  bind (d "xdr:col"%string) (fun c => bind (d "xdr:colOff"%string) (fun x => bind (d "xdr:row"%string) (fun r => bind (d "xdr:rowOff"%string) (fun y => Some {| cn_col := c; cn_row := r; cn_x := x; cn_y := y |}))))).
Inductive edit_as := TwoCell | OneCell | Absolute.
Definition read_edit (l : list (str * str)) : option edit_as :=
  match attr "editAs" l with None => Some TwoCell | Some v => if str_eqb v (lit "oneCell") then Some OneCell else if str_eqb v (lit "absolute") then Some Absolute else None end.
Inductive place := Cells (from to : corner) (edit : edit_as) | Page (x y : Z) (cx cy : N).

(** Names and links: the non-visual properties. *)
Record named := { n_id : N; n_name : str; n_alt : str; n_decorative : bool; n_link : option (str * str) }.
Definition read_link (n : node) : option (option (str * str)) :=
  match kid "a:hlinkClick" (kids_of n) with
  | None => Some None
  | Some h => bind (attr "r:id" (attrs_of h)) (fun i => Some (Some (i, match attr "tooltip" (attrs_of h) with Some t => t | None => [] end)))
  end.
Definition is_decorative (n : node) : bool :=
  match kid "a:extLst" (kids_of n) with
  | None => false
  | Some e => existsb (fun x => match kid "adec:decorative" (kids_of x) with Some d => flag_of "val" (attrs_of d) | None => false end) (kids_of e)
  end.
Definition read_named (l : list node) : option named :=
  bind (kid "xdr:cNvPr" l) (fun n => bind (num "id" (attrs_of n)) (fun i => bind (attr "name" (attrs_of n)) (fun s => bind (read_link n) (fun u =>
  Some {| n_id := i; n_name := s; n_alt := match attr "descr" (attrs_of n) with Some d => d | None => [] end; n_decorative := is_decorative n; n_link := u |})))).

(** Text. *)
Record tfont := { t_size : option str; t_bold : bool; t_italic : bool; t_underline : bool; t_color : option dcolor; t_name : str; t_pitch : N; t_charset : N }.
Definition num_or (d : N) (k : string) (l : list (str * str)) : option N := match attr k l with Some v => number_of v | None => Some d end.
Definition read_font (n : node) : option tfont :=
  let l := attrs_of n in
  let latin := match kid "a:latin" (kids_of n) with Some x => attrs_of x | None => [] end in
  bind (fill_of (kids_of n)) (fun f => bind (match f with None => Some None | Some (Solid c 100000) => Some (Some c) | _ => None end) (fun c =>
  bind (num_or 0 "pitchFamily" latin) (fun p => bind (num_or 0 "charset" latin) (fun h =>
  Some {| t_size := attr "sz" l; t_bold := flag_of "b" l; t_italic := flag_of "i" l; t_underline := match attr "u" l with Some v => str_eqb v (lit "sng") | None => false end;
          t_color := c; t_name := match attr "typeface" latin with Some s => s | None => [] end; t_pitch := p; t_charset := h |})))).
Inductive align := AlDefault | AlLeft | AlCenter | AlRight.
Record para := { p_align : align; p_field : bool; p_text : str; p_font : tfont }.
Definition read_align (l : list node) : option align :=
  match kid "a:pPr" l with
  | None => Some AlDefault
  | Some n => match attr "algn" (attrs_of n) with
              | None => Some AlDefault
              | Some v => if str_eqb v (lit "l") then Some AlLeft else if str_eqb v (lit "ctr") then Some AlCenter else if str_eqb v (lit "r") then Some AlRight else None
              end
  end.
(** A paragraph holds a run, a field, or nothing; then its font is that of its end. *)
Definition read_para (n : node) : option para :=
  let l := kids_of n in
  if is_elem "a:p" n then
    bind (read_align l) (fun a =>
    let text x field := bind (kid_text "a:t" (kids_of x)) (fun t => bind (kid "a:rPr" (kids_of x)) (fun r => bind (read_font r) (fun f => Some {| p_align := a; p_field := field; p_text := t; p_font := f |}))) in
    match kid "a:r" l with
    | Some r => text r false
    | None => match kid "a:fld" l with
              | Some x => match attr "type" (attrs_of x) with Some v => if str_eqb v (lit "TxLink") then text x true else None | None => None end
              | None => bind (kid "a:endParaRPr" l) (fun r => bind (read_font r) (fun f => Some {| p_align := a; p_field := false; p_text := []; p_font := f |}))
              end
    end)
  else None.
Record box := { b_source : str; b_fill : option fill; b_line : option line; b_vert : str; b_anchor : str; b_centered : bool; b_paras : list para }.
Definition read_box (n : node) : option box :=
  bind (attr "textlink" (attrs_of n)) (fun s => bind (kid "xdr:spPr" (kids_of n)) (fun p => bind (fill_of (kids_of p)) (fun f =>
  bind (match kid "a:ln" (kids_of p) with Some l => bind (read_line l) (fun l => Some (Some l)) | None => Some None end) (fun l =>
  bind (kid "xdr:txBody" (kids_of n)) (fun b => bind (kid "a:bodyPr" (kids_of b)) (fun q => bind (attr "anchor" (attrs_of q)) (fun a =>
  bind (read_all read_para (filter (is_elem "a:p") (kids_of b))) (fun ps =>
  Some {| b_source := s; b_fill := f; b_line := l; b_vert := match attr "vert" (attrs_of q) with Some v => v | None => lit "horz" end; b_anchor := a;
          b_centered := flag_of "anchorCtr" (attrs_of q); b_paras := ps |})))))))).

Inductive content := Picture (rel : str) (x y cx cy : N) | Graph (rel : str) | Text (b : box) (x y cx cy : N).
Definition read_xfrm (l : list node) : option (N * N * N * N) :=
  bind (kid "xdr:spPr" l) (fun p => bind (kid "a:xfrm" (kids_of p)) (fun f => bind (kid "a:off" (kids_of f)) (fun o => bind (kid "a:ext" (kids_of f)) (fun e =>
  bind (num "x" (attrs_of o)) (fun x => bind (num "y" (attrs_of o)) (fun y => bind (num "cx" (attrs_of e)) (fun cx => bind (num "cy" (attrs_of e)) (fun cy => Some (x, y, cx, cy))))))))).
Definition read_graph (l : list node) : option str :=
  bind (kid "a:graphic" l) (fun g => bind (kid "a:graphicData" (kids_of g)) (fun d => bind (attr "uri" (attrs_of d)) (fun u =>
  if str_eqb u (lit "http://schemas.openxmlformats.org/drawingml/2006/chart") then bind (kid "c:chart" (kids_of d)) (fun c => attr "r:id" (attrs_of c)) else None))).
Definition read_object (l : list node) : option (named * content) :=
  match kid "xdr:pic" l with
  | Some p => bind (kid "xdr:nvPicPr" (kids_of p)) (fun v => bind (read_named (kids_of v)) (fun n => bind (kid "xdr:blipFill" (kids_of p)) (fun b => bind (kid "a:blip" (kids_of b)) (fun b =>
              bind (attr "r:embed" (attrs_of b)) (fun r => bind (read_xfrm (kids_of p)) (fun '(x, y, cx, cy) => Some (n, Picture r x y cx cy)))))))
  | None => match kid "xdr:graphicFrame" l with
    | Some p => bind (kid "xdr:nvGraphicFramePr" (kids_of p)) (fun v => bind (read_named (kids_of v)) (fun n => bind (read_graph (kids_of p)) (fun r => Some (n, Graph r))))
    | None => bind (kid "xdr:sp" l) (fun p => bind (kid "xdr:nvSpPr" (kids_of p)) (fun v => bind (read_named (kids_of v)) (fun n => bind (read_box p) (fun b =>
              bind (read_xfrm (kids_of p)) (fun '(x, y, cx, cy) => Some (n, Text b x y cx cy))))))
    end
  end.
Record item := { i_place : place; i_named : named; i_content : content }.
Definition read_anchor (n : node) : option item :=
  let l := kids_of n in
  bind (if is_elem "xdr:twoCellAnchor" n then bind (read_edit (attrs_of n)) (fun e => bind (read_corner "xdr:from" l) (fun a => bind (read_corner "xdr:to" l) (fun b => Some (Cells a b e))))
        else if is_elem "xdr:absoluteAnchor" n then
          bind (kid "xdr:pos" l) (fun p => bind (kid "xdr:ext" l) (fun e => let z k := bind (attr k (attrs_of p)) int_of in
          bind (z "x"%string) (fun x => bind (z "y"%string) (fun y => bind (num "cx" (attrs_of e)) (fun cx => bind (num "cy" (attrs_of e)) (fun cy => Some (Page x y cx cy)))))))
        else None) (fun p => bind (read_object l) (fun '(n, c) => Some {| i_place := p; i_named := n; i_content := c |})).
Definition read_drawing (root : node) : option (list item) := if is_elem "xdr:wsDr" root then read_all read_anchor (kids_of root) else None.

(** ** What was asked of a text box *)
Definition box_text := last_of (fun o => match o with TbText s => Some s | _ => None end) [].
Definition box_link := last_of (fun o => match o with TbLink s => Some (Some s) | _ => None end) None.
Definition box_alt := last_of (fun o => match o with TbAlt s => if short 255 s then Some s else None | _ => None end) [].
Definition box_move := last_of (fun o => match o with TbMove m => Some m | _ => None end) MoveAndSize.
Definition box_width := last_of (fun o => match o with TbWidth n => if 5 <=? n then Some n else None | _ => None end) 192.
Definition box_height := last_of (fun o => match o with TbHeight n => if 5 <=? n then Some n else None | _ => None end) 120.
Definition box_format := last_of (fun o => match o with TbFormat l => Some l | _ => None end) [].
Definition box_font := last_of (fun o => match o with TbFont l => Some l | _ => None end) [].
Definition box_options := last_of (fun o => match o with TbOptions l => Some l | _ => None end) [].
Definition font_bold := last_of (fun o => match o with SfBold => Some true | SfUnbold => Some false | _ => None end) false.
Definition font_italic (l : list sfont_op) : bool := existsb (fun o => match o with SfItalic => true | _ => false end) l.
Definition font_underline (l : list sfont_op) : bool := existsb (fun o => match o with SfUnderline => true | _ => false end) l.
Definition font_face := last_of (fun o => match o with SfName s => Some s | _ => None end) [].
Definition font_points := last_of (fun o => match o with SfSize x => Some x | _ => None end) (f_of_N 11).
Definition font_color := last_of (fun o => match o with SfColor c => in_range c | _ => None end) CDefault.
Definition font_pitch := last_of (fun o => match o with SfPitch n => Some n | _ => None end) 0.
Definition font_charset := last_of (fun o => match o with SfCharset n => Some n | _ => None end) 0.
Definition text_align := last_of (fun o => match o with StH a => Some a | _ => None end) HDefault.
Definition text_valign := last_of (fun o => match o with StV a => Some a | _ => None end) VTop.
Definition text_direction := last_of (fun o => match o with StDir d => Some d | _ => None end) DirHorizontal.

(** Sizes are written in hundredths of a point; a whole number is its digits. *)
Definition shows_whole (num_text : f64 -> str) : Prop := (forall n, n < 2 ^ 53 -> num_text (f_of_N n) = dec n) /\ forall x, attr_text (num_text x).
Definition align_for (a : halign) : align := match a with HDefault => AlDefault | HLeft => AlLeft | HCenter => AlCenter | HRight => AlRight end.
Definition anchor_for (a : valign) : string * bool :=
  match a with VTop => ("t", false) | VMiddle => ("ctr", false) | VBottom => ("b", false) | VTopCentered => ("t", true) | VMiddleCentered => ("ctr", true) | VBottomCentered => ("b", true) end%string.
Definition vert_for (d : direction) : string :=
  match d with DirHorizontal => "horz" | Dir270 => "vert270" | Dir90 => "vert" | Dir90EastAsian => "eaVert" | DirStacked => "wordArtVert" end%string.
(** The default colour and the automatic colour are those of the box's style. *)
Definition font_says (c : Color) : option dcolor := match c with CDefault | CAutomatic => None | c => Some (seen_color c) end.

(** The fill and the line of a box: white with a thin grey line unless something else was asked for. *)
Definition box_fill (l : list format_op) : fill := match wanted_fill l with Some f => f | None => Solid (DTheme 0 0) 100000 end.
Definition grey : fill := Solid (DShade 0 50) 100000.
Definition line_for (l : list line_op) : fill * str :=
  if wanted_hidden l then (NoFill, lit "solid")
  else (match wanted_color l with CDefault => grey | c => Solid (seen_color c) (seen_opacity c (wanted_transparency l)) end, word_at dashes (wanted_dash l)).
Definition box_line (l : list format_op) : fill * str :=
  if no_line l then (NoFill, lit "solid") else match the_line l with Some k => line_for k | None => (grey, lit "solid") end.
Definition box_points (l : list format_op) : option f64 :=     (* the width in points; none without a line *)
  if no_line l then None else match the_line l with Some k => wanted_width (Some three_quarters) k | None => Some three_quarters end.

(** The text as it comes back: paragraphs are lines; a line end at the very end does not count. *)
Definition rejoin (l : list str) : str := match l with [] => [] | s :: r => s ++ flat_map (fun t => 10 :: t) r end.
Definition drop_last_nl (s : str) : str := match rev s with c :: r => if c =? 10 then rev r else s | [] => [] end.

(** ** What was asked of the objects *)
Definition edit_for (m : movement) : edit_as := match m with MoveAndSize | MoveAndSizeAfter => TwoCell | MoveOnly => OneCell | DontMove => Absolute end.
Definition rel_text (n : N) : str := lit "rId" ++ dec n.
Definition link_for (u : option (N * str)) : option (str * str) := option_map (fun p => (rel_text (fst p), snd p)) u.
Definition default_name (kind : string) (i : N) (given : str) : str := match given with [] => lit kind ++ lit " " ++ dec i | s => s end.
Definition name_for (i : N) (o : object) : named :=
  match o with
  | OImage _ n a d _ _ u => {| n_id := i + 1; n_name := default_name "Picture" i n; n_alt := a; n_decorative := d; n_link := link_for u |}
  | OChart _ n a d _ _ => {| n_id := i + 1; n_name := default_name "Chart" i n; n_alt := a; n_decorative := d; n_link := None |}
  | OChartSheet n a d _ _ => {| n_id := 2; n_name := default_name "Chart" 1 n; n_alt := a; n_decorative := d; n_link := None |}
  | OText _ t u => {| n_id := i + 1; n_name := default_name "TextBox" i []; n_alt := tb_alt t; n_decorative := false; n_link := link_for u |}
  end.
Definition place_for (o : object) : place :=
  match o with
  | OImage p _ _ _ m _ _ | OChart p _ _ _ m _ => Cells (sp_from p) (sp_to p) (edit_for m)
  | OText p t _ => Cells (sp_from p) (sp_to p) (edit_for (tb_move t))
  | OChartSheet _ _ _ _ true => Page 0 (-47625) 6162675 6124575
  | OChartSheet _ _ _ _ false => Page 0 0 9308969 6078325
  end.
(** What is in the frame, but for the text boxes, whose [box] is described in C77. *)
Definition content_for (o : object) (c : content) : Prop :=
  match o with
  | OImage p _ _ _ _ r _ => c = Picture (rel_text r) (sp_x p) (sp_y p) (sp_cx p) (sp_cy p)
  | OChart _ _ _ _ _ r | OChartSheet _ _ _ r _ => c = Graph (rel_text r)
  | OText p _ _ => exists b, c = Text b (sp_x p) (sp_y p) (sp_cx p) (sp_cy p)
  end.
(** Objects are numbered in their order, except the one of a chartsheet. *)
Definition counted (o : object) : bool := match o with OChartSheet _ _ _ _ _ => false | _ => true end.
Definition number_at (l : list object) (k : nat) : N := 1 + N.of_nat (length (filter counted (firstn k l))).
Definition url_text (u : option (N * str)) : Prop := match u with Some p => attr_text (snd p) | None => True end.
(** Text boxes are made with calls whose texts XML can hold and whose names exist. *)
Definition sfont_known (o : sfont_op) : Prop := match o with SfName s => attr_text s | SfColor c => known_color c | _ => True end.
Definition tbox_known (o : tbox_op) : Prop :=
  match o with
  | TbText s => doc_text s | TbLink s | TbAlt s => attr_text s | TbFormat l => Forall format_known l | TbFont l => Forall sfont_known l | _ => True
  end.
Definition object_known (o : object) : Prop :=
  match o with
  | OImage _ n a _ _ _ u => attr_text n /\ attr_text a /\ url_text u
  | OChart _ n a _ _ _ | OChartSheet n a _ _ _ => attr_text n /\ attr_text a
  | OText _ t u => url_text u /\ exists l, t = make_tbox l /\ Forall tbox_known l
  end.
