(** Model of cell notes and buttons: the calls on Note (src/note.rs) and Button
    (src/button.rs), the worksheet calls that place them, the comments part
    (src/comment.rs) and the VML part (src/vml.rs).
    Simplified: where an object lies (its anchor and absolute offset in pixels) is an
    input here; Geom_Model models how it is found.  f64 sizes of notes and buttons are whole numbers
    of pixels (they come from u32), so they are kept as N. *)
From Verif Require Import Base Xml_Model Xml_Tree SMap Fmt_Model Rich_Model CF_Model Ref_Model.
From Verif Require Pkg_Model.

(** ** Notes (src/note.rs:78-97; row, col, x_offset, y_offset are never set, decorative neither) *)
Record xnote := { xn_author : option str; xn_prefix : bool; xn_text : str; xn_alt : str; xn_visible : option bool;
                  xn_width : N; xn_height : N; xn_font : str; xn_size : str; xn_family : N; xn_fill : Color }.
Inductive note_op :=
| NAuthor (name : str) | NPrefix (b : bool) | NText (s : str) | NWidth (n : N) | NHeight (n : N) | NVisible (b : bool)
| NBackground (c : Color) | NFontName (s : str) | NFontSize (text : str) | NFontFamily (n : N) | NFormat (f : Format)
| NAlt (s : str) | NMovement (option : N).
(** src/note.rs:143-170 *)
Definition note_new (text : str) : xnote :=
  {| xn_author := None; xn_prefix := true; xn_text := text; xn_alt := []; xn_visible := None; xn_width := 128; xn_height := 74;
     xn_font := lit "Tahoma"; xn_size := lit "8"; xn_family := 2; xn_fill := CRGB 16777185 |}.
Definition over (limit : N) (s : str) : bool := limit <? N.of_nat (length s).
(** src/note.rs:222-630; the movement option is kept in the note but only decides how hidden
    rows and columns count for the position. *)
Definition note_step (n : xnote) (o : note_op) : xnote :=
  let mk a p t l v w h f z m c := {| xn_author := a; xn_prefix := p; xn_text := t; xn_alt := l; xn_visible := v; xn_width := w; xn_height := h;
     xn_font := f; xn_size := z; xn_family := m; xn_fill := c |} in
  let '(a, p, t, l, v) := (xn_author n, xn_prefix n, xn_text n, xn_alt n, xn_visible n) in
  let '(w, h, f, z, m, c) := (xn_width n, xn_height n, xn_font n, xn_size n, xn_family n, xn_fill n) in
  match o with
  | NAuthor a' => if over 52 a' then n else mk (Some a') p t l v w h f z m c
  | NPrefix p => mk a p t l v w h f z m c
  | NText t => mk a p t l v w h f z m c
  | NWidth w' => if w' =? 0 then n else mk a p t l v w' h f z m c
  | NHeight h' => if h' =? 0 then n else mk a p t l v w h' f z m c
  | NVisible b => mk a p t l (Some b) w h f z m c
  | NBackground c' => if color_valid c' then mk a p t l v w h f z m c' else n
  | NFontName f => mk a p t l v w h f z m c
  | NFontSize z => mk a p t l v w h f z m c
  | NFontFamily m => mk a p t l v w h f z m c
  | NFormat x => mk a p t l v w h (font_name (font x)) (font_size (font x)) (family (font x)) (background_color (fill x))
  | NAlt l' => if over 255 l' then n else mk a p t l' v w h f z m c
  | NMovement _ => n
  end.
Definition make_note (text : str) (calls : list note_op) : xnote := fold_left note_step calls (note_new text).

(** ** Buttons (src/button.rs:73-313; the movement option as for notes) *)
Record button := { bt_name : str; bt_macro : str; bt_alt : str; bt_width : N; bt_height : N }.
Inductive button_op := BCaption (s : str) | BMacro (s : str) | BWidth (n : N) | BHeight (n : N) | BAlt (s : str) | BMovement (option : N).
Definition button_new : button := {| bt_name := []; bt_macro := []; bt_alt := []; bt_width := 64; bt_height := 20 |}.
Definition button_step (b : button) (o : button_op) : button :=
  match o with
  | BCaption s => if over 255 s then b else {| bt_name := s; bt_macro := bt_macro b; bt_alt := bt_alt b; bt_width := bt_width b; bt_height := bt_height b |}
  | BMacro s => {| bt_name := bt_name b; bt_macro := s; bt_alt := bt_alt b; bt_width := bt_width b; bt_height := bt_height b |}
  | BWidth n => if n =? 0 then b else {| bt_name := bt_name b; bt_macro := bt_macro b; bt_alt := bt_alt b; bt_width := n; bt_height := bt_height b |}
  | BHeight n => if n =? 0 then b else {| bt_name := bt_name b; bt_macro := bt_macro b; bt_alt := bt_alt b; bt_width := bt_width b; bt_height := n |}
  | BAlt s => if over 255 s then b else {| bt_name := bt_name b; bt_macro := bt_macro b; bt_alt := s; bt_width := bt_width b; bt_height := bt_height b |}
  | BMovement _ => b
  end.
Definition make_button (calls : list button_op) : button := fold_left button_step calls button_new.

(** ** The worksheet *)
(** notes: BTreeMap<RowNum, BTreeMap<ColNum, Note>>, kept as one map sorted by
    16384 * row + column, which gives the same order. *)
Record nsheet := { ns_notes : smap xnote; ns_authors : Pkg_Model.amap; ns_show : bool }.
Definition nsheet_new : nsheet := {| ns_notes := []; ns_authors := [(lit "Author", 0)]; ns_show := false |}.
Definition cell_key (row col : N) : N := row * 16384 + col.
(** src/worksheet.rs:16389-16413: what preparing the VML parts of a save does to the notes and the
    authors (workbook.rs prepare_vml only calls it for sheets with notes or buttons; without notes it
    changes nothing). *)
Definition shown_note (show : bool) (n : xnote) : xnote :=
  if show && match xn_visible n with None => true | Some _ => false end
  then {| xn_author := xn_author n; xn_prefix := xn_prefix n; xn_text := xn_text n; xn_alt := xn_alt n; xn_visible := Some true;
          xn_width := xn_width n; xn_height := xn_height n; xn_font := xn_font n; xn_size := xn_size n; xn_family := xn_family n; xn_fill := xn_fill n |}
  else n.
Definition pkg_notes (m : smap xnote) : list Pkg_Model.note :=
  map (fun p => {| Pkg_Model.nt_row := fst p / 16384; Pkg_Model.nt_col := fst p mod 16384; Pkg_Model.nt_author := xn_author (snd p) |}) m.
Definition prepare_notes (s : nsheet) : nsheet * list N :=
  let '(au, ids) := Pkg_Model.assign_authors (ns_authors s) (pkg_notes (ns_notes s)) in
  ({| ns_notes := smap_map (fun _ => shown_note (ns_show s)) (ns_notes s); ns_authors := au; ns_show := ns_show s |}, ids).

Inductive sheet_op :=
| QNote (row col : N) (text : str) (calls : list note_op)      (* insert_note(row, col, &Note::new(text)...) *)
| QAuthor (name : str)                                           (* set_default_note_author *)
| QShow (b : bool)                                               (* show_all_notes *)
| QSave.                                                         (* the workbook is saved here *)
(** src/worksheet.rs:5745-5787 insert_note (false: the call returned an error),
    5991-5994, 6049-6059. *)
Definition sheet_step (s : nsheet) (o : sheet_op) : nsheet * bool :=
  match o with
  | QNote row col text calls =>
      if (Ref_Model.ROW_MAX <=? row) || (Ref_Model.COL_MAX <=? col) then (s, false)
      else let n := make_note text calls in
           if over (32767 - 54) (xn_text n) then (s, false)
           else ({| ns_notes := ins (cell_key row col) n (ns_notes s); ns_authors := ns_authors s; ns_show := ns_show s |}, true)
  | QAuthor a => (if over 52 a then s else {| ns_notes := ns_notes s; ns_authors := [(a, 0)]; ns_show := ns_show s |}, true)
  | QShow b => ({| ns_notes := ns_notes s; ns_authors := ns_authors s; ns_show := b |}, true)
  | QSave => (fst (prepare_notes s), true)
  end.
Definition sheet_run (ops : list sheet_op) : nsheet := fold_left (fun s o => fst (sheet_step s o)) ops nsheet_new.

(** ** The comments part (src/comment.rs) *)
(** src/comment.rs:211-220 write_text *)
Definition text_xml (s : str) : wx := WData (lit "t") s (if ws_edges s then [(lit "xml:space", lit "preserve")] else []).
(** src/comment.rs:160-208 *)
Definition run_props (n : xnote) (bold : bool) : wx :=
  WElem (lit "rPr") [] (
    (if bold then [WEmpty (lit "b") []] else []) ++
    [WEmpty (lit "sz") [(lit "val", xn_size n)]; WEmpty (lit "color") [(lit "indexed", lit "81")];
     WEmpty (lit "rFont") [(lit "val", xn_font n)]; WEmpty (lit "family") [(lit "val", dec (xn_family n))]]).
Definition note_run (n : xnote) (bold : bool) (s : str) : wx := WElem (lit "r") [] [run_props n bold; text_xml s].
(** src/comment.rs:124-157 write_text_block *)
Definition text_block (authors : list str) (id : N) (n : xnote) : wx :=
  WElem (lit "text") [] (
    if xn_prefix n then
      [note_run n true (match nth_error authors (N.to_nat id) with Some a => a ++ lit ":" | None => lit "Author:" end);
       note_run n false (10 :: xn_text n)]
    else [note_run n false (xn_text n)]).
(** src/comment.rs:111-121 write_comment *)
Definition comment_xml (v : ovf) (authors : list str) (key id : N) (n : xnote) : option wx :=
  cell <- row_col_to_cell v (key / 16384) (key mod 16384) ;;
  Some (WElem (lit "comment") [(lit "ref", cell); (lit "authorId", dec id)] [text_block authors id n]).
Fixpoint comment_list (v : ovf) (authors : list str) (m : smap xnote) (ids : list N) : option (list wx) :=
  match m, ids with
  | (k, n) :: m', id :: ids' => c <- comment_xml v authors k id n ;; l <- comment_list v authors m' ids' ;; Some (c :: l)
  | _, _ => Some []
  end.
(** src/comment.rs:49-108; src/packager.rs:891-910 gives it the notes and the keys of the author map. *)
Definition comments_xml (v : ovf) (authors : list str) (m : smap xnote) (ids : list N) : option wx :=
  list <- comment_list v authors m ids ;;
  Some (WElem (lit "comments") [(lit "xmlns", lit "http://schemas.openxmlformats.org/spreadsheetml/2006/main")] (
    (if Pkg_Model.is_nil authors then [] else [WElem (lit "authors") [] (map (fun a => WData (lit "author") a []) authors)]) ++
    [WElem (lit "commentList") [] list])).
(** The part of a save of this sheet. *)
Definition comments_part (v : ovf) (s : nsheet) : option str :=
  let '(s', ids) := prepare_notes s in option_map document (comments_xml v (map fst (ns_authors s')) (ns_notes s') ids).

(** ** The VML part (src/vml.rs) *)
(** The position (src/drawing.rs DrawingInfo) in pixels: the anchor cells with offsets, and the top left corner. *)
Record place := { pl_anchor : list N; pl_left : N; pl_top : N }.
(** src/vml.rs:48-50 vml_dpi_size, for whole pixels, and the text of that f64: the sizes are quarters
    of a point, exactly representable. *)
Definition quarter_text (q : N) : str :=
  dec (q / 4) ++ match q mod 4 with 0 => [] | 1 => lit ".25" | 2 => lit ".5" | _ => lit ".75" end.
Definition dpi_text (pixels : N) : str := quarter_text (pixels * 3).
Definition frame_style (p : place) (width height z : N) : str :=
  lit "position:absolute;margin-left:" ++ dpi_text (pl_left p) ++ lit "pt;margin-top:" ++ dpi_text (pl_top p) ++
  lit "pt;width:" ++ dpi_text width ++ lit "pt;height:" ++ dpi_text height ++ lit "pt;z-index:" ++ dec z ++ lit ";".
Definition shape_name (id : N) : str := lit "_x0000_s" ++ dec id.
(** src/vml.rs:586-600 write_anchor *)
Fixpoint join_comma (l : list N) : str := match l with [] => [] | [x] => dec x | x :: r => dec x ++ lit ", " ++ join_comma r end.
Definition anchor_xml (p : place) : wx := WData (lit "x:Anchor") (join_comma (pl_anchor p)) [].
Definition alt_attr (s : str) : list (str * str) := if Pkg_Model.is_nil s then [] else [(lit "alt", s)].
(** src/color.rs:237-246 vml_rgb_hex_value *)
Definition vml_color (c : Color) : str :=
  match c with CDefault | CAutomatic | CTheme _ _ => lit "#ffffe1" | c => lit "#" ++ map ascii_lower (rgb_hex_value c) end.

(** src/vml.rs:558-583 write_comment_client_data *)
Definition note_data (p : place) (row col : N) (visible : bool) : wx :=
  WElem (lit "x:ClientData") [(lit "ObjectType", lit "Note")] (
    [WEmpty (lit "x:MoveWithCells") []; WEmpty (lit "x:SizeWithCells") []; anchor_xml p; WData (lit "x:AutoFill") (lit "False") [];
     WData (lit "x:Row") (dec row) []; WData (lit "x:Column") (dec col) []] ++
    (if visible then [WEmpty (lit "x:Visible") []] else [])).
(** src/note.rs:634-644 vml_info *)
Definition note_visible (n : xnote) : bool := match xn_visible n with Some b => b | None => false end.
(** src/vml.rs:349-400 write_comment_shape *)
Definition note_shape (id z key : N) (p : place) (n : xnote) : wx :=
  WElem (lit "v:shape") (
    [(lit "id", shape_name id); (lit "type", lit "#_x0000_t202")] ++ alt_attr (xn_alt n) ++
    [(lit "style", frame_style p (xn_width n) (xn_height n) z ++ (if note_visible n then lit "visibility:visible" else lit "visibility:hidden"));
     (lit "fillcolor", vml_color (xn_fill n)); (lit "o:insetmode", lit "auto")])
    [WEmpty (lit "v:fill") [(lit "color2", lit "#ffffe1")];
     WEmpty (lit "v:shadow") [(lit "on", lit "t"); (lit "color", lit "black"); (lit "obscured", lit "t")];
     WEmpty (lit "v:path") [(lit "o:connecttype", lit "none")];
     WElem (lit "v:textbox") [(lit "style", lit "mso-direction-alt:auto")] [WElem (lit "div") [(lit "style", lit "text-align:left")] []];
     note_data p (key / 16384) (key mod 16384) (note_visible n)].
(** src/vml.rs:299-345, 475-534 write_button_shape; src/worksheet.rs:16434-16453: the caption and the macro of the
    k-th button (from 1) when none was given. *)
Definition button_caption (k : N) (b : button) : str := if Pkg_Model.is_nil (bt_name b) then lit "Button " ++ dec k else bt_name b.
Definition button_macro (k : N) (b : button) : str :=
  if Pkg_Model.is_nil (bt_macro b) then lit "[0]!Button" ++ dec k ++ lit "_Click" else lit "[0]!" ++ bt_macro b.
Definition button_shape (id z k : N) (p : place) (b : button) : wx :=
  WElem (lit "v:shape") (
    [(lit "id", shape_name id); (lit "type", lit "#_x0000_t201")] ++ alt_attr (bt_alt b) ++
    [(lit "style", frame_style p (bt_width b) (bt_height b) z ++ lit "mso-wrap-style:tight"); (lit "o:button", lit "t");
     (lit "fillcolor", lit "buttonFace [67]"); (lit "strokecolor", lit "windowText [64]"); (lit "o:insetmode", lit "auto")])
    [WEmpty (lit "v:fill") [(lit "color2", lit "buttonFace [67]"); (lit "o:detectmouseclick", lit "t")];
     WEmpty (lit "o:lock") [(lit "v:ext", lit "edit"); (lit "rotation", lit "t")];
     WElem (lit "v:textbox") [(lit "style", lit "mso-direction-alt:auto"); (lit "o:singleclick", lit "f")]
       [WElem (lit "div") [(lit "style", lit "text-align:center")]
          [WData (lit "font") (button_caption k b) [(lit "face", lit "Calibri"); (lit "size", lit "220"); (lit "color", lit "#000000")]]];
     WElem (lit "x:ClientData") [(lit "ObjectType", lit "Button")]
       [anchor_xml p; WData (lit "x:PrintObject") (lit "False") []; WData (lit "x:AutoFill") (lit "False") [];
        WData (lit "x:FmlaMacro") (button_macro k b) []; WData (lit "x:TextHAlign") (lit "Center") []; WData (lit "x:TextVAlign") (lit "Center") []]].
(** src/vml.rs:142-182 *)
Definition shapetype (num : string) (kids : list wx) : wx :=
  WElem (lit "v:shapetype") [(lit "id", lit "_x0000_t" ++ lit num); (lit "coordsize", lit "21600,21600"); (lit "o:spt", lit num);
                             (lit "path", lit "m,l,21600r21600,l21600,xe")] (WEmpty (lit "v:stroke") [(lit "joinstyle", lit "miter")] :: kids).
Definition button_type : wx := shapetype "201"
  [WEmpty (lit "v:path") [(lit "shadowok", lit "f"); (lit "o:extrusionok", lit "f"); (lit "strokeok", lit "f"); (lit "fillok", lit "f"); (lit "o:connecttype", lit "rect")];
   WEmpty (lit "o:lock") [(lit "v:ext", lit "edit"); (lit "shapetype", lit "t")]].
Definition note_type : wx := shapetype "202" [WEmpty (lit "v:path") [(lit "gradientshapeok", lit "t"); (lit "o:connecttype", lit "rect")]].
(** The loops of src/vml.rs:66-90: ids and z indices count on from the buttons to the notes. *)
Fixpoint button_shapes (id z k : N) (l : list (place * button)) : list wx :=
  match l with [] => [] | (p, b) :: l' => button_shape (id + 1) (z + 1) k p b :: button_shapes (id + 1) (z + 1) (k + 1) l' end.
Fixpoint note_shapes (id z : N) (places : N -> N -> place) (m : smap xnote) : list wx :=
  match m with [] => [] | (k, n) :: m' => note_shape (id + 1) (z + 1) k (places (k / 16384) (k mod 16384)) n :: note_shapes (id + 1) (z + 1) places m' end.
(** src/worksheet.rs:16457-16464: the data ids of the blocks of 1024 shapes. *)
Fixpoint more_ids (data : N) (i : N) (n : nat) : str := match n with O => [] | S n' => lit "," ++ dec (data + i + 1) ++ more_ids data (i + 1) n' end.
Definition data_ids (data : N) (notes : N) : str := dec data ++ more_ids data 0 (N.to_nat (notes / 1024)).
(** src/vml.rs:57-106 assemble_xml_file, for a part with buttons and notes (header images are in their own part). *)
Definition vml_xml (data shape : N) (buttons : list (place * button)) (places : N -> N -> place) (m : smap xnote) : wx :=
  let nb := N.of_nat (length buttons) in
  WElem (lit "xml") [(lit "xmlns:v", lit "urn:schemas-microsoft-com:vml"); (lit "xmlns:o", lit "urn:schemas-microsoft-com:office:office");
                     (lit "xmlns:x", lit "urn:schemas-microsoft-com:office:excel")] (
    WElem (lit "o:shapelayout") [(lit "v:ext", lit "edit")]
      [WEmpty (lit "o:idmap") [(lit "v:ext", lit "edit"); (lit "data", data_ids data (N.of_nat (length m)))]] ::
    (if Pkg_Model.is_nil buttons then [] else button_type :: button_shapes shape 0 1 buttons) ++
    (if Pkg_Model.is_nil m then [] else note_type :: note_shapes (shape + nb) nb places m)).
(** The part of a save; it has no XML declaration. *)
Definition vml_part (data shape : N) (buttons : list (place * button)) (places : N -> N -> place) (s : nsheet) : str :=
  write_wx (vml_xml data shape buttons places (ns_notes (fst (prepare_notes s)))).
