(** What the elements of a chart part say (ECMA-376 part 1, 21.2), and what was asked of shapes, texts, layouts, ranges and titles.
    Of the model only the names of the calls and their arguments are used. *)
From Verif Require Import Base F64 Xml_Spec Xml_Read Fmt_Model SheetXml_Spec Doc_Spec CF_Spec Note_Spec Cache_Model Spark_Model Spark_Spec Dml_Model Dml_Spec Chart_Model.
From Verif Require Color_Spec.

(** ** Elements *)
(** An element that may be missing, but may not be there twice; and one that must be there. *)
Definition maybe {A} (k : string) (f : node -> option A) (l : list node) : option (option A) :=
  match filter (is_elem k) l with [] => Some None | [n] => bind (f n) (fun a => Some (Some a)) | _ => None end.
Definition needed {A} (k : string) (f : node -> option A) (l : list node) : option A := bind (maybe k f l) (fun o => o).
Definition value_of (n : node) : option str := attr "val" (attrs_of n).
Definition number_val (n : node) : option N := bind (value_of n) number_of.
Definition bit_of (s : str) : option bool := if str_eqb s (lit "1") then Some true else if str_eqb s (lit "0") then Some false else None.
(** A boolean: without a value it is true. *)
Definition flag_val (n : node) : option bool := match value_of n with Some v => bit_of v | None => Some true end.
Definition flag_at (k : string) (l : list node) : option bool := bind (maybe k flag_val l) (fun o => Some (match o with Some b => b | None => false end)).
Definition opt_attr {A} (k : string) (f : str -> option A) (l : list (str * str)) : option (option A) :=
  match attr k l with Some s => bind (f s) (fun a => Some (Some a)) | None => Some None end.

(** ** Shapes *)
Definition shape := (option fill * option line)%type.
Definition no_shape : shape := (None, None).
Definition read_sp (n : node) : option shape := bind (fill_of (kids_of n)) (fun f => bind (maybe "a:ln" read_line (kids_of n)) (fun l => Some (f, l))).
Definition shape_in (l : list node) : option shape := bind (maybe "c:spPr" read_sp l) (fun o => Some (match o with Some s => s | None => no_shape end)).
(** What was asked of a line: its width, unless it keeps the default; nothing else if it is hidden. *)
Definition asked_line (l : list line_op) : line :=
  {| li_width := option_map line_emus (wanted_width None l);
     li_fill := if wanted_hidden l then Some NoFill
                else match wanted_color l with CDefault => None | c => Some (Solid (seen_color c) (seen_opacity c (wanted_transparency l))) end;
     li_dash := if wanted_hidden l then lit "solid" else word_at dashes (wanted_dash l) |}.
Definition asked_shape (l : list format_op) : shape :=
  (wanted_fill l, if no_line l then Some {| li_width := None; li_fill := Some NoFill; li_dash := lit "solid" |} else option_map asked_line (the_line l)).

(** ** Texts *)
Record letters := { le_bold : option bool; le_italic : bool; le_underline : bool; le_size : option str; le_color : option dcolor; le_name : str; le_pitch : N; le_charset : N }.
Definition read_latin (n : node) : option (str * N * N) :=
  let l := attrs_of n in
  bind (opt_attr "pitchFamily" number_of l) (fun p => bind (opt_attr "charset" number_of l) (fun c =>
  Some (match attr "typeface" l with Some s => s | None => [] end, match p with Some p => p | None => 0 end, match c with Some c => c | None => 0 end))).
Definition read_letters (n : node) : option letters :=
  let l := attrs_of n in
  bind (opt_attr "b" bit_of l) (fun b => bind (opt_attr "i" bit_of l) (fun i => bind (fill_of (kids_of n)) (fun f => bind (maybe "a:latin" read_latin (kids_of n)) (fun t =>
  bind (match f with None => Some None | Some (Solid c 100000) => Some (Some c) | _ => None end) (fun c =>
  bind (opt_attr "u" (fun s => if str_eqb s (lit "sng") then Some true else None) l) (fun u =>
  let '(name, pitch, charset) := match t with Some t => t | None => ([], 0, 0) end in
  Some {| le_bold := b; le_italic := match i with Some i => i | None => false end; le_underline := match u with Some _ => true | None => false end; le_size := attr "sz" l; le_color := c;
          le_name := name; le_pitch := pitch; le_charset := charset |})))))).
(** The direction of a text: an angle in 60000ths of a degree and a way of writing. *)
Definition turn := option (Z * str).
Definition read_turn (n : node) : option turn :=
  match attr "rot" (attrs_of n), attr "vert" (attrs_of n) with
  | None, None => Some None
  | Some r, Some v => bind (int_of r) (fun r => Some (Some (r, v)))
  | _, _ => None
  end.
Record text := { te_turn : turn; te_rtl : option bool; te_letters : letters }.
(** The properties of a text that comes from somewhere else. *)
Definition read_text (n : node) : option text :=
  bind (needed "a:bodyPr" read_turn (kids_of n)) (fun t =>
  needed "a:p" (fun p => needed "a:pPr" (fun q => bind (opt_attr "rtl" bit_of (attrs_of q)) (fun r =>
    needed "a:defRPr" (fun d => bind (read_letters d) (fun f => Some {| te_turn := t; te_rtl := r; te_letters := f |})) (kids_of q))) (kids_of p)) (kids_of n)).
(** A text with its properties. *)
Definition read_rich (n : node) : option (str * text) :=
  bind (needed "a:bodyPr" read_turn (kids_of n)) (fun t =>
  needed "a:p" (fun p => bind (maybe "a:pPr" (fun q => opt_attr "rtl" bit_of (attrs_of q)) (kids_of p)) (fun r =>
    needed "a:r" (fun q => bind (needed "a:rPr" read_letters (kids_of q)) (fun f => bind (needed "a:t" text_of (kids_of q)) (fun s =>
      Some (s, {| te_turn := t; te_rtl := match r with Some r => r | None => None end; te_letters := f |})))) (kids_of p))) (kids_of n)).
(** What was asked of a font. *)
Definition asked_bold := last_of (fun o => match o with CfBold => Some (Some true) | CfUnbold => Some (Some false) | _ => None end) None.
Definition asked_italic (l : list font_op) : bool := existsb (fun o => match o with CfItalic => true | _ => false end) l.
Definition asked_underline (l : list font_op) : bool := existsb (fun o => match o with CfUnderline => true | _ => false end) l.
Definition asked_name := last_of (fun o => match o with CfName s => Some s | _ => None end) [].
Definition asked_size := last_of (fun o => match o with CfSize x => Some (fmul x (f_of_N 100)) | _ => None end) (f_of_N 0).
Definition asked_color := last_of (fun o => match o with CfColor c => in_range c | _ => None end) CDefault.
Definition asked_pitch := last_of (fun o => match o with CfPitch n => Some n | _ => None end) 0.
Definition asked_charset := last_of (fun o => match o with CfCharset n => Some n | _ => None end) 0.
Definition asked_rtl := last_of (fun o => match o with CfRtl b => Some (Some b) | _ => None end) None.
(** Angles are from -90 to 90; 270 and 271 stand for stacked letters. *)
Definition asked_rotation := last_of (fun o => match o with CfRotation z => if ((-90 <=? z) && (z <=? 90) || (z =? 270) || (z =? 271))%Z then Some (Some z) else None | _ => None end) None.
Section Numbers.
Variable num : f64 -> str.
Definition asked_letters (l : list font_op) : letters :=
  {| le_bold := asked_bold l; le_italic := asked_italic l; le_underline := asked_underline l; le_size := if flt (f_of_N 0) (asked_size l) then Some (num (asked_size l)) else None;
     le_color := match asked_color l with CDefault | CAutomatic => None | c => Some (seen_color c) end; le_name := asked_name l; le_pitch := asked_pitch l; le_charset := asked_charset l |}.
(** The titles of vertical axes are turned unless something else is asked for. *)
Definition asked_turn (turned : bool) (l : list font_op) : turn :=
  match asked_rotation l with
  | Some 270%Z => Some (0%Z, lit "wordArtVert")
  | Some 271%Z => Some (0%Z, lit "eaVert")
  | Some z => Some ((z * 60000)%Z, lit "horz")
  | None => if turned then Some ((-5400000)%Z, lit "horz") else None
  end.
Definition asked_text (turned : bool) (l : list font_op) : text := {| te_turn := asked_turn turned l; te_rtl := asked_rtl l; te_letters := asked_letters l |}.

(** ** Layouts *)
Record layout := { lo_inner : bool; lo_x : option str; lo_y : option str; lo_w : option str; lo_h : option str }.
Definition automatic_layout : layout := {| lo_inner := false; lo_x := None; lo_y := None; lo_w := None; lo_h := None |}.
Definition read_manual (n : node) : option layout :=
  let l := kids_of n in
  bind (maybe "c:layoutTarget" value_of l) (fun t => bind (needed "c:xMode" value_of l) (fun mx => bind (needed "c:yMode" value_of l) (fun my =>
  bind (maybe "c:x" value_of l) (fun x => bind (maybe "c:y" value_of l) (fun y => bind (maybe "c:w" value_of l) (fun w => bind (maybe "c:h" value_of l) (fun h =>
  if str_eqb mx (lit "edge") && str_eqb my (lit "edge") then
    Some {| lo_inner := match t with Some t => str_eqb t (lit "inner") | None => false end; lo_x := x; lo_y := y; lo_w := w; lo_h := h |}
  else None))))))).
Definition read_layout (n : node) : option layout :=
  bind (maybe "c:manualLayout" read_manual (kids_of n)) (fun o => Some (match o with Some l => l | None => automatic_layout end)).
(** Offsets and sizes are fractions of the chart; others are ignored. *)
Definition in_chart (x : f64) : bool := fle (f_of_N 0) x && fle x (f_of_N 1).
Definition asked_offset := last_of (fun o => match o with LyOffset x y => if in_chart x && in_chart y then Some (Some (x, y)) else None | _ => None end) None.
Definition asked_dims := last_of (fun o => match o with LySize x y => if in_chart x && in_chart y then Some (Some (x, y)) else None | _ => None end) None.
Definition asked_layout (inner sized : bool) (l : list layout_op) : layout :=
  let o := asked_offset l in let d := asked_dims l in
  match o, d with
  | None, None => automatic_layout
  | _, _ => {| lo_inner := inner; lo_x := option_map (fun p => num (fst p)) o; lo_y := option_map (fun p => num (snd p)) o;
               lo_w := if sized then option_map (fun p => num (fst p)) d else None; lo_h := if sized then option_map (fun p => num (snd p)) d else None |}
  end.

(** ** Ranges *)
Inductive cached := Texts (count : N) (points : list (N * str)) | Numbers (code : str) (count : N) (points : list (N * str)).
Record source := { src_area : area; src_data : option cached }.
Definition read_pt (n : node) : option (N * str) := bind (attr "idx" (attrs_of n)) (fun i => bind (number_of i) (fun i => bind (needed "c:v" text_of (kids_of n)) (fun s => Some (i, s)))).
Definition read_points (n : node) : option (N * list (N * str)) :=
  bind (needed "c:ptCount" number_val (kids_of n)) (fun c => bind (read_all read_pt (filter (is_elem "c:pt") (kids_of n))) (fun l => Some (c, l))).
Definition read_area_of (n : node) : option area := needed "c:f" (fun f => bind (text_of f) read_area) (kids_of n).
Definition read_ref (r : node) : option source :=
  if is_elem "c:strRef" r then
    bind (read_area_of r) (fun a => bind (maybe "c:strCache" read_points (kids_of r)) (fun c => Some {| src_area := a; src_data := option_map (fun p => Texts (fst p) (snd p)) c |}))
  else if is_elem "c:numRef" r then
    bind (read_area_of r) (fun a => bind (maybe "c:numCache" (fun n => bind (needed "c:formatCode" text_of (kids_of n)) (fun f => bind (read_points n) (fun p => Some (Numbers f (fst p) (snd p))))) (kids_of r))
      (fun c => Some {| src_area := a; src_data := c |}))
  else None.
Definition read_source (n : node) : option source := match kids_of n with [r] => read_ref r | _ => None end.
(** The data of a range: every text; or the numbers of the cells that are not blank, at their places, 0 for what is not a number. *)
Definition indexed {A} (l : list A) : list (N * A) := combine (map N.of_nat (seq 0 (length l))) l.
Definition blank (s : str) : bool := match s with [] => true | _ => false end.
Variable parses : str -> bool.
Variable data : crange -> cache.
Definition number_points (l : list str) : list (N * str) := map (fun p => (fst p, if parses (snd p) then snd p else lit "0")) (filter (fun p => negb (blank (snd p))) (indexed l)).
Inductive use := AsText | AsNumbers | AsFound.
Definition data_seen (u : use) (k : cache) : option cached :=
  let n := N.of_nat (length (c_data k)) in
  match c_data k with
  | [] => None
  | l => Some (match u, c_type k with
               | AsText, _ | AsFound, TString => Texts n (indexed l)
               | _, TDate => Numbers (lit "dd/mm/yyyy") n (number_points l)
               | _, _ => Numbers (lit "General") n (number_points l)
               end)
  end.
Definition area_asked (c : crange) : area := (g_sheet c, (g_fr c, g_fc c, (g_lr c, g_lc c))).
Definition source_asked (u : use) (c : crange) : source := {| src_area := area_asked c; src_data := data_seen u (data c) |}.

(** ** Titles *)
Inductive words := Rich (s : str) (t : text) | Plain (s : str) | Cells (s : source).
Definition read_words (n : node) : option words :=
  match kids_of n with
  | [k] => if is_elem "c:rich" k then bind (read_rich k) (fun p => Some (Rich (fst p) (snd p)))
           else if is_elem "c:v" k then bind (text_of k) (fun s => Some (Plain s))
           else if is_elem "c:strRef" k then bind (read_ref k) (fun s => Some (Cells s))
           else None
  | _ => None
  end.
Record title := { tt_words : option words; tt_layout : layout; tt_overlay : bool; tt_shape : shape; tt_text : option text }.
Definition read_title (n : node) : option title :=
  let l := kids_of n in
  bind (maybe "c:tx" read_words l) (fun w => bind (needed "c:layout" read_layout l) (fun y => bind (flag_at "c:overlay" l) (fun o => bind (shape_in l) (fun s => bind (maybe "c:txPr" read_text l) (fun t =>
  Some {| tt_words := w; tt_layout := y; tt_overlay := o; tt_shape := s; tt_text := t |}))))).
(** A name is a text or a range; the last one counts. *)
Definition is_range (a : carg) : bool := range_given (a_range a).
Definition last_name (l : list carg) : option carg := last_of (fun a => Some (Some a)) None l.
Inductive named_by := NoName | ByText (s : str) | ByRange (c : crange).
Definition the_name (l : list carg) : named_by :=
  match last_name l with None => NoName | Some a => if is_range a then ByRange (a_range a) else match a_text a with [] => NoName | s => ByText s end end.
(** A text is not given before a range: the text would stay (refuted below). *)
Definition settled (l : list carg) : Prop := forall p a q b r, l = p ++ a :: q ++ b :: r -> is_range a = false -> a_text a <> [] -> is_range b = false.
Definition names_of (l : list title_op) : list carg := flat_map (fun o => match o with TiName a => [a] | _ => [] end) l.
Definition title_format := last_of (fun o => match o with TiFormat l => Some l | _ => None end) [].
Definition title_font_calls := last_of (fun o => match o with TiFont l => Some l | _ => None end) [].
Definition title_layout := last_of (fun o => match o with TiLayout l => Some l | _ => None end) [].
Definition title_overlay := last_of (fun o => match o with TiOverlay b => Some b | _ => None end) false.
Definition title_off (l : list title_op) : bool := existsb (fun o => match o with TiHidden => true | _ => false end) l.
Definition no_calls {A} (l : list A) : bool := match l with [] => true | _ => false end.
(** A title that comes from a range has its font only if it has no format (refuted below). *)
Definition asked_title (turned : bool) (l : list title_op) : option title :=
  let whole w t := Some {| tt_words := w; tt_layout := asked_layout false false (title_layout l); tt_overlay := title_overlay l; tt_shape := asked_shape (title_format l); tt_text := t |} in
  match the_name (names_of l) with
  | ByText s => whole (Some (Rich s (asked_text turned (title_font_calls l)))) None
  | ByRange c => whole (Some (Cells (source_asked AsText c))) (if no_calls (title_format l) then Some (asked_text turned (title_font_calls l)) else None)
  | NoName => if no_calls (title_format l) then None else whole None None
  end.
(** The name of a series. *)
Definition asked_name_of (l : list carg) : option words :=
  match the_name l with NoName => None | ByText s => Some (Plain s) | ByRange c => Some (Cells (source_asked AsText c)) end.
End Numbers.

(** ** Arguments that can be written *)
(** Texts are XML texts; names and enums exist. *)
Definition font_known (o : font_op) : Prop := match o with CfName s => attr_text s | CfColor c => known_color c | _ => True end.
(** A range is on the grid of the types, and its sheet can be quoted; [q] says which names can (C05). *)
Section Ranges.
Variable q : str -> Prop.
Definition range_known (c : crange) : Prop :=
  g_fr c < 2 ^ 32 - 1 /\ g_lr c < 2 ^ 32 - 1 /\ g_fc c < 65535 /\ g_lc c < 65535 /\ (forall r, g_sheet c <> 39 :: r) /\ doc_text (g_sheet c) /\ q (g_sheet c).
Definition arg_known (a : carg) : Prop := if is_range a then range_known (a_range a) else doc_text (a_text a).
Definition title_known (o : title_op) : Prop :=
  match o with TiName a => arg_known a | TiFormat l => Forall format_known l | TiFont l => Forall font_known l | _ => True end.
End Ranges.
