(** What a comments part and a VML part say (ECMA-376 part 1, 18.7; part 4, 14), and what was
    asked for.  Of the model only the names of the calls and their arguments are used. *)
From Verif Require Import Base Xml_Spec Xml_Read Ref_Spec SheetXml_Spec Doc_Spec View_Spec Fmt_Model CF_Spec Setup_Spec Note_Model.
From Verif Require Date_Parse Pkg_Spec Color_Spec.

(** ** Reading the comments part *)
Record note_run := { nr_bold : bool; nr_size : str; nr_font : str; nr_family : N; nr_text : str }.
(** White space at the ends of a text is only kept if the element says so. *)
Definition ws (c : char) : bool := (c =? 9) || (c =? 10) || (c =? 32).
Definition kept_text (n : node) : option str :=
  bind (text_of n) (fun t =>
  if match attr "xml:space" (attrs_of n) with Some v => str_eqb v (lit "preserve") | None => false end then Some t
  else match t with [] => Some [] | c :: _ => if ws c || ws (last t 0) then None else Some t end).
Definition val_of (k : string) (l : list node) : option str := bind (kid k l) (fun n => attr "val" (attrs_of n)).
Definition read_run (n : node) : option note_run :=
  if is_elem "r" n then
    bind (kid "rPr" (kids_of n)) (fun p => bind (kid "t" (kids_of n)) (fun t => bind (kept_text t) (fun s =>
    bind (val_of "sz" (kids_of p)) (fun z => bind (val_of "rFont" (kids_of p)) (fun f => bind (val_of "family" (kids_of p)) (fun m => bind (number_of m) (fun m =>
    Some {| nr_bold := match kid "b" (kids_of p) with Some _ => true | None => false end; nr_size := z; nr_font := f; nr_family := m; nr_text := s |})))))))
  else None.
Record comment := { c_row : N; c_col : N; c_author : str; c_runs : list note_run }.
Definition read_comment (authors : list str) (n : node) : option comment :=
  if is_elem "comment" n then
    bind (attr "ref" (attrs_of n)) (fun t => bind (cell_of t) (fun rc =>
    bind (attr "authorId" (attrs_of n)) (fun i => bind (number_of i) (fun i => bind (nth_error authors (N.to_nat i)) (fun a =>
    bind (kid "text" (kids_of n)) (fun x => bind (read_all read_run (kids_of x)) (fun runs =>
    Some {| c_row := fst rc; c_col := snd rc; c_author := a; c_runs := runs |})))))))
  else None.
Definition read_comments (root : node) : option (list comment) :=
  if is_elem "comments" root then
    bind (kid "authors" (kids_of root)) (fun a => bind (read_all text_of (kids_of a)) (fun authors =>
    bind (kid "commentList" (kids_of root)) (fun l => read_all (read_comment authors) (kids_of l))))
  else None.
Definition comments_at (l : list comment) (r c : N) : list comment := filter (fun x => (c_row x =? r) && (c_col x =? c)) l.

(** ** What was asked of a note *)
Definition last_of {O A} (f : O -> option A) (d : A) (calls : list O) : A :=
  fold_left (fun a o => match f o with Some v => v | None => a end) calls d.
Definition short (limit : N) (s : str) : bool := N.of_nat (length s) <=? limit.
Definition wanted_author := last_of (fun o => match o with NAuthor a => if short 52 a then Some (Some a) else None | _ => None end) None.
Definition wanted_prefix := last_of (fun o => match o with NPrefix b => Some b | _ => None end) true.
Definition wanted_text (text : str) := last_of (fun o => match o with NText t => Some t | _ => None end) text.
Definition wanted_alt := last_of (fun o => match o with NAlt s => if short 255 s then Some s else None | _ => None end) [].
Definition wanted_visible := last_of (fun o => match o with NVisible b => Some (Some b) | _ => None end) None.
Definition wanted_width := last_of (fun o => match o with NWidth n => if n =? 0 then None else Some n | _ => None end) 128.
Definition wanted_height := last_of (fun o => match o with NHeight n => if n =? 0 then None else Some n | _ => None end) 74.
Definition wanted_font := last_of (fun o => match o with NFontName s => Some s | NFormat f => Some (font_name (font f)) | _ => None end) (lit "Tahoma").
Definition wanted_size := last_of (fun o => match o with NFontSize s => Some s | NFormat f => Some (font_size (font f)) | _ => None end) (lit "8").
Definition wanted_family := last_of (fun o => match o with NFontFamily n => Some n | NFormat f => Some (family (font f)) | _ => None end) 2.
(** FFFFE1 is the usual yellow; colours that do not exist are ignored. *)
Definition wanted_fill := last_of (fun o => match o with NBackground c => in_range c | NFormat f => Some (background_color (fill f)) | _ => None end) (CRGB 16777185).

(** The runs of a note: unless the prefix is off, the author in bold with a colon, then the text on a new line. *)
Definition runs_for (author text : str) (calls : list note_op) : list note_run :=
  let run b s := {| nr_bold := b; nr_size := wanted_size calls; nr_font := wanted_font calls; nr_family := wanted_family calls; nr_text := s |} in
  if wanted_prefix calls then [run true (author ++ lit ":"); run false (10 :: wanted_text text calls)] else [run false (wanted_text text calls)].

(** ** What was asked of a sheet *)
(** A note is refused off the grid, or if its text (with room for the author) is longer than a cell can hold. *)
Definition note_allowed (r c : N) (text : str) (calls : list note_op) : bool := on_grid r c && short 32713 (wanted_text text calls).
Definition note_on (r c : N) : list sheet_op -> option (str * list note_op) :=
  last_of (fun o => match o with QNote r' c' t l => if (r' =? r) && (c' =? c) && note_allowed r' c' t l then Some (Some (t, l)) else None | _ => None end) None.
Definition default_author := last_of (fun o => match o with QAuthor a => if short 52 a then Some a else None | _ => None end) (lit "Author").
Definition show_all := last_of (fun o => match o with QShow b => Some b | _ => None end) false.
Definition author_for (ops : list sheet_op) (r c : N) : str :=
  match note_on r c ops with
  | Some (_, l) => match wanted_author l with Some a => a | None => default_author ops end
  | None => default_author ops
  end.
Definition no_save (ops : list sheet_op) : Prop := ~ In QSave ops.
(** Texts that a part can hold: XML characters; in attributes neither tab nor CR. *)
Definition attr_text (s : str) : Prop := forallb (fun c => xml_char c && negb (c =? 9) && negb (c =? 13)) s = true.
Definition op_texts (o : note_op) : Prop :=
  match o with
  | NAuthor s | NText s => doc_text s
  | NAlt s | NFontName s | NFontSize s => attr_text s
  | NFormat f => attr_text (font_name (font f)) /\ attr_text (font_size (font f))
  | _ => True
  end.
Definition sheet_texts (o : sheet_op) : Prop :=
  match o with QNote _ _ t l => doc_text t /\ Forall op_texts l | QAuthor a => doc_text a | _ => True end.

(** ** Reading the VML part *)
(** A CSS style: properties separated by semicolons, name and value by a colon. *)
Definition read_style (s : str) : list (str * str) :=
  map (fun p => match Date_Parse.split_on (fun c => c =? 58) p with [k; v] => (k, v) | _ => ([], p) end) (Date_Parse.split_on (fun c => c =? 59) s).
Fixpoint drop_end (t s : str) : option str :=      (* [s] without [t] at its end *)
  if str_eqb s t then Some [] else match s with [] => None | c :: r => option_map (cons c) (drop_end t r) end.
(** A length in points, in hundredths of a point. *)
Definition hundredths (s : str) : option N :=
  bind (drop_end (lit "pt") s) (fun d => match Date_Parse.split_on (fun c => c =? 46) d with
  | [w] => bind (number_of w) (fun n => Some (n * 100))
  | [w; [a]] => bind (number_of w) (fun n => bind (number_of [a]) (fun f => Some (n * 100 + f * 10)))
  | [w; [a; b]] => bind (number_of w) (fun n => bind (number_of [a; b]) (fun f => Some (n * 100 + f)))
  | _ => None
  end).
Definition length_of (k : string) (l : list (str * str)) : option N := bind (attr k l) hundredths.
(** Numbers separated by a comma and a space. *)
Definition read_numbers (s : str) : option (list N) :=
  read_all (fun t => number_of (match t with 32 :: r => r | _ => t end)) (Date_Parse.split_on (fun c => c =? 44) s).
(** Colours: #rrggbb in lower case. *)
Definition html_color (s : str) : option N := match s with 35 :: r => rgb_of (lit "FF" ++ map ascii_upper r) | _ => None end.
Record frame := { f_left : N; f_top : N; f_width : N; f_height : N; f_z : N; f_anchor : list N; f_alt : str }.
Inductive shape :=
| ShNote (id : str) (row col : N) (visible : bool) (fill : N) (f : frame)
| ShButton (id : str) (caption macro : str) (f : frame).
Definition read_frame (l : list (str * str)) (data : node) : option frame :=
  bind (attr "style" l) (fun st => let st := read_style st in
  bind (length_of "margin-left" st) (fun x => bind (length_of "margin-top" st) (fun y =>
  bind (length_of "width" st) (fun w => bind (length_of "height" st) (fun h => bind (bind (attr "z-index" st) number_of) (fun z =>
  bind (kid_text "x:Anchor" (kids_of data)) (fun a => bind (read_numbers a) (fun a =>
  Some {| f_left := x; f_top := y; f_width := w; f_height := h; f_z := z; f_anchor := a;
          f_alt := match attr "alt" l with Some s => s | None => [] end |})))))))).
(** The two places where visibility is kept must agree. *)
Definition read_shape (n : node) : option shape :=
  let l := attrs_of n in
  bind (attr "id" l) (fun id => bind (kid "x:ClientData" (kids_of n)) (fun d => bind (attr "ObjectType" (attrs_of d)) (fun ty => bind (read_frame l d) (fun f =>
  if str_eqb ty (lit "Note") then
    bind (bind (kid_text "x:Row" (kids_of d)) number_of) (fun r => bind (bind (kid_text "x:Column" (kids_of d)) number_of) (fun c =>
    bind (bind (attr "fillcolor" l) html_color) (fun col =>
    let v := match kid "x:Visible" (kids_of d) with Some _ => true | None => false end in
    bind (bind (attr "style" l) (fun st => attr "visibility" (read_style st))) (fun w =>
    if str_eqb w (if v then lit "visible" else lit "hidden") then Some (ShNote id r c v col f) else None))))
  else if str_eqb ty (lit "Button") then
    bind (kid "v:textbox" (kids_of n)) (fun x => bind (kid "div" (kids_of x)) (fun v => bind (kid_text "font" (kids_of v)) (fun cap =>
    bind (kid_text "x:FmlaMacro" (kids_of d)) (fun mac => Some (ShButton id cap mac f)))))
  else None)))).
Definition read_shapes (root : node) : option (list shape) :=
  if is_elem "xml" root then read_all read_shape (filter (is_elem "v:shape") (kids_of root)) else None.
(** A part without an XML declaration. *)
Definition read_plain (s : str) : option node := match read_xml s with Some [Elem n l k] => Some (Elem n l k) | _ => None end.
Definition notes_shown (l : list shape) (r c : N) : list (bool * N * frame) :=
  flat_map (fun s => match s with ShNote _ r' c' v col f => if (r' =? r) && (c' =? c) then [(v, col, f)] else [] | _ => [] end) l.
Definition shape_id (s : shape) : str := match s with ShNote i _ _ _ _ _ | ShButton i _ _ _ => i end.

(** ** What was asked of a button *)
Definition wanted_caption (k : N) (l : list button_op) : str :=
  match last_of (fun o => match o with BCaption s => if short 255 s then Some s else None | _ => None end) [] l with
  | [] => lit "Button " ++ dec k | s => s end.
Definition wanted_macro (k : N) (l : list button_op) : str :=
  match last_of (fun o => match o with BMacro s => Some s | _ => None end) [] l with
  | [] => lit "[0]!Button" ++ dec k ++ lit "_Click" | s => lit "[0]!" ++ s end.
Definition button_alt := last_of (fun o => match o with BAlt s => if short 255 s then Some s else None | _ => None end) [].
Definition button_width := last_of (fun o => match o with BWidth n => if n =? 0 then None else Some n | _ => None end) 64.
Definition button_height := last_of (fun o => match o with BHeight n => if n =? 0 then None else Some n | _ => None end) 20.
Definition button_texts (o : button_op) : Prop := match o with BCaption s | BMacro s => doc_text s | BAlt s => attr_text s | _ => True end.
(** A length of p pixels (96 to the inch) is 0.75 p points. *)
Definition frame_for (p : place) (width height z : N) (alt : str) : frame :=
  {| f_left := pl_left p * 75; f_top := pl_top p * 75; f_width := width * 75; f_height := height * 75; f_z := z; f_anchor := pl_anchor p; f_alt := alt |}.
(** Colours that exist. *)
Definition op_colors (o : note_op) : Prop :=
  match o with NBackground (CNamed n) => n < 16 | NFormat f => Color_Spec.real_color (background_color (fill f)) = true | _ => True end.
Definition sheet_colors (o : sheet_op) : Prop := match o with QNote _ _ _ l => Forall op_colors l | _ => True end.
(** A note's fill is an RGB value; what has none falls back to the usual yellow. *)
Definition fill_seen (c : Color) : N := match c with CTheme _ _ | CDefault | CAutomatic => 16777185 | c => rgb c end.
