(** Model of the setters of Format (src/format.rs). *)
From Verif Require Import Base Fmt_Model CF_Model.

Inductive side := STop | SBottom | SLeft | SRight | SDiagonal.
(** One call on a format.  Enum arguments are numbered in declaration order (see Fmt_Model);
    a font size is the text of the number ([f64::to_string]). *)
Inductive fmt_op :=
| ONumFormat (code : str) | ONumIndex (n : N)
| OBold (b : bool) | OItalic (b : bool) | OStrike (b : bool)
| OFontColor (c : Color) | OFontName (s : str) | OFontSize (text : str) | OScheme (s : str) | OFamily (n : N) | OCharset (n : N)
| OUnderline (n : N) | OScript (n : N)
| OAlign (a : N) | OWrap (b : bool) | OIndent (n : N) | ORotation (z : Z) | OReading (n : N) | OShrink (b : bool)
| OPattern (n : N) | OBackground (c : Color) | OForeground (c : Color)
| OBorder (n : N) | OBorderColor (c : Color) | OSide (s : side) (n : N) | OSideColor (s : side) (c : Color) | ODiagonalType (n : N)
| OHyperlink | OUnsetHyperlink
| OLocked (b : bool) | OHidden (b : bool) | OQuote (b : bool) | OCheckbox (b : bool).

(** src/format.rs:935-971: the codes of the built-in number formats. *)
Definition builtin_code (n : N) : option str :=
  option_map lit (match n with
  | 1 => Some "0" | 2 => Some "0.00" | 3 => Some "#,##0" | 4 => Some "#,##0.00" | 5 => Some "($#,##0_);($#,##0)"
  | 6 => Some "($#,##0_);[Red]($#,##0)" | 7 => Some "($#,##0.00_);($#,##0.00)" | 8 => Some "($#,##0.00_);[Red]($#,##0.00)"
  | 9 => Some "0%" | 10 => Some "0.00%" | 11 => Some "0.00E+00" | 12 => Some "# ?/?" | 13 => Some "# ??/??" | 14 => Some "m/d/yy"
  | 15 => Some "d-mmm-yy" | 16 => Some "d-mmm" | 17 => Some "mmm-yy" | 18 => Some "h:mm AM/PM" | 19 => Some "h:mm:ss AM/PM"
  | 20 => Some "h:mm" | 21 => Some "h:mm:ss" | 22 => Some "m/d/yy h:mm" | 37 => Some "(#,##0_);(#,##0)" | 38 => Some "(#,##0_);[Red](#,##0)"
  | 39 => Some "(#,##0.00_);(#,##0.00)" | 40 => Some "(#,##0.00_);[Red](#,##0.00)"
  | 41 => Some "_(* #,##0_);_(* (#,##0);_(* ""-""_);_(_)" | 42 => Some "_($* #,##0_);_($* (#,##0);_($* ""-""_);_(_)"
  | 43 => Some "_(* #,##0.00_);_(* (#,##0.00);_(* ""-""??_);_(_)" | 44 => Some "_($* #,##0.00_);_($* (#,##0.00);_($* ""-""??_);_(_)"
  | 45 => Some "mm:ss" | 46 => Some "[h]:mm:ss" | 47 => Some "mm:ss.0" | 48 => Some "##0.0E+0" | 49 => Some "@"
  | _ => None end%string).

Definition set_num (f : Format) code index : Format :=
  {| num_format := code; num_format_index := index; font := font f; alignment := alignment f; borders := borders f; fill := fill f;
     hidden := hidden f; locked := locked f; checkbox := checkbox f; quote_prefix := quote_prefix f |}.
Definition set_font (f : Format) (x : Font) : Format :=
  {| num_format := num_format f; num_format_index := num_format_index f; font := x; alignment := alignment f; borders := borders f; fill := fill f;
     hidden := hidden f; locked := locked f; checkbox := checkbox f; quote_prefix := quote_prefix f |}.
Definition set_alignment (f : Format) (x : Alignment) : Format :=
  {| num_format := num_format f; num_format_index := num_format_index f; font := font f; alignment := x; borders := borders f; fill := fill f;
     hidden := hidden f; locked := locked f; checkbox := checkbox f; quote_prefix := quote_prefix f |}.
Definition set_borders (f : Format) (x : Border) : Format :=
  {| num_format := num_format f; num_format_index := num_format_index f; font := font f; alignment := alignment f; borders := x; fill := fill f;
     hidden := hidden f; locked := locked f; checkbox := checkbox f; quote_prefix := quote_prefix f |}.
Definition set_fill (f : Format) (x : Fill) : Format :=
  {| num_format := num_format f; num_format_index := num_format_index f; font := font f; alignment := alignment f; borders := borders f; fill := x;
     hidden := hidden f; locked := locked f; checkbox := checkbox f; quote_prefix := quote_prefix f |}.
Definition set_flags (f : Format) hid lck chk quo : Format :=
  {| num_format := num_format f; num_format_index := num_format_index f; font := font f; alignment := alignment f; borders := borders f; fill := fill f;
     hidden := hid; locked := lck; checkbox := chk; quote_prefix := quo |}.

(** src/format.rs:1010-1342 (fonts), 2210-2217 set_hyperlink, 2357-2378 unset_*,
    2417-2421 unset_hyperlink_style, which sets the flag. *)
Definition font_step (x : Font) (o : fmt_op) : Font :=
  let mk b i u n z c st sc fa ch sm h := {| bold := b; italic := i; underline := u; font_name := n; font_size := z; font_color := c; strikethrough := st;
    script := sc; family := fa; charset := ch; scheme := sm; condense := condense x; extend := extend x; is_hyperlink := h |} in
  let '(b, i, u, n, z, c) := (bold x, italic x, underline x, font_name x, font_size x, font_color x) in
  let '(st, sc, fa, ch, sm, h) := (strikethrough x, script x, family x, charset x, scheme x, is_hyperlink x) in
  match o with
  | OBold b => mk b i u n z c st sc fa ch sm h
  | OItalic i => mk b i u n z c st sc fa ch sm h
  | OStrike st => mk b i u n z c st sc fa ch sm h
  | OFontColor c' => if color_valid c' then mk b i u n z c' st sc fa ch sm h else x
  | OFontName n => mk b i u n z c st sc fa ch (if str_eqb n (lit "Calibri") then sm else []) h
  | OFontSize z => mk b i u n z c st sc fa ch sm h
  | OScheme sm => mk b i u n z c st sc fa ch sm h
  | OFamily fa => mk b i u n z c st sc fa ch sm h
  | OCharset ch => mk b i u n z c st sc fa ch sm h
  | OUnderline u => mk b i u n z c st sc fa ch sm h
  | OScript sc => mk b i u n z c st sc fa ch sm h
  | OHyperlink => mk b i 1 n z (CTheme 10 0) st sc fa ch [] true
  | OUnsetHyperlink => mk b i u n z c st sc fa ch sm true
  | _ => x
  end.
(** src/format.rs:1405-1686, 2384-2396 *)
Definition align_step (x : Alignment) (o : fmt_op) : Alignment :=
  let mk h v w r i s d := {| horizontal := h; vertical := v; text_wrap := w; rotation := r; indent := i; shrink := s; reading_direction := d |} in
  let '(h, v, w, r, i, s, d) := (horizontal x, vertical x, text_wrap x, rotation x, indent x, shrink x, reading_direction x) in
  match o with
  | OAlign a => if a =? 0 then mk 0 0 w r i s d else if a <=? 7 then mk a v w r i s d else mk h a w r i s d
  | OWrap w => mk h v w r i s d
  | OIndent i => mk h v w r i s d
  | ORotation z =>
      if (z =? 270)%Z then mk h v w 255%Z i s d
      else if ((-90 <=? z) && (z <=? -1))%Z then mk h v w (- z + 90)%Z i s d
      else if ((0 <=? z) && (z <=? 90))%Z then mk h v w z i s d else x
  | OReading n => if 2 <? n then x else mk h v w r i s n
  | OShrink s => mk h v w r i s d
  | _ => x
  end.
(** src/format.rs:1741-1855 *)
Definition fill_step (x : Fill) (o : fmt_op) : Fill :=
  match o with
  | OPattern n => {| foreground_color := foreground_color x; background_color := background_color x; pattern := n |}
  | OBackground c => if color_valid c then {| foreground_color := foreground_color x; background_color := c; pattern := pattern x |} else x
  | OForeground c => if color_valid c then {| foreground_color := c; background_color := background_color x; pattern := pattern x |} else x
  | _ => x
  end.
(** src/format.rs:1904-2203 *)
Definition side_style (x : Border) (s : side) (n : N) : Border :=
  let t := match s with STop => n | _ => top_style x end in let b := match s with SBottom => n | _ => bottom_style x end in
  let l := match s with SLeft => n | _ => left_style x end in let r := match s with SRight => n | _ => right_style x end in
  let d := match s with SDiagonal => n | _ => diagonal_style x end in
  {| bottom_style := b; top_style := t; left_style := l; right_style := r; bottom_color := bottom_color x; top_color := top_color x;
     left_color := left_color x; right_color := right_color x; diagonal_style := d; diagonal_color := diagonal_color x; diagonal_type := diagonal_type x |}.
Definition side_color (x : Border) (s : side) (c : Color) : Border :=
  let t := match s with STop => c | _ => top_color x end in let b := match s with SBottom => c | _ => bottom_color x end in
  let l := match s with SLeft => c | _ => left_color x end in let r := match s with SRight => c | _ => right_color x end in
  let d := match s with SDiagonal => c | _ => diagonal_color x end in
  {| bottom_style := bottom_style x; top_style := top_style x; left_style := left_style x; right_style := right_style x; bottom_color := b; top_color := t;
     left_color := l; right_color := r; diagonal_style := diagonal_style x; diagonal_color := d; diagonal_type := diagonal_type x |}.
Definition border_step (x : Border) (o : fmt_op) : Border :=
  match o with
  | OBorder n => side_style (side_style (side_style (side_style x STop n) SLeft n) SRight n) SBottom n
  | OBorderColor c => if color_valid c then side_color (side_color (side_color (side_color x STop c) SLeft c) SRight c) SBottom c else x
  | OSide s n => side_style x s n
  | OSideColor s c => if color_valid c then side_color x s c else x
  | ODiagonalType n =>
      {| bottom_style := bottom_style x; top_style := top_style x; left_style := left_style x; right_style := right_style x; bottom_color := bottom_color x; top_color := top_color x;
         left_color := left_color x; right_color := right_color x; diagonal_style := diagonal_style x; diagonal_color := diagonal_color x; diagonal_type := n |}
  | _ => x
  end.
(** All the setters; src/format.rs:829-832 and 931-978 for number formats (a code does not take back an
    index), 2277-2351 and 2402-2439 for the flags. *)
Definition fmt_step (f : Format) (o : fmt_op) : Format :=
  match o with
  | ONumFormat code => set_num f code (num_format_index f)
  | ONumIndex n => set_num f (match builtin_code n with Some c => c | None => num_format f end) n
  | OAlign _ | OWrap _ | OIndent _ | ORotation _ | OReading _ | OShrink _ => set_alignment f (align_step (alignment f) o)
  | OPattern _ | OBackground _ | OForeground _ => set_fill f (fill_step (fill f) o)
  | OBorder _ | OBorderColor _ | OSide _ _ | OSideColor _ _ | ODiagonalType _ => set_borders f (border_step (borders f) o)
  | OLocked b => set_flags f (hidden f) b (checkbox f) (quote_prefix f)
  | OHidden b => set_flags f b (locked f) (checkbox f) (quote_prefix f)
  | OQuote b => set_flags f (hidden f) (locked f) (checkbox f) b
  | OCheckbox b => set_flags f (hidden f) (locked f) b (quote_prefix f)
  | _ => set_font f (font_step (font f) o)
  end.
Definition format_of (ops : list fmt_op) : Format := fold_left fmt_step ops format_default.
