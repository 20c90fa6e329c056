(** Model of the style component tables: src/workbook.rs:2551-2705
    (prepare_format_properties) and the parts of src/styles.rs that write the
    tables and the ids referring to them. *)
From Verif Require Import Base Fmt_Model.

(** u16 counters (release build: wrap around). *)
Definition u16_succ (n : N) : N := (n + 1) mod 65536.

(** The loop shared by prepare_fonts, prepare_fills and prepare_borders: the
    HashMap from component to index, the next index, and for each format the
    index it gets and whether it is the first to use the component. *)
Section Assign.
Context {A : Type} (dec : forall a b : A, {a = b} + {a <> b}).
Fixpoint lookup (m : list (A * N)) (a : A) : option N :=
  match m with [] => None | (b, i) :: r => if dec b a then Some i else lookup r a end.
Fixpoint assign (m : list (A * N)) (count : N) (l : list A) : list (N * bool) * N :=
  match l with
  | [] => ([], count)
  | a :: r =>
      match lookup m a with
      | Some i => let (is, n) := assign m count r in ((i, false) :: is, n)
      | None => let (is, n) := assign ((a, count) :: m) (u16_succ count) r in ((count, true) :: is, n)
      end
  end.
(** The components of the formats flagged as first users, in order: what
    the loops of write_fonts, write_fills and write_borders write
    (src/styles.rs:135-147, 341-347, 427-432). *)
Definition flagged (l : list A) (is : list (N * bool)) : list A :=
  map fst (filter (fun p => snd (snd p)) (combine l is)).
End Assign.

(** src/workbook.rs:2571-2588 and src/styles.rs:125-157.  The extra font for
    comments comes after the others and no format refers to it. *)
Definition prepare_fonts (xfs : list Format) : list (N * bool) * N := assign font_eq_dec [] 0 (map font xfs).
Definition fonts_written (xfs : list Format) : list Font := flagged (map font xfs) (fst (prepare_fonts xfs)).
Definition fonts_count (xfs : list Format) (has_comments : bool) : N :=
  let n := snd (prepare_fonts xfs) in if has_comments then u16_succ n else n.
(** Number of <font> elements written. *)
Definition fonts_elements (xfs : list Format) (has_comments : bool) : N :=
  N.of_nat (length (fonts_written xfs)) + (if has_comments then 1 else 0).

(** src/workbook.rs:2609-2628; FormatPattern: None = 0, Solid = 1. *)
Definition color_is_default (c : Color) : bool := if color_eq_dec c CDefault then true else false.
Definition none_or_solid (f : Fill) : bool := (pattern f =? 0) || (pattern f =? 1).
Definition normal_fill (f : Fill) : Fill :=
  let f1 := if none_or_solid f && negb (color_is_default (background_color f)) && color_is_default (foreground_color f)
            then {| foreground_color := background_color f; background_color := CDefault; pattern := 1 |} else f in
  if none_or_solid f1 && color_is_default (background_color f1) && negb (color_is_default (foreground_color f1))
  then {| foreground_color := foreground_color f1; background_color := CDefault; pattern := 1 |} else f1.
Definition gray125 : Fill := {| foreground_color := CDefault; background_color := CDefault; pattern := 17 |}.
(** src/workbook.rs:2591-2643 and src/styles.rs:332-350: the two reserved fills
    are written first. *)
Definition prepare_fills (xfs : list Format) : list (N * bool) * N :=
  assign fill_eq_dec [(fill_default, 0); (gray125, 1)] 2 (map (fun f => normal_fill (fill f)) xfs).
Definition fills_written (xfs : list Format) : list Fill :=
  fill_default :: gray125 :: flagged (map (fun f => normal_fill (fill f)) xfs) (fst (prepare_fills xfs)).
(** src/workbook.rs:2646-2662 and src/styles.rs:421-435 *)
Definition prepare_borders (xfs : list Format) : list (N * bool) * N := assign border_eq_dec [] 0 (map borders xfs).
Definition borders_written (xfs : list Format) : list Border := flagged (map borders xfs) (fst (prepare_borders xfs)).

(** src/workbook.rs:2671-2705: the number-format index of each XF and DXF
    format, and the codes of <numFmts>; [index] is a u16. *)
Fixpoint num_loop (m : list (str * N)) (index : N) (l : list (Format * bool)) : list N * list str :=
  match l with
  | [] => ([], [])
  | (f, is_dxf) :: r =>
      if 0 <? num_format_index f then let (is, ns) := num_loop m index r in (num_format_index f :: is, ns)
      else match num_format f with
      | [] => let (is, ns) := num_loop m index r in (0 :: is, ns)
      | s => match lookup str_eq_dec m s with
             | Some i => let (is, ns) := num_loop m index r in (i :: is, ns)
             | None => let (is, ns) := num_loop ((s, index) :: m) (u16_succ index) r in
                 (index :: is, if is_dxf then ns else s :: ns)
             end
      end
  end.
Definition prepare_num_formats (xfs dxfs : list Format) : list N * list str :=
  num_loop [] 164 (map (fun f => (f, false)) xfs ++ map (fun f => (f, true)) dxfs).
(** src/styles.rs:848-872: <numFmt> elements: id and code. *)
Fixpoint num_elements (k : N) (codes : list str) : list (N * str) :=
  match codes with [] => [] | s :: r => (k, s) :: num_elements (u16_succ k) r end.
Definition num_fmts_written (xfs dxfs : list Format) : list (N * str) := num_elements 164 (snd (prepare_num_formats xfs dxfs)).

(** src/styles.rs:134-147, 535-552: the font of the "Hyperlink" cell style is
    the last font written that has the hyperlink property. *)
Fixpoint hyperlink_font (k best : N) (fs : list Font) : N :=
  match fs with [] => best | f :: r => hyperlink_font (u16_succ k) (if is_hyperlink f then k else best) r end.
Definition hyperlink_font_id (xfs : list Format) : N := hyperlink_font 0 0 (fonts_written xfs).

(** The ids of one <xf> element: src/styles.rs:584-598. *)
Record xf := { xf_numFmtId : N; xf_fontId : N; xf_fillId : N; xf_borderId : N; xf_xfId : N }.
Fixpoint xf_list (xfs : list Format) (ns : list N) (fo fi bo : list (N * bool)) : list xf :=
  match xfs, ns, fo, fi, bo with
  | f :: xfs, n :: ns, (a, _) :: fo, (b, _) :: fi, (c, _) :: bo =>
      {| xf_numFmtId := n; xf_fontId := a; xf_fillId := b; xf_borderId := c; xf_xfId := if is_hyperlink (font f) then 1 else 0 |}
      :: xf_list xfs ns fo fi bo
  | _, _, _, _, _ => []
  end.
Definition cell_xfs (xfs dxfs : list Format) : list xf :=
  xf_list xfs (fst (prepare_num_formats xfs dxfs)) (fst (prepare_fonts xfs)) (fst (prepare_fills xfs)) (fst (prepare_borders xfs)).
