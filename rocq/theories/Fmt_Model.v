(** Model of cell formats (src/format.rs) and of the format registries
    (src/worksheet.rs:15986-16040, src/workbook.rs:2518-2536). *)
From Verif Require Import Base.

(** src/color.rs:139-206; the sixteen named colours are numbered. *)
Inductive Color := CRGB (rgb : N) | CTheme (theme shade : N) | CDefault | CAutomatic | CNamed (n : N).

(** Field-less enums are numbered in declaration order, so that 0 is the
    [Default] value: FormatAlign (src/format.rs:3067), FormatBorder (2899),
    FormatPattern (2810), FormatUnderline (3029), FormatScript (3051),
    FormatDiagonalBorder (2970). *)
Record Alignment := { horizontal : N; vertical : N; text_wrap : bool; rotation : Z; indent : N;
                      shrink : bool; reading_direction : N }.          (* 2686-2694 *)
Record Border := { bottom_style : N; top_style : N; left_style : N; right_style : N;
                   bottom_color : Color; top_color : Color; left_color : Color; right_color : Color;
                   diagonal_style : N; diagonal_color : Color; diagonal_type : N }.   (* 2697-2709 *)
Record Font := { bold : bool; italic : bool; underline : N; font_name : str; font_size : str;
                 font_color : Color; strikethrough : bool; script : N; family : N; charset : N;
                 scheme : str; condense : bool; extend : bool; is_hyperlink : bool }. (* 2722-2737 *)
Record Fill := { foreground_color : Color; background_color : Color; pattern : N }.   (* 2761-2765 *)

(** src/format.rs:529-564 without the seven fields that are assigned while
    saving (dxf_index, font_index, ..., is_dxf_format); those do not take part
    in [PartialEq]/[Hash] (566-595). *)
Record Format := { num_format : str; num_format_index : N; font : Font; alignment : Alignment;
                   borders : Border; fill : Fill; hidden : bool; locked : bool;
                   checkbox : bool; quote_prefix : bool }.

Definition color_default : Color := CDefault.
Definition align_default : Alignment :=
  {| horizontal := 0; vertical := 0; text_wrap := false; rotation := 0; indent := 0;
     shrink := false; reading_direction := 0 |}.
Definition border_default : Border :=
  {| bottom_style := 0; top_style := 0; left_style := 0; right_style := 0;
     bottom_color := CDefault; top_color := CDefault; left_color := CDefault; right_color := CDefault;
     diagonal_style := 0; diagonal_color := CDefault; diagonal_type := 0 |}.
Definition font_default : Font :=                                        (* 2739-2758 *)
  {| bold := false; italic := false; underline := 0; font_name := lit "Calibri"; font_size := lit "11";
     font_color := CDefault; strikethrough := false; script := 0; family := 2; charset := 0;
     scheme := lit "minor"; condense := false; extend := false; is_hyperlink := false |}.
Definition fill_default : Fill :=
  {| foreground_color := CDefault; background_color := CDefault; pattern := 0 |}.
Definition format_default : Format :=                                    (* 624-648 *)
  {| num_format := []; num_format_index := 0; font := font_default; alignment := align_default;
     borders := border_default; fill := fill_default; hidden := false; locked := true;
     checkbox := false; quote_prefix := false |}.

(** Structural equality (derived [PartialEq], and 582-595). *)
Definition str_eq_dec (a b : str) : {a = b} + {a <> b} := list_eq_dec N.eq_dec a b.
Definition color_eq_dec (a b : Color) : {a = b} + {a <> b}.
Proof. decide equality; apply N.eq_dec. Defined.
Definition align_eq_dec (a b : Alignment) : {a = b} + {a <> b}.
Proof. decide equality; try apply N.eq_dec; try apply bool_dec; apply Z.eq_dec. Defined.
Definition border_eq_dec (a b : Border) : {a = b} + {a <> b}.
Proof. decide equality; try apply N.eq_dec; apply color_eq_dec. Defined.
Definition font_eq_dec (a b : Font) : {a = b} + {a <> b}.
Proof. decide equality; try apply N.eq_dec; try apply bool_dec; try apply color_eq_dec; apply str_eq_dec. Defined.
Definition fill_eq_dec (a b : Fill) : {a = b} + {a <> b}.
Proof. decide equality; try apply N.eq_dec; apply color_eq_dec. Defined.
Definition format_eq_dec (a b : Format) : {a = b} + {a <> b}.
Proof.
  decide equality; try apply bool_dec; try apply N.eq_dec.
  - apply fill_eq_dec.
  - apply border_eq_dec.
  - apply align_eq_dec.
  - apply font_eq_dec.
  - apply str_eq_dec.
Defined.
Definition beq {A} (dec : forall a b : A, {a = b} + {a <> b}) (a b : A) : bool := if dec a b then true else false.
Definition format_eqb : Format -> Format -> bool := beq format_eq_dec.

Lemma beq_true {A} (dec : forall a b : A, {a = b} + {a <> b}) a b : beq dec a b = true <-> a = b.
Proof. unfold beq. destruct (dec a b); split; congruence. Qed.
Lemma format_eqb_spec a b : reflect (a = b) (format_eqb a b).
Proof. unfold format_eqb, beq. destruct (format_eq_dec a b); constructor; assumption. Qed.

(** "If mine is the default take the other's". *)
Definition or_else {A} (dec : forall a b : A, {a = b} + {a <> b}) (d mine other : A) : A :=
  if dec mine d then other else mine.

(** src/format.rs:2546-2558 *)
Definition merge_fill (a b : Fill) : Fill :=
  {| foreground_color := or_else color_eq_dec CDefault (foreground_color a) (foreground_color b);
     background_color := or_else color_eq_dec CDefault (background_color a) (background_color b);
     pattern := or_else N.eq_dec 0 (pattern a) (pattern b) |}.
(** src/format.rs:2561-2601; [is_hyperlink] is not merged. *)
Definition merge_font (a b : Font) : Font :=
  {| bold := bold a || bold b; italic := italic a || italic b;
     extend := extend a || extend b; condense := condense a || condense b;
     strikethrough := strikethrough a || strikethrough b;
     family := or_else N.eq_dec (family font_default) (family a) (family b);
     charset := or_else N.eq_dec (charset font_default) (charset a) (charset b);
     font_name := or_else str_eq_dec (font_name font_default) (font_name a) (font_name b);
     font_size := or_else str_eq_dec (font_size font_default) (font_size a) (font_size b);
     scheme := or_else str_eq_dec (scheme font_default) (scheme a) (scheme b);
     font_color := or_else color_eq_dec CDefault (font_color a) (font_color b);
     script := or_else N.eq_dec 0 (script a) (script b);
     underline := or_else N.eq_dec 0 (underline a) (underline b);
     is_hyperlink := is_hyperlink a |}.
(** src/format.rs:2604-2654 *)
Definition merge_border (a b : Border) : Border :=
  if border_eq_dec b border_default then a else
  {| bottom_style := or_else N.eq_dec 0 (bottom_style a) (bottom_style b);
     top_style := or_else N.eq_dec 0 (top_style a) (top_style b);
     left_style := or_else N.eq_dec 0 (left_style a) (left_style b);
     right_style := or_else N.eq_dec 0 (right_style a) (right_style b);
     diagonal_style := or_else N.eq_dec 0 (diagonal_style a) (diagonal_style b);
     bottom_color := or_else color_eq_dec CDefault (bottom_color a) (bottom_color b);
     top_color := or_else color_eq_dec CDefault (top_color a) (top_color b);
     left_color := or_else color_eq_dec CDefault (left_color a) (left_color b);
     right_color := or_else color_eq_dec CDefault (right_color a) (right_color b);
     diagonal_color := or_else color_eq_dec CDefault (diagonal_color a) (diagonal_color b);
     diagonal_type := or_else N.eq_dec 0 (diagonal_type a) (diagonal_type b) |}.
(** src/format.rs:2657-2682 *)
Definition merge_alignment (a b : Alignment) : Alignment :=
  {| shrink := shrink a || shrink b; text_wrap := text_wrap a || text_wrap b;
     indent := or_else N.eq_dec 0 (indent a) (indent b);
     rotation := or_else Z.eq_dec 0%Z (rotation a) (rotation b);
     reading_direction := or_else N.eq_dec 0 (reading_direction a) (reading_direction b);
     horizontal := or_else N.eq_dec 0 (horizontal a) (horizontal b);
     vertical := or_else N.eq_dec 0 (vertical a) (vertical b) |}.
(** [Format::merge]: src/format.rs:757-761, 2525-2543 *)
Definition format_merge (a b : Format) : Format :=
  {| hidden := hidden a || hidden b; checkbox := checkbox a || checkbox b;
     quote_prefix := quote_prefix a || quote_prefix b; locked := locked a && locked b;
     num_format := or_else str_eq_dec [] (num_format a) (num_format b);
     num_format_index := or_else N.eq_dec 0 (num_format_index a) (num_format_index b);
     fill := merge_fill (fill a) (fill b); font := merge_font (font a) (font b);
     borders := merge_border (borders a) (borders b);
     alignment := merge_alignment (alignment a) (alignment b) |}.

(** [Format::new().set_hyperlink()]: src/format.rs:2210-2217 *)
Definition format_hyperlink : Format :=
  {| num_format := []; num_format_index := 0;
     font := {| bold := false; italic := false; underline := 1; font_name := lit "Calibri";
                font_size := lit "11"; font_color := CTheme 10 0; strikethrough := false; script := 0;
                family := 2; charset := 0; scheme := []; condense := false; extend := false;
                is_hyperlink := true |};
     alignment := align_default; borders := border_default; fill := fill_default;
     hidden := false; locked := true; checkbox := false; quote_prefix := false |}.

(** ** Registries *)

(** Position of a format in a registry list. *)
Fixpoint fmt_find (f : Format) (l : list Format) : option N :=
  match l with
  | [] => None
  | g :: r => if format_eqb g f then Some 0 else option_map N.succ (fmt_find f r)
  end.

(** src/worksheet.rs:16018-16031: [xf_formats] plus the HashMap [xf_indices],
    which maps each element of [xf_formats] to its position: the pair is
    modelled by the list alone.  The same function models
    src/workbook.rs:2518-2536 and src/worksheet.rs:15996-16014 executed without
    interference, where the registry is the HashMap and its list is obtained
    by sorting on the index (src/workbook.rs, save_internal).
    u32 indices do not overflow for registries that fit in memory. *)
Definition format_xf_index (l : list Format) (f : Format) : list Format * N :=
  match fmt_find f l with
  | Some i => (l, i)
  | None => (l ++ [f], N.of_nat (length l))
  end.
