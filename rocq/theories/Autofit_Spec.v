(** What autofit is to achieve. *)
From Verif Require Import Base SMap F64 Fmt_Model Cells_Model Sheet_Model Geom_Model.

(** The pixel widths of characters (of Calibri 11, as in Excel). *)
Definition metrics : list (string * N) :=
  [(" '", 3); (",.:;I`ijl", 4); ("!()-J[]frt{}", 5); ("""/L\csz", 6); ("#$*+0123456789<=>?EFSTYZ^_agkvxy|~", 7);
   ("BCKPRXbdehnopqu", 8); ("ADGHUV", 9); ("&NOQ", 10); ("%w", 11); ("Mm", 12); ("@W", 13)]%string.
Definition metric (c : N) : N :=
  match find (fun p => existsb (N.eqb c) (lit (fst p))) metrics with Some p => snd p | None => 8 end.
(** A text on one line: the sum of its characters; at most 1790, and 1790 when it has more
    than 233 characters. *)
Definition text_pixels (s : str) : N :=
  if 233 <? N.of_nat (length s) then 1790 else N.min 1790 (fold_right N.add 0 (map metric s)).

(** The lines of a text: what lies between line feeds (10), without a carriage return (13)
    before the line feed; nothing follows a line feed at the end. *)
Inductive line_of (s : str) : str -> Prop :=
| line_ended before l after : s = before ++ l ++ 10 :: after -> ~ In 10 l -> (before = [] \/ exists b, before = b ++ [10]) -> (forall x, l <> x ++ [13]) -> line_of s l
| line_ended_cr before l after : s = before ++ l ++ 13 :: 10 :: after -> ~ In 10 l -> (before = [] \/ exists b, before = b ++ [10]) -> line_of s l
| line_last before l : s = before ++ l -> l <> [] -> ~ In 10 l -> (before = [] \/ exists b, before = b ++ [10]) -> line_of s l.
Definition widest_line (s : str) (n : N) : Prop :=
  (forall l, line_of s l -> text_pixels l <= n) /\ (n = 0 \/ exists l, line_of s l /\ text_pixels l = n).

(** The width of what a cell shows. *)
Inductive shows (num_text : f64 -> str) : cell -> N -> Prop :=
| shows_text s id n : widest_line s n -> shows num_text (CString s id) n
| shows_inline s n : widest_line s n -> shows num_text (CInline s) n
| shows_rich x s id n : widest_line s n -> shows num_text (CRich x s id) n
| shows_number x : shows num_text (CNumber x) (7 * N.of_nat (length (num_text x)))
| shows_true : shows num_text (CBool true) 31
| shows_false : shows num_text (CBool false) 36
| shows_date x : shows num_text (CDateTime x) 68
| shows_result t r : shows num_text (CFormula t r) (if str_eqb r (lit "0") then 0 else text_pixels r)
| shows_array t r d g : shows num_text (CArray t r d g) (if str_eqb r (lit "0") then 0 else text_pixels r)
| shows_blank : shows num_text CBlank 0
| shows_image i : shows num_text (CError i) 0.
(** With 7 pixels of padding, and 16 for the button in the head of a filter. *)
Definition needs (shown : N) (head : bool) : N :=
  if shown =? 0 then 0 else shown + (if head then 16 else 0) + 7.

(** The cells that are heads of a filter or a filtered table. *)
Definition filter_head (s : sheet) (r c : N) : Prop := exists v, In (r, c, v) (filter_cells s).
