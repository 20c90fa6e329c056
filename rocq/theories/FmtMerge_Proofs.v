(** [Format::merge] against chains of setter calls. *)
From Verif Require Import Base CF_Model FmtOps_Model Fmt_Model.

(** The attribute a call sets gets another value than that of a new format: "has been set". *)
Definition sets (o : fmt_op) : bool :=
  match o with
  | ONumFormat s => match s with [] => false | _ => true end
  | ONumIndex n => match builtin_code n with Some [] => false | _ => negb (n =? 0) end
  | OBold b | OItalic b | OStrike b | OWrap b | OShrink b | OHidden b | OQuote b | OCheckbox b => b
  | OLocked b => negb b
  | OFontColor c | OBackground c | OForeground c | OBorderColor c | OSideColor _ c => match c with CDefault => false | _ => true end
  | OFontName s => negb (str_eqb s (lit "Calibri"))
  | OFontSize s => negb (str_eqb s (lit "11"))
  | OScheme s => negb (str_eqb s (lit "minor"))
  | OFamily n => negb (n =? 2)
  | OCharset n | OUnderline n | OScript n | OAlign n | OIndent n | OReading n | OPattern n | OBorder n | OSide _ n | ODiagonalType n => negb (n =? 0)
  | ORotation z => negb (z =? 0)%Z
  | OHyperlink => true
  | OUnsetHyperlink => false
  end.
Lemma or_else_set {A} dec (d a b : A) : a <> d -> or_else dec d a b = a. Proof. unfold or_else. destruct (dec a d); congruence. Qed.
Lemma or_else_default {A} dec (d b : A) : or_else dec d d b = b. Proof. unfold or_else. destruct (dec d d); congruence. Qed.
Lemma or_else_right {A} dec (d a : A) : or_else dec d a d = a. Proof. unfold or_else. destruct (dec a d); congruence. Qed.
Lemma or_else_same {A} dec (d a : A) : or_else dec d a a = a. Proof. unfold or_else. destruct (dec a d); congruence. Qed.
Lemma or_else_assoc {A} dec (d a b c : A) : or_else dec d (or_else dec d a b) c = or_else dec d a (or_else dec d b c).
Proof. unfold or_else. destruct (dec a d); [reflexivity|]. destruct (dec a d); [contradiction|reflexivity]. Qed.
(** The shortcut of merge_border changes nothing. *)
Lemma merge_border_fields a b : merge_border a b =
  {| bottom_style := or_else N.eq_dec 0 (bottom_style a) (bottom_style b); top_style := or_else N.eq_dec 0 (top_style a) (top_style b);
     left_style := or_else N.eq_dec 0 (left_style a) (left_style b); right_style := or_else N.eq_dec 0 (right_style a) (right_style b);
     diagonal_style := or_else N.eq_dec 0 (diagonal_style a) (diagonal_style b);
     bottom_color := or_else color_eq_dec CDefault (bottom_color a) (bottom_color b); top_color := or_else color_eq_dec CDefault (top_color a) (top_color b);
     left_color := or_else color_eq_dec CDefault (left_color a) (left_color b); right_color := or_else color_eq_dec CDefault (right_color a) (right_color b);
     diagonal_color := or_else color_eq_dec CDefault (diagonal_color a) (diagonal_color b); diagonal_type := or_else N.eq_dec 0 (diagonal_type a) (diagonal_type b) |}.
Proof.
  unfold merge_border. destruct (border_eq_dec b border_default) as [->|]; [|reflexivity]. destruct a. cbn [border_default Fmt_Model.bottom_style Fmt_Model.top_style Fmt_Model.left_style Fmt_Model.right_style Fmt_Model.bottom_color Fmt_Model.top_color Fmt_Model.left_color Fmt_Model.right_color Fmt_Model.diagonal_style Fmt_Model.diagonal_color Fmt_Model.diagonal_type].
  now rewrite !or_else_right.
Qed.

Lemma merge_right f : format_merge f format_default = f.
Proof.
  destruct f as [nf ni fo al bo fi h l c q]. unfold format_merge. cbn [Fmt_Model.num_format Fmt_Model.num_format_index Fmt_Model.font Fmt_Model.alignment Fmt_Model.borders Fmt_Model.fill Fmt_Model.hidden Fmt_Model.locked Fmt_Model.checkbox Fmt_Model.quote_prefix format_default].
  rewrite !or_else_right, merge_border_fields, !orb_false_r, andb_true_r. f_equal.
  - destruct fo. unfold merge_font. cbn [Fmt_Model.bold Fmt_Model.italic Fmt_Model.underline Fmt_Model.font_name Fmt_Model.font_size Fmt_Model.font_color Fmt_Model.strikethrough Fmt_Model.script Fmt_Model.family Fmt_Model.charset Fmt_Model.scheme Fmt_Model.condense Fmt_Model.extend Fmt_Model.is_hyperlink font_default]. now rewrite !or_else_right, !orb_false_r.
  - destruct al. unfold merge_alignment. cbn [Fmt_Model.horizontal Fmt_Model.vertical Fmt_Model.text_wrap Fmt_Model.rotation Fmt_Model.indent Fmt_Model.shrink Fmt_Model.reading_direction align_default]. now rewrite !or_else_right, !orb_false_r.
  - destruct bo. cbn [border_default Fmt_Model.bottom_style Fmt_Model.top_style Fmt_Model.left_style Fmt_Model.right_style Fmt_Model.bottom_color Fmt_Model.top_color Fmt_Model.left_color Fmt_Model.right_color Fmt_Model.diagonal_style Fmt_Model.diagonal_color Fmt_Model.diagonal_type]. now rewrite !or_else_right.
  - destruct fi. unfold merge_fill. cbn [Fmt_Model.foreground_color Fmt_Model.background_color Fmt_Model.pattern fill_default]. now rewrite !or_else_right.
Qed.
Lemma merge_left f : is_hyperlink (font f) = false -> format_merge format_default f = f.
Proof.
  destruct f as [nf ni fo al bo fi h l c q]. unfold format_merge. cbn [Fmt_Model.num_format Fmt_Model.num_format_index Fmt_Model.font Fmt_Model.alignment Fmt_Model.borders Fmt_Model.fill Fmt_Model.hidden Fmt_Model.locked Fmt_Model.checkbox Fmt_Model.quote_prefix format_default]. intros L.
  rewrite !or_else_default, merge_border_fields, !orb_false_l, andb_true_l. f_equal.
  - destruct fo. unfold merge_font. cbn [Fmt_Model.bold Fmt_Model.italic Fmt_Model.underline Fmt_Model.font_name Fmt_Model.font_size Fmt_Model.font_color Fmt_Model.strikethrough Fmt_Model.script Fmt_Model.family Fmt_Model.charset Fmt_Model.scheme Fmt_Model.condense Fmt_Model.extend Fmt_Model.is_hyperlink font_default] in *. rewrite !or_else_default, !orb_false_l. congruence.
  - destruct al. unfold merge_alignment. cbn [Fmt_Model.horizontal Fmt_Model.vertical Fmt_Model.text_wrap Fmt_Model.rotation Fmt_Model.indent Fmt_Model.shrink Fmt_Model.reading_direction align_default]. now rewrite !or_else_default, !orb_false_l.
  - destruct bo. cbn [border_default Fmt_Model.bottom_style Fmt_Model.top_style Fmt_Model.left_style Fmt_Model.right_style Fmt_Model.bottom_color Fmt_Model.top_color Fmt_Model.left_color Fmt_Model.right_color Fmt_Model.diagonal_style Fmt_Model.diagonal_color Fmt_Model.diagonal_type]. now rewrite !or_else_default.
  - destruct fi. unfold merge_fill. cbn [Fmt_Model.foreground_color Fmt_Model.background_color Fmt_Model.pattern fill_default]. now rewrite !or_else_default.
Qed.
Lemma merge_same f : format_merge f f = f.
Proof.
  destruct f as [nf ni fo al bo fi h l c q]. unfold format_merge. cbn [Fmt_Model.num_format Fmt_Model.num_format_index Fmt_Model.font Fmt_Model.alignment Fmt_Model.borders Fmt_Model.fill Fmt_Model.hidden Fmt_Model.locked Fmt_Model.checkbox Fmt_Model.quote_prefix].
  rewrite !or_else_same, merge_border_fields, !orb_diag, andb_diag. f_equal.
  - destruct fo. unfold merge_font. cbn [Fmt_Model.bold Fmt_Model.italic Fmt_Model.underline Fmt_Model.font_name Fmt_Model.font_size Fmt_Model.font_color Fmt_Model.strikethrough Fmt_Model.script Fmt_Model.family Fmt_Model.charset Fmt_Model.scheme Fmt_Model.condense Fmt_Model.extend Fmt_Model.is_hyperlink]. now rewrite !or_else_same, !orb_diag.
  - destruct al. unfold merge_alignment. cbn [Fmt_Model.horizontal Fmt_Model.vertical Fmt_Model.text_wrap Fmt_Model.rotation Fmt_Model.indent Fmt_Model.shrink Fmt_Model.reading_direction]. now rewrite !or_else_same, !orb_diag.
  - destruct bo. cbn [Fmt_Model.bottom_style Fmt_Model.top_style Fmt_Model.left_style Fmt_Model.right_style Fmt_Model.bottom_color Fmt_Model.top_color Fmt_Model.left_color Fmt_Model.right_color Fmt_Model.diagonal_style Fmt_Model.diagonal_color Fmt_Model.diagonal_type]. now rewrite !or_else_same.
  - destruct fi. unfold merge_fill. cbn [Fmt_Model.foreground_color Fmt_Model.background_color Fmt_Model.pattern]. now rewrite !or_else_same.
Qed.
Lemma merge_assoc a b c : format_merge (format_merge a b) c = format_merge a (format_merge b c).
Proof.
  unfold format_merge. cbn [Fmt_Model.num_format Fmt_Model.num_format_index Fmt_Model.font Fmt_Model.alignment Fmt_Model.borders Fmt_Model.fill Fmt_Model.hidden Fmt_Model.locked Fmt_Model.checkbox Fmt_Model.quote_prefix].
  rewrite !or_else_assoc, !merge_border_fields, <- !orb_assoc, andb_assoc. f_equal.
  - unfold merge_font. cbn [Fmt_Model.bold Fmt_Model.italic Fmt_Model.underline Fmt_Model.font_name Fmt_Model.font_size Fmt_Model.font_color Fmt_Model.strikethrough Fmt_Model.script Fmt_Model.family Fmt_Model.charset Fmt_Model.scheme Fmt_Model.condense Fmt_Model.extend Fmt_Model.is_hyperlink]. now rewrite !or_else_assoc, !orb_assoc.
  - unfold merge_alignment. cbn [Fmt_Model.horizontal Fmt_Model.vertical Fmt_Model.text_wrap Fmt_Model.rotation Fmt_Model.indent Fmt_Model.shrink Fmt_Model.reading_direction]. now rewrite !or_else_assoc, !orb_assoc.
  - cbn [Fmt_Model.bottom_style Fmt_Model.top_style Fmt_Model.left_style Fmt_Model.right_style Fmt_Model.bottom_color Fmt_Model.top_color Fmt_Model.left_color Fmt_Model.right_color Fmt_Model.diagonal_style Fmt_Model.diagonal_color Fmt_Model.diagonal_type]. now rewrite !or_else_assoc.
  - unfold merge_fill. cbn [Fmt_Model.foreground_color Fmt_Model.background_color Fmt_Model.pattern]. now rewrite !or_else_assoc.
Qed.
(** A property set on the primary format is not lost. *)
Lemma merge_nondefault a b : a <> format_default -> format_merge a b <> format_default.
Proof.
  intros N0 E. apply N0. clear N0. destruct a as [nf ni fo al bo fi h l c q]. unfold format_merge in E. rewrite merge_border_fields in E.
  cbn [Fmt_Model.num_format Fmt_Model.num_format_index Fmt_Model.font Fmt_Model.alignment Fmt_Model.borders Fmt_Model.fill Fmt_Model.hidden Fmt_Model.locked Fmt_Model.checkbox Fmt_Model.quote_prefix] in E.
  assert (O : forall A dec (d x y : A), or_else dec d x y = d -> x = d) by (intros A dec d x y; unfold or_else; destruct (dec x d); auto).
  assert (B : forall x y, x || y = false -> x = false) by (intros [] []; auto). assert (L : forall x y, x && y = true -> x = true) by (intros [] []; auto).
  destruct fo, al, bo, fi. unfold merge_font, merge_alignment, merge_fill in E.
  cbn [Fmt_Model.bold Fmt_Model.italic Fmt_Model.underline Fmt_Model.font_name Fmt_Model.font_size Fmt_Model.font_color Fmt_Model.strikethrough Fmt_Model.script Fmt_Model.family Fmt_Model.charset Fmt_Model.scheme Fmt_Model.condense Fmt_Model.extend Fmt_Model.is_hyperlink Fmt_Model.horizontal Fmt_Model.vertical Fmt_Model.text_wrap Fmt_Model.rotation Fmt_Model.indent Fmt_Model.shrink Fmt_Model.reading_direction Fmt_Model.bottom_style Fmt_Model.top_style Fmt_Model.left_style Fmt_Model.right_style Fmt_Model.bottom_color Fmt_Model.top_color Fmt_Model.left_color Fmt_Model.right_color Fmt_Model.diagonal_style Fmt_Model.diagonal_color Fmt_Model.diagonal_type Fmt_Model.foreground_color Fmt_Model.background_color Fmt_Model.pattern] in E.
  unfold format_default, font_default, align_default, border_default, fill_default in E |- *.
  injection E as E. repeat match goal with H : or_else _ _ _ _ = _ |- _ => apply O in H; subst end.
  repeat match goal with H : _ || _ = false |- _ => apply B in H; subst end. repeat match goal with H : _ && _ = true |- _ => apply L in H; subst end. subst. reflexivity.
Qed.

Lemma merge_step x o y : sets o = true -> format_merge (fmt_step x o) y = fmt_step (format_merge x y) o.
Proof.
  intros S. destruct o; cbn [sets] in S; try discriminate; cbn [fmt_step].
  - destruct code as [|h t]; [discriminate|]. unfold format_merge, set_num. cbn. f_equal.
  - unfold format_merge, set_num. cbn [Fmt_Model.num_format Fmt_Model.num_format_index Fmt_Model.font Fmt_Model.alignment Fmt_Model.borders Fmt_Model.fill Fmt_Model.hidden Fmt_Model.locked Fmt_Model.checkbox Fmt_Model.quote_prefix].
    assert (Hn : n <> 0) by (intros ->; discriminate S). rewrite (or_else_set N.eq_dec 0 n) by exact Hn.
    destruct (builtin_code n) as [[|h t]|]; [discriminate S| |reflexivity]. rewrite or_else_set by discriminate. reflexivity.
  - subst b. unfold format_merge, set_font, font_step, merge_font. cbn. reflexivity.
  - subst b. unfold format_merge, set_font, font_step, merge_font. cbn. reflexivity.
  - subst b. unfold format_merge, set_font, font_step, merge_font. cbn. reflexivity.
  - destruct c; try discriminate S; unfold format_merge, set_font, font_step, merge_font; destruct (color_valid _); reflexivity.
  - apply negb_true_iff in S. assert (Hs : s <> lit "Calibri") by (intros ->; discriminate S). unfold format_merge, set_font, font_step. rewrite S. unfold merge_font at 1. cbn [Fmt_Model.font Fmt_Model.bold Fmt_Model.italic Fmt_Model.extend Fmt_Model.condense Fmt_Model.strikethrough Fmt_Model.family Fmt_Model.charset Fmt_Model.font_name Fmt_Model.font_size Fmt_Model.scheme Fmt_Model.font_color Fmt_Model.script Fmt_Model.underline Fmt_Model.is_hyperlink Fmt_Model.num_format Fmt_Model.num_format_index Fmt_Model.alignment Fmt_Model.borders Fmt_Model.fill Fmt_Model.hidden Fmt_Model.locked Fmt_Model.checkbox Fmt_Model.quote_prefix].
    rewrite (or_else_set str_eq_dec (font_name font_default) s) by exact Hs. rewrite (or_else_set str_eq_dec (scheme font_default) []) by discriminate. reflexivity.
  - apply negb_true_iff in S. assert (Hs : text <> lit "11") by (intros ->; discriminate S). unfold format_merge, set_font, font_step. unfold merge_font at 1. cbn [Fmt_Model.font Fmt_Model.bold Fmt_Model.italic Fmt_Model.extend Fmt_Model.condense Fmt_Model.strikethrough Fmt_Model.family Fmt_Model.charset Fmt_Model.font_name Fmt_Model.font_size Fmt_Model.scheme Fmt_Model.font_color Fmt_Model.script Fmt_Model.underline Fmt_Model.is_hyperlink Fmt_Model.num_format Fmt_Model.num_format_index Fmt_Model.alignment Fmt_Model.borders Fmt_Model.fill Fmt_Model.hidden Fmt_Model.locked Fmt_Model.checkbox Fmt_Model.quote_prefix].
    rewrite (or_else_set str_eq_dec (font_size font_default) text) by exact Hs. reflexivity.
  - apply negb_true_iff in S. assert (Hs : s <> lit "minor") by (intros ->; discriminate S). unfold format_merge, set_font, font_step. unfold merge_font at 1. cbn [Fmt_Model.font Fmt_Model.bold Fmt_Model.italic Fmt_Model.extend Fmt_Model.condense Fmt_Model.strikethrough Fmt_Model.family Fmt_Model.charset Fmt_Model.font_name Fmt_Model.font_size Fmt_Model.scheme Fmt_Model.font_color Fmt_Model.script Fmt_Model.underline Fmt_Model.is_hyperlink Fmt_Model.num_format Fmt_Model.num_format_index Fmt_Model.alignment Fmt_Model.borders Fmt_Model.fill Fmt_Model.hidden Fmt_Model.locked Fmt_Model.checkbox Fmt_Model.quote_prefix].
    rewrite (or_else_set str_eq_dec (scheme font_default) s) by exact Hs. reflexivity.
  - apply negb_true_iff, N.eqb_neq in S. unfold format_merge, set_font, font_step, merge_font. cbn [Fmt_Model.font Fmt_Model.bold Fmt_Model.italic Fmt_Model.extend Fmt_Model.condense Fmt_Model.strikethrough Fmt_Model.family Fmt_Model.charset Fmt_Model.font_name Fmt_Model.font_size Fmt_Model.scheme Fmt_Model.font_color Fmt_Model.script Fmt_Model.underline Fmt_Model.is_hyperlink Fmt_Model.num_format Fmt_Model.num_format_index Fmt_Model.alignment Fmt_Model.borders Fmt_Model.fill Fmt_Model.hidden Fmt_Model.locked Fmt_Model.checkbox Fmt_Model.quote_prefix].
    rewrite (or_else_set N.eq_dec (family font_default) n) by exact S. reflexivity.
  - apply negb_true_iff, N.eqb_neq in S. unfold format_merge, set_font, font_step, merge_font. cbn [Fmt_Model.font Fmt_Model.bold Fmt_Model.italic Fmt_Model.extend Fmt_Model.condense Fmt_Model.strikethrough Fmt_Model.family Fmt_Model.charset Fmt_Model.font_name Fmt_Model.font_size Fmt_Model.scheme Fmt_Model.font_color Fmt_Model.script Fmt_Model.underline Fmt_Model.is_hyperlink Fmt_Model.num_format Fmt_Model.num_format_index Fmt_Model.alignment Fmt_Model.borders Fmt_Model.fill Fmt_Model.hidden Fmt_Model.locked Fmt_Model.checkbox Fmt_Model.quote_prefix].
    rewrite (or_else_set N.eq_dec (charset font_default) n) by exact S. reflexivity.
  - apply negb_true_iff, N.eqb_neq in S. unfold format_merge, set_font, font_step, merge_font. cbn [Fmt_Model.font Fmt_Model.bold Fmt_Model.italic Fmt_Model.extend Fmt_Model.condense Fmt_Model.strikethrough Fmt_Model.family Fmt_Model.charset Fmt_Model.font_name Fmt_Model.font_size Fmt_Model.scheme Fmt_Model.font_color Fmt_Model.script Fmt_Model.underline Fmt_Model.is_hyperlink Fmt_Model.num_format Fmt_Model.num_format_index Fmt_Model.alignment Fmt_Model.borders Fmt_Model.fill Fmt_Model.hidden Fmt_Model.locked Fmt_Model.checkbox Fmt_Model.quote_prefix].
    rewrite (or_else_set N.eq_dec 0 n) by exact S. reflexivity.
  - apply negb_true_iff, N.eqb_neq in S. unfold format_merge, set_font, font_step, merge_font. cbn [Fmt_Model.font Fmt_Model.bold Fmt_Model.italic Fmt_Model.extend Fmt_Model.condense Fmt_Model.strikethrough Fmt_Model.family Fmt_Model.charset Fmt_Model.font_name Fmt_Model.font_size Fmt_Model.scheme Fmt_Model.font_color Fmt_Model.script Fmt_Model.underline Fmt_Model.is_hyperlink Fmt_Model.num_format Fmt_Model.num_format_index Fmt_Model.alignment Fmt_Model.borders Fmt_Model.fill Fmt_Model.hidden Fmt_Model.locked Fmt_Model.checkbox Fmt_Model.quote_prefix].
    rewrite (or_else_set N.eq_dec 0 n) by exact S. reflexivity.
  - apply negb_true_iff in S. unfold format_merge, set_alignment, align_step, merge_alignment. rewrite S. apply N.eqb_neq in S.
    destruct (a <=? 7); cbn [Fmt_Model.alignment Fmt_Model.shrink Fmt_Model.text_wrap Fmt_Model.indent Fmt_Model.rotation Fmt_Model.reading_direction Fmt_Model.horizontal Fmt_Model.vertical Fmt_Model.font Fmt_Model.num_format Fmt_Model.num_format_index Fmt_Model.borders Fmt_Model.fill Fmt_Model.hidden Fmt_Model.locked Fmt_Model.checkbox Fmt_Model.quote_prefix];
      rewrite (or_else_set N.eq_dec 0 a) by exact S; reflexivity.
  - subst b. reflexivity.
  - apply negb_true_iff, N.eqb_neq in S. unfold format_merge, set_alignment, align_step, merge_alignment.
    cbn [Fmt_Model.alignment Fmt_Model.shrink Fmt_Model.text_wrap Fmt_Model.indent Fmt_Model.rotation Fmt_Model.reading_direction Fmt_Model.horizontal Fmt_Model.vertical Fmt_Model.font Fmt_Model.num_format Fmt_Model.num_format_index Fmt_Model.borders Fmt_Model.fill Fmt_Model.hidden Fmt_Model.locked Fmt_Model.checkbox Fmt_Model.quote_prefix].
    rewrite (or_else_set N.eq_dec 0 n) by exact S. reflexivity.
  - apply negb_true_iff, Z.eqb_neq in S. unfold format_merge, set_alignment, align_step, merge_alignment.
    destruct (z =? 270)%Z; [|destruct ((-90 <=? z) && (z <=? -1))%Z eqn:R; [|destruct ((0 <=? z) && (z <=? 90))%Z]];
    cbn [Fmt_Model.alignment Fmt_Model.shrink Fmt_Model.text_wrap Fmt_Model.indent Fmt_Model.rotation Fmt_Model.reading_direction Fmt_Model.horizontal Fmt_Model.vertical Fmt_Model.font Fmt_Model.num_format Fmt_Model.num_format_index Fmt_Model.borders Fmt_Model.fill Fmt_Model.hidden Fmt_Model.locked Fmt_Model.checkbox Fmt_Model.quote_prefix]; try reflexivity.
    + rewrite (or_else_set Z.eq_dec 0%Z (- z + 90)%Z); [reflexivity|]. apply andb_true_iff in R as [_ R]. apply Z.leb_le in R. lia.
    + rewrite (or_else_set Z.eq_dec 0%Z z) by exact S. reflexivity.
  - apply negb_true_iff, N.eqb_neq in S. unfold format_merge, set_alignment, align_step, merge_alignment. destruct (2 <? n);
    cbn [Fmt_Model.alignment Fmt_Model.shrink Fmt_Model.text_wrap Fmt_Model.indent Fmt_Model.rotation Fmt_Model.reading_direction Fmt_Model.horizontal Fmt_Model.vertical Fmt_Model.font Fmt_Model.num_format Fmt_Model.num_format_index Fmt_Model.borders Fmt_Model.fill Fmt_Model.hidden Fmt_Model.locked Fmt_Model.checkbox Fmt_Model.quote_prefix]; [reflexivity|].
    rewrite (or_else_set N.eq_dec 0 n) by exact S. reflexivity.
  - subst b. reflexivity.
  - apply negb_true_iff, N.eqb_neq in S. unfold format_merge, set_fill, fill_step, merge_fill.
    cbn [Fmt_Model.foreground_color Fmt_Model.background_color Fmt_Model.pattern Fmt_Model.alignment Fmt_Model.font Fmt_Model.num_format Fmt_Model.num_format_index Fmt_Model.borders Fmt_Model.fill Fmt_Model.hidden Fmt_Model.locked Fmt_Model.checkbox Fmt_Model.quote_prefix].
    rewrite (or_else_set N.eq_dec 0 n) by exact S. reflexivity.
  - destruct c; try discriminate S; unfold format_merge, set_fill, fill_step, merge_fill; destruct (color_valid _); reflexivity.
  - destruct c; try discriminate S; unfold format_merge, set_fill, fill_step, merge_fill; destruct (color_valid _); reflexivity.
  - apply negb_true_iff, N.eqb_neq in S. unfold format_merge, set_borders. rewrite !merge_border_fields. cbn [border_step side_style Fmt_Model.borders Fmt_Model.alignment Fmt_Model.font Fmt_Model.num_format Fmt_Model.num_format_index Fmt_Model.fill Fmt_Model.hidden Fmt_Model.locked Fmt_Model.checkbox Fmt_Model.quote_prefix
       Fmt_Model.bottom_style Fmt_Model.top_style Fmt_Model.left_style Fmt_Model.right_style Fmt_Model.bottom_color Fmt_Model.top_color Fmt_Model.left_color Fmt_Model.right_color Fmt_Model.diagonal_style Fmt_Model.diagonal_color Fmt_Model.diagonal_type].
    rewrite !(or_else_set N.eq_dec 0 n) by exact S. reflexivity.
  - destruct c; try discriminate S; unfold format_merge, set_borders; rewrite !merge_border_fields; cbn [border_step]; destruct (color_valid _); reflexivity.
  - apply negb_true_iff, N.eqb_neq in S. unfold format_merge, set_borders. rewrite !merge_border_fields. destruct s; cbn [border_step side_style Fmt_Model.borders Fmt_Model.alignment Fmt_Model.font Fmt_Model.num_format Fmt_Model.num_format_index Fmt_Model.fill Fmt_Model.hidden Fmt_Model.locked Fmt_Model.checkbox Fmt_Model.quote_prefix
       Fmt_Model.bottom_style Fmt_Model.top_style Fmt_Model.left_style Fmt_Model.right_style Fmt_Model.bottom_color Fmt_Model.top_color Fmt_Model.left_color Fmt_Model.right_color Fmt_Model.diagonal_style Fmt_Model.diagonal_color Fmt_Model.diagonal_type];
    rewrite !(or_else_set N.eq_dec 0 n) by exact S; reflexivity.
  - destruct c; try discriminate S; unfold format_merge, set_borders; rewrite !merge_border_fields; cbn [border_step]; destruct (color_valid _); destruct s; reflexivity.
  - apply negb_true_iff, N.eqb_neq in S. unfold format_merge, set_borders. rewrite !merge_border_fields. cbn [border_step side_style Fmt_Model.borders Fmt_Model.alignment Fmt_Model.font Fmt_Model.num_format Fmt_Model.num_format_index Fmt_Model.fill Fmt_Model.hidden Fmt_Model.locked Fmt_Model.checkbox Fmt_Model.quote_prefix
       Fmt_Model.bottom_style Fmt_Model.top_style Fmt_Model.left_style Fmt_Model.right_style Fmt_Model.bottom_color Fmt_Model.top_color Fmt_Model.left_color Fmt_Model.right_color Fmt_Model.diagonal_style Fmt_Model.diagonal_color Fmt_Model.diagonal_type].
    rewrite !(or_else_set N.eq_dec 0 n) by exact S. reflexivity.
  - reflexivity.
  - apply negb_true_iff in S. subst b. reflexivity.
  - subst b. reflexivity.
  - subst b. reflexivity.
  - subst b. reflexivity.
Qed.
Lemma merge_fold ops y : forallb sets ops = true -> forall x, format_merge (fold_left fmt_step ops x) y = fold_left fmt_step ops (format_merge x y).
Proof.
  intros S. induction ops as [|o ops IH]; intros x; [reflexivity|]. cbn [forallb] in S. apply andb_true_iff in S as [S1 S2]. cbn [fold_left]. rewrite (IH S2), (merge_step x o y S1). reflexivity.
Qed.
(** Merging is calling the secondary format's setters first and the primary's after them. *)
Lemma merge_calls a b : forallb sets a = true -> is_hyperlink (font (format_of b)) = false -> format_merge (format_of a) (format_of b) = format_of (b ++ a).
Proof. intros S L. unfold format_of at 1. rewrite (merge_fold a _ S), (merge_left _ L). unfold format_of. now rewrite fold_left_app. Qed.
