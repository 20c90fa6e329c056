(** Formats built by calls. *)
From Coq Require Import Lia.
From Verif Require Import Base Xml_Model Xml_Spec Xml_Read Xml_Tree Fmt_Model Styles_Model Rich_Model Rich_Proofs SheetXml_Spec DV_Spec Color_Spec CF_Model FmtOps_Model StylesXml_Model StylesXml_Spec
  StylesXml_Proofs StylesXml_Proofs2 StylesXml_Proofs3 StylesXml_Proofs4.

Lemma last_if {A O S} (ok : O -> bool) (f : S -> A) (g : O -> option A) (step : S -> O -> S) :
  (forall s o, ok o = true -> f (step s o) = match g o with Some v => v | None => f s end) ->
  forall l s, forallb ok l = true -> f (fold_left step l s) = last_given g (f s) l.
Proof.
  intros H. induction l as [|o l IH]; intros s F; [reflexivity|]. cbn [forallb] in F. apply andb_prop in F as [Fo Fl]. cbn [fold_left]. rewrite IH by exact Fl. rewrite H by exact Fo. reflexivity.
Qed.
Lemma valid_real c : named_ok c = true -> color_valid c = real_color c. Proof. destruct c; cbn; intros; try reflexivity. now symmetry. Qed.
Lemma if_valid_real {A} c (x : A) (y : A) : named_ok c = true -> (if color_valid c then x else y) = if real_color c then x else y.
Proof. intros H. now rewrite valid_real. Qed.
Definition rot (z : Z) : Z := (if z <=? 90 then z else if z <=? 180 then 90 - z else 270)%Z.

Section Ops.
  Variable text_ok : str -> bool.
  Notation ok := (call_ok text_ok).
  Ltac step := intros f o K; destruct o; try reflexivity; cbn [call_ok] in K; try discriminate K.
  Ltac real := match goal with K : named_ok ?c = true |- _ => rewrite (valid_real c K); destruct (real_color c) end.
  Ltac colored := step; cbn; unfold if_real; real; reflexivity.
  Variable ops : list fmt_op.
  Hypothesis all_ok : forallb ok ops = true.
  Let F := format_of ops.
  Lemma built_font : bold (font F) = last_given of_bold false ops /\ italic (font F) = last_given of_italic false ops /\ strikethrough (font F) = last_given of_strike false ops /\
    underline (font F) = last_given of_underline 0 ops /\ script (font F) = last_given of_script 0 ops /\ font_color (font F) = last_given of_color CDefault ops /\
    font_name (font F) = last_given of_name (lit "Calibri") ops /\ font_size (font F) = last_given of_size (lit "11") ops /\ family (font F) = last_given of_family 2 ops /\
    charset (font F) = last_given of_charset 0 ops /\ scheme (font F) = last_given of_scheme (lit "minor") ops /\ is_hyperlink (font F) = last_given of_link false ops.
  Proof.
    unfold F, format_of. repeat split.
    - refine (last_if ok (fun f => bold (font f)) of_bold fmt_step _ ops format_default all_ok). step. cbn. destruct (color_valid c); reflexivity.
    - refine (last_if ok (fun f => italic (font f)) of_italic fmt_step _ ops format_default all_ok). step. cbn. destruct (color_valid c); reflexivity.
    - refine (last_if ok (fun f => strikethrough (font f)) of_strike fmt_step _ ops format_default all_ok). step. cbn. destruct (color_valid c); reflexivity.
    - refine (last_if ok (fun f => underline (font f)) of_underline fmt_step _ ops format_default all_ok). step. cbn. destruct (color_valid c); reflexivity.
    - refine (last_if ok (fun f => script (font f)) of_script fmt_step _ ops format_default all_ok). step. cbn. destruct (color_valid c); reflexivity.
    - refine (last_if ok (fun f => font_color (font f)) of_color fmt_step _ ops format_default all_ok). colored.
    - refine (last_if ok (fun f => font_name (font f)) of_name fmt_step _ ops format_default all_ok). step. cbn. destruct (color_valid c); reflexivity.
    - refine (last_if ok (fun f => font_size (font f)) of_size fmt_step _ ops format_default all_ok). step. cbn. destruct (color_valid c); reflexivity.
    - refine (last_if ok (fun f => family (font f)) of_family fmt_step _ ops format_default all_ok). step. cbn. destruct (color_valid c); reflexivity.
    - refine (last_if ok (fun f => charset (font f)) of_charset fmt_step _ ops format_default all_ok). step. cbn. destruct (color_valid c); reflexivity.
    - refine (last_if ok (fun f => scheme (font f)) of_scheme fmt_step _ ops format_default all_ok). step; cbn [fmt_step set_font font font_step of_scheme]; [destruct (color_valid c); reflexivity|]. cbn. match goal with |- context [str_eqb ?a ?b] => destruct (str_eqb a b) end; reflexivity.
    - refine (last_if ok (fun f => is_hyperlink (font f)) of_link fmt_step _ ops format_default all_ok). step. cbn. destruct (color_valid c); reflexivity.
  Qed.
  Ltac align_case := step; cbn [fmt_step set_alignment alignment align_step];
    repeat match goal with |- context [if ?b then _ else _] => destruct b eqn:? end; try reflexivity.
  Lemma built_align : horizontal (alignment F) = last_given of_horizontal 0 ops /\ vertical (alignment F) = last_given of_vertical 0 ops /\ text_wrap (alignment F) = last_given of_wrap false ops /\
    indent (alignment F) = last_given of_indent 0 ops /\ shrink (alignment F) = last_given of_shrink false ops /\ reading_direction (alignment F) = last_given of_reading 0 ops /\
    rot (rotation (alignment F)) = last_given of_rotation 0%Z ops.
  Proof.
    unfold F, format_of. repeat split.
    - refine (last_if ok (fun f => horizontal (alignment f)) of_horizontal fmt_step _ ops format_default all_ok). step; cbn [fmt_step set_alignment alignment align_step of_horizontal].
      + destruct (N.eqb_spec a 0) as [->|]; [reflexivity|]. destruct (a <=? 7); reflexivity.
      + repeat match goal with |- context [if ?b then _ else _] => destruct b end; reflexivity.
      + destruct (2 <? n); reflexivity.
    - refine (last_if ok (fun f => vertical (alignment f)) of_vertical fmt_step _ ops format_default all_ok). step; cbn [fmt_step set_alignment alignment align_step of_vertical].
      + destruct (N.eqb_spec a 0) as [->|]; [reflexivity|]. destruct (N.leb_spec a 7).
        * replace (8 <=? a) with false by lia. reflexivity.
        * replace (8 <=? a) with true by lia. reflexivity.
      + repeat match goal with |- context [if ?b then _ else _] => destruct b end; reflexivity.
      + destruct (2 <? n); reflexivity.
    - refine (last_if ok (fun f => text_wrap (alignment f)) of_wrap fmt_step _ ops format_default all_ok). align_case.
    - refine (last_if ok (fun f => indent (alignment f)) of_indent fmt_step _ ops format_default all_ok). align_case.
    - refine (last_if ok (fun f => shrink (alignment f)) of_shrink fmt_step _ ops format_default all_ok). align_case.
    - refine (last_if ok (fun f => reading_direction (alignment f)) of_reading fmt_step _ ops format_default all_ok). align_case; cbn [of_reading].
      + replace (n <=? 2) with false by lia. reflexivity.
      + replace (n <=? 2) with true by lia. reflexivity.
    - refine (last_if ok (fun f => rot (rotation (alignment f))) of_rotation fmt_step _ ops format_default all_ok). align_case; cbn [of_rotation].
      + apply Z.eqb_eq in Heqb. subst. reflexivity.
      + replace ((-90 <=? z) && (z <=? 90) || (z =? 270))%Z with true by lia. cbn [rotation]. unfold rot. replace (- z + 90 <=? 90)%Z with false by lia. replace (- z + 90 <=? 180)%Z with true by lia. lia.
      + replace ((-90 <=? z) && (z <=? 90) || (z =? 270))%Z with true by lia. cbn [rotation]. unfold rot. replace (z <=? 90)%Z with true by lia. reflexivity.
      + replace ((-90 <=? z) && (z <=? 90) || (z =? 270))%Z with false by lia. reflexivity.
  Qed.
  Lemma built_fill : pattern (fill F) = last_given of_pattern 0 ops /\ foreground_color (fill F) = last_given of_foreground CDefault ops /\ background_color (fill F) = last_given of_background CDefault ops.
  Proof.
    unfold F, format_of. repeat split.
    - refine (last_if ok (fun f => pattern (fill f)) of_pattern fmt_step _ ops format_default all_ok). step; cbn; destruct (color_valid c); reflexivity.
    - refine (last_if ok (fun f => foreground_color (fill f)) of_foreground fmt_step _ ops format_default all_ok). step; cbn; unfold if_real; rewrite (valid_real _ K); destruct (real_color c); reflexivity.
    - refine (last_if ok (fun f => background_color (fill f)) of_background fmt_step _ ops format_default all_ok). step; cbn; unfold if_real; rewrite (valid_real _ K); destruct (real_color c); reflexivity.
  Qed.
  Ltac side_case := step; cbn; try (match goal with s : side |- _ => destruct s end); try reflexivity; unfold if_real; try (real; reflexivity);
     try (match goal with |- context [color_valid ?c] => destruct (color_valid c) end; reflexivity).
  Lemma built_border : left_style (borders F) = last_given (of_line SLeft) 0 ops /\ right_style (borders F) = last_given (of_line SRight) 0 ops /\
    top_style (borders F) = last_given (of_line STop) 0 ops /\ bottom_style (borders F) = last_given (of_line SBottom) 0 ops /\ diagonal_style (borders F) = last_given (of_line SDiagonal) 0 ops /\
    left_color (borders F) = last_given (of_line_color SLeft) CDefault ops /\ right_color (borders F) = last_given (of_line_color SRight) CDefault ops /\
    top_color (borders F) = last_given (of_line_color STop) CDefault ops /\ bottom_color (borders F) = last_given (of_line_color SBottom) CDefault ops /\
    diagonal_color (borders F) = last_given (of_line_color SDiagonal) CDefault ops /\ diagonal_type (borders F) = last_given of_diagonal 0 ops.
  Proof.
    unfold F, format_of. repeat split.
    - refine (last_if ok (fun f => left_style (borders f)) (of_line SLeft) fmt_step _ ops format_default all_ok). side_case.
    - refine (last_if ok (fun f => right_style (borders f)) (of_line SRight) fmt_step _ ops format_default all_ok). side_case.
    - refine (last_if ok (fun f => top_style (borders f)) (of_line STop) fmt_step _ ops format_default all_ok). side_case.
    - refine (last_if ok (fun f => bottom_style (borders f)) (of_line SBottom) fmt_step _ ops format_default all_ok). side_case.
    - refine (last_if ok (fun f => diagonal_style (borders f)) (of_line SDiagonal) fmt_step _ ops format_default all_ok). side_case.
    - refine (last_if ok (fun f => left_color (borders f)) (of_line_color SLeft) fmt_step _ ops format_default all_ok). side_case.
    - refine (last_if ok (fun f => right_color (borders f)) (of_line_color SRight) fmt_step _ ops format_default all_ok). side_case.
    - refine (last_if ok (fun f => top_color (borders f)) (of_line_color STop) fmt_step _ ops format_default all_ok). side_case.
    - refine (last_if ok (fun f => bottom_color (borders f)) (of_line_color SBottom) fmt_step _ ops format_default all_ok). side_case.
    - refine (last_if ok (fun f => diagonal_color (borders f)) (of_line_color SDiagonal) fmt_step _ ops format_default all_ok). side_case.
    - refine (last_if ok (fun f => diagonal_type (borders f)) of_diagonal fmt_step _ ops format_default all_ok). side_case.
  Qed.
  Lemma built_flags : locked F = last_given of_locked true ops /\ hidden F = last_given of_hidden false ops /\ quote_prefix F = last_given of_quote false ops /\ checkbox F = last_given of_checkbox false ops.
  Proof.
    unfold F, format_of. repeat split.
    - refine (last_if ok locked of_locked fmt_step _ ops format_default all_ok). step.
    - refine (last_if ok hidden of_hidden fmt_step _ ops format_default all_ok). step.
    - refine (last_if ok quote_prefix of_quote fmt_step _ ops format_default all_ok). step.
    - refine (last_if ok checkbox of_checkbox fmt_step _ ops format_default all_ok). step.
  Qed.
End Ops.
Lemma built_number ops : forall f code builtin, numbers_ok code builtin ops = true -> (num_format_index f <> 0 -> builtin = true) -> (num_format f <> [] -> code = true) ->
  format_number (fold_left fmt_step ops f) = last_given of_number (format_number f) ops.
Proof.
  induction ops as [|o ops IH]; intros f code builtin K Hb Hc; [reflexivity|]. cbn [fold_left].
  assert (Z : forall g, num_format g = num_format f -> num_format_index g = num_format_index f -> numbers_ok code builtin ops = true -> format_number (fold_left fmt_step ops g) = last_given of_number (format_number f) ops).
  { intros g E1 E2 K'. rewrite (IH g code builtin K'); [|rewrite E2; exact Hb|rewrite E1; exact Hc]. unfold format_number. rewrite E1, E2. reflexivity. }
  destruct o; cbn [numbers_ok] in K; try (apply Z; [reflexivity|reflexivity|exact K]).
  - apply andb_prop in K as [Kb K]. assert (B : num_format_index f = 0). { destruct (N.eq_dec (num_format_index f) 0) as [E|E]; [exact E|]. rewrite (Hb E) in Kb. discriminate. }
    cbn [fmt_step]. rewrite B. rewrite (IH _ _ _ K).
    + unfold last_given. cbn [fold_left of_number]. unfold format_number. cbn [set_num num_format num_format_index N.eqb]. destruct code0; reflexivity.
    + cbn. congruence.
    + cbn [set_num num_format]. intros Nz. destruct code0; [congruence|reflexivity].
  - apply andb_prop in K as [Kb K]. cbn [fmt_step]. rewrite (IH _ _ _ K).
    + unfold last_given. cbn [fold_left of_number]. unfold format_number. cbn [set_num num_format num_format_index]. destruct (N.eqb_spec n 0) as [->|]; [|reflexivity]. cbn [builtin_code option_map].
      destruct (num_format f) eqn:E; [reflexivity|]. exfalso. rewrite Hc in Kb by discriminate. discriminate.
    + cbn [set_num num_format_index]. intros Nz. destruct (N.eqb_spec n 0); [congruence|reflexivity].
    + cbn [set_num num_format]. destruct (N.eqb_spec n 0) as [->|]; [|intros; apply orb_true_r]. cbn [builtin_code option_map]. intros Nz. rewrite (Hc Nz). reflexivity.
Qed.

(** ** What the setters keep *)
Definition kept (f : Format) : bool :=
  font_ok (font f) && fill_colors (fill f) && border_ok (borders f) && align_ok (alignment f) && (num_format_index f <? 164).
Definition kept_texts (f : Format) : Prop := format_texts f.
Lemma real_kept c : real_color c = true -> kept_color c = true. Proof. intros H. unfold kept_color. now rewrite H. Qed.
Lemma kept_step f o : call_ok (forallb attr_char) o = true -> kept f = true -> kept (fmt_step f o) = true.
Proof.
  intros K H. unfold kept in *. do 4 (apply andb_prop in H as [H ?]).
  destruct o; cbn [fmt_step]; unfold set_num, set_font, set_alignment, set_borders, set_fill, set_flags; cbn [font fill borders alignment num_format_index] in *; cbn [call_ok] in K; try discriminate K;
    try (rewrite H; cbn [andb]); repeat match goal with E : ?b = true |- context [?b] => rewrite E end; cbn [andb]; rewrite ?andb_true_r; try reflexivity; try assumption.
  all: try (unfold font_ok in *; do 2 (apply andb_prop in H as [H ?]); unfold font_step; cbn [underline script font_color];
     try (destruct (color_valid c) eqn:V; [rewrite (valid_real c K) in V; apply real_kept in V|]; cbn [underline script font_color]); repeat match goal with E : ?b = true |- context [?b] => rewrite E end; reflexivity).
  all: try (match goal with A : align_ok _ = true |- _ => clear - K A; unfold align_ok in *; unfold align_step; repeat match goal with |- context [if ?b then _ else _] => destruct b eqn:? end;
     cbn [horizontal vertical reading_direction rotation]; lia end).
  all: try (match goal with A : fill_colors _ = true |- _ => clear - K A; unfold fill_colors in *; do 2 (apply andb_prop in A as [A ?]); unfold fill_step; try (destruct (color_valid c) eqn:V; [rewrite (valid_real c K) in V; apply real_kept in V|]);
     cbn [foreground_color background_color pattern]; repeat match goal with E : ?b = true |- context [?b] => rewrite E end; try reflexivity; lia end).
  all: try (match goal with A : border_ok _ = true |- _ => clear - K A; unfold border_ok, line_ok in *; do 5 (apply andb_prop in A as [A ?]); repeat match goal with E : _ && _ = true |- _ => apply andb_prop in E as [? ?] end;
     unfold border_step, side_style, side_color; try (destruct (color_valid c) eqn:V; [rewrite (valid_real c K) in V; apply real_kept in V|]); try destruct s;
     cbn [left_style right_style top_style bottom_style diagonal_style left_color right_color top_color bottom_color diagonal_color diagonal_type];
     repeat match goal with E : ?b = true |- context [?b] => rewrite E end; reflexivity end).
Qed.
Lemma builtin_chars n c : builtin_code n = Some c -> forallb attr_char c = true.
Proof.
  unfold builtin_code. destruct n as [|p]; [discriminate|]. do 6 (destruct p as [p|p|]; try discriminate; try (cbn [option_map]; intros E; injection E as <-; reflexivity)).
Qed.
Lemma texts_step f o : call_text (forallb attr_char) o = true -> kept_texts f -> kept_texts (fmt_step f o).
Proof.
  intros K [(T1 & T2 & T3) T4]. unfold kept_texts, format_texts, font_texts.
  destruct o; cbn [call_text] in K; cbn [fmt_step]; unfold set_num, set_font, set_alignment, set_borders, set_fill, set_flags; cbn [font num_format]; repeat split; try assumption;
    unfold font_step; cbn [font_name font_size scheme]; try assumption; try reflexivity; try (destruct (color_valid c); cbn [font_name font_size scheme]; assumption).
  - destruct (builtin_code n) eqn:E; [exact (builtin_chars n _ E)|assumption].
  - destruct (str_eqb s (lit "Calibri")); [assumption|reflexivity].
Qed.
Lemma texts_of ops : forallb (call_text (forallb attr_char)) ops = true -> format_texts (format_of ops).
Proof.
  intros H. unfold format_of. assert (Z : forall f, kept_texts f -> kept_texts (fold_left fmt_step ops f)).
  { induction ops as [|o ops IH]; intros f B; [assumption|]. cbn [forallb] in H. apply andb_prop in H as [Ho Hr]. cbn [fold_left]. apply (IH Hr), texts_step; assumption. }
  apply Z. repeat split; reflexivity.
Qed.
Lemma kept_of ops : forallb (call_ok (forallb attr_char)) ops = true -> kept (format_of ops) = true.
Proof.
  intros H. unfold format_of. assert (Z : forall f, kept f = true -> kept (fold_left fmt_step ops f) = true).
  { induction ops as [|o ops IH]; intros f A; [assumption|]. cbn [forallb] in H. apply andb_prop in H as [Ho Hr]. cbn [fold_left]. apply (IH Hr), kept_step; assumption. }
  apply Z. reflexivity.
Qed.
Lemma link_of ops : is_hyperlink (font (format_of ops)) = true -> existsb (fun o => match o with OHyperlink | OUnsetHyperlink => true | _ => false end) ops = true.
Proof.
  unfold format_of. assert (Z : forall f, is_hyperlink (font (fold_left fmt_step ops f)) = true -> is_hyperlink (font f) = true \/ existsb (fun o => match o with OHyperlink | OUnsetHyperlink => true | _ => false end) ops = true).
  { induction ops as [|o ops IH]; intros f A; [auto|]. cbn [fold_left] in A. destruct (IH _ A) as [B|B]; [|right; cbn [existsb]; rewrite B; apply orb_true_r].
    destruct o; try (left; exact B); try (right; reflexivity).
    left. cbn in B. destruct (color_valid c); exact B. }
  intros H. destruct (Z _ H) as [B|B]; [discriminate|exact B].
Qed.

(** ** Together *)
Lemma calls_style ops : calls_ok (forallb attr_char) ops = true -> format_ok (format_of ops) = true /\ format_style (format_of ops) = style_asked ops.
Proof.
  unfold calls_ok. intros H. do 3 (apply andb_prop in H as [H ?]). pose proof (kept_of ops H) as K. unfold kept in K. do 4 (apply andb_prop in K as [K ?]).
  destruct (built_font _ ops H) as (F1 & F2 & F3 & F4 & F5 & F6 & F7 & F8 & F9 & F10 & F11 & F12). destruct (built_align _ ops H) as (A1 & A2 & A3 & A4 & A5 & A6 & A7).
  destruct (built_fill _ ops H) as (L1 & L2 & L3). destruct (built_border _ ops H) as (B1 & B2 & B3 & B4 & B5 & C1 & C2 & C3 & C4 & C5 & B6). destruct (built_flags _ ops H) as (G1 & G2 & G3 & G4).
  assert (N : format_number (format_of ops) = last_given of_number NGeneral ops) by (unfold format_of; rewrite (built_number ops format_default false false); [reflexivity|assumption|cbn; congruence|cbn; congruence]).
  set (F := format_of ops) in *.
  split.
  - unfold format_ok. repeat match goal with E : ?b = true |- context [?b] => rewrite E end. cbn [andb]. rewrite !andb_true_r.
    unfold fill_plain, not_both. rewrite L1, L2, L3.
    match goal with E : fill_ok ops = true |- _ => unfold fill_ok in E; cbv zeta in E; revert E end. generalize (last_given of_pattern 0 ops) (last_given of_foreground CDefault ops) (last_given of_background CDefault ops). intros p fg bg E.
    destruct (2 <=? p) eqn:P2; cbn [orb] in *; [replace (1 <=? p) with true by lia; reflexivity|]. apply andb_prop in E as [E E3]. apply andb_prop in E as [E1 E2]. rewrite E1, E2. cbn [andb].
    destruct (N.eqb_spec p 1) as [->|]; [reflexivity|]. cbn [orb] in E3. destruct (1 <=? p); [reflexivity|]. exact E3.
  - assert (U : horizontal_used (alignment F) = horizontal_asked ops).
    { unfold horizontal_used, horizontal_asked. cbv zeta. match goal with E : indent_ok ops = true |- _ => unfold indent_ok in E; cbv zeta in E; revert E end.
      match goal with E : align_ok (alignment F) = true |- _ => unfold align_ok in E; revert E end. rewrite A1, A2, A4.
      generalize (last_given of_horizontal 0 ops) (last_given of_vertical 0 ops) (last_given of_indent 0 ops). intros h v i O E.
      destruct (N.eqb_spec i 0) as [->|]; [reflexivity|]. replace (0 <? i) with true by lia. cbn [orb andb] in *. destruct (h =? 1) eqn:X1; [reflexivity|]. destruct (h =? 3) eqn:X3; [reflexivity|]. destruct (h =? 7) eqn:X7; [reflexivity|]. cbn [orb negb andb] in *.
      replace (v =? 8) with false by lia. replace (v =? 9) with false by lia. replace (v =? 7) with false by lia. reflexivity. }
    assert (S : shrink_used (alignment F) = shrink_asked ops).
    { unfold shrink_used, shrink_asked. cbv zeta. rewrite U, A3, A5. destruct (_ || _ || _ || _); cbn [negb]; [rewrite andb_false_r|rewrite andb_true_r]; reflexivity. }
    unfold format_style, style_asked. cbv zeta. rewrite N, F1, F2, F3, F4, F5, F6, F7, F8, F9, F10, F11, F12, U, A2, A4, A3, S, A6, B6, G1, G2, G3, G4. fold (rot (rotation (alignment F))). rewrite A7.
    unfold format_fill, fill_asked. cbv zeta. rewrite L1, L2, L3. unfold line_asked, format_line. cbv zeta. rewrite B1, B2, B3, B4, B5, C1, C2, C3, C4, C5. reflexivity.
Qed.
Lemma calls_dxf ops : dxf_calls_ok (forallb attr_char) ops = true -> dformat_ok (format_of ops) = true /\ format_dxf (format_of ops) = dxf_asked ops.
Proof.
  unfold dxf_calls_ok. intros H. do 2 (apply andb_prop in H as [H ?]). pose proof (kept_of ops H) as K. unfold kept in K. do 4 (apply andb_prop in K as [K ?]).
  destruct (built_font _ ops H) as (F1 & F2 & F3 & F4 & F5 & F6 & _).
  destruct (built_fill _ ops H) as (L1 & L2 & L3). destruct (built_border _ ops H) as (B1 & B2 & B3 & B4 & B5 & C1 & C2 & C3 & C4 & C5 & B6). destruct (built_flags _ ops H) as (G1 & G2 & G3 & G4).
  assert (N : format_number (format_of ops) = last_given of_number NGeneral ops) by (unfold format_of; rewrite (built_number ops format_default false false); [reflexivity|assumption|cbn; congruence|cbn; congruence]).
  set (F := format_of ops) in *. split.
  - unfold font_ok in K. do 2 (apply andb_prop in K as [K ?]). unfold dformat_ok. repeat match goal with E : ?b = true |- context [?b] => rewrite E end. cbn [andb]. rewrite !andb_true_r.
    unfold dfill_fine. rewrite L1, L2, L3. assumption.
  - unfold format_dxf, dxf_asked. cbv zeta. rewrite N, F1, F2, F3, F4, F6, G4. unfold format_fill, fill_asked. cbv zeta. rewrite L1, L2, L3. unfold line_asked, format_line. cbv zeta. rewrite B1, B2, B3, B4, C1, C2, C3, C4. reflexivity.
Qed.
