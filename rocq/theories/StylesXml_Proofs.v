(** Proofs for Props_StylesXml: the entries of xl/styles.xml read back one by one. *)
From Coq Require Import Lia.
From Verif Require Import Base Xml_Model Xml_Spec Xml_Read Xml_Read_Proofs Xml_Tree Ref_Spec Ref_Proofs Fmt_Model Styles_Model Styles_Proofs Rich_Model Rich_Proofs SheetXml_Spec SheetXml_Proofs SheetXml_Proofs3
  Tag_Proofs Props_Styles Doc_Spec DV_Spec Color_Spec Color_Proofs CF_Model FmtOps_Model StylesXml_Model StylesXml_Spec.

(** ** The style of a format *)
Definition format_number (f : Format) : rnumber :=
  if num_format_index f =? 0 then match num_format f with [] => NGeneral | c => NCode c end else NBuiltin (num_format_index f).
Definition format_fill (x : Fill) : rfill :=
  let fg := shown (foreground_color x) in let bg := shown (background_color x) in
  if pattern x <=? 1 then match bg, fg with Some c, _ => FSolid (Some c) | None, Some c => FSolid (Some c) | None, None => if pattern x =? 0 then FNone else FSolid None end
  else FPattern (pattern_text (pattern x)) fg bg.
Definition format_line (n : N) (c : Color) : rline := if n =? 0 then None else Some (line_text n, shown c).
Definition format_style (f : Format) : rstyle :=
  let x := font f in let a := alignment f in let b := borders f in
  {| s_number := format_number f;
     s_bold := bold x; s_italic := italic x; s_strike := strikethrough x;
     s_underline := underline_text (underline x); s_script := script_text (script x);
     s_color := match font_color x with CDefault => Some (RTheme 1 0) | c => shown c end; s_name := font_name x; s_size := font_size x;
     s_family := family x; s_charset := charset x; s_scheme := match scheme x with [] => None | s => Some s end;
     s_horizontal := horizontal_text (horizontal_used a); s_vertical := vertical_text (vertical a);
     s_rotation := (if rotation a <=? 90 then rotation a else if rotation a <=? 180 then 90 - rotation a else 270)%Z; s_indent := indent a; s_wrap := text_wrap a;
     s_shrink := shrink_used a; s_reading := reading_direction a;
     s_fill := format_fill (fill f);
     s_left := format_line (left_style b) (left_color b); s_right := format_line (right_style b) (right_color b);
     s_top := format_line (top_style b) (top_color b); s_bottom := format_line (bottom_style b) (bottom_color b);
     s_diagonal := format_line (diagonal_style b) (diagonal_color b);
     s_up := (diagonal_type b =? 1) || (diagonal_type b =? 3); s_down := (diagonal_type b =? 2) || (diagonal_type b =? 3);
     s_locked := locked f; s_hidden := hidden f; s_quote := quote_prefix f; s_checkbox := checkbox f;
     s_style := lit (if is_hyperlink (font f) then "Hyperlink" else "Normal") |}.

(** ** Small lemmas *)
Lemma kid_when k b t : kid k (map node_of (when b [t])) = if b then kid k [node_of t] else None.
Proof. destruct b; reflexivity. Qed.
Lemma kid_single k j a l : kid k [Elem (lit j) a l] = if String.eqb j k then Some (Elem (lit j) a l) else None.
Proof. rewrite kid_one. reflexivity. Qed.
Lemma when_true {A} (l : list A) : when true l = l. Proof. reflexivity. Qed.
Lemma if_none {A} (b : bool) : (if b then @None A else None) = None. Proof. destruct b; reflexivity. Qed.
Lemma map_cons' {A B} (f : A -> B) x l : map f (x :: l) = f x :: map f l. Proof. reflexivity. Qed.
Lemma flag_one k b r : flag_of k (when b (one_attr k) ++ r) = b || flag_of k r.
Proof. unfold flag_of, one_attr. rewrite attr_app, attr_when, attr_cons, String.eqb_refl. destruct b; reflexivity. Qed.

(** Colours as the setters leave them. *)
Definition kept_color (c : Color) : bool := real_color c || (if color_eq_dec c (CTheme 10 0) then true else false).
Lemma kept_reads c : kept_color c = true -> auto_or_default c = false -> read_rcolor (color_attributes c) = Some (color_seen c).
Proof.
  intros K A. unfold kept_color in K. destruct (color_eq_dec c (CTheme 10 0)) as [->|_]; [reflexivity|]. rewrite orb_false_r in K. now apply color_reads.
Qed.
Lemma shown_auto c : auto_or_default c = true -> shown c = None. Proof. destruct c; try discriminate; reflexivity. Qed.
Lemma shown_real c : auto_or_default c = false -> shown c = Some (color_seen c). Proof. destruct c; try discriminate; reflexivity. Qed.
Lemma own_color_attrs tag c : auto_or_default c = false -> kept_color c = true -> own_color (Elem tag (color_attributes c) []) = Some (shown c).
Proof.
  intros A K. rewrite (shown_real c A). unfold own_color. cbn [attrs_of]. rewrite (kept_reads c K A). cbn [bind].
  replace (existsb _ _) with false; [reflexivity|]. symmetry. cbn [existsb].
  assert (Z : forall k, String.eqb "theme" k = false -> String.eqb "tint" k = false -> String.eqb "rgb" k = false -> attr k (color_attributes c) = None).
  { intros k X Y Z. destruct c as [n|t s| | |n]; cbn [color_attributes]; rewrite ?attr_cons, ?X, ?Z; try reflexivity. destruct (tint t s); rewrite ?attr_cons, ?Y; reflexivity. }
  rewrite !Z by reflexivity. reflexivity.
Qed.

(** ** Fonts *)
Ltac pieces := rewrite ?map_app, ?kid_app, ?kid_when; cbn [node_of map app]; rewrite ?kid_single; cbn [String.eqb Ascii.eqb Bool.eqb]; rewrite ?if_none.
Definition fonts_kids (x : Font) : list node := kids_of (node_of (font_xml false false x)).
Lemma u_kid k u : kid k [node_of (underline_xml u)] = if String.eqb "u" k then Some (node_of (underline_xml u)) else None.
Proof. unfold underline_xml. cbn [node_of]. apply kid_single. Qed.
Lemma v_kid k u : kid k [node_of (vert_align_xml u)] = if String.eqb "vertAlign" k then Some (node_of (vert_align_xml u)) else None.
Proof. unfold vert_align_xml. cbn [node_of]. apply kid_single. Qed.
Lemma c_kid k c d : kid k (map node_of (font_color_xml c d)) = if String.eqb "color" k then kid "color" (map node_of (font_color_xml c d)) else None.
Proof. destruct c; cbn [font_color_xml]; [| |destruct d| |]; cbn [map node_of]; rewrite ?kid_single; try (destruct (String.eqb "color" k); reflexivity). Qed.
Lemma s_kid k s : kid k (map node_of (match s with [] => [] | c :: r => [WEmpty (lit "scheme") [(lit "val", c :: r)]] end)) =
  match s with [] => None | _ => if String.eqb "scheme" k then Some (Elem (lit "scheme") [(lit "val", s)] []) else None end.
Proof. destruct s; [reflexivity|]. cbn [map node_of]. apply kid_single. Qed.
Lemma font_kid k x : kid k (fonts_kids x) =
  if String.eqb "b" k then if bold x then Some (Elem (lit "b") [] []) else None else
  if String.eqb "i" k then if italic x then Some (Elem (lit "i") [] []) else None else
  if String.eqb "strike" k then if strikethrough x then Some (Elem (lit "strike") [] []) else None else
  if String.eqb "u" k then if negb (underline x =? 0) then Some (node_of (underline_xml (underline x))) else None else
  if String.eqb "vertAlign" k then if negb (script x =? 0) then Some (node_of (vert_align_xml (script x))) else None else
  if String.eqb "sz" k then Some (Elem (lit "sz") [(lit "val", font_size x)] []) else
  if String.eqb "color" k then kid "color" (map node_of (font_color_xml (font_color x) false)) else
  if String.eqb "name" k then Some (Elem (lit "name") [(lit "val", font_name x)] []) else
  if String.eqb "family" k then if 0 <? family x then Some (Elem (lit "family") [(lit "val", dec (family x))] []) else None else
  if String.eqb "charset" k then if 0 <? charset x then Some (Elem (lit "charset") [(lit "val", dec (charset x))] []) else None else
  if String.eqb "scheme" k then match scheme x with [] => None | s => Some (Elem (lit "scheme") [(lit "val", s)] []) end else None.
Proof.
  unfold fonts_kids, font_xml. cbn [node_of kids_of]. cbn [negb]. rewrite !when_true. rewrite ?map_app, ?kid_app, ?kid_when, u_kid, v_kid, c_kid.
  rewrite (s_kid k (scheme x)). cbn [map node_of]. rewrite ?kid_single.
  assert (D : forall a b, String.eqb a b = false -> String.eqb a k = true -> String.eqb b k = false).
  { intros a b N E. apply String.eqb_eq in E. subst k. destruct (String.eqb b a) eqn:Q; [|reflexivity]. apply String.eqb_eq in Q. subst. rewrite String.eqb_refl in N. discriminate. }
  repeat match goal with
  | |- context [String.eqb ?a k] => destruct (String.eqb a k) eqn:?
  end; try (exfalso; match goal with H : String.eqb ?a k = true, H' : String.eqb ?b k = true |- _ =>
     rewrite (D a b eq_refl H) in H'; discriminate H' end);
  rewrite ?if_none; try reflexivity.
  all: destruct (scheme x); rewrite ?if_none; try reflexivity.
  all: try (destruct (bold x); reflexivity); try (destruct (italic x); reflexivity); try (destruct (strikethrough x); reflexivity).
  all: try (destruct (underline x =? 0); reflexivity); try (destruct (script x =? 0); reflexivity); try (destruct (0 <? family x); reflexivity); try (destruct (0 <? charset x); reflexivity).
  all: destruct (kid "color" _); reflexivity.
Qed.
Definition font_ok (x : Font) : bool := (underline x <=? 4) && (script x <=? 2) && kept_color (font_color x).
Lemma eqb_cases n m : n <= m -> In n (map N.of_nat (seq 0 (S (N.to_nat m)))).
Proof. intros H. apply in_map_iff. exists (N.to_nat n). split; [lia|]. apply in_seq. lia. Qed.
Ltac upto H := apply eqb_cases in H; cbn in H; repeat (destruct H as [<-|H]; [|]); [.. | destruct H].
Lemma underline_reads x : underline x <= 4 -> read_underline (fonts_kids x) = underline_text (underline x).
Proof.
  intros H. unfold read_underline. rewrite font_kid. cbn [String.eqb Ascii.eqb Bool.eqb]. revert H. generalize (underline x). intros n H. upto H; reflexivity.
Qed.
Lemma script_reads x : script x <= 2 -> or_text (tagged_val "vertAlign" (fonts_kids x)) "baseline" = script_text (script x).
Proof.
  intros H. unfold tagged_val. rewrite font_kid. cbn [String.eqb Ascii.eqb Bool.eqb]. revert H. generalize (script x). intros n H. upto H; reflexivity.
Qed.
Lemma font_color_reads x : kept_color (font_color x) = true ->
  kid_color "color" (fonts_kids x) = Some (match font_color x with CDefault => Some (RTheme 1 0) | c => shown c end).
Proof.
  intros H. unfold kid_color. rewrite font_kid. cbn [String.eqb Ascii.eqb Bool.eqb].
  destruct (auto_or_default (font_color x)) eqn:A; [destruct (font_color x); try discriminate; reflexivity|].
  replace (font_color_xml (font_color x) false) with [WEmpty (lit "color") (color_attributes (font_color x))] by (destruct (font_color x); try discriminate; reflexivity).
  cbn [map node_of]. rewrite kid_single. cbn [String.eqb Ascii.eqb Bool.eqb]. rewrite own_color_attrs by assumption. destruct (font_color x); try discriminate; reflexivity.
Qed.
Lemma attr_val v : attr "val" [(lit "val", v)] = Some v. Proof. reflexivity. Qed.
Lemma small_reads x :
  present "b" (fonts_kids x) = bold x /\ present "i" (fonts_kids x) = italic x /\ present "strike" (fonts_kids x) = strikethrough x /\
  tagged_val "name" (fonts_kids x) = Some (font_name x) /\ tagged_val "sz" (fonts_kids x) = Some (font_size x) /\
  or_num (tagged_val "family" (fonts_kids x)) = Some (family x) /\ or_num (tagged_val "charset" (fonts_kids x)) = Some (charset x) /\
  tagged_val "scheme" (fonts_kids x) = match scheme x with [] => None | s => Some s end.
Proof.
  unfold present, tagged_val. rewrite !font_kid. cbn [String.eqb Ascii.eqb Bool.eqb].
  split; [destruct (bold x); reflexivity|]. split; [destruct (italic x); reflexivity|]. split; [destruct (strikethrough x); reflexivity|].
  split; [reflexivity|]. split; [reflexivity|].
  assert (Z : forall k n, or_num (bind (if 0 <? n then Some (Elem (lit k) [(lit "val", dec n)] []) else None) (fun n => attr "val" (attrs_of n))) = Some n).
  { intros k n. destruct (N.ltb_spec 0 n) as [L|L]; [|cbn; f_equal; lia]. cbn [bind attrs_of]. rewrite attr_val. cbn [or_num]. apply number_of_dec. }
  split; [apply Z|]. split; [apply Z|]. destruct (scheme x); reflexivity.
Qed.

(** ** Fills *)
Definition fill_colors (x : Fill) : bool := kept_color (foreground_color x) && kept_color (background_color x) && (pattern x <=? 18).
(** No automatic colour in a solid fill. *)
Definition fill_plain (x : Fill) : bool :=
  (2 <=? pattern x) || (negb (if color_eq_dec (foreground_color x) CAutomatic then true else false) && negb (if color_eq_dec (background_color x) CAutomatic then true else false)).
Definition fill_shape (y : Fill) : rfill :=
  let fg := shown (foreground_color y) in let bg := shown (background_color y) in
  if pattern y =? 0 then FNone else if pattern y =? 1 then FSolid (match fg, bg with Some _, Some c => Some c | o, _ => o end) else FPattern (pattern_text (pattern y)) fg bg.
Lemma pattern_text_name n : pattern_text n = pattern_name n. Proof. reflexivity. Qed.
Lemma pattern_class n : n <= 18 -> str_eqb (pattern_name n) (lit "none") = (n =? 0) /\ str_eqb (pattern_name n) (lit "solid") = (n =? 1) /\ forallb attr_char (pattern_name n) = true.
Proof. intros H. upto H; repeat split; reflexivity. Qed.
Lemma fill_reads y : fill_colors y = true -> fill_plain y = true -> read_fill false (node_of (fill_xml false y)) = Some (fill_shape y).
Proof.
  destruct y as [fg bg p]. unfold fill_colors, fill_plain. cbn [foreground_color background_color pattern]. intros C P.
  apply andb_prop in C as [C Cp]. apply andb_prop in C as [Cf Cb]. assert (Hp : p <= 18) by lia. destruct (pattern_class p Hp) as (Pn & Ps & _).
  unfold fill_xml, fill_shape. cbn [foreground_color background_color pattern]. cbn [negb andb].
  destruct (negb (p =? 0) && auto_or_default bg && auto_or_default fg) eqn:E.
  { apply andb_prop in E as [E Ef]. apply andb_prop in E as [Ep Eb]. unfold default_fill, read_fill. cbn [node_of map kids_of]. rewrite kid_single. cbn [String.eqb Ascii.eqb Bool.eqb bind attrs_of kids_of].
    rewrite attr_cons. cbn [String.eqb Ascii.eqb Bool.eqb or_text]. unfold kid_color. change (kid "fgColor" []) with (@None node). change (kid "bgColor" []) with (@None node). cbn [bind].
    rewrite Pn, Ps, (shown_auto fg Ef), (shown_auto bg Eb). apply negb_true_iff in Ep. rewrite Ep. reflexivity. }
  set (swap := (p =? 1) && _ && _).
  assert (W : p =? 1 = true -> swap = negb (auto_or_default bg) && negb (auto_or_default fg)).
  { intros P1. unfold swap. rewrite P1. cbn [andb]. assert (p = 1) by lia. subst p. cbn [N.leb N.compare] in P. change (2 <=? 1) with false in P. cbn [orb] in P.
    destruct fg, bg; cbn in P |- *; try reflexivity; discriminate P. }
  replace (let '(fg0, bg0) := if swap then (color_attributes bg, color_attributes fg) else (color_attributes fg, color_attributes bg) in _) with
    (WElem (lit "fill") [] [WElem (lit "patternFill") [(lit "patternType", pattern_name p)]
      (when (negb (auto_or_default fg)) [WEmpty (lit "fgColor") (if swap then color_attributes bg else color_attributes fg)] ++
       [WEmpty (lit "bgColor") (if auto_or_default bg then [(lit "indexed", lit "64")] else if swap then color_attributes fg else color_attributes bg)])]) by (destruct swap; reflexivity).
  unfold read_fill. cbn [node_of map kids_of]. rewrite kid_single. cbn [String.eqb Ascii.eqb Bool.eqb bind attrs_of kids_of].
  rewrite attr_cons. cbn [String.eqb Ascii.eqb Bool.eqb or_text]. unfold kid_color. rewrite !map_app, !kid_app, !kid_when. cbn [map node_of]. rewrite !kid_single. cbn [String.eqb Ascii.eqb Bool.eqb].
  rewrite !if_none, Pn, Ps.
  assert (Bg : own_color (Elem (lit "bgColor") (if auto_or_default bg then [(lit "indexed", lit "64")] else if swap then color_attributes fg else color_attributes bg) []) =
    Some (if auto_or_default bg then None else if swap then shown fg else shown bg)).
  { destruct (auto_or_default bg) eqn:Ab; [reflexivity|]. destruct swap eqn:Sw; [|now rewrite own_color_attrs].
    destruct (p =? 1) eqn:P1; [|unfold swap in Sw; discriminate Sw]. pose proof (W eq_refl) as W'. cbn [andb negb] in W'. rewrite own_color_attrs; [reflexivity| |exact Cf]. destruct (auto_or_default fg); [discriminate W'|reflexivity]. }
  assert (Fg : (if negb (auto_or_default fg) then own_color (Elem (lit "fgColor") (if swap then color_attributes bg else color_attributes fg) []) else Some None) =
    Some (if auto_or_default fg then None else if swap then shown bg else shown fg)).
  { destruct (auto_or_default fg) eqn:Af; cbn [negb]; [reflexivity|]. destruct swap eqn:Sw; [|now rewrite own_color_attrs].
    destruct (p =? 1) eqn:P1; [|unfold swap in Sw; discriminate Sw]. pose proof (W eq_refl) as W'. rewrite own_color_attrs; [reflexivity| |exact Cb]. destruct (auto_or_default bg); [discriminate W'|reflexivity]. }
  rewrite Bg. destruct (auto_or_default fg) eqn:Af; cbn [negb] in *.
  - rewrite (shown_auto fg Af). cbn [bind]. destruct (N.eqb_spec p 0); [reflexivity|]. destruct (p =? 1) eqn:P1.
    + reflexivity.
    + f_equal. replace swap with false by (unfold swap; reflexivity). destruct (auto_or_default bg) eqn:Ab; [now rewrite (shown_auto bg Ab)|reflexivity].
  - rewrite Fg, (shown_real fg Af). cbn [bind]. destruct (N.eqb_spec p 0); [reflexivity|]. destruct (p =? 1) eqn:P1.
    + rewrite (W eq_refl). destruct (auto_or_default bg) eqn:Ab; cbn [negb andb]; [now rewrite (shown_auto bg Ab)|]. now rewrite (shown_real bg Ab).
    + f_equal. replace swap with false by (unfold swap; reflexivity). destruct (auto_or_default bg) eqn:Ab; [now rewrite (shown_auto bg Ab)|reflexivity].
Qed.
Definition not_both (x : Fill) : bool :=
  (1 <=? pattern x) || (if color_eq_dec (foreground_color x) CDefault then true else false) || (if color_eq_dec (background_color x) CDefault then true else false).
Lemma normal_cases x : normal_fill x = x \/
  pattern x <= 1 /\ foreground_color x = CDefault /\ background_color x <> CDefault /\ normal_fill x = {| foreground_color := background_color x; background_color := CDefault; pattern := 1 |} \/
  pattern x <= 1 /\ background_color x = CDefault /\ foreground_color x <> CDefault /\ normal_fill x = {| foreground_color := foreground_color x; background_color := CDefault; pattern := 1 |}.
Proof.
  rewrite normal_intended. destruct x as [fg bg p]. unfold intended_fill. cbn [foreground_color background_color pattern].
  destruct ((p =? 0) || (p =? 1)) eqn:E; [|left; reflexivity]. assert (p <= 1) by lia.
  destruct fg, bg; try (left; reflexivity); right; (left + right); (split; [assumption|]; split; [reflexivity|]; split; [discriminate|reflexivity]).
Qed.
Lemma normal_shape x : fill_plain x = true -> not_both x = true -> fill_shape (normal_fill x) = format_fill x.
Proof.
  intros P B. destruct (normal_cases x) as [E|[(L & Ef & Eb & E)|(L & Eb & Ef & E)]].
  - assert (K : (2 <= pattern x)%N \/ pattern x <= 1) by lia. unfold fill_shape, format_fill. rewrite E. destruct K as [K|K].
    { replace (pattern x =? 0) with false by lia. replace (pattern x =? 1) with false by lia. replace (pattern x <=? 1) with false by lia. reflexivity. }
    replace (pattern x <=? 1) with true by lia. rewrite normal_intended in E. destruct x as [fg bg p]. unfold fill_plain, not_both in P, B. unfold intended_fill in E. cbn [foreground_color background_color pattern] in *.
    replace (2 <=? p) with false in P by lia. cbn [orb] in P. replace ((p =? 0) || (p =? 1)) with true in E by lia.
    destruct (N.eq_dec p 0) as [->|Np].
    + cbn in B. destruct fg, bg; cbn in B, P |- *; try discriminate; reflexivity.
    + assert (p = 1) by lia. subst p. destruct fg, bg; cbn in E, P |- *; try discriminate; reflexivity.
  - rewrite E. unfold fill_shape, format_fill. cbn [foreground_color background_color pattern]. replace (pattern x <=? 1) with true by lia. rewrite Ef. cbn [shown N.eqb Pos.eqb].
    unfold fill_plain in P. replace (2 <=? pattern x) with false in P by lia. cbn [orb] in P. apply andb_prop in P as [_ P]. destruct (background_color x); cbn in P |- *; try reflexivity; try discriminate; congruence.
  - rewrite E. unfold fill_shape, format_fill. cbn [foreground_color background_color pattern]. replace (pattern x <=? 1) with true by lia. rewrite Eb. cbn [shown N.eqb Pos.eqb].
    unfold fill_plain in P. replace (2 <=? pattern x) with false in P by lia. cbn [orb] in P. apply andb_prop in P as [P _]. destruct (foreground_color x); cbn in P |- *; try reflexivity; try discriminate; congruence.
Qed.
Lemma normal_fine x : fill_colors x = true -> fill_plain x = true -> fill_colors (normal_fill x) = true /\ fill_plain (normal_fill x) = true.
Proof.
  intros C P. destruct (normal_cases x) as [->|[(L & Ef & Eb & ->)|(L & Eb & Ef & ->)]]; [split; assumption| |];
    unfold fill_colors, fill_plain in *; cbn [foreground_color background_color pattern]; replace (2 <=? pattern x) with false in P by lia;
    apply andb_prop in C as [C _]; apply andb_prop in C as [Cf Cb]; cbn [orb] in P; apply andb_prop in P as [Pf Pb].
  - rewrite Cb, Pb. split; reflexivity.
  - rewrite Cf, Pf. split; reflexivity.
Qed.

(** ** Borders *)
Definition line_ok (n : N) (c : Color) : bool := (n <=? 13) && kept_color c.
Definition border_ok (b : Border) : bool :=
  line_ok (left_style b) (left_color b) && line_ok (right_style b) (right_color b) && line_ok (top_style b) (top_color b) && line_ok (bottom_style b) (bottom_color b) &&
  line_ok (diagonal_style b) (diagonal_color b) && (diagonal_type b <=? 3).
Lemma border_class n : n <= 13 -> str_eqb (border_name n) (lit "none") = (n =? 0) /\ forallb attr_char (border_name n) = true.
Proof. intros H. upto H; split; reflexivity. Qed.
Lemma side_kid k j n c : kid k [node_of (side_xml j n c)] = if String.eqb j k then Some (node_of (side_xml j n c)) else None.
Proof. unfold side_xml. destruct (n =? 0); cbn [node_of]; apply kid_single. Qed.
Lemma side_reads j n c : line_ok n c = true ->
  match attr "style" (attrs_of (node_of (side_xml j n c))) with
  | Some s => if str_eqb s (lit "none") then Some None else bind (kid_color "color" (kids_of (node_of (side_xml j n c)))) (fun c => Some (Some (s, c)))
  | None => Some None
  end = Some (format_line n c).
Proof.
  intros H. apply andb_prop in H as [Hn Hc]. unfold side_xml, format_line. destruct (N.eqb_spec n 0) as [->|Nz]; [reflexivity|].
  cbn [node_of attrs_of kids_of map]. rewrite attr_cons. cbn [String.eqb Ascii.eqb Bool.eqb]. destruct (border_class n) as [E _]; [lia|]. rewrite E. replace (n =? 0) with false by lia.
  unfold kid_color. rewrite kid_single. cbn [String.eqb Ascii.eqb Bool.eqb]. destruct (auto_or_default c) eqn:A.
  - cbn. now rewrite (shown_auto c A).
  - rewrite own_color_attrs by assumption. reflexivity.
Qed.
Lemma border_kids b : kids_of (node_of (border_xml false b)) =
  [node_of (side_xml "left" (left_style b) (left_color b))] ++ [node_of (side_xml "right" (right_style b) (right_color b))] ++
  [node_of (side_xml "top" (top_style b) (top_color b))] ++ [node_of (side_xml "bottom" (bottom_style b) (bottom_color b))] ++ [node_of (side_xml "diagonal" (diagonal_style b) (diagonal_color b))].
Proof. reflexivity. Qed.
Lemma border_reads b : border_ok b = true ->
  let l := kids_of (node_of (border_xml false b)) in
  read_line "left" l = Some (format_line (left_style b) (left_color b)) /\ read_line "right" l = Some (format_line (right_style b) (right_color b)) /\
  read_line "top" l = Some (format_line (top_style b) (top_color b)) /\ read_line "bottom" l = Some (format_line (bottom_style b) (bottom_color b)) /\
  read_line "diagonal" l = Some (format_line (diagonal_style b) (diagonal_color b)).
Proof.
  unfold border_ok. intros H. do 5 (apply andb_prop in H as [H ?]). cbv zeta. rewrite border_kids. unfold read_line. rewrite !kid_app, !side_kid. cbn [String.eqb Ascii.eqb Bool.eqb].
  repeat split; apply side_reads; assumption.
Qed.
Lemma border_flags dxf b : flag_of "diagonalUp" (attrs_of (node_of (border_xml dxf b))) = (diagonal_type b =? 1) || (diagonal_type b =? 3) /\
  flag_of "diagonalDown" (attrs_of (node_of (border_xml dxf b))) = (diagonal_type b =? 2) || (diagonal_type b =? 3).
Proof.
  unfold border_xml. cbn [node_of attrs_of]. unfold flag_of. rewrite !attr_app, !attr_when, !attr_cons. cbn [String.eqb Ascii.eqb Bool.eqb]. rewrite attr_nil, !if_none.
  destruct ((diagonal_type b =? 1) || (diagonal_type b =? 3)), ((diagonal_type b =? 2) || (diagonal_type b =? 3)); split; reflexivity.
Qed.

(** ** Alignment and protection *)
Definition align_ok (a : Alignment) : bool :=
  (horizontal a <=? 7) && ((vertical a =? 0) || (8 <=? vertical a) && (vertical a <=? 12)) && (reading_direction a <=? 2) &&
  ((0 <=? rotation a) && (rotation a <=? 180) || (rotation a =? 255))%Z.
Definition al_attrs (a : Alignment) : list (str * str) := attrs_of (node_of (alignment_xml a)).
Lemma attr_opt k j o : attr k (opt_attr j o) = if String.eqb j k then o else None.
Proof. destruct o; cbn [opt_attr]; [rewrite attr_cons; destruct (String.eqb j k); reflexivity|destruct (String.eqb j k); reflexivity]. Qed.
Lemma horizontal_used_le a : horizontal a <= 7 -> horizontal_used a <= 7.
Proof. intros H. unfold horizontal_used. destruct (_ && _); lia. Qed.
Lemma al_reads a : align_ok a = true ->
  or_text (attr "horizontal" (al_attrs a)) "general" = horizontal_text (horizontal_used a) /\ or_text (attr "vertical" (al_attrs a)) "bottom" = vertical_text (vertical a) /\
  read_rotation (attr "textRotation" (al_attrs a)) = Some (if rotation a <=? 90 then rotation a else if rotation a <=? 180 then 90 - rotation a else 270)%Z /\
  or_num (attr "indent" (al_attrs a)) = Some (indent a) /\ or_num (attr "readingOrder" (al_attrs a)) = Some (reading_direction a) /\
  flag_of "wrapText" (al_attrs a) = text_wrap a /\ flag_of "shrinkToFit" (al_attrs a) = shrink_used a.
Proof.
  unfold align_ok. intros H. repeat (apply andb_prop in H as [H ?]). unfold al_attrs, alignment_xml. cbn [node_of attrs_of]. unfold flag_of.
  rewrite !attr_app, !attr_opt, !attr_when, !attr_cons. cbn [String.eqb Ascii.eqb Bool.eqb]. rewrite attr_nil, !if_none.
  split; [|split; [|split; [|split; [|split; [|split]]]]].
  - pose proof (horizontal_used_le a ltac:(lia)) as L. revert L. generalize (horizontal_used a). intros n L. upto L; reflexivity.
  - assert (L : vertical a <= 12) by lia. revert L. generalize (vertical a). intros n L. upto L; reflexivity.
  - unfold read_rotation. destruct (Z.eqb_spec (rotation a) 0) as [->|Nz]; [reflexivity|]. cbn [negb or_num]. rewrite number_of_dec. cbn [bind].
    destruct (Z.leb_spec (rotation a) 90).
    + replace (Z.to_N (rotation a) <=? 90) with true by lia. f_equal. lia.
    + replace (Z.to_N (rotation a) <=? 90) with false by lia. destruct (Z.leb_spec (rotation a) 180).
      * replace (Z.to_N (rotation a) <=? 180) with true by lia. f_equal. lia.
      * replace (Z.to_N (rotation a) <=? 180) with false by lia. replace (rotation a) with 255%Z by lia. reflexivity.
  - destruct (N.eqb_spec (indent a) 0) as [->|]; [reflexivity|]. cbn [negb or_num]. apply number_of_dec.
  - assert (L : reading_direction a <= 2) by lia. revert L. generalize (reading_direction a). intros n L. upto L; reflexivity.
  - destruct (text_wrap a); reflexivity.
  - destruct (shrink_used a); reflexivity.
Qed.
(** Without an alignment element everything is as by default. *)
Lemma no_alignment a : align_ok a = true -> has_alignment a = false ->
  horizontal_text (horizontal_used a) = lit "general" /\ vertical_text (vertical a) = lit "bottom" /\ rotation a = 0%Z /\ indent a = 0 /\ reading_direction a = 0 /\
  text_wrap a = false /\ shrink_used a = false.
Proof.
  unfold has_alignment. intros _ H. repeat (apply orb_false_elim in H as [H ?]).
  assert (Hh : horizontal a = 0) by lia. assert (Hi : indent a = 0) by lia. assert (U : horizontal_used a = 0) by (unfold horizontal_used; rewrite Hh, Hi; reflexivity).
  rewrite U. split; [reflexivity|]. split.
  { assert (V : vertical a = 0 \/ vertical a = 9) by lia. destruct V as [-> | ->]; reflexivity. }
  split; [lia|]. split; [exact Hi|]. split; [lia|]. split; [assumption|]. unfold shrink_used. cbv zeta. rewrite U. destruct (text_wrap a); [reflexivity|]. cbn. assumption.
Qed.
