(** Differential formats; formats built by calls. *)
From Coq Require Import Lia.
From Verif Require Import Base Xml_Model Xml_Spec Xml_Read Xml_Read_Proofs Xml_Tree Ref_Spec Ref_Proofs Fmt_Model Styles_Model Styles_Proofs Rich_Model Rich_Proofs SheetXml_Spec SheetXml_Proofs SheetXml_Proofs3
  Tag_Proofs Props_Styles Doc_Spec DV_Spec Color_Spec Color_Proofs Part_Proofs CF_Model FmtOps_Model StylesXml_Model StylesXml_Spec StylesXml_Proofs StylesXml_Proofs2 StylesXml_Proofs3.

(** ** Differential formats *)
Definition format_dxf (f : Format) : dstyle :=
  let x := font f in let b := borders f in
  {| d_bold := bold x; d_italic := italic x; d_strike := strikethrough x; d_underline := underline_text (underline x); d_color := shown (font_color x);
     d_number := format_number f; d_fill := format_fill (fill f);
     d_left := format_line (left_style b) (left_color b); d_right := format_line (right_style b) (right_color b);
     d_top := format_line (top_style b) (top_color b); d_bottom := format_line (bottom_style b) (bottom_color b); d_checkbox := checkbox f |}.
Definition dfonts_kids (x : Font) : list node := kids_of (node_of (font_xml false true x)).
Lemma dfont_kid k x : existsb (String.eqb k) ["b"; "i"; "strike"; "u"; "color"]%string = true -> kid k (dfonts_kids x) =
  if String.eqb "b" k then if bold x then Some (Elem (lit "b") [] []) else None else
  if String.eqb "i" k then if italic x then Some (Elem (lit "i") [] []) else None else
  if String.eqb "strike" k then if strikethrough x then Some (Elem (lit "strike") [] []) else None else
  if String.eqb "u" k then if negb (underline x =? 0) then Some (node_of (underline_xml (underline x))) else None else
  kid "color" (map node_of (font_color_xml (font_color x) true)).
Proof.
  unfold dfonts_kids, font_xml. cbn [node_of kids_of]. cbn [negb]. change (when false ?l) with (@nil wx). rewrite ?map_app, ?kid_app, ?kid_when, u_kid, v_kid, c_kid. cbn [map node_of when app]. rewrite ?kid_single. change (kid k []) with (@None node).
  intros H. cbn [existsb] in H. repeat (apply orb_prop in H as [H|H]; [apply String.eqb_eq in H; subst k|]); [| | | | |discriminate]; cbn [String.eqb Ascii.eqb Bool.eqb]; rewrite ?if_none.
  - destruct (bold x); reflexivity.
  - destruct (italic x); reflexivity.
  - destruct (strikethrough x); reflexivity.
  - destruct (underline x =? 0); reflexivity.
  - destruct (kid "color" _); reflexivity.
Qed.
Lemma dfont_reads x : underline x <= 4 -> kept_color (font_color x) = true ->
  let l := if has_dxf_font x then dfonts_kids x else [] in
  present "b" l = bold x /\ present "i" l = italic x /\ present "strike" l = strikethrough x /\ read_underline l = underline_text (underline x) /\ kid_color "color" l = Some (shown (font_color x)).
Proof.
  intros U K. cbv zeta. destruct (has_dxf_font x) eqn:H.
  - unfold present, read_underline, kid_color. rewrite !dfont_kid by reflexivity. cbn [String.eqb Ascii.eqb Bool.eqb].
    split; [destruct (bold x); reflexivity|]. split; [destruct (italic x); reflexivity|]. split; [destruct (strikethrough x); reflexivity|]. split.
    { revert U. generalize (underline x). intros n U. upto U; reflexivity. }
    destruct (auto_or_default (font_color x)) eqn:A; [destruct (font_color x); try discriminate; reflexivity|].
    replace (font_color_xml (font_color x) true) with [WEmpty (lit "color") (color_attributes (font_color x))] by (destruct (font_color x); try discriminate; reflexivity).
    cbn [map node_of]. rewrite kid_single. cbn [String.eqb Ascii.eqb Bool.eqb]. apply own_color_attrs; assumption.
  - unfold has_dxf_font in H. repeat (apply orb_false_elim in H as [H ?]). repeat match goal with E : negb _ = false |- _ => apply negb_false_iff in E end.
    rewrite H. split; [reflexivity|]. split; [cbn; congruence|]. split; [cbn; congruence|]. split.
    + match goal with E : (underline x =? 0) = true |- _ => apply N.eqb_eq in E; rewrite E end. reflexivity.
    + rewrite (shown_auto (font_color x)) by assumption. reflexivity.
Qed.
(** A solid fill must have the background colour if it has one. *)
Definition dfill_fine (x : Fill) : bool := (2 <=? pattern x) || match shown (background_color x), shown (foreground_color x) with None, Some _ => false | _, _ => true end.
Lemma shown_iff c : shown c = None <-> auto_or_default c = true. Proof. destruct c; cbn; split; congruence. Qed.
Lemma dfill_reads y : fill_colors y = true -> dfill_fine y = true -> has_dxf_fill y = true -> read_fill true (node_of (fill_xml true y)) = Some (format_fill y).
Proof.
  destruct y as [fg bg p]. unfold fill_colors, dfill_fine, has_dxf_fill. cbn [foreground_color background_color pattern]. intros C P D.
  apply andb_prop in C as [C Cp]. apply andb_prop in C as [Cf Cb]. assert (Hp : p <= 18) by lia. destruct (pattern_class p Hp) as (Pn & Ps & _).
  unfold fill_xml, format_fill. cbn [foreground_color background_color pattern]. cbn [negb andb].
  destruct (negb (p =? 0) && auto_or_default bg && auto_or_default fg) eqn:E.
  { apply andb_prop in E as [E Ef]. apply andb_prop in E as [Ep Eb]. unfold default_fill, read_fill. cbn [node_of map kids_of]. rewrite kid_single. cbn [String.eqb Ascii.eqb Bool.eqb bind attrs_of kids_of].
    rewrite attr_cons. cbn [String.eqb Ascii.eqb Bool.eqb or_text]. unfold kid_color. change (kid "fgColor" []) with (@None node). change (kid "bgColor" []) with (@None node). cbn [bind].
    rewrite Pn, Ps, (shown_auto fg Ef), (shown_auto bg Eb). apply negb_true_iff in Ep. rewrite Ep. destruct (N.eqb_spec p 1) as [->|]; [reflexivity|]. replace (p <=? 1) with false by lia. reflexivity. }
  unfold read_fill. cbn [node_of map kids_of]. rewrite kid_single. cbn [String.eqb Ascii.eqb Bool.eqb bind attrs_of kids_of].
  unfold kid_color. rewrite !map_app, !kid_app, !kid_when. cbn [map node_of]. rewrite !kid_single. cbn [String.eqb Ascii.eqb Bool.eqb]. rewrite !if_none.
  assert (Bg : own_color (Elem (lit "bgColor") (if auto_or_default bg then [(lit "indexed", lit "64")] else color_attributes bg) []) = Some (shown bg)).
  { destruct (auto_or_default bg) eqn:Ab; [rewrite (shown_auto bg Ab); reflexivity|now rewrite own_color_attrs]. }
  assert (Fg : match (match (if negb (auto_or_default fg) then Some (Elem (lit "fgColor") (color_attributes fg) []) else None) with Some e => Some e | None => None end) with Some n => own_color n | None => Some None end = Some (shown fg)).
  { destruct (auto_or_default fg) eqn:Af; cbn [negb]; [rewrite (shown_auto fg Af); reflexivity|now rewrite own_color_attrs]. }
  rewrite Fg, Bg. cbn [bind]. unfold none_or_solid. cbn [pattern]. destruct (N.leb_spec p 1) as [L|L].
  - replace ((p =? 0) || (p =? 1)) with true by lia. cbn. replace (2 <=? p) with false in P by lia. cbn [orb] in P.
    destruct (shown bg) eqn:Sb; [reflexivity|]. destruct (shown fg) eqn:Sf; [discriminate P|]. apply shown_iff in Sb, Sf. rewrite Sb, Sf in *. cbn in D, E. destruct (N.eqb_spec p 0) as [->|]; [discriminate D|discriminate E].
  - replace ((p =? 0) || (p =? 1)) with false by lia. rewrite attr_cons. cbn [String.eqb Ascii.eqb Bool.eqb or_text]. rewrite Pn, Ps. replace (p =? 0) with false by lia. replace (p =? 1) with false by lia. reflexivity.
Qed.
Lemma dborder_reads b : border_ok b = true -> let l := kids_of (node_of (border_xml true b)) in
  read_line "left" l = Some (format_line (left_style b) (left_color b)) /\ read_line "right" l = Some (format_line (right_style b) (right_color b)) /\
  read_line "top" l = Some (format_line (top_style b) (top_color b)) /\ read_line "bottom" l = Some (format_line (bottom_style b) (bottom_color b)).
Proof.
  unfold border_ok. intros H. do 5 (apply andb_prop in H as [H ?]). cbv zeta.
  change (kids_of (node_of (border_xml true b))) with ([node_of (side_xml "left" (left_style b) (left_color b))] ++ [node_of (side_xml "right" (right_style b) (right_color b))] ++
    [node_of (side_xml "top" (top_style b) (top_color b))] ++ [node_of (side_xml "bottom" (bottom_style b) (bottom_color b))] ++ [Elem (lit "vertical") [] []; Elem (lit "horizontal") [] []]).
  unfold read_line. rewrite !kid_app, !side_kid. cbn [String.eqb Ascii.eqb Bool.eqb]. repeat split; apply side_reads; assumption.
Qed.
Definition dformat_ok (f : Format) : bool :=
  (underline (font f) <=? 4) && kept_color (font_color (font f)) && fill_colors (fill f) && dfill_fine (fill f) && border_ok (borders f) && (num_format_index f <? 164).

Section Dxf.
  Variables (xfs dxfs : list Format) (hyper comments : bool).
  Hypothesis few : N.of_nat (length xfs + length dxfs) <= 65000.
  Lemma dxf_numbers : exists codes, Forall2 (right_num codes) dxfs (dxf_nums xfs dxfs).
  Proof.
    assert (start164 : indexes164 [] []). { intros s i. cbn. split; [discriminate|]. intros [_ E]. destruct (N.to_nat (i - 164)); discriminate. }
    destruct (num_all xfs dxfs [] [] 164 start164 (NoDup_nil _) eq_refl ltac:(cbn [length]; lia)) as (r & _ & ix & id & E & F & G & _). cbv zeta in E.
    eexists. unfold dxf_nums, prepare_num_formats. assert (L : length xfs = length ix) by (clear - F; induction F; cbn; lia). rewrite E, skipn_app, L, skipn_all, Nat.sub_diag. cbn [skipn app]. exact G.
  Qed.
  Lemma dxf_reads k f : nth_error dxfs k = Some f -> dformat_ok f = true -> read_dxf (node_of (styles_root xfs dxfs hyper comments)) (N.of_nat k) = Some (format_dxf f).
  Proof.
    intros Hf Ok. unfold dformat_ok in Ok. do 5 (apply andb_prop in Ok as [Ok ?]). destruct dxf_numbers as (codes & Fn).
    assert (Hn : exists n, nth_error (dxf_nums xfs dxfs) k = Some n /\ right_num codes f n).
    { clear - Hf Fn. revert k Hf. induction Fn as [|a n l m R F IH]; intros [|k] Hf; try discriminate; cbn [nth_error] in *; [|exact (IH k Hf)]. exists n. split; [reflexivity|]. congruence. }
    destruct Hn as (n & Hn & R).
    assert (Cm : nth_error (combine dxfs (dxf_nums xfs dxfs)) k = Some (f, n)).
    { clear - Hf Hn. revert k Hf Hn. generalize (dxf_nums xfs dxfs). induction dxfs as [|g l IH]; intros m [|k] Hf Hn; destruct m as [|y m]; try discriminate; cbn [combine nth_error] in *; [congruence|]. now apply IH. }
    assert (T : bind (kid "dxfs" (kids_of (node_of (styles_root xfs dxfs hyper comments)))) (fun t => Some (kids_of t)) = Some (map node_of (map dxf_xml (combine dxfs (dxf_nums xfs dxfs))))).
    { rewrite root_eq, kid_app, num_kid. cbn [String.eqb Ascii.eqb Bool.eqb]. unfold counted, cell_style_xfs_xml, cell_styles_xml. cbn [node_of]. rewrite !kid_one. cbn [String.eqb Ascii.eqb Bool.eqb].
      unfold dxfs_xml. cbv zeta. destruct dxfs as [|d0 dr]; [destruct k; discriminate Hf|]. cbn [node_of]. rewrite kid_one. reflexivity. }
    unfold read_dxf, entry. destruct (kid "dxfs" _) as [t|]; [|discriminate T]. cbn [bind] in T |- *. assert (Tk : kids_of t = map node_of (map dxf_xml (combine dxfs (dxf_nums xfs dxfs)))) by congruence.
    rewrite Tk, Nat2N.id, !nth_error_map, Cm. cbn [option_map bind]. cbv zeta.
    assert (K : forall k, kid k (kids_of (node_of (dxf_xml (f, n)))) =
      if String.eqb "font" k then (if has_dxf_font (font f) then Some (node_of (font_xml false true (font f))) else None) else
      if String.eqb "numFmt" k then (if 0 <? n then Some (node_of (num_fmt_xml (n, num_format f))) else None) else
      if String.eqb "fill" k then (if has_dxf_fill (fill f) then Some (node_of (fill_xml true (fill f))) else None) else
      if String.eqb "border" k then (if border_eq_dec (borders f) border_default then None else Some (node_of (border_xml true (borders f)))) else
      if String.eqb "extLst" k then (if checkbox f then Some (node_of dxf_extension) else None) else None).
    { clear. intros k. unfold dxf_xml. cbn [node_of kids_of]. rewrite !map_app, !kid_app, !kid_when.
      assert (A : forall x, kid k [node_of (font_xml false true x)] = if String.eqb "font" k then Some (node_of (font_xml false true x)) else None) by (intros x; unfold font_xml; cbn [node_of]; apply kid_single).
      assert (B : forall x, kid k [node_of (fill_xml true x)] = if String.eqb "fill" k then Some (node_of (fill_xml true x)) else None).
      { intros x. unfold fill_xml. destruct (_ && _ && _); [unfold default_fill; cbn [node_of]; apply kid_single|]. cbv zeta. cbn [negb andb]. cbn [node_of]. apply kid_single. }
      assert (C : forall x, kid k [node_of (border_xml true x)] = if String.eqb "border" k then Some (node_of (border_xml true x)) else None) by (intros x; unfold border_xml; cbn [node_of]; apply kid_single).
      assert (D : kid k [node_of dxf_extension] = if String.eqb "extLst" k then Some (node_of dxf_extension) else None) by (unfold dxf_extension, complement; cbn [node_of]; apply kid_single).
      assert (E : kid k [node_of (num_fmt_xml (n, num_format f))] = if String.eqb "numFmt" k then Some (node_of (num_fmt_xml (n, num_format f))) else None) by (unfold num_fmt_xml; cbn [node_of]; apply kid_single).
      rewrite A, B, C, D, E.
      assert (Df : forall a b, String.eqb a b = false -> String.eqb a k = true -> String.eqb b k = false).
      { intros a b N Q. apply String.eqb_eq in Q. subst k. destruct (String.eqb b a) eqn:S; [|reflexivity]. apply String.eqb_eq in S. subst. rewrite String.eqb_refl in N. discriminate. }
      destruct (border_eq_dec (borders f) border_default);
      repeat match goal with |- context [String.eqb ?a k] => destruct (String.eqb a k) eqn:? end;
        try (exfalso; match goal with H : String.eqb ?a k = true, H' : String.eqb ?b k = true |- _ => rewrite (Df a b eq_refl H) in H'; discriminate H' end); rewrite ?if_none; try reflexivity.
      all: try (destruct (has_dxf_font (font f)); reflexivity); try (destruct (0 <? n); reflexivity); try (destruct (has_dxf_fill (fill f)); reflexivity); destruct (checkbox f); reflexivity. }
    unfold read_checkbox. rewrite !K. cbn [String.eqb Ascii.eqb Bool.eqb].
    destruct (dfont_reads (font f)) as (F1 & F2 & F3 & F4 & F5); [lia|assumption|].
    replace (match (if has_dxf_font (font f) then Some (node_of (font_xml false true (font f))) else None) with Some n0 => kids_of n0 | None => [] end) with (if has_dxf_font (font f) then dfonts_kids (font f) else []) by (destruct (has_dxf_font (font f)); reflexivity).
    rewrite F1, F2, F3, F4, F5. cbn [bind].
    assert (Nm : match (if 0 <? n then Some (node_of (num_fmt_xml (n, num_format f))) else None) with Some n0 => read_dnumber n0 | None => Some NGeneral end = Some (format_number f)).
    { unfold right_num in R. unfold format_number. assert (Rd : 0 < n -> read_dnumber (node_of (num_fmt_xml (n, num_format f))) = Some (if n <? 164 then NBuiltin n else NCode (num_format f))).
      { intros L. unfold read_dnumber, num_fmt_xml, id_attr. cbn [node_of attrs_of fst snd]. rewrite !attr_cons. cbn [String.eqb Ascii.eqb Bool.eqb bind]. rewrite number_of_dec. cbn [bind]. replace (n =? 0) with false by lia. reflexivity. }
      destruct (N.ltb_spec 0 (num_format_index f)).
      - subst n. replace (0 <? num_format_index f) with true by lia. rewrite Rd by lia. replace (num_format_index f <? 164) with true by lia. replace (num_format_index f =? 0) with false by lia. reflexivity.
      - replace (num_format_index f =? 0) with true by lia. destruct (num_format f) as [|c0 cr] eqn:Ec; [subst n; reflexivity|]. destruct R as [R _]. replace (0 <? n) with true by lia. rewrite Rd by lia. replace (n <? 164) with false by lia. reflexivity. }
    rewrite Nm. cbn [bind].
    assert (Fl : match (if has_dxf_fill (fill f) then Some (node_of (fill_xml true (fill f))) else None) with Some n0 => read_fill true n0 | None => Some FNone end = Some (format_fill (fill f))).
    { destruct (has_dxf_fill (fill f)) eqn:Hd; [now apply dfill_reads|]. unfold has_dxf_fill in Hd. repeat (apply orb_false_elim in Hd as [Hd ?]). repeat match goal with E : negb _ = false |- _ => apply negb_false_iff in E end.
      unfold format_fill. rewrite (shown_auto (background_color (fill f))) by assumption. rewrite (shown_auto (foreground_color (fill f))) by assumption. apply N.eqb_eq in Hd. rewrite Hd. reflexivity. }
    rewrite Fl. cbn [bind].
    set (bo := match (if border_eq_dec (borders f) border_default then None else Some (node_of (border_xml true (borders f)))) with Some n0 => kids_of n0 | None => [] end).
    assert (Bo : read_line "left" bo = Some (format_line (left_style (borders f)) (left_color (borders f))) /\ read_line "right" bo = Some (format_line (right_style (borders f)) (right_color (borders f))) /\
      read_line "top" bo = Some (format_line (top_style (borders f)) (top_color (borders f))) /\ read_line "bottom" bo = Some (format_line (bottom_style (borders f)) (bottom_color (borders f)))).
    { unfold bo. destruct (border_eq_dec (borders f) border_default) as [->|]; [repeat split; reflexivity|]. apply dborder_reads. assumption. }
    destruct Bo as (B1 & B2 & B3 & B4). rewrite B1, B2, B3, B4. cbn [bind]. unfold format_dxf. do 2 f_equal. destruct (checkbox f); reflexivity.
  Qed.
End Dxf.
