(** xl/styles.xml is well formed; differential formats; formats built by calls. *)
From Coq Require Import Lia.
From Verif Require Import Base Xml_Model Xml_Spec Xml_Read Xml_Read_Proofs Xml_Tree Ref_Spec Ref_Proofs Fmt_Model Styles_Model Styles_Proofs Rich_Model Rich_Proofs SheetXml_Spec SheetXml_Proofs SheetXml_Proofs3
  Tag_Proofs Props_Styles Doc_Spec DV_Spec Color_Spec Color_Proofs Part_Proofs CF_Model FmtOps_Model StylesXml_Model StylesXml_Spec StylesXml_Proofs StylesXml_Proofs2.

Definition format_texts (f : Format) : Prop := font_texts (font f) /\ forallb attr_char (num_format f) = true.
Lemma color_wx k c : good_name (lit k) = true -> wx_ok (WEmpty (lit k) (color_attributes c)).
Proof. intros H. split; [exact H|apply color_attrs_good]. Qed.
Lemma attr_default_fill n : forallb attr_char n = true -> wx_ok (default_fill n).
Proof.
  intros H. unfold default_fill. apply wx_ok_elem. split; [reflexivity|]. split; [apply attrs_nil|]. constructor; [|constructor]. split; [reflexivity|]. apply attrs_one; [reflexivity|exact H].
Qed.
Lemma pattern_char n : forallb attr_char (pattern_name n) = true.
Proof. unfold pattern_name. rewrite <- (map_nth lit). apply (nth_forall (fun v => forallb attr_char v = true)); [|reflexivity]. repeat constructor. Qed.
Lemma border_char n : forallb attr_char (border_name n) = true.
Proof. unfold border_name. rewrite <- (map_nth lit). apply (nth_forall (fun v => forallb attr_char v = true)); [|reflexivity]. repeat constructor. Qed.
Lemma fill_wx dxf y : wx_ok (fill_xml dxf y).
Proof.
  unfold fill_xml. destruct (_ && _ && _); [apply attr_default_fill, pattern_char|]. cbv zeta.
  match goal with |- context [if ?s then (color_attributes ?a, color_attributes ?b) else _] => set (sw := s) end.
  assert (K : forall fg bg, attrs_good fg -> attrs_good bg -> wx_ok (WElem (lit "fill") [] [WElem (lit "patternFill") (if dxf && none_or_solid y then [] else [(lit "patternType", pattern_name (pattern y))])
     (when (negb (auto_or_default (foreground_color y))) [WEmpty (lit "fgColor") fg] ++ [WEmpty (lit "bgColor") (if auto_or_default (background_color y) then [(lit "indexed", lit "64")] else bg)])])).
  { intros fg bg Gf Gb. apply wx_ok_elem. split; [reflexivity|]. split; [apply attrs_nil|]. constructor; [|constructor]. apply wx_ok_elem. split; [reflexivity|]. split.
    { destruct (dxf && none_or_solid y); [apply attrs_nil|apply attrs_one; [reflexivity|apply pattern_char]]. }
    apply Forall_app. split; [apply when_forall; intros _|]; (constructor; [|constructor]); (split; [reflexivity|]); [exact Gf|]. destruct (auto_or_default _); [apply attrs_one; reflexivity|exact Gb]. }
  destruct sw; apply K; apply color_attrs_good.
Qed.
Lemma side_wx j n c : good_name (lit j) = true -> wx_ok (side_xml j n c).
Proof.
  intros G. unfold side_xml. destruct (n =? 0); [split; [exact G|apply attrs_nil]|]. apply wx_ok_elem. split; [exact G|]. split; [apply attrs_one; [reflexivity|apply border_char]|].
  constructor; [|constructor]. split; [reflexivity|]. destruct (auto_or_default c); [apply attrs_one; reflexivity|apply color_attrs_good].
Qed.
Lemma border_wx dxf b : wx_ok (border_xml dxf b).
Proof.
  unfold border_xml. apply wx_ok_elem. split; [reflexivity|]. split.
  { apply (sub_attrs _ ([(lit "diagonalUp", lit "1")] ++ [(lit "diagonalDown", lit "1")])); [apply sub_app; apply sub_when|]. cbn [app]. good. }
  apply Forall_app. split; [repeat (constructor; [apply side_wx; reflexivity|]); constructor|].
  destruct dxf; [repeat (constructor; [apply ok_empty; reflexivity|]); constructor|constructor; [apply side_wx; reflexivity|constructor]].
Qed.
Lemma sub_opt k o : exists v, sub (opt_attr k o) [(lit k, v)] /\ (forall w, o = Some w -> v = w) /\ (o = None -> v = []).
Proof. destruct o as [w|]; [exists w|exists []]; (split; [|split; congruence]); cbn [opt_attr]; [apply sub_refl|apply sub_none]. Qed.
Lemma alignment_wx a : wx_ok (alignment_xml a).
Proof.
  unfold alignment_xml. split; [reflexivity|].
  destruct (sub_opt "horizontal" (horizontal_name (horizontal_used a))) as (h & Sh & H1 & H2). destruct (sub_opt "vertical" (vertical_name (vertical a))) as (v & Sv & V1 & V2).
  assert (Ch : forallb attr_char h = true).
  { unfold horizontal_name in *. destruct (horizontal_used a) as [|p]; [rewrite (H2 eq_refl); reflexivity|]. do 3 (destruct p as [p|p|]; try (rewrite (H1 _ eq_refl); reflexivity); try (rewrite (H2 eq_refl); reflexivity)). }
  assert (Cv : forallb attr_char v = true).
  { unfold vertical_name in *. destruct (vertical a) as [|p]; [rewrite (V2 eq_refl); reflexivity|]. do 4 (destruct p as [p|p|]; try (rewrite (V1 _ eq_refl); reflexivity); try (rewrite (V2 eq_refl); reflexivity)). }
  apply (sub_attrs _ ([(lit "horizontal", h)] ++ [(lit "vertical", v)] ++ [(lit "textRotation", dec (Z.to_N (rotation a)))] ++ [(lit "indent", dec (indent a))] ++ [(lit "wrapText", lit "1")] ++ [(lit "shrinkToFit", lit "1")] ++ [(lit "readingOrder", dec (reading_direction a))])).
  - repeat (apply sub_app; [first [exact Sh|exact Sv|apply sub_when]|]). apply sub_when.
  - cbn [app]. good.
Qed.
Lemma ext_wx u t : forallb attr_char (lit u) = true -> good_name (lit t) = true -> wx_ok (complement u t).
Proof.
  intros U T. unfold complement. apply wx_ok_elem. split; [reflexivity|]. split; [apply attrs_nil|]. constructor; [|constructor]. apply wx_ok_elem. split; [reflexivity|]. split; [good|].
  constructor; [|constructor]. split; [exact T|]. apply attrs_one; reflexivity.
Qed.
Lemma xf_wx f x : wx_ok (xf_xml (f, x)).
Proof.
  assert (A : attrs_good (xf_attrs f x)).
  { unfold xf_attrs. cbv zeta. apply (sub_attrs _ ([(lit "numFmtId", dec (xf_numFmtId x)); (lit "fontId", dec (xf_fontId x)); (lit "fillId", dec (xf_fillId x)); (lit "borderId", dec (xf_borderId x)); (lit "xfId", dec (xf_xfId x))] ++
      one_attr "quotePrefix" ++ one_attr "applyNumberFormat" ++ one_attr "applyFont" ++ one_attr "applyFill" ++ one_attr "applyBorder" ++ one_attr "applyAlignment" ++ one_attr "applyProtection")).
    - apply sub_app; [apply sub_refl|]. repeat (apply sub_app; [apply sub_when|]). apply sub_when.
    - unfold one_attr. cbn [app]. good. }
  unfold xf_xml. destruct (_ || _ || _); [|split; [reflexivity|exact A]]. apply wx_ok_elem. split; [reflexivity|]. split; [exact A|].
  apply Forall_app; split; [apply when_forall; intros _; constructor; [apply alignment_wx|constructor]|].
  apply Forall_app; split; apply when_forall; intros _; (constructor; [|constructor]).
  - split; [reflexivity|]. apply (sub_attrs _ ([(lit "locked", lit "0")] ++ [(lit "hidden", lit "1")])); [apply sub_app; apply sub_when|]. cbn [app]. good.
  - apply ext_wx; reflexivity.
Qed.
Lemma num_wx p : forallb attr_char (snd p) = true -> wx_ok (num_fmt_xml p).
Proof. intros H. split; [reflexivity|]. destruct p. cbn [snd fst] in *. good. Qed.
Lemma dxf_wx f n : format_texts f -> wx_ok (dxf_xml (f, n)).
Proof.
  intros [T C]. unfold dxf_xml. apply wx_ok_elem. split; [reflexivity|]. split; [apply attrs_nil|].
  apply Forall_app; split; [apply when_forall; intros _; constructor; [apply Rich_Proofs.font_ok; exact T|constructor]|].
  apply Forall_app; split; [apply when_forall; intros _; constructor; [apply num_wx; exact C|constructor]|].
  apply Forall_app; split; [apply when_forall; intros _; constructor; [apply fill_wx|constructor]|].
  apply Forall_app; split; [apply when_forall; intros _; constructor; [apply border_wx|constructor]|].
  apply when_forall; intros _; constructor; [apply ext_wx; reflexivity|constructor].
Qed.
Lemma assign_flagged_in {A} (dec : forall a b : A, {a = b} + {a <> b}) : forall l m c x, In x (flagged l (fst (assign dec m c l))) -> In x l.
Proof.
  intros l m c x. unfold flagged. intros H. apply in_map_iff in H as ([a p] & <- & H). apply filter_In in H as [H _]. apply in_combine_l in H. exact H.
Qed.
Lemma counted_wx t n l : good_name (lit t) = true -> Forall wx_ok l -> wx_ok (counted t n l).
Proof. intros G F. unfold counted. apply wx_ok_elem. split; [exact G|]. split; [apply attrs_one; [reflexivity|apply dec_attr]|exact F]. Qed.

Section Wf.
  Variables (xfs dxfs : list Format) (hyper comments : bool).
  Hypothesis few : N.of_nat (length xfs + length dxfs) <= 65000.
  Hypothesis texts : Forall format_texts (xfs ++ dxfs).
  Lemma text_of_format f : In f xfs \/ In f dxfs -> format_texts f.
  Proof. intros H. rewrite Forall_forall in texts. apply texts. apply in_or_app. exact H. Qed.
  Lemma styles_wx : wx_ok (styles_root xfs dxfs hyper comments).
  Proof.
    unfold styles_root. apply wx_ok_elem. split; [reflexivity|]. split; [apply attrs_one; reflexivity|]. apply Forall_app. split.
    { destruct (C26_custom_number_formats xfs dxfs few) as (_ & _ & Codes). assert (F : Forall wx_ok (map num_fmt_xml (num_fmts_written xfs dxfs))).
      { apply Forall_map, Forall_forall. intros [i c] Hin. apply num_wx. destruct (Codes c) as (f & Hf & _ & <- & _); [apply in_map_iff; exists (i, c); split; [reflexivity|exact Hin]|]. cbn [snd]. apply (text_of_format f). left. exact Hf. }
      destruct (num_fmts_written xfs dxfs); [constructor|]. constructor; [|constructor]. apply counted_wx; [reflexivity|exact F]. }
    constructor; [apply counted_wx; [reflexivity|]|].
    { apply Forall_app. split.
      - apply Forall_map, Forall_forall. intros x Hx. apply assign_flagged_in in Hx. apply in_map_iff in Hx as (f & <- & Hf). apply Rich_Proofs.font_ok, (text_of_format f). left. exact Hf.
      - apply when_forall. intros _. constructor; [|constructor]. unfold comment_font. apply wx_ok_elem. split; [reflexivity|]. split; [apply attrs_nil|].
        repeat (constructor; [split; [reflexivity|apply attrs_one; reflexivity]|]). constructor. }
    constructor; [apply counted_wx; [reflexivity|]|].
    { constructor; [apply attr_default_fill; reflexivity|]. constructor; [apply attr_default_fill; reflexivity|]. apply Forall_map, Forall_forall. intros x _. apply fill_wx. }
    constructor; [apply counted_wx; [reflexivity|]|].
    { apply Forall_map, Forall_forall. intros x _. apply border_wx. }
    constructor.
    { unfold cell_style_xfs_xml. apply wx_ok_elem. split; [reflexivity|]. split; [apply attrs_one; [reflexivity|destruct hyper; reflexivity]|].
      constructor; [split; [reflexivity|]; unfold style_xf_ids; good|]. apply when_forall. intros _. constructor; [|constructor]. unfold link_style_xf. apply wx_ok_elem. split; [reflexivity|]. split.
      - unfold style_xf_ids. cbn [app]. good.
      - repeat (constructor; [split; [reflexivity|apply attrs_one; reflexivity]|]). constructor. }
    constructor; [apply counted_wx; [reflexivity|]|].
    { apply Forall_map, Forall_forall. intros [f x] _. apply xf_wx. }
    constructor.
    { unfold cell_styles_xml. apply wx_ok_elem. split; [reflexivity|]. split; [apply attrs_one; [reflexivity|destruct hyper; reflexivity]|].
      apply Forall_app. split; [apply when_forall; intros _|]; (constructor; [|constructor]); (split; [reflexivity|]); good. }
    constructor.
    { unfold dxfs_xml. cbv zeta. assert (F : Forall wx_ok (map dxf_xml (combine dxfs (dxf_nums xfs dxfs)))).
      { apply Forall_map, Forall_forall. intros [f n] Hin. apply dxf_wx, (text_of_format f). right. eapply in_combine_l. exact Hin. }
      destruct dxfs; [split; [reflexivity|apply attrs_one; [reflexivity|apply dec_attr]]|]. apply wx_ok_elem. split; [reflexivity|]. split; [apply attrs_one; [reflexivity|apply dec_attr]|exact F]. }
    constructor; [|constructor]. split; [reflexivity|]. good.
  Qed.
End Wf.
