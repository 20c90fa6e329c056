(** C71, C72: cell formats and differential formats, read back from xl/styles.xml. *)
From Coq Require Import Lia.
From Verif Require Import Base Xml_Model Xml_Spec Xml_Read Xml_Tree Ref_Spec Fmt_Model Styles_Model Rich_Model Rich_Proofs SheetXml_Spec Doc_Spec DV_Spec Color_Spec CF_Model FmtOps_Model StylesXml_Model StylesXml_Spec
  Props_Styles StylesXml_Proofs StylesXml_Proofs2 StylesXml_Proofs3 StylesXml_Proofs4 StylesXml_Proofs5.

(** The part for a workbook whose cell formats were built by the chains [calls] and whose differential
    formats by the chains [dcalls]. *)
Definition part_for (calls dcalls : list (list fmt_op)) (hyper comments : bool) : str := styles_part (map format_of calls) (map format_of dcalls) hyper comments.
Definition any_link (ops : list fmt_op) : bool := existsb (fun o => match o with OHyperlink | OUnsetHyperlink => true | _ => false end) ops.
Definition texts_ok (ops : list fmt_op) : bool := forallb (call_text (forallb attr_char)) ops.

Section Reads.
  Variables (calls dcalls : list (list fmt_op)) (hyper comments : bool).
  Hypothesis few : N.of_nat (length calls + length dcalls) <= 65000.
  Hypothesis texts : Forall (fun ops => texts_ok ops = true) (calls ++ dcalls).
  Lemma few' : N.of_nat (length (map format_of calls) + length (map format_of dcalls)) <= 65000. Proof using few. now rewrite !map_length. Qed.
  Lemma part_reads : read_document (part_for calls dcalls hyper comments) = Some (node_of (styles_root (map format_of calls) (map format_of dcalls) hyper comments)).
  Proof using few texts.
    apply document_reads. apply styles_wx; [exact few'|]. rewrite <- map_app. apply Forall_map. eapply Forall_impl; [|exact texts]. intros ops. apply texts_of.
  Qed.
End Reads.

(** C71: the cell format at index k of the file is the one the k-th chain of calls asks for. *)
Theorem C71_cell_formats_read_back_partial calls dcalls hyper comments :
  N.of_nat (length calls + length dcalls) <= 65000 ->
  Forall (fun ops => texts_ok ops = true) (calls ++ dcalls) ->
  (forall ops, In ops calls -> any_link ops = true -> hyper = true) ->
  exists doc, read_document (part_for calls dcalls hyper comments) = Some doc /\
    forall k ops, nth_error calls k = Some ops -> calls_ok (forallb attr_char) ops = true -> read_style doc (N.of_nat k) = Some (style_asked ops).
Proof.
  intros few texts links. exists (node_of (styles_root (map format_of calls) (map format_of dcalls) hyper comments)). split; [apply part_reads; assumption|].
  intros k ops Hk Ok. destruct (calls_style ops Ok) as [Fo E]. rewrite <- E.
  apply style_reads; [apply few'; exact few| |now rewrite nth_error_map, Hk|exact Fo].
  intros f Hf Hl. apply in_map_iff in Hf as (o & <- & Ho). apply (links o Ho). apply link_of. exact Hl.
Qed.
(** C72: likewise for the format of a conditional format or table column. *)
Theorem C72_differential_formats_read_back_partial calls dcalls hyper comments :
  N.of_nat (length calls + length dcalls) <= 65000 ->
  Forall (fun ops => texts_ok ops = true) (calls ++ dcalls) ->
  exists doc, read_document (part_for calls dcalls hyper comments) = Some doc /\
    forall k ops, nth_error dcalls k = Some ops -> dxf_calls_ok (forallb attr_char) ops = true -> read_dxf doc (N.of_nat k) = Some (dxf_asked ops).
Proof.
  intros few texts. exists (node_of (styles_root (map format_of calls) (map format_of dcalls) hyper comments)). split; [apply part_reads; assumption|].
  intros k ops Hk Ok. destruct (calls_dxf ops Ok) as [Fo E]. rewrite <- E. apply dxf_reads; [apply few'; exact few|now rewrite nth_error_map, Hk|exact Fo].
Qed.
(** Every table states how many entries it has. *)
Lemma counted_says t n l : n = N.of_nat (length l) -> bind (attr "count" (attrs_of (node_of (counted t n l)))) number_of = Some (N.of_nat (length (kids_of (node_of (counted t n l))))).
Proof. intros ->. unfold counted. cbn [node_of attrs_of kids_of]. rewrite Tag_Proofs.attr_cons. cbn [String.eqb Ascii.eqb Bool.eqb bind]. now rewrite SheetXml_Proofs3.number_of_dec, map_length. Qed.
Theorem C71_tables_state_their_counts calls dcalls hyper comments :
  N.of_nat (length calls + length dcalls) <= 65000 ->
  Forall (fun ops => texts_ok ops = true) (calls ++ dcalls) ->
  exists doc, read_document (part_for calls dcalls hyper comments) = Some doc /\
    Forall (fun n => bind (attr "count" (attrs_of n)) number_of = Some (N.of_nat (length (kids_of n)))) (kids_of doc).
Proof.
  intros few texts. exists (node_of (styles_root (map format_of calls) (map format_of dcalls) hyper comments)). split; [apply part_reads; assumption|].
  pose proof (few' calls dcalls few) as few'. set (xfs := map format_of calls) in *. set (dxfs := map format_of dcalls) in *.
  destruct (C26_tables_and_counts xfs dxfs few') as (_ & _ & _ & Cf & Ci & Cb & I0 & I1 & _). destruct (C26_ids_select_components xfs dxfs few') as (Lx & _).
  rewrite root_eq. apply Forall_app. split.
  { unfold num_table. destruct (num_fmts_written xfs dxfs) as [|a l] eqn:E; [constructor|]. rewrite <- E. constructor; [|constructor]. apply counted_says. now rewrite map_length. }
  constructor; [apply counted_says; rewrite Cf; unfold fonts_elements; rewrite app_length, map_length; destruct comments; cbn [when length]; lia|].
  constructor; [apply counted_says; rewrite Ci; cbn [length]; rewrite map_length, skipn_length; assert (J : nth_error (fills_written xfs) 1 <> None) by congruence; apply nth_error_Some in J; lia|].
  constructor; [apply counted_says; rewrite Cb, map_length; reflexivity|].
  constructor; [destruct hyper; reflexivity|].
  constructor; [apply counted_says; rewrite map_length, combine_length, Lx, Nat.min_id; reflexivity|].
  constructor; [destruct hyper; reflexivity|].
  constructor; [|constructor; [reflexivity|constructor]].
  unfold dxfs_xml. cbv zeta. destruct dxfs as [|d r] eqn:Ed; [reflexivity|]. rewrite <- Ed in *. 
  change (WElem (lit "dxfs") [(lit "count", dec (N.of_nat (length dxfs)))]) with (counted "dxfs" (N.of_nat (length dxfs))). apply counted_says.
  destruct (dxf_numbers xfs dxfs few') as (codes & F). rewrite map_length, combine_length. assert (L : length dxfs = length (dxf_nums xfs dxfs)) by (clear - F; induction F; cbn [length]; congruence). lia.
Qed.

(** ** The theorems at work *)
Definition demo_calls : list (list fmt_op) :=
  [ []; [OBold true; OFontColor (CRGB 16711680); ONumFormat (lit "0.000"); OBackground (CRGB 65535)];
    [OItalic true; OUnderline 2; OAlign 2; OAlign 10; ORotation (-30); OWrap true; OBorder 1; OSide STop 5; OSideColor STop (CTheme 4 1); OLocked false; OHidden true; ONumIndex 14];
    [OHyperlink; OPattern 6; OForeground (CNamed 3); OBackground (CRGB 255); OQuote true; OCheckbox true; OIndent 2];
    [OBold true; OBold false; OFontName (lit "Arial"); OFontSize (lit "12.5"); ONumFormat (lit "0.000"); ODiagonalType 3; OSide SDiagonal 6] ].
Definition demo_dcalls : list (list fmt_op) := [ [OFontColor (CRGB 16711680); OBackground (CRGB 65535)]; [OBold true; ONumFormat (lit "0.000"); OBorder 1]; [ONumIndex 9; OPattern 4; OForeground (CRGB 1)] ].
Example demo_covered : N.of_nat (length demo_calls + length demo_dcalls) <= 65000 /\ Forall (fun ops => texts_ok ops = true) (demo_calls ++ demo_dcalls) /\
  (forall ops, In ops demo_calls -> any_link ops = true -> true = true) /\
  forallb (calls_ok (forallb attr_char)) demo_calls = true /\ forallb (dxf_calls_ok (forallb attr_char)) demo_dcalls = true.
Proof. split; [vm_compute; discriminate|]. split; [repeat constructor|]. split; [auto|]. split; vm_compute; reflexivity. Qed.
Example demo_asked : let s := style_asked (nth 2 demo_calls []) in
  s_number s = NBuiltin 14 /\ s_rotation s = (-30)%Z /\ s_horizontal s = lit "center" /\ s_vertical s = lit "center" /\ s_top s = Some (lit "thick", Some (RTheme 4 80)) /\
  s_left s = Some (lit "thin", None) /\ s_locked s = false.
Proof. vm_compute. repeat split; reflexivity. Qed.

(** ** Where the library departs *)
Definition sees (ops : list fmt_op) : option rstyle := bind (read_document (part_for [[]; ops] [] (any_link ops) false)) (fun doc => read_style doc 1).
Definition dsees (ops : list fmt_op) : option dstyle := bind (read_document (part_for [[]] [ops] false false)) (fun doc => read_dxf doc 0).

(** A number format code set after a built-in format is ignored. *)
Theorem C71_number_format_after_index_refuted :
  s_number (style_asked [ONumIndex 9; ONumFormat (lit "0.000")]) = NCode (lit "0.000") /\
  option_map s_number (sees [ONumIndex 9; ONumFormat (lit "0.000")]) = Some (NBuiltin 9).
Proof. vm_compute. split; reflexivity. Qed.
(** Index 0, General, does not take back an earlier format code. *)
Theorem C71_number_index_zero_refuted :
  s_number (style_asked [ONumFormat (lit "0.000"); ONumIndex 0]) = NGeneral /\ option_map s_number (sees [ONumFormat (lit "0.000"); ONumIndex 0]) = Some (NCode (lit "0.000")).
Proof. vm_compute. split; reflexivity. Qed.
(** unset_hyperlink_style makes a plain format a hyperlink format. *)
Theorem C71_unset_hyperlink_refuted :
  s_style (style_asked [OUnsetHyperlink]) = lit "Normal" /\ option_map s_style (sees [OUnsetHyperlink]) = Some (lit "Hyperlink").
Proof. vm_compute. split; reflexivity. Qed.
(** Both fill colours without a pattern: the cell is not filled. *)
Theorem C71_two_fill_colors_refuted :
  s_fill (style_asked [OForeground (CRGB 255); OBackground (CRGB 65280)]) = FSolid (Some (RRgb 65280)) /\ option_map s_fill (sees [OForeground (CRGB 255); OBackground (CRGB 65280)]) = Some FNone.
Proof. vm_compute. split; reflexivity. Qed.
(** An automatic background colour alone asks for no fill of its own, and fills the cell. *)
Theorem C71_automatic_background_refuted :
  s_fill (style_asked [OBackground CAutomatic]) = FNone /\ option_map s_fill (sees [OBackground CAutomatic]) = Some (FSolid None).
Proof. vm_compute. split; reflexivity. Qed.
(** Top or Bottom with an indent: the horizontal alignment that does not support it is kept. *)
Theorem C71_indent_with_top_refuted :
  s_horizontal (style_asked [OAlign 2; OAlign 8; OIndent 1]) = lit "left" /\ option_map s_horizontal (sees [OAlign 2; OAlign 8; OIndent 1]) = Some (lit "center").
Proof. vm_compute. split; reflexivity. Qed.
(** A foreground colour alone is lost in a differential format. *)
Theorem C72_foreground_only_refuted :
  d_fill (dxf_asked [OForeground (CRGB 255)]) = FSolid (Some (RRgb 255)) /\ option_map d_fill (dsees [OForeground (CRGB 255)]) = Some (FSolid None).
Proof. vm_compute. split; reflexivity. Qed.
(** The diagonal lines of a differential format are lost: only its direction is written. *)
Theorem C72_diagonal_lost_refuted :
  exists doc d, read_document (part_for [[]] [[ODiagonalType 3; OSide SDiagonal 6]] false false) = Some doc /\ entry (kids_of doc) "dxfs" 0 = Some d /\
    bind (kid "border" (kids_of d)) (fun b => attr "diagonalUp" (attrs_of b)) = Some (lit "1") /\ bind (kid "border" (kids_of d)) (fun b => kid "diagonal" (kids_of b)) = None.
Proof.
  eexists. eexists. split; [apply part_reads; [vm_compute; discriminate|repeat constructor]|]. split; [vm_compute; reflexivity|]. split; vm_compute; reflexivity.
Qed.
(** A solid fill with a colour and an automatic background: the colour is lost. *)
Theorem C71_solid_with_automatic_refuted :
  s_fill (style_asked [OPattern 1; OForeground (CRGB 255); OBackground CAutomatic]) = FSolid (Some (RRgb 255)) /\
  option_map s_fill (sees [OPattern 1; OForeground (CRGB 255); OBackground CAutomatic]) <> Some (FSolid (Some (RRgb 255))).
Proof. vm_compute. split; [reflexivity|discriminate]. Qed.
