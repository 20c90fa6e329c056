(** The tables of xl/styles.xml and the style of each cell format. *)
From Coq Require Import Lia.
From Verif Require Import Base Xml_Model Xml_Spec Xml_Read Xml_Read_Proofs Xml_Tree Ref_Spec Ref_Proofs Fmt_Model Styles_Model Styles_Proofs Rich_Model Rich_Proofs SheetXml_Spec SheetXml_Proofs SheetXml_Proofs3
  Tag_Proofs Props_Styles Doc_Spec DV_Spec Color_Spec Color_Proofs CF_Model FmtOps_Model StylesXml_Model StylesXml_Spec StylesXml_Proofs.

(** ** The xf element *)
Lemma xf_element f x : attrs_of (node_of (xf_xml (f, x))) = xf_attrs f x /\
  kids_of (node_of (xf_xml (f, x))) = map node_of (when (has_alignment (alignment f)) [alignment_xml (alignment f)]) ++ map node_of (when (has_protection f) [protection_xml f]) ++ map node_of (when (checkbox f) [xf_extension]).
Proof.
  unfold xf_xml. destruct (has_alignment (alignment f)), (has_protection f), (checkbox f); split; reflexivity.
Qed.
Lemma xf_ids f x : id_attr "numFmtId" (xf_attrs f x) = Some (xf_numFmtId x) /\ id_attr "fontId" (xf_attrs f x) = Some (xf_fontId x) /\
  id_attr "fillId" (xf_attrs f x) = Some (xf_fillId x) /\ id_attr "borderId" (xf_attrs f x) = Some (xf_borderId x) /\ id_attr "xfId" (xf_attrs f x) = Some (xf_xfId x) /\
  flag_of "quotePrefix" (xf_attrs f x) = quote_prefix f.
Proof.
  unfold xf_attrs. cbv zeta. unfold id_attr, flag_of, one_attr. rewrite !attr_app, !attr_when, !attr_cons. cbn [String.eqb Ascii.eqb Bool.eqb bind].
  rewrite !number_of_dec. rewrite !attr_nil, !if_none. destruct (quote_prefix f); repeat split; reflexivity.
Qed.
Lemma xf_alignment f x : match kid "alignment" (kids_of (node_of (xf_xml (f, x)))) with Some n => attrs_of n | None => [] end = if has_alignment (alignment f) then al_attrs (alignment f) else [].
Proof.
  rewrite (proj2 (xf_element f x)). rewrite !kid_app, !kid_when. unfold alignment_xml at 1, protection_xml, xf_extension, complement. cbn [node_of map]. rewrite !kid_single. cbn [String.eqb Ascii.eqb Bool.eqb].
  rewrite !if_none. destruct (has_alignment (alignment f)); reflexivity.
Qed.
Lemma xf_protection f x : let pr := match kid "protection" (kids_of (node_of (xf_xml (f, x)))) with Some n => attrs_of n | None => [] end in
  negb (match attr "locked" pr with Some v => str_eqb v (lit "0") | None => false end) = locked f /\ flag_of "hidden" pr = hidden f.
Proof.
  cbv zeta. rewrite (proj2 (xf_element f x)). rewrite !kid_app, !kid_when. unfold alignment_xml, protection_xml, xf_extension, complement. cbn [node_of map]. rewrite !kid_single. cbn [String.eqb Ascii.eqb Bool.eqb].
  rewrite !if_none. unfold has_protection. destruct (hidden f), (locked f); split; reflexivity.
Qed.
Lemma xf_checkbox f x : read_checkbox "{C7286773-470A-42A8-94C5-96B5CB345126}" "xfpb:xfComplement" (kids_of (node_of (xf_xml (f, x)))) = checkbox f.
Proof.
  unfold read_checkbox. rewrite (proj2 (xf_element f x)). rewrite !kid_app, !kid_when. unfold alignment_xml, protection_xml. cbn [node_of map]. rewrite !kid_single. cbn [String.eqb Ascii.eqb Bool.eqb].
  rewrite !if_none. destruct (checkbox f); reflexivity.
Qed.

(** ** The tables *)
Definition format_ok (f : Format) : bool :=
  font_ok (font f) && fill_colors (fill f) && fill_plain (fill f) && not_both (fill f) && border_ok (borders f) && align_ok (alignment f) && (num_format_index f <? 164).
Section Doc.
  Variables (xfs dxfs : list Format) (hyper comments : bool).
  Hypothesis few : N.of_nat (length xfs + length dxfs) <= 65000.
  Hypothesis links : forall f, In f xfs -> is_hyperlink (font f) = true -> hyper = true.
  Let root : list node := kids_of (node_of (styles_root xfs dxfs hyper comments)).
  Definition num_table : list wx := match num_fmts_written xfs dxfs with [] => [] | l => [counted "numFmts" (N.of_nat (length l)) (map num_fmt_xml l)] end.
  Lemma root_eq : root = map node_of num_table ++
    [node_of (counted "fonts" (fonts_count xfs comments) (map (font_xml false false) (fonts_written xfs) ++ when comments [comment_font]));
     node_of (counted "fills" (snd (prepare_fills xfs)) (default_fill (lit "none") :: default_fill (lit "gray125") :: map (fill_xml false) (skipn 2 (fills_written xfs))));
     node_of (counted "borders" (snd (prepare_borders xfs)) (map (border_xml false) (borders_written xfs)));
     node_of (cell_style_xfs_xml hyper (hyperlink_font_id xfs));
     node_of (counted "cellXfs" (N.of_nat (length xfs)) (map xf_xml (combine xfs (cell_xfs xfs dxfs))));
     node_of (cell_styles_xml hyper); node_of (dxfs_xml xfs dxfs);
     node_of (WEmpty (lit "tableStyles") [(lit "count", lit "0"); (lit "defaultTableStyle", lit "TableStyleMedium9"); (lit "defaultPivotStyle", lit "PivotStyleLight16")])].
  Proof.
    unfold root, styles_root, num_table. cbn [node_of kids_of]. rewrite map_app. f_equal.
  Qed.
  Lemma num_kid k : kid k (map node_of num_table) = if String.eqb "numFmts" k then kid "numFmts" (map node_of num_table) else None.
  Proof. unfold num_table. destruct (num_fmts_written xfs dxfs); unfold counted; cbn [map node_of]; rewrite ?kid_single; destruct (String.eqb "numFmts" k); reflexivity. Qed.
  Lemma dxf_table_kid k r : String.eqb "dxfs" k = false -> kid k (node_of (dxfs_xml xfs dxfs) :: r) = kid k r.
  Proof. intros E. unfold dxfs_xml. cbv zeta. destruct dxfs; cbn [node_of]; rewrite kid_one, E; reflexivity. Qed.
  Ltac table := rewrite root_eq, kid_app, num_kid; cbn [String.eqb Ascii.eqb Bool.eqb]; unfold counted, cell_style_xfs_xml, cell_styles_xml; cbn [node_of];
     rewrite !kid_one; cbn [String.eqb Ascii.eqb Bool.eqb].
  Lemma fonts_table : bind (kid "fonts" root) (fun t => Some (kids_of t)) = Some (map node_of (map (font_xml false false) (fonts_written xfs)) ++ map node_of (when comments [comment_font])).
  Proof. table. cbn [bind kids_of]. rewrite map_app. reflexivity. Qed.
  Lemma fills_table : bind (kid "fills" root) (fun t => Some (kids_of t)) =
    Some (node_of (default_fill (lit "none")) :: node_of (default_fill (lit "gray125")) :: map node_of (map (fill_xml false) (skipn 2 (fills_written xfs)))).
  Proof. table. reflexivity. Qed.
  Lemma borders_table : bind (kid "borders" root) (fun t => Some (kids_of t)) = Some (map node_of (map (border_xml false) (borders_written xfs))).
  Proof. table. reflexivity. Qed.
  Lemma xfs_table : bind (kid "cellXfs" root) (fun t => Some (kids_of t)) = Some (map node_of (map xf_xml (combine xfs (cell_xfs xfs dxfs)))).
  Proof. table. reflexivity. Qed.
  Lemma nums_table : num_fmts_written xfs dxfs <> [] -> bind (kid "numFmts" root) (fun t => Some (kids_of t)) = Some (map node_of (map num_fmt_xml (num_fmts_written xfs dxfs))).
  Proof.
    intros H. rewrite root_eq, kid_app. unfold num_table. destruct (num_fmts_written xfs dxfs); [congruence|]. unfold counted at 1. cbn [map node_of]. rewrite kid_one. reflexivity.
  Qed.
  Lemma entry_table tab l i : bind (kid tab root) (fun t => Some (kids_of t)) = Some l -> entry root tab i = nth_error l (N.to_nat i).
  Proof. unfold entry. destruct (kid tab root); cbn [bind]; [|discriminate]. intros E. injection E as <-. reflexivity. Qed.

  Lemma style_named f x : In f xfs -> (xf_xfId x = 1 <-> is_hyperlink (font f) = true) -> xf_xfId x = 0 \/ xf_xfId x = 1 ->
    style_name root (xf_xfId x) = Some (lit (if is_hyperlink (font f) then "Hyperlink" else "Normal")).
  Proof.
    intros Hin Hi Hx. unfold style_name, entry.
    assert (A : kid "cellStyleXfs" root = Some (node_of (cell_style_xfs_xml hyper (hyperlink_font_id xfs)))) by (table; reflexivity).
    assert (B : kid "cellStyles" root = Some (node_of (cell_styles_xml hyper))).
    { rewrite root_eq, kid_app, num_kid. cbn [String.eqb Ascii.eqb Bool.eqb]. unfold counted, cell_style_xfs_xml, cell_styles_xml. cbn [node_of]. rewrite !kid_one. reflexivity. }
    rewrite A, B. cbn [bind]. destruct Hx as [Ex|Ex]; rewrite Ex in *.
    - destruct (is_hyperlink (font f)); [destruct Hi as [_ Hi]; specialize (Hi eq_refl); discriminate|]. destruct hyper; reflexivity.
    - assert (Hl : is_hyperlink (font f) = true) by (apply Hi; reflexivity). rewrite Hl, (links f Hin Hl). reflexivity.
  Qed.
  Lemma find_number id code : forall l, In (id, code) l -> NoDup (map fst l) ->
    find (fun n => match bind (attr "numFmtId" (attrs_of n)) number_of with Some i => i =? id | None => false end) (map node_of (map num_fmt_xml l)) = Some (node_of (num_fmt_xml (id, code))).
  Proof.
    induction l as [|[i c] l IH]; intros Hin Nd; [destruct Hin|]. cbn [map find]. unfold num_fmt_xml at 1. cbn [node_of attrs_of fst snd]. rewrite attr_cons. cbn [String.eqb Ascii.eqb Bool.eqb bind]. rewrite number_of_dec.
    pose proof (NoDup_cons_iff i (map fst l)) as [Nc _]. cbn [map fst] in Nd. specialize (Nc Nd) as [Ni Nl]. destruct (N.eqb_spec i id) as [->|Ne].
    - destruct Hin as [E|Hin]; [assert (c = code) by congruence; subst; reflexivity|]. exfalso. apply Ni. change id with (fst (id, code)). apply in_map. exact Hin.
    - apply IH; [|exact Nl]. destruct Hin as [E|Hin]; [congruence|exact Hin].
  Qed.
  Lemma number_reads k f x : nth_error xfs k = Some f -> nth_error (cell_xfs xfs dxfs) k = Some x -> num_format_index f < 164 -> read_number root (xf_numFmtId x) = Some (format_number f).
  Proof.
    intros Hf Hx Hn. destruct (C26_number_format_selected xfs dxfs few k f x Hf Hx) as (A & B & C). unfold read_number, format_number.
    destruct (N.eqb_spec (num_format_index f) 0) as [Z|Nz].
    - destruct (num_format f) eqn:E; [rewrite (B Z eq_refl); reflexivity|]. pose proof (C Z) as C'. rewrite <- E in C'. assert (I : In (xf_numFmtId x, num_format f) (num_fmts_written xfs dxfs)) by (apply C'; [rewrite E; discriminate|reflexivity]).
      destruct (C26_custom_number_formats xfs dxfs few) as (Ids & _ & _).
      assert (L : 164 <= xf_numFmtId x).
      { apply (in_map fst) in I. rewrite Ids in I. cbn [fst] in I. apply in_map_iff in I as (m & <- & _). lia. }
      replace (xf_numFmtId x =? 0) with false by lia. replace (xf_numFmtId x <? 164) with false by lia.
      pose proof (nums_table ltac:(intros Q; rewrite Q in I; destruct I)) as T. destruct (kid "numFmts" root) as [t|]; [|discriminate T]. cbn [bind] in T |- *.
      assert (Tk : kids_of t = map node_of (map num_fmt_xml (num_fmts_written xfs dxfs))) by congruence. rewrite Tk, (find_number _ _ _ I).
      + cbn [bind node_of num_fmt_xml attrs_of fst snd]. rewrite !attr_cons. cbn [String.eqb Ascii.eqb Bool.eqb bind]. rewrite <- E. reflexivity.
      + rewrite Ids. apply FinFun.Injective_map_NoDup; [intros a b; lia|apply seq_NoDup].
    - rewrite (A Nz). replace (num_format_index f =? 0) with false by lia. replace (num_format_index f <? 164) with true by lia. reflexivity.
  Qed.
  Lemma fill_entry i y : nth_error (fills_written xfs) i = Some y -> fill_colors y = true -> fill_plain y = true ->
    bind (nth_error (node_of (default_fill (lit "none")) :: node_of (default_fill (lit "gray125")) :: map node_of (map (fill_xml false) (skipn 2 (fills_written xfs)))) i) (read_fill false) = Some (fill_shape y).
  Proof.
    intros E C P. unfold fills_written in *. cbn [skipn]. destruct i as [|[|i]]; cbn [nth_error] in *.
    - assert (y = fill_default) by congruence. subst. reflexivity.
    - assert (y = gray125) by congruence. subst. reflexivity.
    - rewrite !nth_error_map, E. cbn [option_map bind]. now apply fill_reads.
  Qed.
  Lemma xf_xfId_cases k x : nth_error (cell_xfs xfs dxfs) k = Some x -> xf_xfId x = 0 \/ xf_xfId x = 1.
  Proof.
    unfold cell_xfs. generalize (fst (prepare_num_formats xfs dxfs)) (fst (prepare_fonts xfs)) (fst (prepare_fills xfs)) (fst (prepare_borders xfs)). clear. revert k.
    induction xfs as [|f l IH]; intros k a b c d H; [destruct k; discriminate H|]. destruct a as [|a1 a], b as [|[b1 b2] b], c as [|[c1 c2] c], d as [|[d1 d2] d]; try (destruct k; discriminate H).
    destruct k as [|k]; cbn [xf_list nth_error] in H; [|exact (IH k a b c d H)]. match type of H with Some ?y = _ => assert (Q : x = y) by congruence end. subst x. cbn. destruct (is_hyperlink (font f)); auto.
  Qed.

  Lemma style_reads k f : nth_error xfs k = Some f -> format_ok f = true -> read_style (node_of (styles_root xfs dxfs hyper comments)) (N.of_nat k) = Some (format_style f).
  Proof.
    intros Hf Ok. destruct (C26_ids_select_components xfs dxfs few) as (Lx & Sel).
    destruct (nth_error (cell_xfs xfs dxfs) k) as [x|] eqn:Hx; [|apply nth_error_None in Hx; assert (nth_error xfs k <> None) as Q by congruence; apply nth_error_Some in Q; lia].
    destruct (Sel k f x Hf Hx) as (Fo & Fi & Bo & Hy). assert (Hin : In f xfs) by (eapply nth_error_In; exact Hf).
    unfold format_ok in Ok. do 6 (apply andb_prop in Ok as [Ok ?]).
    unfold read_style. cbv zeta. fold root. rewrite (entry_table _ _ (N.of_nat k) xfs_table), Nat2N.id, !nth_error_map.
    assert (Cm : nth_error (combine xfs (cell_xfs xfs dxfs)) k = Some (f, x)).
    { clear - Hf Hx. revert k Hf Hx. generalize (cell_xfs xfs dxfs). induction xfs as [|g l IH]; intros m [|k] Hf Hx; destruct m as [|y m]; try discriminate; cbn [combine nth_error] in *; [congruence|]. now apply IH. }
    rewrite Cm. cbn [option_map bind]. rewrite (proj1 (xf_element f x)). destruct (xf_ids f x) as (I1 & I2 & I3 & I4 & I5 & I6). rewrite I1, I2, I3, I4, I5, I6. cbn [bind].
    rewrite (number_reads k f x Hf Hx) by lia. cbn [bind].
    rewrite (entry_table _ _ _ fonts_table), nth_error_app1 by (rewrite !map_length; apply nth_error_Some; congruence). rewrite !nth_error_map, Fo. cbn [option_map bind].
    rewrite (entry_table _ _ _ fills_table).
    rewrite <- normal_intended in Fi. destruct (normal_fine (fill f)) as [Nc Np]; [assumption|assumption|]. pose proof (fill_entry _ _ Fi Nc Np) as Fe. rewrite normal_shape in Fe by assumption.
    destruct (nth_error (_ :: _ :: _) (N.to_nat (xf_fillId x))) as [fl|]; [|discriminate Fe]. cbn [bind] in Fe |- *.
    rewrite (entry_table _ _ _ borders_table), !nth_error_map, Bo. cbn [option_map bind].
    rewrite (style_named f x Hin Hy (xf_xfId_cases k x Hx)). cbn [bind].
    fold (fonts_kids (font f)). unfold font_ok in Ok. do 2 (apply andb_prop in Ok as [Ok ?]). rewrite font_color_reads by assumption. cbn [bind].
    destruct (small_reads (font f)) as (S1 & S2 & S3 & S4 & S5 & S6 & S7 & S8). rewrite S1, S2, S3, S4, S5, S6, S7, S8. cbn [bind].
    rewrite xf_alignment, xf_checkbox. destruct (xf_protection f x) as [P1 P2]. rewrite P1, P2. destruct (al_reads (alignment f)) as (A1 & A2 & A3 & A4 & A5 & A6 & A7); [assumption|].
    assert (Al : read_rotation (attr "textRotation" (if has_alignment (alignment f) then al_attrs (alignment f) else [])) =
       Some (if rotation (alignment f) <=? 90 then rotation (alignment f) else if rotation (alignment f) <=? 180 then 90 - rotation (alignment f) else 270)%Z /\
      or_num (attr "indent" (if has_alignment (alignment f) then al_attrs (alignment f) else [])) = Some (indent (alignment f)) /\
      or_num (attr "readingOrder" (if has_alignment (alignment f) then al_attrs (alignment f) else [])) = Some (reading_direction (alignment f)) /\
      or_text (attr "horizontal" (if has_alignment (alignment f) then al_attrs (alignment f) else [])) "general" = horizontal_text (horizontal_used (alignment f)) /\
      or_text (attr "vertical" (if has_alignment (alignment f) then al_attrs (alignment f) else [])) "bottom" = vertical_text (vertical (alignment f)) /\
      flag_of "wrapText" (if has_alignment (alignment f) then al_attrs (alignment f) else []) = text_wrap (alignment f) /\
      flag_of "shrinkToFit" (if has_alignment (alignment f) then al_attrs (alignment f) else []) = shrink_used (alignment f)).
    { destruct (has_alignment (alignment f)) eqn:Ha; [repeat split; assumption|]. destruct (no_alignment (alignment f)) as (Z1 & Z2 & Z3 & Z4 & Z5 & Z6 & Z7); [assumption|assumption|].
      rewrite Z1, Z2, Z3, Z4, Z5, Z6, Z7. repeat split; reflexivity. }
    destruct Al as (B1 & B2 & B3 & B4 & B5 & B6 & B7). rewrite B1, B2, B3, B4, B5, B6, B7. cbn [bind]. rewrite Fe. cbn [bind].
    destruct (border_reads (borders f)) as (L1 & L2 & L3 & L4 & L5); [assumption|]. rewrite L1, L2, L3, L4, L5. cbn [bind]. destruct (border_flags false (borders f)) as [U D]. rewrite U, D.
    rewrite underline_reads, script_reads by lia. reflexivity.
  Qed.
End Doc.
