(** C61: the structure of a sheet part. *)
From Verif Require Import Base F64 Ref_Model Ref_Spec Xml_Model Xml_Spec Xml_Proofs Xml_Read Xml_Read_Proofs Xml_Tree Fmt_Model Rich_Model Rich_Proofs
  Cells_Model SheetXml_Spec SheetXml_Proofs SheetXml_Proofs3 Doc_Spec View_Model View_Spec Part_Model Tag_Proofs Part_Proofs.

(** What is assumed of the elements written by the rest of the code: each is a
    well-formed element of its name, at most one of each (any number of
    <conditionalFormatting>); the text of <sheetData> is one such element (C51). *)
Definition section_ok (k : string) (l : list wx) : Prop := Forall wx_ok l /\ at_most_one k l.
Record others_ok (i : sheet_in) : Prop := {
  k_pr : extra_ok (n_pr i); k_dims : dims_ok (n_dims i);
  k_cols : Forall wx_ok (n_cols i);
  k_data : exists a k, reads (n_data i) [Elem (lit "sheetData") a k];
  k_protection : section_ok "sheetProtection" (n_protection i); k_ranges : section_ok "protectedRanges" (n_ranges i);
  k_filter : section_ok "autoFilter" (n_filter i); k_merges : section_ok "mergeCells" (n_merges i);
  k_cf : Forall wx_ok (n_cf i) /\ tagged "conditionalFormatting" (n_cf i);
  k_dv : section_ok "dataValidations" (n_dv i); k_links : section_ok "hyperlinks" (n_links i);
  k_ignored : ignored_ok (n_ignored i);
  k_x14 : match n_x14_cf i with Some l => Forall wx_ok l | None => True end;
  k_spark : match n_sparklines i with Some l => Forall wx_ok l | None => True end }.
Definition sections_ok (i : sheet_in) : Prop := setup_ok (n_setup i) /\ others_ok i.
Definition both_extensions (i : sheet_in) : bool := present (n_x14_cf i) && present (n_sparklines i).

Definition ext_nodes (i : sheet_in) : list node :=
  match n_x14_cf i, n_sparklines i with
  | Some l, _ => [Elem (lit "extLst") [] [Elem (lit "ext") (ext_attrs cf_ext_uri) [node_of (cf_ext_body l)]]]
  | None, Some l => [Elem (lit "extLst") [] [Elem (lit "ext") (ext_attrs spark_ext_uri) [node_of (spark_ext_body l)]]]
  | None, None => []
  end.
Lemma cf_body_ok l : Forall wx_ok l -> wx_ok (cf_ext_body l).
Proof. intros H. apply wx_ok_elem. split; [reflexivity|]. split; [apply attrs_nil|exact H]. Qed.
Lemma spark_body_ok l : Forall wx_ok l -> wx_ok (spark_ext_body l).
Proof. intros H. apply wx_ok_elem. split; [reflexivity|]. split; [apply attrs_one; reflexivity|exact H]. Qed.
Lemma ext_attrs_good u : attr_ok (lit u) -> attrs_good (ext_attrs u).
Proof. intros H. unfold ext_attrs. good. Qed.
Lemma extensions_read i : sections_ok i -> both_extensions i = false ->
  reads (if use_x14 i then extensions_text i else []) (ext_nodes i).
Proof.
  intros S B. unfold both_extensions, use_x14, ext_nodes, extensions_text in *. destruct S as [_ []]. destruct (n_x14_cf i) as [l|], (n_sparklines i) as [q|]; try discriminate; cbn [present orb andb] in *.
  - assert (E : xml_start_tag (lit "extLst") [] ++ (xml_start_tag (lit "ext") (ext_attrs cf_ext_uri) ++ write_wx (cf_ext_body l)) ++ [] ++ xml_end_tag (lit "ext") ++ xml_end_tag (lit "extLst") =
      write_wx (WElem (lit "extLst") [] [WElem (lit "ext") (ext_attrs cf_ext_uri) [cf_ext_body l]])).
    { cbn [write_wx flat_map app]. rewrite ?app_nil_r, <- ?app_assoc. reflexivity. }
    rewrite E. apply (write_reads (WElem (lit "extLst") [] [WElem (lit "ext") (ext_attrs cf_ext_uri) [cf_ext_body l]])).
    apply wx_ok_elem. split; [reflexivity|]. split; [apply attrs_nil|]. constructor; [|constructor].
    apply wx_ok_elem. split; [reflexivity|]. split; [apply ext_attrs_good; reflexivity|]. constructor; [apply cf_body_ok; assumption|constructor].
  - assert (E : xml_start_tag (lit "extLst") [] ++ [] ++ (xml_start_tag (lit "ext") (ext_attrs spark_ext_uri) ++ write_wx (spark_ext_body q)) ++ xml_end_tag (lit "ext") ++ xml_end_tag (lit "extLst") =
      write_wx (WElem (lit "extLst") [] [WElem (lit "ext") (ext_attrs spark_ext_uri) [spark_ext_body q]])).
    { cbn [write_wx flat_map app]. rewrite ?app_nil_r, <- ?app_assoc. reflexivity. }
    rewrite E. apply (write_reads (WElem (lit "extLst") [] [WElem (lit "ext") (ext_attrs spark_ext_uri) [spark_ext_body q]])).
    apply wx_ok_elem. split; [reflexivity|]. split; [apply attrs_nil|]. constructor; [|constructor].
    apply wx_ok_elem. split; [reflexivity|]. split; [apply ext_attrs_good; reflexivity|]. constructor; [apply spark_body_ok; assumption|constructor].
  - apply reads_nil.
Qed.

Section Part.
  Variable num_text : f64 -> str.
  Variable m : ovf.
  Hypothesis plain_numbers : forall x, forallb simple (num_text x) = true.

  Lemma rels_shape i : exists a b c d t, rels_xml i = a ++ b ++ c ++ d ++ t /\ section_ok "drawing" a /\ section_ok "legacyDrawing" b /\
    section_ok "legacyDrawingHF" c /\ section_ok "picture" d /\ section_ok "tableParts" t.
  Proof.
    unfold rels_xml. pose proof (rel_opt_ok (n_drawing i) "drawing" (n_rel_count i) eq_refl) as Ha. destruct (rel_opt (n_drawing i) _ _) as [a ida].
    pose proof (rel_opt_ok (n_vml i) "legacyDrawing" ida eq_refl) as Hb. destruct (rel_opt (n_vml i) _ _) as [b idb].
    pose proof (rel_opt_ok (n_hf_images i) "legacyDrawingHF" idb eq_refl) as Hc. destruct (rel_opt (n_hf_images i) _ _) as [c idc].
    pose proof (rel_opt_ok (n_background i) "picture" idc eq_refl) as Hd. destruct (rel_opt (n_background i) _ _) as [d idd].
    exists a, b, c, d, (table_parts_xml (n_tables i) idd). split; [reflexivity|]. cbn [fst] in *. repeat (split; [assumption|]). apply table_parts_ok.
  Qed.
  Lemma head_shape i : sections_ok i -> exists d v, dimension_xml m (n_dims i) = Some d /\ sheet_views_xml m false (n_setup i) = Some v /\
    part_head num_text m i = Some (sheet_pr_xml (n_pr i) (n_setup i) ++ [d; v; format_pr_xml num_text i] ++ wrap "cols" (n_cols i)) /\
    wx_ok d /\ wx_ok v /\ tag_of d = lit "dimension" /\ tag_of v = lit "sheetViews".
  Proof.
    intros [k_setup0 []]. destruct (dimension_ok m _ k_dims0) as (d & Ed & Od & Td). destruct (views_ok m false _ k_setup0) as (_ & _ & v & Ev & Ov & Tv & _).
    exists d, v. unfold part_head. rewrite Ed, Ev. repeat (split; [first [reflexivity|assumption]|]). assumption.
  Qed.
  Lemma head_ok i h : sections_ok i -> part_head num_text m i = Some h -> Forall wx_ok h.
  Proof.
    intros S E. destruct (head_shape i S) as (d & v & _ & _ & E2 & Od & Ov & _). assert (h = sheet_pr_xml (n_pr i) (n_setup i) ++ [d; v; format_pr_xml num_text i] ++ wrap "cols" (n_cols i)) by congruence. subst h.
    apply Forall_app. split; [apply sheet_pr_ok, (k_pr i (proj2 S))|]. apply Forall_app. split; [|apply wrap_ok; [reflexivity|apply (k_cols i (proj2 S))]].
    constructor; [exact Od|]. constructor; [exact Ov|]. constructor; [apply format_pr_ok; exact plain_numbers|constructor].
  Qed.
  Lemma tail_ok i : sections_ok i -> Forall wx_ok (part_tail num_text i).
  Proof.
    intros [k_setup0 []]. destruct (rels_shape i) as (a & b & c & d & t & E & A & B & C & D & T). unfold part_tail. rewrite E.
    repeat (match goal with |- Forall _ (_ ++ _) => apply Forall_app; split end); try (match goal with H : section_ok _ ?l |- Forall wx_ok ?l => exact (proj1 H) end); try tauto.
    - apply page_ok; assumption.
    - apply breaks_ok; reflexivity.
    - apply breaks_ok; reflexivity.
    - apply ignored_xml_ok; assumption.
  Qed.
  (** The whole part reads back as its elements, in the order of the calls. *)
  Lemma worksheet_reads i : sections_ok i -> both_extensions i = false -> exists text head a k,
    worksheet_text num_text m i = Some text /\ part_head num_text m i = Some head /\ reads (n_data i) [Elem (lit "sheetData") a k] /\
    read_document text = Some (Elem (lit "worksheet") (worksheet_attrs (use_x14 i))
      (map node_of head ++ [Elem (lit "sheetData") a k] ++ map node_of (part_tail num_text i) ++ ext_nodes i)).
  Proof.
    intros S B. destruct (head_shape i S) as (d & v & _ & _ & E & _). pose proof (head_ok i _ S E) as Oh. pose proof (tail_ok i S) as Ot.
    destruct (k_data i (proj2 S)) as (a & k & Rd). unfold worksheet_text. rewrite E. cbn [obind]. set (head := sheet_pr_xml _ _ ++ _) in *.
    eexists _, head, a, k. split; [reflexivity|]. split; [reflexivity|]. split; [exact Rd|]. apply reads_document; [|discriminate].
    set (ext := if use_x14 i then extensions_text i else []) in *. pose proof (extensions_read i S B) as Re. fold ext in Re.
    assert (T : xml_start_tag (lit "worksheet") (worksheet_attrs (use_x14 i)) ++ texts head ++ n_data i ++ texts (part_tail num_text i) ++ ext ++ xml_end_tag (lit "worksheet") =
      xml_start_tag (lit "worksheet") (worksheet_attrs (use_x14 i)) ++ (texts head ++ n_data i ++ texts (part_tail num_text i) ++ ext) ++ xml_end_tag (lit "worksheet")) by (rewrite <- !app_assoc; reflexivity).
    rewrite T, start_tag_open, end_tag_close. apply reads_elem; [reflexivity| |].
    - apply attrs_good_ok. eapply sub_attrs; [apply sub_app; [apply sub_refl|apply sub_when]|]. cbn [app]. good.
    - apply reads_app; [apply reads_wxs; exact Oh|]. apply reads_app; [exact Rd|]. apply reads_app; [apply reads_wxs; exact Ot|exact Re].
  Qed.

  (** Which of the children come from the settings of the sheet. *)
  Definition setup_tags : list string := ["sheetPr"; "sheetViews"; "printOptions"; "pageMargins"; "pageSetup"; "headerFooter"]%string.
  Lemma setup_kid i k v a c : sections_ok i -> In k setup_tags -> sheet_views_xml m false (n_setup i) = Some v -> forall head, part_head num_text m i = Some head ->
    kid k (map node_of head ++ [Elem (lit "sheetData") a c] ++ map node_of (part_tail num_text i) ++ ext_nodes i) =
    kid k (map node_of (sheet_pr_xml (n_pr i) (n_setup i) ++ [v] ++ page_xml num_text (n_setup i))).
  Proof.
    intros S I Ev head Eh. destruct (head_shape i S) as (d & v' & _ & Ev' & E2 & _ & _ & Td & Tv). assert (v' = v) by congruence. subst v'.
    assert (H : head = sheet_pr_xml (n_pr i) (n_setup i) ++ [d; v; format_pr_xml num_text i] ++ wrap "cols" (n_cols i)) by congruence. subst head. clear Eh E2.
    destruct (rels_shape i) as (ra & rb & rc & rd & rt & Er & A1 & A2 & A3 & A4 & A5). destruct S as [k_setup0 []].
    unfold part_tail. rewrite Er, !map_app, <- !app_assoc. rewrite !kid_app. destruct (kid k (map node_of (sheet_pr_xml (n_pr i) (n_setup i)))); [reflexivity|].
    cbn [map].
    assert (Z : forall t, String.eqb t k = false -> forall l, tagged t l -> kid k (map node_of l) = None).
    { intros t N l T. apply kid_other, (tagged_other k t); assumption. }
    assert (X : kid k (ext_nodes i) = None).
    { unfold ext_nodes. destruct (n_x14_cf i); [|destruct (n_sparklines i); [|reflexivity]]; rewrite kid_one;
        (destruct (String.eqb "extLst" k) eqn:Q; [apply String.eqb_eq in Q; subst k; repeat (destruct I as [I|I]; [discriminate I|]); destruct I|reflexivity]). }
    assert (Y : forall t, existsb (String.eqb t) setup_tags = false -> String.eqb t k = false).
    { intros t Q. destruct (String.eqb t k) eqn:W; [|reflexivity]. apply String.eqb_eq in W. subst t.
      assert (existsb (String.eqb k) setup_tags = true) by (apply existsb_exists; exists k; split; [exact I|apply String.eqb_refl]). congruence. }
    assert (D1 : kid k [node_of d; node_of v; node_of (format_pr_xml num_text i)] = kid k [node_of v]).
    { change [node_of d; node_of v; node_of (format_pr_xml num_text i)] with (map node_of [d] ++ [node_of v] ++ map node_of [format_pr_xml num_text i]).
      rewrite (kid_tagged k "dimension"); [|constructor; [exact Td|constructor]|apply Y; reflexivity]. rewrite kid_app.
      destruct (kid k [node_of v]); [reflexivity|]. apply (Z "sheetFormatPr"%string); [apply Y; reflexivity|]. constructor; [reflexivity|constructor]. }
    rewrite D1. destruct (kid k [node_of v]); [reflexivity|].
    rewrite (Z "cols"%string); [|apply Y; reflexivity|apply (wrap_ok "cols"); [reflexivity|assumption]].
    rewrite kid_one, (Y "sheetData"%string eq_refl). change (kid k []) with (@None node).
    rewrite (Z "sheetProtection"%string); [|apply Y; reflexivity|apply k_protection0].
    rewrite (Z "protectedRanges"%string); [|apply Y; reflexivity|apply k_ranges0].
    rewrite (Z "autoFilter"%string); [|apply Y; reflexivity|apply k_filter0].
    rewrite (Z "mergeCells"%string); [|apply Y; reflexivity|apply k_merges0].
    rewrite (Z "conditionalFormatting"%string); [|apply Y; reflexivity|apply k_cf0].
    rewrite (Z "dataValidations"%string); [|apply Y; reflexivity|apply k_dv0].
    rewrite (Z "hyperlinks"%string); [|apply Y; reflexivity|apply k_links0].
    destruct (kid k (map node_of (page_xml num_text (n_setup i)))); [reflexivity|].
    rewrite (Z "rowBreaks"%string); [|apply Y; reflexivity|apply breaks_ok; reflexivity].
    rewrite (Z "colBreaks"%string); [|apply Y; reflexivity|apply breaks_ok; reflexivity].
    rewrite (Z "ignoredErrors"%string); [|apply Y; reflexivity|apply ignored_xml_ok; assumption].
    rewrite (Z "drawing"%string); [|apply Y; reflexivity|apply A1].
    rewrite (Z "legacyDrawing"%string); [|apply Y; reflexivity|apply A2].
    rewrite (Z "legacyDrawingHF"%string); [|apply Y; reflexivity|apply A3].
    rewrite (Z "picture"%string); [|apply Y; reflexivity|apply A4].
    rewrite (Z "tableParts"%string); [|apply Y; reflexivity|apply A5].
    exact X.
  Qed.
  (** The part as its readers see it. *)
  Lemma worksheet_kids i : sections_ok i -> both_extensions i = false -> exists text root v,
    worksheet_text num_text m i = Some text /\ read_document text = Some root /\ sheet_views_xml m false (n_setup i) = Some v /\
    forall k, In k setup_tags -> kid k (kids_of root) = kid k (map node_of (sheet_pr_xml (n_pr i) (n_setup i) ++ [v] ++ page_xml num_text (n_setup i))).
  Proof.
    intros S B. destruct (worksheet_reads i S B) as (text & head & a & k & E & Eh & _ & R). destruct (head_shape i S) as (d & v & _ & Ev & _).
    exists text. eexists. exists v. split; [exact E|]. split; [exact R|]. split; [exact Ev|]. intros k' I. cbn [kids_of]. apply setup_kid; assumption.
  Qed.
  Lemma sheet_pr_kid i v p : sheet_views_xml m false (n_setup i) = Some v -> tag_of v = lit "sheetViews" ->
    kid "sheetPr" (map node_of (sheet_pr_xml (n_pr i) (n_setup i) ++ [v] ++ page_xml num_text (n_setup i))) = Some p ->
    exists t, sheet_pr_xml (n_pr i) (n_setup i) = [t] /\ node_of t = p.
  Proof.
    intros Ev Tv. rewrite map_app, kid_app.
    assert (Z : kid "sheetPr" (map node_of ([v] ++ page_xml num_text (n_setup i))) = None).
    { apply kid_other, Forall_forall. intros n Hn. apply in_map_iff in Hn as (t & <- & Ht). rewrite is_elem_tag.
      destruct Ht as [Ht|Ht]; [subst t; rewrite Tv; reflexivity|].
      change (In t (page_xml num_text (n_setup i))) in Ht. unfold page_xml in Ht. apply in_app_or in Ht as [Ht|Ht]; [destruct (u_options (n_setup i)); [|destruct Ht]; destruct Ht as [<-|[]]; reflexivity|].
      apply in_app_or in Ht as [Ht|Ht]; [destruct Ht as [<-|[]]; reflexivity|].
      apply in_app_or in Ht as [Ht|Ht]; [destruct (u_setup (n_setup i)); [|destruct Ht]; destruct Ht as [<-|[]]; reflexivity|].
      destruct (u_hf (n_setup i)); [|destruct Ht]; destruct Ht as [<-|[]]. unfold header_footer_xml. destruct (_ && _); reflexivity. }
    rewrite Z. destruct (sheet_pr_xml (n_pr i) (n_setup i)) as [|t [|]] eqn:E; [discriminate| |].
    - unfold kid. cbn [map find]. destruct (is_elem "sheetPr" (node_of t)); [intros [= <-]; eauto|discriminate].
    - exfalso. unfold sheet_pr_xml in E. destruct (_ && _) in E; [discriminate|]. cbv zeta in E. destruct (_ || _) in E; discriminate.
  Qed.

  (** C61: the part is a well-formed document whose root holds the elements in the
      order the schema gives, each at most once (but <conditionalFormatting>),
      unless the sheet has both an extended conditional format and a sparkline. *)
  Theorem C61_worksheet_structure_partial i : sections_ok i -> both_extensions i = false ->
    exists text root, worksheet_text num_text m i = Some text /\ read_document text = Some root /\ is_elem "worksheet" root = true /\
      follows (fun k => k = lit "conditionalFormatting") worksheet_order (names_of root).
  Proof.
    intros S B. destruct (worksheet_reads i S B) as (text & head & a & k & E & Eh & _ & R). exists text. eexists. split; [exact E|]. split; [exact R|]. split; [reflexivity|].
    unfold names_of. cbn [kids_of]. destruct (head_shape i S) as (d & v & _ & _ & E2 & _ & _ & Td & Tv).
    assert (H : head = sheet_pr_xml (n_pr i) (n_setup i) ++ [d; v; format_pr_xml num_text i] ++ wrap "cols" (n_cols i)) by congruence. subst head. clear Eh E2 E R.
    destruct (rels_shape i) as (ra & rb & rc & rd & rt & Er & A1 & A2 & A3 & A4 & A5). destruct S as [k_setup0 []]. unfold part_tail, page_xml. rewrite Er.
    rewrite !map_app, <- !app_assoc. unfold worksheet_order. cbn [map].
    apply follows_one; [apply sheet_pr_ok; assumption|].
    cbn [map app]. rewrite !node_name, Td, Tv. apply follows_once, follows_once.
    change (tag_of (format_pr_xml num_text i)) with (lit "sheetFormatPr"). apply follows_once.
    apply follows_one; [apply wrap_ok; [reflexivity|assumption]|]. cbn [map app elem_name]. apply follows_once.
    apply follows_skip. apply follows_one; [apply k_protection0|]. apply follows_one; [apply k_ranges0|]. apply follows_skip.
    apply follows_one; [apply k_filter0|]. do 3 apply follows_skip. apply follows_one; [apply k_merges0|]. apply follows_skip.
    apply follows_all; [reflexivity|apply k_cf0|]. apply follows_one; [apply k_dv0|]. apply follows_one; [apply k_links0|].
    apply follows_one; [apply amo_when; reflexivity|]. cbn [map app]. change (elem_name (node_of (page_margins_xml num_text (n_setup i)))) with (lit "pageMargins"). apply follows_once.
    apply follows_one; [apply amo_when; reflexivity|]. apply follows_one; [apply amo_when; unfold header_footer_xml; destruct (_ && _); reflexivity|].
    apply follows_one; [apply breaks_ok; reflexivity|]. apply follows_one; [apply breaks_ok; reflexivity|]. do 2 apply follows_skip.
    apply follows_one; [apply ignored_xml_ok; assumption|]. apply follows_skip. apply follows_one; [apply A1|]. apply follows_one; [apply A2|]. apply follows_one; [apply A3|].
    apply follows_skip. apply follows_one; [apply A4|]. do 3 apply follows_skip. apply follows_one; [apply A5|].
    unfold ext_nodes. destruct (n_x14_cf i); [|destruct (n_sparklines i)]; cbn [map]; first [apply follows_once, follows_nil|apply follows_nil].
  Qed.

  (** With both, the second <ext> is never closed: no reader accepts the part. *)
  Theorem C61_two_extensions_malformed_refuted i : sections_ok i -> both_extensions i = true ->
    exists text, worksheet_text num_text m i = Some text /\ read_document text = None.
  Proof.
    intros S B. destruct (head_shape i S) as (d & v & _ & _ & E & _). pose proof (head_ok i _ S E) as Oh. pose proof (tail_ok i S) as Ot.
    destruct (k_data i (proj2 S)) as (a & k & Rd). unfold worksheet_text. rewrite E. cbn [obind]. set (head := sheet_pr_xml _ _ ++ _) in *. eexists. split; [reflexivity|].
    unfold both_extensions in B. assert (U : use_x14 i = true) by (unfold use_x14; destruct (present (n_x14_cf i)); [reflexivity|discriminate]). rewrite U.
    unfold extensions_text. pose proof (k_x14 i (proj2 S)) as K1. pose proof (k_spark i (proj2 S)) as K2. destruct (n_x14_cf i) as [l|]; [|discriminate]. destruct (n_sparklines i) as [q|]; [|discriminate].
    assert (R1 : reads (texts head ++ n_data i ++ texts (part_tail num_text i)) (map node_of head ++ [Elem (lit "sheetData") a k] ++ map node_of (part_tail num_text i))).
    { apply reads_app; [apply reads_wxs; exact Oh|]. apply reads_app; [exact Rd|apply reads_wxs; exact Ot]. }
    destruct R1 as (e1 & [M1 L1] & T1). destruct (write_reads _ (cf_body_ok l K1)) as (e2 & [M2 L2] & T2). destruct (write_reads _ (spark_body_ok q K2)) as (e3 & [M3 L3] & T3).
    set (W := worksheet_attrs true). set (X := ext_attrs cf_ext_uri). set (Y := ext_attrs spark_ext_uri).
    assert (GW : attrs_good W) by (unfold W, worksheet_attrs; cbn [when app]; good). assert (GX : attrs_good X) by (apply ext_attrs_good; reflexivity). assert (GY : attrs_good Y) by (apply ext_attrs_good; reflexivity).
    set (body := texts head ++ n_data i ++ texts (part_tail num_text i)) in *.
    set (close := close_tag (lit "ext") ++ close_tag (lit "extLst") ++ close_tag (lit "worksheet")).
    assert (Lc : lex (LText []) close = Some [EEnd (lit "ext"); EEnd (lit "extLst"); EEnd (lit "worksheet")]).
    { unfold close. apply lex_close; [reflexivity|]. apply lex_close; [reflexivity|]. rewrite <- (app_nil_r (close_tag _)). apply lex_close; reflexivity. }
    assert (Mc : markup close) by apply markup_lt.
    match goal with |- read_document (xml_declaration ++ ?t) = None => assert (T : t =
      open_tag (lit "worksheet") (map (fun kv => (fst kv, escape_attributes (snd kv))) W) ++ body ++ open_tag (lit "extLst") [] ++ open_tag (lit "ext") (map (fun kv => (fst kv, escape_attributes (snd kv))) X) ++ write_wx (cf_ext_body l) ++
      open_tag (lit "ext") (map (fun kv => (fst kv, escape_attributes (snd kv))) Y) ++ write_wx (spark_ext_body q) ++ close) end.
    { unfold body, close, W, X, Y. rewrite !start_tag_open, !end_tag_close. cbn [map]. rewrite <- !app_assoc. reflexivity. }
    rewrite T. clear T.
    match goal with |- read_document (xml_declaration ++ ?t) = None => set (t0 := t) end.
    assert (L : lex (LText []) t0 = Some (EStart (lit "worksheet") W :: e1 ++ EStart (lit "extLst") [] :: EStart (lit "ext") X :: e2 ++ EStart (lit "ext") Y :: e3 ++ [EEnd (lit "ext"); EEnd (lit "extLst"); EEnd (lit "worksheet")])).
    { unfold t0. apply lex_open; [reflexivity|apply attrs_good_ok; exact GW|]. apply L1; [apply markup_lt|]. apply lex_open; [reflexivity|apply (attrs_good_ok []), attrs_nil|].
      apply lex_open; [reflexivity|apply attrs_good_ok; exact GX|]. apply L2; [apply markup_lt|]. apply lex_open; [reflexivity|apply attrs_good_ok; exact GY|]. apply L3; [exact Mc|exact Lc]. }
    assert (Rx : read_xml t0 = None).
    { unfold read_xml. rewrite L. cbn [build]. rewrite T1. cbn [build]. rewrite T2. cbn [build]. rewrite T3. reflexivity. }
    unfold read_document. assert (H : exists r, t0 = 60 :: r) by (eexists; reflexivity). destruct H as [r H]. rewrite H in *.
    change (strip_prefix (lit "<?xml") (xml_declaration ++ 60 :: r)) with (Some (lit " version=""1.0"" encoding=""UTF-8"" standalone=""yes""?>" ++ 10 :: 60 :: r)).
    cbv beta iota. change (skip_decl (lit " version=""1.0"" encoding=""UTF-8"" standalone=""yes""?>" ++ 10 :: 60 :: r)) with (Some (10 :: 60 :: r)).
    cbv beta iota. change (skip_ws (10 :: 60 :: r)) with (60 :: r). rewrite Rx. reflexivity.
  Qed.

  (** The children of <sheetPr> come in the order of the schema, unless the sheet
      is fitted to pages and also has a tab colour or outline settings. *)
  Definition fit_and_more (i : sheet_in) : bool :=
    u_fit (n_setup i) && (match u_tab (n_setup i) with CDefault => false | _ => true end || p_above (n_pr i) || p_left (n_pr i)).
  Theorem C61_sheet_properties_order_partial i : sections_ok i -> both_extensions i = false -> fit_and_more i = false ->
    exists text root, worksheet_text num_text m i = Some text /\ read_document text = Some root /\
      forall p, kid "sheetPr" (kids_of root) = Some p -> follows (fun _ => False) sheet_pr_order (names_of p).
  Proof.
    intros S B F. destruct (worksheet_kids i S B) as (text & root & v & E & R & Ev & K). exists text, root. split; [exact E|]. split; [exact R|].
    intros p. rewrite K by (left; reflexivity). intros Hp. destruct (head_shape i S) as (_ & v' & _ & Ev' & _ & _ & _ & _ & Tv). assert (v' = v) by congruence. subst v'.
    destruct (sheet_pr_kid i v p Ev Tv Hp) as (t & Et & <-). clear - F Et. unfold sheet_pr_xml in Et. unfold fit_and_more in F.
    destruct (_ && _) in Et; [discriminate|]. cbv zeta in Et. destruct (_ || _) in Et; [|assert (t = WEmpty (lit "sheetPr") (match p_codename (n_pr i) with Some c => [(lit "codeName", c)] | None => [] end ++ yes (p_filtered (n_pr i)) "filterMode")) by congruence; subst t; apply follows_nil].
    match type of Et with [?x] = _ => assert (t = x) by congruence; subst t; clear Et end. unfold names_of. cbn [node_of kids_of]. unfold sheet_pr_order. cbn [map].
    destruct (u_fit (n_setup i)).
    - destruct (u_tab (n_setup i)); try discriminate F. destruct (p_above (n_pr i)); [discriminate F|]. destruct (p_left (n_pr i)); [discriminate F|].
      cbn. do 2 apply follows_skip. apply follows_once, follows_nil.
    - cbn [when app]. rewrite !map_app. apply (follows_one (fun _ => False) "tabColor"); [destruct (u_tab (n_setup i)); first [apply amo_nil|apply amo_one; reflexivity]|].
      match goal with |- follows _ _ ?l => rewrite <- (app_nil_r l) end. apply (follows_one (fun _ => False) "outlinePr"); [apply amo_when; reflexivity|apply follows_nil].
  Qed.
  Theorem C61_sheet_properties_order_refuted i : sections_ok i -> both_extensions i = false -> fit_and_more i = true ->
    exists text root p, worksheet_text num_text m i = Some text /\ read_document text = Some root /\
      kid "sheetPr" (kids_of root) = Some p /\ ~ follows (fun _ => False) sheet_pr_order (names_of p).
  Proof.
    intros S B F. destruct (worksheet_kids i S B) as (text & root & v & E & R & Ev & K). exists text, root.
    unfold fit_and_more in F. apply andb_prop in F as [Fit F].
    assert (Z : exists t r, sheet_pr_xml (n_pr i) (n_setup i) = [WElem (lit "sheetPr") t (WEmpty (lit "pageSetUpPr") [(lit "fitToPage", lit "1")] :: r)] /\ r <> [] /\ Forall (fun x => tag_of x = lit "tabColor" \/ tag_of x = lit "outlinePr") r).
    { unfold sheet_pr_xml. rewrite Fit. cbn [negb andb orb]. rewrite !andb_false_r. cbn [andb when app]. cbv zeta. eexists _, _. split; [reflexivity|]. split.
      - destruct (u_tab (n_setup i)); cbn [app]; try discriminate. cbn [orb] in F. rewrite F. discriminate.
      - apply Forall_app. split; [destruct (u_tab (n_setup i)); repeat constructor|]. destruct (p_above (n_pr i) || p_left (n_pr i)); [|constructor]. constructor; [right; reflexivity|constructor]. }
    destruct Z as (t & r & Et & Hr & Fr). eexists. split; [exact E|]. split; [exact R|]. rewrite K by (left; reflexivity). rewrite Et. split; [reflexivity|].
    unfold names_of. cbn [kids_of node_of map elem_name]. intros H. destruct r as [|x r]; [congruence|]. inversion Fr as [|? ? Hx _]; subst. clear - Hx H.
    cbn [map] in H. rewrite node_name in H. unfold sheet_pr_order in H. cbn [map] in H.
    assert (G : forall l k, follows (fun _ => False) l k -> forall x, In x k -> In x l).
    { induction 1; intros y Hy; [destruct Hy|right; auto|destruct Hy as [<-|Hy]; [left; reflexivity|right; auto]|tauto]. }
    inversion H as [|? ? ? H1| |]; subst; try tauto. clear H.
    inversion H1 as [|? ? ? H2| |]; subst; try tauto. clear H1.
    inversion H2 as [|? ? ? H3|? ? ? H3|]; subst; try tauto; [inversion H3|]. pose proof (G _ _ H3 (tag_of x) (or_introl eq_refl)) as [].
  Qed.

  (** ** Chart sheets *)
  Lemma chartsheet_reads i : setup_ok (n_setup i) -> extra_ok (n_pr i) -> section_ok "sheetProtection" (n_protection i) -> section_ok "protectedRanges" (n_ranges i) ->
    exists text v a c, chartsheet_text num_text m i = Some text /\ sheet_views_xml m true (n_setup i) = Some v /\ tag_of v = lit "sheetViews" /\
      section_ok "drawing" a /\ section_ok "legacyDrawingHF" c /\
      read_document text = Some (Elem (lit "chartsheet") chartsheet_attrs
        (map node_of (sheet_pr_xml (n_pr i) (n_setup i) ++ [v] ++ n_protection i ++ n_ranges i ++ page_xml num_text (n_setup i) ++ a ++ c))).
  Proof.
    intros S X P R. destruct (views_ok m true _ S) as (_ & _ & v & Ev & Ov & Tv & _). unfold chartsheet_text, chartsheet_kids. rewrite Ev. cbn [obind].
    pose proof (rel_opt_ok (n_drawing i) "drawing" (n_rel_count i) eq_refl) as Ha. destruct (rel_opt (n_drawing i) _ _) as [a ida].
    pose proof (rel_opt_ok (n_hf_images i) "legacyDrawingHF" ida eq_refl) as Hc. destruct (rel_opt (n_hf_images i) _ _) as [c idc]. cbn [fst] in *. cbn [obind].
    eexists _, v, a, c. split; [reflexivity|]. split; [reflexivity|]. split; [exact Tv|]. split; [exact Ha|]. split; [exact Hc|].
    rewrite document_reads; [reflexivity|]. apply wx_ok_elem. split; [reflexivity|]. split; [unfold chartsheet_attrs; good|].
    apply Forall_app. split; [apply sheet_pr_ok; exact X|]. constructor; [exact Ov|]. apply Forall_app. split; [apply P|]. apply Forall_app. split; [apply R|].
    apply Forall_app. split; [apply page_ok; assumption|]. apply Forall_app. split; [apply Ha|apply Hc].
  Qed.
  (** A chart sheet without print options and unprotected ranges. *)
  Theorem C61_chartsheet_structure_partial i : setup_ok (n_setup i) -> extra_ok (n_pr i) -> section_ok "sheetProtection" (n_protection i) ->
    n_ranges i = [] -> u_options (n_setup i) = false ->
    exists text root, chartsheet_text num_text m i = Some text /\ read_document text = Some root /\ is_elem "chartsheet" root = true /\
      follows (fun _ => False) chartsheet_order (names_of root).
  Proof.
    intros S X P R O. assert (R' : section_ok "protectedRanges" (n_ranges i)) by (rewrite R; split; [constructor|apply amo_nil]).
    destruct (chartsheet_reads i S X P R') as (text & v & a & c & E & _ & Tv & A & C & Rd). exists text. eexists. split; [exact E|]. split; [exact Rd|]. split; [reflexivity|].
    unfold names_of. cbn [kids_of]. unfold page_xml. rewrite R, O. cbn [when app]. rewrite !map_app. unfold chartsheet_order. cbn [map].
    apply follows_one; [apply sheet_pr_ok; exact X|]. cbn [map app]. rewrite node_name, Tv. apply follows_once. rewrite !map_app. apply follows_one; [apply P|]. apply follows_skip.
    cbn [map app]. change (elem_name (node_of (page_margins_xml num_text (n_setup i)))) with (lit "pageMargins"). apply follows_once.
    rewrite !map_app, <- !app_assoc. apply follows_one; [apply amo_when; reflexivity|]. apply follows_one; [apply amo_when; unfold header_footer_xml; destruct (_ && _); reflexivity|].
    apply follows_one; [apply A|]. apply follows_skip. rewrite <- (app_nil_r (map elem_name (map node_of c))). apply follows_one; [apply C|]. apply follows_nil.
  Qed.
  (** With print options the part holds an element a chart sheet may not have. *)
  Theorem C61_chartsheet_print_options_refuted i : setup_ok (n_setup i) -> extra_ok (n_pr i) -> section_ok "sheetProtection" (n_protection i) ->
    section_ok "protectedRanges" (n_ranges i) -> u_options (n_setup i) = true ->
    exists text root, chartsheet_text num_text m i = Some text /\ read_document text = Some root /\
      ~ follows (fun _ => False) chartsheet_order (names_of root).
  Proof.
    intros S X P R O. destruct (chartsheet_reads i S X P R) as (text & v & a & c & E & _ & Tv & A & C & Rd). exists text. eexists. split; [exact E|]. split; [exact Rd|].
    intros H. assert (G : forall l k, follows (fun _ => False) l k -> forall x, In x k -> In x l).
    { induction 1; intros y Hy; [destruct Hy|right; auto|destruct Hy as [<-|Hy]; [left; reflexivity|right; auto]|tauto]. }
    assert (I : In (lit "printOptions") chartsheet_order).
    { apply (G _ _ H). unfold names_of. cbn [kids_of]. apply in_map_iff. exists (node_of (print_options_xml (n_setup i))). split; [reflexivity|]. apply in_map.
      unfold page_xml. rewrite O. do 4 (apply in_or_app; right). apply in_or_app. left. left. reflexivity. }
    clear - I. unfold chartsheet_order in I. cbn [map] in I. repeat (destruct I as [I|I]; [discriminate I|]). destruct I.
  Qed.
End Part.

(** ** Sheets the theorems are about *)
Definition demo_setup : setup :=
  set_u_options (set_u_headings (set_u_header (set_u_hf (set_u_setup (set_u_freeze (setup_new false) (1, 2)) true) true) (lit "&L&[Page]")) true) true.
Definition demo_sheet (s : setup) (spark : bool) : sheet_in :=
  {| n_setup := s; n_pr := {| p_filtered := true; p_codename := None; p_chartsheet := false; p_above := true; p_left := false |};
     n_dims := (0, 0, 9, 3); n_row_height := DEFAULT_ROW_HEIGHT; n_hide_rows := false; n_row_level := 1; n_col_level := 0;
     n_cols := [WEmpty (lit "col") [(lit "min", lit "1"); (lit "max", lit "2")]];
     n_data := write_wx (WElem (lit "sheetData") [] [WEmpty (lit "row") [(lit "r", lit "1")]]);
     n_protection := []; n_ranges := []; n_filter := [WEmpty (lit "autoFilter") [(lit "ref", lit "A1:D10")]]; n_merges := [];
     n_cf := [WElem (lit "conditionalFormatting") [(lit "sqref", lit "A1")] []; WElem (lit "conditionalFormatting") [(lit "sqref", lit "B1")] []];
     n_dv := []; n_links := []; n_row_breaks := [3; 7]; n_col_breaks := [];
     n_ignored := [("evalError"%string, lit "A1:B2")];
     n_rel_count := 2; n_drawing := true; n_vml := true; n_hf_images := false; n_background := false; n_tables := 2;
     n_x14_cf := Some [WEmpty (lit "x14:conditionalFormatting") []]; n_sparklines := if spark then Some [WEmpty (lit "x14:sparklineGroup") []] else None |}.
Lemma demo_sections s spark : setup_ok s -> sections_ok (demo_sheet s spark).
Proof.
  intros S. split; [exact S|]. constructor; cbn.
  - exact I.
  - right. unfold ROW_MAX, COL_MAX. lia.
  - constructor; [|constructor]. split; [reflexivity|]. good.
  - eexists _, _. apply (write_reads (WElem (lit "sheetData") [] [WEmpty (lit "row") [(lit "r", lit "1")]])). apply wx_ok_elem. split; [reflexivity|]. split; [apply attrs_nil|].
    constructor; [|constructor]. split; [reflexivity|]. good.
  - split; [constructor|apply amo_nil].
  - split; [constructor|apply amo_nil].
  - split; [constructor; [split; [reflexivity|good]|constructor]|apply amo_one; reflexivity].
  - split; [constructor|apply amo_nil].
  - split; [|repeat constructor]. constructor; [|constructor; [|constructor]]; (apply wx_ok_elem; split; [reflexivity|]; split; [good|constructor]).
  - split; [constructor|apply amo_nil].
  - split; [constructor|apply amo_nil].
  - constructor; [|constructor]. split; [exists FormulaError; reflexivity|reflexivity].
  - constructor; [|constructor]. split; [reflexivity|apply attrs_nil].
  - destruct spark; [|exact I]. constructor; [|constructor]. split; [reflexivity|apply attrs_nil].
Qed.
Lemma demo_setup_ok : setup_ok demo_setup.
Proof. constructor; try reflexivity; try (split; reflexivity). Qed.
Example demo_one_extension : sections_ok (demo_sheet demo_setup false) /\ both_extensions (demo_sheet demo_setup false) = false /\ fit_and_more (demo_sheet demo_setup false) = false.
Proof. split; [apply demo_sections, demo_setup_ok|]. split; reflexivity. Qed.
Example demo_two_extensions : sections_ok (demo_sheet demo_setup true) /\ both_extensions (demo_sheet demo_setup true) = true.
Proof. split; [apply demo_sections, demo_setup_ok|reflexivity]. Qed.
Example demo_fit : sections_ok (demo_sheet (set_u_fit demo_setup true) false) /\ fit_and_more (demo_sheet (set_u_fit demo_setup true) false) = true.
Proof. split; [apply demo_sections|reflexivity]. constructor; try reflexivity; try (split; reflexivity). Qed.
