(** C59, C60: the view and print settings read back from the sheet part are the
    ones given last, after any history of calls. *)
From Verif Require Import Base F64 Ref_Model Ref_Spec Ref_Proofs Xml_Model Xml_Spec Xml_Proofs Xml_Read Xml_Read_Proofs Xml_Tree Fmt_Model Rich_Model Rich_Proofs
  Cells_Model SheetXml_Spec SheetXml_Proofs SheetXml_Proofs3 Doc_Spec Props_Ref Props_Doc View_Model View_Spec Setup_Spec Part_Model Tag_Proofs Part_Proofs View_Proofs Props_Part View_Hist Page_Read.

Lemma panes_first s calls m b cs : setup_run m (set_u_selected (setup_new cs) b) calls = Some s -> frozen_field s = expected_frozen calls.
Proof.
  intros E. pose proof (run_latest m (fun s a => u_freeze s = a) of_freeze (f_freeze m) calls (set_u_selected (setup_new cs) b) (0, 0) s eq_refl E) as F.
  pose proof (run_latest m (fun s a => u_top_cell s = a) of_top_cell (f_top_cell m) calls (set_u_selected (setup_new cs) b) (0, 0) s eq_refl E) as T. cbv beta in F, T.
  unfold frozen_field, expected_frozen, panes_empty. rewrite F, T. destruct (latest of_freeze (0, 0) calls) as [r c]. reflexivity.
Qed.
Lemma run_field {A} (f : setup -> A) sel m cs b calls s : tracks f sel -> setup_run m (set_u_selected (setup_new cs) b) calls = Some s ->
  f s = latest sel (f (set_u_selected (setup_new cs) b)) calls.
Proof. intros T E. apply (run_latest m (fun s a => f s = a) sel (T m) calls (set_u_selected (setup_new cs) b)); [reflexivity|exact E]. Qed.
Lemma latest_none {A} (a : A) calls : latest (fun _ => None) a calls = a.
Proof. unfold latest. induction calls; [reflexivity|assumption]. Qed.

Section View.
  Variable num_text : f64 -> str.
  Variable m : ovf.
  Hypothesis plain_numbers : forall x, forallb simple (num_text x) = true.

  Lemma view_after cs selected calls s : Forall call_texts calls -> ~ In (UTopLeft 0 0) calls ->
    setup_run m (set_u_selected (setup_new cs) selected) calls = Some s ->
    exists v, sheet_views_xml m cs s = Some v /\ tag_of v = lit "sheetViews" /\
      exists n, kids_of (node_of v) = [n] /\ is_elem "sheetView" n = true /\ read_sheet_view n = Some (expected_view selected calls).
  Proof.
    intros F N E. pose proof (run_texts m calls F _ s (start_ok cs selected) E) as S. destruct (views_ok m cs s S) as (p & Ep & v & Ev & _ & Tv & Nv).
    exists v. split; [exact Ev|]. split; [exact Tv|]. rewrite Nv. eexists. split; [reflexivity|]. split; [reflexivity|].
    assert (T : tl_rel s (latest of_top_left None calls)).
    { apply (run_latest_if m (fun o => o <> UTopLeft 0 0) tl_rel of_top_left (r_top_left m) calls (set_u_selected (setup_new cs) selected)); [|reflexivity|exact E].
      apply Forall_forall. intros o Ho ->. exact (N Ho). }
    pose proof (run_latest m sel_rel of_selection (r_selection m) calls (set_u_selected (setup_new cs) selected) None s eq_refl E) as X.
    rewrite (view_reads m cs s p _ _ S Ep T X). unfold expected_view. rewrite <- (panes_first s calls m selected cs E).
    rewrite (run_field u_grid of_grid m cs selected calls s f_grid E), (run_field u_rtl of_rtl m cs selected calls s f_rtl E), (run_field u_zoom of_zoom m cs selected calls s f_zoom E),
      (run_field u_selected (fun _ => None) m cs selected calls s f_selected E), (run_field _ of_mode m cs selected calls s f_mode E), latest_none. reflexivity.
  Qed.

  (** C59 for worksheets.  After any calls, none of which panics, the view in the
      part is the expected one, if set_top_left_cell was never called for the
      first cell (see the refutation below). *)
  Theorem C59_sheet_view_partial calls selected : Forall call_texts calls -> ~ In (UTopLeft 0 0) calls ->
    exists s, setup_run m (set_u_selected (setup_new false) selected) calls = Some s /\
    forall i, n_setup i = s -> others_ok i -> both_extensions i = false ->
      exists text root, worksheet_text num_text m i = Some text /\ read_document text = Some root /\
        sheet_view root = Some (expected_view selected calls).
  Proof.
    intros F N. destruct (run_total m calls (set_u_selected (setup_new false) selected)) as [s E]. exists s. split; [exact E|]. intros i Hi O B.
    assert (S : sections_ok i) by (split; [rewrite Hi; exact (run_texts m calls F _ s (start_ok false selected) E)|exact O]).
    destruct (worksheet_kids num_text m plain_numbers i S B) as (text & root & v & Et & R & Ev & K). exists text, root. split; [exact Et|]. split; [exact R|].
    destruct (view_after false selected calls s F N E) as (v' & Ev' & Tv & n & Kn & In' & Rn). rewrite Hi in Ev. assert (v' = v) by congruence. subst v'.
    unfold sheet_view. rewrite K by (right; left; reflexivity). rewrite map_app, kid_app.
    assert (Z : kid "sheetViews" (map node_of (sheet_pr_xml (n_pr i) (n_setup i))) = None).
    { apply kid_other, (tagged_other "sheetViews" "sheetPr"); [apply sheet_pr_ok, (k_pr i O)|reflexivity]. }
    rewrite Z. cbn [app map]. unfold kid at 1. cbn [find]. rewrite is_elem_tag, Tv, str_eqb_refl. cbn [bind]. rewrite Kn, In'. exact Rn.
  Qed.
  (** The same for chart sheets. *)
  Theorem C59_chartsheet_view_partial calls selected : Forall call_texts calls -> ~ In (UTopLeft 0 0) calls ->
    exists s, setup_run m (set_u_selected (setup_new true) selected) calls = Some s /\
    forall i, n_setup i = s -> extra_ok (n_pr i) -> section_ok "sheetProtection" (n_protection i) -> section_ok "protectedRanges" (n_ranges i) ->
      exists text root, chartsheet_text num_text m i = Some text /\ read_document text = Some root /\
        sheet_view root = Some (expected_view selected calls).
  Proof.
    intros F N. destruct (run_total m calls (set_u_selected (setup_new true) selected)) as [s E]. exists s. split; [exact E|]. intros i Hi X P R.
    assert (S : setup_ok (n_setup i)) by (rewrite Hi; exact (run_texts m calls F _ s (start_ok true selected) E)).
    destruct (chartsheet_reads num_text m plain_numbers i S X P R) as (text & v & a & c & Et & Ev & _ & _ & _ & Rd). exists text. eexists. split; [exact Et|]. split; [exact Rd|].
    destruct (view_after true selected calls s F N E) as (v' & Ev' & Tv & n & Kn & In' & Rn). rewrite Hi in Ev. assert (v' = v) by congruence. subst v'.
    unfold sheet_view. cbn [kids_of]. rewrite map_app, kid_app.
    assert (Z : kid "sheetViews" (map node_of (sheet_pr_xml (n_pr i) (n_setup i))) = None).
    { apply kid_other, (tagged_other "sheetViews" "sheetPr"); [apply sheet_pr_ok, X|reflexivity]. }
    rewrite Z. cbn [app map]. unfold kid at 1. cbn [find]. rewrite is_elem_tag, Tv, str_eqb_refl. cbn [bind]. rewrite Kn, In'. exact Rn.
  Qed.
  (** A call outside the grid is refused and changes nothing; no other call is. *)
  Theorem C59_refused_calls s o : exists t, setup_step m s o = Some (t, refused o) /\ (refused o = true -> t = s).
  Proof.
    exists (step_to m s o). split; [apply step_total|]. intros R. destruct o; try discriminate R; cbn [refused] in R.
    - rewrite step_freeze. destruct (on_grid row col); [discriminate R|reflexivity].
    - rewrite step_top_cell. destruct (on_grid row col); [discriminate R|reflexivity].
    - destruct (step_select m s fr fc lr lc) as (ta & tg & -> & _). destruct (_ && _); [discriminate R|reflexivity].
    - destruct (step_top_left m s row col) as (ta & -> & _). destruct (on_grid row col); [discriminate R|reflexivity].
  Qed.
  (** Going back to the first cell is ignored: whatever was called before, the view
      keeps the cell it had. *)
  Theorem C59_top_left_first_cell_refuted s : setup_step m s (UTopLeft 0 0) = Some (s, false).
  Proof. reflexivity. Qed.
  Example C59_top_left_stale : forall s, setup_run m (setup_new false) [UTopLeft 9 1; UTopLeft 0 0] = Some s ->
    exists t, u_top_left s = t /\ cell_of t = Some (9, 1) /\ latest of_top_left None [UTopLeft 9 1; UTopLeft 0 0] = None.
  Proof.
    intros s. cbn [setup_run]. rewrite step_total. cbn [obind fst setup_run]. rewrite step_total. cbn [obind fst setup_run].
    destruct (step_top_left m (setup_new false) 9 1) as (ta & -> & _ & _ & C). unfold step_to. cbn [setup_step]. intros [= <-]. exists ta. repeat split. apply C. reflexivity.
  Qed.
End View.
Example C59_history : let calls := [UGrid false; UZoom 75; UZoom 5; UFreeze 2 1; UTopCell 30 0; USelect 5 3 1 2; UView PvLayout; UFreeze 1048576 0] in
  Forall call_texts calls /\ ~ In (UTopLeft 0 0) calls /\
  expected_view true calls = {| w_gridlines := false; w_right_to_left := false; w_selected := true; w_mode := ModePageLayout; w_top_left := None; w_zoom := 75;
    w_frozen := Some (2, 1, (30, 0)); w_selection := Some (5, 3, (1, 2, (5, 3))) |}.
Proof. split; [repeat constructor|]. split; [cbn; intuition discriminate|reflexivity]. Qed.

(** ** Printing *)
Section Page.
  Variable num_text : f64 -> str.
  Variable m : ovf.
  Hypothesis plain_numbers : forall x, forallb simple (num_text x) = true.

  (** The children of a sheet that concern printing. *)
  Lemma kids_page x s v kids : extra_ok x -> tag_of v = lit "sheetViews" ->
    (forall k, In k setup_tags -> kid k kids = kid k (map node_of (sheet_pr_xml x s ++ [v] ++ page_xml num_text s))) -> page_kids num_text x s kids.
  Proof.
    intros X Tv K.
    assert (P : forall k, In k setup_tags -> String.eqb "sheetPr" k = false -> String.eqb "sheetViews" k = false -> kid k kids = kid k (map node_of (page_xml num_text s))).
    { intros k I N1 N2. rewrite (K k I), map_app, (kid_tagged k "sheetPr"); [|apply sheet_pr_ok; exact X|exact N1]. change (map node_of ([v] ++ page_xml num_text s)) with (map node_of [v] ++ map node_of (page_xml num_text s)).
      apply (kid_tagged k "sheetViews"); [constructor; [exact Tv|constructor]|exact N2]. }
    assert (L : map node_of (page_xml num_text s) = (if u_options s then [node_of (print_options_xml s)] else []) ++ [node_of (page_margins_xml num_text s)] ++
      (if u_setup s then [node_of (page_setup_xml s)] else []) ++ (if u_hf s then [node_of (header_footer_xml s)] else [])).
    { unfold page_xml. destruct (u_options s), (u_setup s), (u_hf s); reflexivity. }
    assert (HF : forall k, String.eqb "headerFooter" k = false -> is_elem k (node_of (header_footer_xml s)) = false).
    { intros k N. rewrite is_elem_tag. assert (T : tag_of (header_footer_xml s) = lit "headerFooter") by (unfold header_footer_xml; destruct (_ && _); reflexivity). rewrite T, str_eqb_lit. exact N. }
    assert (HT : is_elem "headerFooter" (node_of (header_footer_xml s)) = true).
    { rewrite is_elem_tag. assert (T : tag_of (header_footer_xml s) = lit "headerFooter") by (unfold header_footer_xml; destruct (_ && _); reflexivity). rewrite T, str_eqb_lit. reflexivity. }
    constructor.
    - unfold attrs_kid. rewrite P, L; [|cbn; tauto|reflexivity|reflexivity]. unfold setup_attrs. destruct (u_options s), (u_setup s), (u_hf s); try reflexivity;
        unfold kid; cbn [app find]; rewrite HF by reflexivity; reflexivity.
    - unfold attrs_kid. rewrite P, L; [|cbn; tauto|reflexivity|reflexivity]. unfold option_attrs. destruct (u_options s), (u_setup s), (u_hf s); try reflexivity;
        unfold kid; cbn [app find]; rewrite HF by reflexivity; reflexivity.
    - unfold attrs_kid. rewrite P, L; [|cbn; tauto|reflexivity|reflexivity]. unfold hf_attrs. destruct (u_options s), (u_setup s), (u_hf s); try reflexivity;
        unfold kid; cbn [app find]; rewrite HT; reflexivity.
    - unfold kids_kid. rewrite P, L; [|cbn; tauto|reflexivity|reflexivity]. unfold hf_kids. destruct (u_options s), (u_setup s), (u_hf s); try reflexivity;
        unfold kid; cbn [app find]; rewrite HT; reflexivity.
    - rewrite P, L; [|cbn; tauto|reflexivity|reflexivity]. destruct (u_options s); reflexivity.
    - unfold fit_flag, kids_kid. rewrite K by (left; reflexivity).
      assert (Z : kid "sheetPr" (map node_of ([v] ++ page_xml num_text s)) = None).
      { rewrite map_app, (kid_tagged "sheetPr" "sheetViews"); [|constructor; [exact Tv|constructor]|reflexivity]. rewrite L.
        destruct (u_options s), (u_setup s), (u_hf s); try reflexivity; unfold kid; cbn [app find]; rewrite HF by reflexivity; reflexivity. }
      rewrite map_app, kid_app, Z. unfold sheet_pr_xml.
      match goal with |- context [if ?b then [] else _] => destruct b eqn:B1 end.
      + cbn [map]. assert (F : u_fit s = false) by (destruct (u_fit s); [|reflexivity]; rewrite !andb_false_r in B1; discriminate B1). rewrite F. reflexivity.
      + cbv zeta. destruct (u_fit s) eqn:F; [reflexivity|]. cbn [orb]. destruct (p_above x || p_left x || negb (plain_tab (u_tab s))); [|reflexivity].
        cbn [when app map]. match goal with |- context [node_of (WElem ?t ?l ?k)] => change (node_of (WElem t l k)) with (Elem t l (map node_of k)) end. rewrite kid_one. cbn [String.eqb Ascii.eqb Bool.eqb kids_of]. unfold attrs_kid. rewrite map_app.
        assert (T : kid "pageSetUpPr" (map node_of match u_tab s with CDefault => [] | _ => [WEmpty (lit "tabColor") (color_attributes (u_tab s))] end) = None) by (destruct (u_tab s); reflexivity).
        rewrite kid_app.
        replace (match u_tab s with CDefault => [] | _ => [WEmpty (lit "tabColor") (color_attributes (u_tab s))] end) with (match u_tab s with CDefault => [] | c => [WEmpty (lit "tabColor") (color_attributes c)] end) in T by (destruct (u_tab s); reflexivity).
        rewrite T. destruct (p_above x || p_left x); reflexivity.
  Qed.
  Lemma margins_after cs b calls s : setup_run m (set_u_selected (setup_new cs) b) calls = Some s ->
    [u_left s; u_right s; u_top s; u_bottom s; u_mheader s; u_mfooter s] = expected_margins calls.
  Proof.
    intros E. unfold expected_margins.
    rewrite (run_field _ _ m cs b calls s f_mleft E), (run_field _ _ m cs b calls s f_mright E), (run_field _ _ m cs b calls s f_mtop E), (run_field _ _ m cs b calls s f_mbottom E),
      (run_field _ _ m cs b calls s f_mheader E), (run_field _ _ m cs b calls s f_mfooter E). reflexivity.
  Qed.
  (** The expected settings but for the number of the first page. *)
  Definition without_first_page (p : fpage) : fpage :=
    {| g_margins := g_margins p; g_paper := g_paper p; g_down_first := g_down_first p; g_portrait := g_portrait p; g_scaling := g_scaling p;
       g_black_white := g_black_white p; g_draft := g_draft p; g_first_page := None; g_center_h := g_center_h p; g_center_v := g_center_v p;
       g_headings := g_headings p; g_gridlines := g_gridlines p; g_header := g_header p; g_footer := g_footer p;
       g_scale_with_doc := g_scale_with_doc p; g_align := g_align p |}.
  Lemma page_after cs b calls s : setup_run m (set_u_selected (setup_new cs) b) calls = Some s ->
    page_field num_text s = without_first_page (expected_page cs num_text calls).
  Proof.
    intros E. unfold page_field, expected_page, without_first_page. cbn [g_margins g_paper g_down_first g_portrait g_scaling g_black_white g_draft g_center_h g_center_v g_headings g_gridlines g_header g_footer g_scale_with_doc g_align].
    rewrite (margins_after cs b calls s E), (run_field _ _ m cs b calls s f_paper E), (run_field _ _ m cs b calls s f_down E), (run_field _ _ m cs b calls s f_portrait E),
      (run_field _ _ m cs b calls s f_scaling E), (run_field _ _ m cs b calls s f_bw E), (run_field _ _ m cs b calls s f_draft E), (run_field _ _ m cs b calls s f_center_h E),
      (run_field _ _ m cs b calls s f_center_v E), (run_field _ _ m cs b calls s f_headings E), (run_field _ _ m cs b calls s f_print_grid E),
      (run_field _ _ m cs b calls s f_scale_doc E), (run_field _ _ m cs b calls s f_align E).
    pose proof (run_field _ _ m cs b calls s f_header E) as H. pose proof (run_field _ _ m cs b calls s f_footer E) as F. cbv beta in H, F. rewrite H, F.
    change (u_header (set_u_selected (setup_new cs) b)) with (@nil N). change (u_footer (set_u_selected (setup_new cs) b)) with (@nil N).
    assert (Z : hf_expand [] = []) by (rewrite hf_shorten; reflexivity). rewrite Z. reflexivity.
  Qed.

  (** C60 for worksheets and chart sheets: after any calls the print settings in the
      part are the expected ones, but for the number of the first page. *)
  Theorem C60_page_setup_partial calls selected : Forall call_texts calls ->
    exists s, setup_run m (set_u_selected (setup_new false) selected) calls = Some s /\
    forall i, n_setup i = s -> others_ok i -> both_extensions i = false ->
      exists text root, worksheet_text num_text m i = Some text /\ read_document text = Some root /\
        read_page false root = Some (without_first_page (expected_page false num_text calls)).
  Proof.
    intros F. destruct (run_total m calls (set_u_selected (setup_new false) selected)) as [s E]. exists s. split; [exact E|]. intros i Hi O B.
    assert (S : sections_ok i) by (split; [rewrite Hi; exact (run_texts m calls F _ s (start_ok false selected) E)|exact O]).
    destruct (worksheet_kids num_text m plain_numbers i S B) as (text & root & v & Et & R & Ev & K). exists text, root. split; [exact Et|]. split; [exact R|].
    rewrite <- (page_after false selected calls s E). destruct (views_ok m false _ (proj1 S)) as (_ & _ & v' & Ev' & _ & Tv & _). assert (v' = v) by congruence. subst v'.
    rewrite Hi in *. apply (page_reads num_text false (n_pr i)); [exact (run_texts m calls F _ s (start_ok false selected) E)| |].
    - exact (run_keeps m (quiet false) (fun s o => step_quiet false m s o) calls _ s (start_quiet false selected) E).
    - apply (kids_page _ _ v); [exact (k_pr i O)|exact Tv|exact K].
  Qed.
  Theorem C60_chartsheet_page_setup_partial calls selected : Forall call_texts calls ->
    exists s, setup_run m (set_u_selected (setup_new true) selected) calls = Some s /\
    forall i, n_setup i = s -> extra_ok (n_pr i) -> section_ok "sheetProtection" (n_protection i) -> section_ok "protectedRanges" (n_ranges i) ->
      exists text root, chartsheet_text num_text m i = Some text /\ read_document text = Some root /\
        read_page true root = Some (without_first_page (expected_page true num_text calls)).
  Proof.
    intros F. destruct (run_total m calls (set_u_selected (setup_new true) selected)) as [s E]. exists s. split; [exact E|]. intros i Hi X P R.
    assert (S : setup_ok (n_setup i)) by (rewrite Hi; exact (run_texts m calls F _ s (start_ok true selected) E)).
    destruct (chartsheet_reads num_text m plain_numbers i S X P R) as (text & v & a & c & Et & Ev & Tv & A & C & Rd). exists text. eexists. split; [exact Et|]. split; [exact Rd|].
    rewrite <- (page_after true selected calls s E). rewrite Hi in *. apply (page_reads num_text true (n_pr i)); [exact S| |].
    - exact (run_keeps m (quiet true) (fun s o => step_quiet true m s o) calls _ s (start_quiet true selected) E).
    - apply (kids_page _ _ v); [exact X|exact Tv|]. intros k I. cbn [kids_of].
      assert (Y : forall t, existsb (String.eqb t) setup_tags = false -> String.eqb t k = false).
      { intros t Q. destruct (String.eqb t k) eqn:W; [|reflexivity]. apply String.eqb_eq in W. subst t.
        assert (existsb (String.eqb k) setup_tags = true) by (apply existsb_exists; exists k; split; [exact I|apply String.eqb_refl]). congruence. }
      rewrite !map_app, !kid_app. cbn [map].
      rewrite (kid_other k (map node_of (n_protection i))) by (apply (tagged_other k "sheetProtection"); [apply P|apply Y; reflexivity]).
      rewrite (kid_other k (map node_of (n_ranges i))) by (apply (tagged_other k "protectedRanges"); [apply R|apply Y; reflexivity]).
      rewrite (kid_other k (map node_of a)) by (apply (tagged_other k "drawing"); [apply A|apply Y; reflexivity]).
      rewrite (kid_other k (map node_of c)) by (apply (tagged_other k "legacyDrawingHF"); [apply C|apply Y; reflexivity]).
      destruct (kid k (map node_of (sheet_pr_xml (n_pr i) s))); [reflexivity|]. destruct (kid k [node_of v]); [reflexivity|].
      destruct (kid k (map node_of (page_xml num_text s))); reflexivity.
  Qed.
  (** The number of the first page is never in the part: the property fails for
      every history that ends with one. *)
  Theorem C60_first_page_number_refuted calls selected n : Forall call_texts calls -> 0 < n ->
    exists s, setup_run m (set_u_selected (setup_new false) selected) (calls ++ [UFirstPage n]) = Some s /\
    g_first_page (expected_page false num_text (calls ++ [UFirstPage n])) = Some n /\
    forall i, n_setup i = s -> others_ok i -> both_extensions i = false ->
      exists text root p, worksheet_text num_text m i = Some text /\ read_document text = Some root /\ read_page false root = Some p /\ g_first_page p = None.
  Proof.
    intros F N. destruct (C60_page_setup_partial (calls ++ [UFirstPage n]) selected) as (s & E & H).
    { apply Forall_app. split; [exact F|]. constructor; [exact I|constructor]. }
    exists s. split; [exact E|]. split.
    - cbn [expected_page g_first_page]. unfold latest. rewrite fold_left_app. cbn [fold_left of_first_page]. destruct (N.eqb_spec n 0); [lia|reflexivity].
    - intros i Hi O B. destruct (H i Hi O B) as (text & root & Et & R & P). exists text, root. eexists. split; [exact Et|]. split; [exact R|]. split; [exact P|reflexivity].
  Qed.
End Page.
Example C60_history : let calls := [UPaper 9; ULandscape; UFit 1 0; UHeader (lit "&L&[Page]/&[Pages]"); UScaleDoc false; UHeadings true; UScale 500; UCenterH true; UCenterH false] in
  Forall call_texts calls /\ let p := expected_page false (fun _ => lit "0.7") calls in
  g_scaling p = Pages 1 0 /\ g_paper p = 9 /\ g_portrait p = false /\ g_header p = lit "&L&P/&N" /\ g_headings p = true /\ g_center_h p = false /\ g_scale_with_doc p = false.
Proof. split; [repeat constructor|]. repeat split. Qed.
Print Assumptions C59_sheet_view_partial.
Print Assumptions C60_page_setup_partial.
