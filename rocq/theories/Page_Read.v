(** How the print settings of a sheet read back. *)
From Verif Require Import Base F64 Ref_Model Ref_Spec Ref_Proofs Xml_Model Xml_Spec Xml_Proofs Xml_Read Xml_Read_Proofs Xml_Tree Fmt_Model Rich_Model Rich_Proofs
  Cells_Model SheetXml_Spec SheetXml_Proofs SheetXml_Proofs3 Doc_Spec Props_Ref Props_Doc View_Model View_Spec Setup_Spec Part_Model Tag_Proofs Part_Proofs View_Proofs Props_Part View_Hist.

(** ** Printing *)
Lemma dec_default n d : match (if negb (n =? d) then Some (dec n) else None) with None => Some d | Some t => number_of t end = Some n.
Proof. destruct (N.eqb_spec n d) as [->|]; [reflexivity|]. cbn [negb]. apply dec_num. Qed.
Ltac lookups := unfold print_options_xml, page_setup_xml, header_footer_xml, page_margins_xml, yes, no; cbn [node_of attrs_of kids_of]; find_attr.
Section Page.
  Variable num_text : f64 -> str.
  Variable m : ovf.
  Hypothesis plain_numbers : forall x, forallb simple (num_text x) = true.

  (** The fields the four elements and <sheetPr> stand for. *)
  Definition page_field (s : setup) : fpage :=
    {| g_margins := map num_text [u_left s; u_right s; u_top s; u_bottom s; u_mheader s; u_mfooter s];
       g_paper := u_paper s; g_down_first := u_down s; g_portrait := u_portrait s; g_scaling := scaling_field s;
       g_black_white := u_bw s; g_draft := u_draft s; g_first_page := None; g_center_h := u_center_h s; g_center_v := u_center_v s;
       g_headings := u_headings s; g_gridlines := u_print_grid s; g_header := hf_expand (u_header s); g_footer := hf_expand (u_footer s);
       g_scale_with_doc := u_scale_doc s; g_align := u_align s |}.
  Definition setup_attrs (s : setup) : list (str * str) := if u_setup s then attrs_of (node_of (page_setup_xml s)) else [].
  Definition option_attrs (s : setup) : list (str * str) := if u_options s then attrs_of (node_of (print_options_xml s)) else [].
  Definition hf_attrs (s : setup) : list (str * str) := if u_hf s then attrs_of (node_of (header_footer_xml s)) else [].
  Definition hf_kids (s : setup) : list node := if u_hf s then kids_of (node_of (header_footer_xml s)) else [].
  (** What the reader sees in a list of children. *)
  Record page_kids (x : pr_extra) (s : setup) (kids : list node) : Prop := {
    pk_setup : attrs_kid "pageSetup" kids = setup_attrs s; pk_options : attrs_kid "printOptions" kids = option_attrs s;
    pk_hf : attrs_kid "headerFooter" kids = hf_attrs s; pk_hf_kids : kids_kid "headerFooter" kids = hf_kids s;
    pk_margins : kid "pageMargins" kids = Some (node_of (page_margins_xml num_text s));
    pk_fit : fit_flag kids = u_fit s }.
  Ltac looks := unfold setup_attrs, option_attrs, hf_attrs, flag_of, on_default, num_default.
  Lemma hf_attr s k : attr k (attrs_of (node_of (header_footer_xml s))) = attr k (no (u_scale_doc s) "scaleWithDoc" ++ no (u_align s) "alignWithMargins").
  Proof. unfold header_footer_xml. destruct (_ && _); reflexivity. Qed.
  Lemma page_reads cs x s root : setup_ok s -> quiet cs s -> page_kids x s (kids_of root) -> read_page cs root = Some (page_field s).
  Proof.
    intros S [Q1 Q2 Q3] []. unfold read_page. rewrite pk_setup0, pk_options0, pk_hf0, pk_hf_kids0, pk_margins0, pk_fit0. cbn [bind].
    assert (M : read_all (fun k => attr k (attrs_of (node_of (page_margins_xml num_text s)))) ["left"; "right"; "top"; "bottom"; "header"; "footer"]%string =
      Some (map num_text [u_left s; u_right s; u_top s; u_bottom s; u_mheader s; u_mfooter s])) by reflexivity.
    rewrite M. clear M. cbn [bind].
    assert (E1 : num_default "paperSize" 0 (setup_attrs s) = Some (u_paper s)).
    { looks. destruct (u_setup s) eqn:U; [|destruct (Q1 eq_refl) as [-> _]; reflexivity]. lookups. rewrite N.ltb_antisym. destruct (u_paper s) as [|q] eqn:P; [|cbn [N.leb N.compare negb]; apply dec_num].
      cbn [N.leb N.compare negb]. destruct (u_scale s =? 100), (u_fit s), (u_fit_w s =? 1), (u_fit_h s =? 1), (u_down s), (0 <? u_first_page s), (u_bw s), (u_draft s); reflexivity. }
    assert (E2 : order_of (setup_attrs s) = Some (u_down s)).
    { looks. destruct (u_setup s) eqn:U; [|destruct (Q1 eq_refl) as (_ & -> & _); reflexivity]. unfold order_of. lookups.
      destruct (0 <? u_paper s), (u_scale s =? 100), (u_fit s), (u_fit_w s =? 1), (u_fit_h s =? 1), (u_down s), (0 <? u_first_page s), (u_bw s), (u_draft s); reflexivity. }
    assert (E3 : orientation_of cs (setup_attrs s) = Some (u_portrait s)).
    { looks. destruct (u_setup s) eqn:U; [|destruct (Q1 eq_refl) as (_ & _ & -> & _); reflexivity]. unfold orientation_of. lookups.
      destruct (u_portrait s), (0 <? u_paper s), (u_scale s =? 100), (u_fit s), (u_fit_w s =? 1), (u_fit_h s =? 1), (u_down s); reflexivity. }
    assert (E4 : exists n, num_default "scale" 100 (setup_attrs s) = Some n /\ (u_fit s = false -> n = u_scale s)).
    { looks. destruct (u_setup s) eqn:U.
      - exists (u_scale s). split; [|reflexivity]. lookups. pose proof (dec_default (u_scale s) 100) as D.
        destruct (0 <? u_paper s), (u_scale s =? 100), (u_fit s), (u_fit_w s =? 1), (u_fit_h s =? 1), (u_down s), (0 <? u_first_page s), (u_bw s), (u_draft s); exact D.
      - exists 100. split; [reflexivity|]. intros F. destruct (Q1 eq_refl) as (_ & _ & _ & H & _). unfold scaling_field in H. rewrite F in H. congruence. }
    assert (E5 : exists w, num_default "fitToWidth" 1 (setup_attrs s) = Some w /\ (u_fit s = true -> w = u_fit_w s)).
    { looks. destruct (u_setup s) eqn:U.
      - exists (if u_fit s then u_fit_w s else 1). split; [|intros ->; reflexivity]. lookups. pose proof (dec_default (u_fit_w s) 1) as D.
        destruct (0 <? u_paper s), (u_scale s =? 100), (u_fit s), (u_fit_w s =? 1), (u_fit_h s =? 1), (u_down s), (0 <? u_first_page s), (u_bw s), (u_draft s); first [reflexivity|exact D].
      - exists 1. split; [reflexivity|]. intros F. destruct (Q1 eq_refl) as (_ & _ & _ & H & _). unfold scaling_field in H. rewrite F in H. discriminate. }
    assert (E6 : exists h, num_default "fitToHeight" 1 (setup_attrs s) = Some h /\ (u_fit s = true -> h = u_fit_h s)).
    { looks. destruct (u_setup s) eqn:U.
      - exists (if u_fit s then u_fit_h s else 1). split; [|intros ->; reflexivity]. lookups. pose proof (dec_default (u_fit_h s) 1) as D.
        destruct (0 <? u_paper s), (u_scale s =? 100), (u_fit s), (u_fit_w s =? 1), (u_fit_h s =? 1), (u_down s), (0 <? u_first_page s), (u_bw s), (u_draft s); first [reflexivity|exact D].
      - exists 1. split; [reflexivity|]. intros F. destruct (Q1 eq_refl) as (_ & _ & _ & H & _). unfold scaling_field in H. rewrite F in H. discriminate. }
    destruct E4 as (n & E4 & Hn), E5 as (w & E5 & Hw), E6 as (h & E6 & Hh).
    assert (E7 : first_page_of (setup_attrs s) = Some None).
    { unfold first_page_of, opt_number. assert (X : attr "firstPageNumber" (setup_attrs s) = None); [|rewrite X; destruct (flag_of _ _); reflexivity].
      looks. destruct (u_setup s); [|reflexivity]. lookups.
      destruct (0 <? u_paper s), (u_scale s =? 100), (u_fit s), (u_fit_w s =? 1), (u_fit_h s =? 1), (u_down s), (0 <? u_first_page s), (u_bw s), (u_draft s); reflexivity. }
    assert (E8 : flag_of "blackAndWhite" (setup_attrs s) = u_bw s /\ flag_of "draft" (setup_attrs s) = u_draft s).
    { looks. destruct (u_setup s) eqn:U; [|destruct (Q1 eq_refl) as (_ & _ & _ & _ & -> & ->); split; reflexivity]. lookups.
      destruct (0 <? u_paper s), (u_scale s =? 100), (u_fit s), (u_fit_w s =? 1), (u_fit_h s =? 1), (u_down s), (0 <? u_first_page s), (u_bw s), (u_draft s); split; reflexivity. }
    assert (E9 : flag_of "horizontalCentered" (option_attrs s) = u_center_h s /\ flag_of "verticalCentered" (option_attrs s) = u_center_v s /\
                 flag_of "headings" (option_attrs s) = u_headings s /\ flag_of "gridLines" (option_attrs s) = u_print_grid s).
    { looks. destruct (u_options s) eqn:U; [|destruct (Q2 eq_refl) as (-> & -> & -> & ->); repeat split; reflexivity]. lookups.
      destruct (u_center_h s), (u_center_v s), (u_headings s), (u_print_grid s); repeat split; reflexivity. }
    assert (E10 : on_default "scaleWithDoc" (hf_attrs s) = u_scale_doc s /\ on_default "alignWithMargins" (hf_attrs s) = u_align s).
    { looks. destruct (u_hf s) eqn:U; [|destruct (Q3 eq_refl) as (_ & _ & -> & ->); split; reflexivity]. rewrite !hf_attr. unfold no. find_attr. destruct (u_scale_doc s), (u_align s); split; reflexivity. }
    assert (E11 : prop "oddHeader" (Elem [] [] (hf_kids s)) = Some (hf_expand (u_header s)) /\ prop "oddFooter" (Elem [] [] (hf_kids s)) = Some (hf_expand (u_footer s))).
    { destruct S. assert (Z : hf_expand [] = []) by (rewrite hf_shorten; reflexivity). unfold hf_kids. destruct (u_hf s) eqn:U.
      2: { destruct (Q3 eq_refl) as (-> & -> & _ & _). rewrite Z. split; reflexivity. }
      unfold prop. cbn [kids_of]. unfold header_footer_xml. cbv zeta.
      destruct (u_header s) as [|hc hr] eqn:H1, (u_footer s) as [|fc fr] eqn:H2; cbn [given negb andb when app].
      - cbn [node_of kids_of]. rewrite Z. split; reflexivity.
      - cbn [node_of kids_of map]. fold (node_of (WData (lit "oddFooter") (hf_expand (fc :: fr)) [])). rewrite node_data by assumption. rewrite !kid_one. cbn [String.eqb Ascii.eqb Bool.eqb]. rewrite text_leaf, Z. split; reflexivity.
      - cbn [node_of kids_of map]. fold (node_of (WData (lit "oddHeader") (hf_expand (hc :: hr)) [])). rewrite node_data by assumption. rewrite !kid_one. cbn [String.eqb Ascii.eqb Bool.eqb]. rewrite text_leaf, Z. split; reflexivity.
      - cbn [node_of kids_of map]. fold (node_of (WData (lit "oddHeader") (hf_expand (hc :: hr)) [])). fold (node_of (WData (lit "oddFooter") (hf_expand (fc :: fr)) [])). rewrite !node_data by assumption.
        rewrite !kid_one. cbn [String.eqb Ascii.eqb Bool.eqb]. rewrite !text_leaf. split; reflexivity. }
    destruct E8 as [E8 E8'], E9 as (E9a & E9b & E9c & E9d), E10 as [E10 E10'], E11 as [E11 E11'].
    rewrite E1, E2, E3. cbn [bind]. rewrite E4. cbn [bind]. rewrite E5. cbn [bind]. rewrite E6. cbn [bind]. rewrite E7. cbn [bind]. rewrite E11, E11'. cbn [bind]. unfold page_field.
    rewrite E8, E8', E9a, E9b, E9c, E9d, E10, E10'. do 2 f_equal. unfold scaling_field. destruct (u_fit s); [rewrite Hw, Hh by reflexivity|rewrite Hn by reflexivity]; reflexivity.
  Qed.
End Page.
