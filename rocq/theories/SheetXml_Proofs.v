(** The text of <sheetData> is the text of a tree of elements. *)
From Verif Require Import Base SMap F64 Fmt_Model Xml_Model Xml_Spec Xml_Proofs Xml_Read Xml_Read_Proofs Xml_Tree
  Sst_Model Ref_Model Ref_Spec Ref_Proofs Cells_Model Cells_Spec Rich_Model Rich_Proofs SheetXml_Model SheetXml_Spec.

(** ** Text that needs no escaping *)
Lemma escape_string_id h s : (forall c, In c s -> h c = None) -> escape_string h s = s.
Proof.
  intros H. rewrite escape_string_chars. induction s as [|c s IH]; [reflexivity|]. cbn [escape_chars].
  rewrite (H c (or_introl eq_refl)), IH; [reflexivity|]. intros; apply H; right; assumption.
Qed.
(** Letters, digits and ":.+-". *)
Definition simple (c : char) : bool :=
  is_ascii_upper c || is_ascii_lower c || is_ascii_digit c || (c =? 58) || (c =? 46) || (c =? 43) || (c =? 45).
Lemma simple_attr c : simple c = true -> attr_char c = true.
Proof. unfold simple, is_ascii_upper, is_ascii_lower, is_ascii_digit, attr_char, xml_char. lia. Qed.
Lemma simple_html c : simple c = true -> match_attribute_html_char c = None.
Proof.
  unfold simple, is_ascii_upper, is_ascii_lower, is_ascii_digit. intros H. unfold match_attribute_html_char.
  destruct (N.eqb_spec c 38); [subst; discriminate|]. destruct (N.eqb_spec c 34); [subst; discriminate|].
  destruct (N.eqb_spec c 60); [subst; discriminate|]. destruct (N.eqb_spec c 62); [subst; discriminate|].
  destruct (N.eqb_spec c 10); [subst; discriminate|]. reflexivity.
Qed.
Lemma simple_xml c : simple c = true -> match_xml_char c = None.
Proof.
  unfold simple, is_ascii_upper, is_ascii_lower, is_ascii_digit. intros H. unfold match_xml_char.
  destruct (N.eqb_spec c 38); [subst; discriminate|]. destruct (N.eqb_spec c 60); [subst; discriminate|].
  destruct (N.eqb_spec c 62); [subst; discriminate|]. destruct (N.ltb_spec c 32); [lia|]. reflexivity.
Qed.
Lemma simple_writable c : simple c = true -> writable c = true.
Proof. unfold simple, is_ascii_upper, is_ascii_lower, is_ascii_digit, writable, is_scalar. lia. Qed.
Lemma esc_attr_simple s : forallb simple s = true -> escape_attributes s = s.
Proof. intros H. apply escape_string_id. intros c Hc. rewrite forallb_forall in H. apply simple_html. auto. Qed.
Lemma esc_data_simple s : forallb simple s = true -> escape_xml_data s = s.
Proof. intros H. apply escape_string_id. intros c Hc. rewrite forallb_forall in H. apply simple_xml. auto. Qed.
Lemma simple_attrs s : forallb simple s = true -> forallb attr_char s = true.
Proof. intros H. apply forallb_forall. intros c Hc. rewrite forallb_forall in H. apply simple_attr. auto. Qed.
Lemma simple_writables s : forallb simple s = true -> forallb writable s = true.
Proof. intros H. apply forallb_forall. intros c Hc. rewrite forallb_forall in H. apply simple_writable. auto. Qed.
Lemma digits_simple s : forallb is_ascii_digit s = true -> forallb simple s = true.
Proof. intros H. apply forallb_forall. intros c Hc. rewrite forallb_forall in H. apply H in Hc. unfold simple. rewrite Hc. rewrite !orb_true_r. reflexivity. Qed.
Lemma upper_simple s : forallb is_ascii_upper s = true -> forallb simple s = true.
Proof. intros H. apply forallb_forall. intros c Hc. rewrite forallb_forall in H. apply H in Hc. unfold simple. rewrite Hc. reflexivity. Qed.
Lemma dec_simple n : forallb simple (dec n) = true.
Proof. apply digits_simple. apply dec_spec. Qed.

(** ** The elements *)
Definition style_attr (xf : N) : list (str * str) := when (0 <? xf) [(lit "s", dec xf)].
Definition res_attr (r : str) : list (str * str) :=
  if negb (parse_f64_ok r) then
    if existsb (str_eqb r) error_codes then [(lit "t", lit "e")]
    else if str_eqb r (lit "TRUE") || str_eqb r (lit "FALSE") then [(lit "t", lit "b")] else [(lit "t", lit "str")]
  else [].
Definition res_value (r : str) : str :=
  if str_eqb r (lit "TRUE") then lit "1" else if str_eqb r (lit "FALSE") then lit "0" else r.

  Lemma plain_ctl r : plain_text r -> ctl r = r.
  Proof.
    intros (_ & H & _). unfold ctl. induction r as [|c r IH]; [reflexivity|]. cbn [flat_map].
    rewrite IH by (intros; apply H; right; assumption).
    destruct (H c (or_introl eq_refl)) as [A|[->| ->]]; try reflexivity.
    unfold is_escaped_control. destruct (N.ltb_spec c 32); [lia|]. reflexivity.
  Qed.
  Lemma storable_writable s : storable s -> forallb writable s = true.
  Proof.
    intros H. apply forallb_forall. intros c Hc. destruct (H c Hc) as (A & B & C). unfold writable. rewrite A.
    destruct (N.eqb_spec c 0xFFFE); [contradiction|]. destruct (N.eqb_spec c 0xFFFF); [contradiction|]. reflexivity.
  Qed.
  Lemma res_escape r k : plain_text r -> parse_text k = Some k -> escape_xml_data k = k -> str_eqb (escape_xml_data r) k = str_eqb r k.
  Proof.
    intros P Pk Ek. destruct (str_eqb_spec r k) as [->|Hne]; [rewrite Ek; apply str_eqb_refl|].
    destruct (str_eqb_spec (escape_xml_data r) k) as [E|]; [|reflexivity]. exfalso. apply Hne.
    assert (A : parse_text (escape_xml_data r) = Some (ctl r)).
    { apply parse_escape_xml_data. apply forallb_forall. intros c Hc. apply writable_cases.
      pose proof (storable_writable r (proj1 P)) as Hw. rewrite forallb_forall in Hw. auto. }
    rewrite E, Pk, plain_ctl in A by assumption. congruence.
  Qed.
  Lemma result_text_eq r : plain_text r -> SheetXml_Model.result_text r = escape_xml_data (res_value r).
  Proof.
    intros P. unfold SheetXml_Model.result_text, res_value.
    rewrite (res_escape r (lit "TRUE") P eq_refl eq_refl).
    destruct (str_eqb r (lit "TRUE")); [reflexivity|].
    rewrite (res_escape r (lit "FALSE") P eq_refl eq_refl).
    destruct (str_eqb r (lit "FALSE")); reflexivity.
  Qed.
  Lemma wa_simple k v : forallb simple v = true -> write_attribute (k, v) = lit " " ++ k ++ lit "=""" ++ v ++ lit """".
  Proof. intros H. unfold write_attribute. cbn [fst snd]. rewrite esc_attr_simple by assumption. reflexivity. Qed.
  Lemma style_text xf : flat_map write_attribute (style_attr xf) = style xf.
  Proof.
    unfold style_attr, style. destruct (0 <? xf); [|reflexivity]. cbn [when flat_map].
    rewrite wa_simple by apply dec_simple. rewrite app_nil_r. reflexivity.
  Qed.
  Lemma res_text r : flat_map write_attribute (res_attr r) = result_type r.
  Proof.
    unfold res_attr, result_type. destruct (negb _); [|reflexivity]. destruct (existsb _ _); [reflexivity|]. destruct (_ || _); reflexivity.
  Qed.

Section W.
  Variable num_text : f64 -> str.
  Variable m : ovf.
  Variable image_id : N -> N.
  Hypothesis num_simple : forall x, forallb simple (num_text x) = true.

  Definition c_elem (ref : str) (xf : N) (extra : list (str * str)) (kids : list wx) : wx :=
    WElem (lit "c") ((lit "r", ref) :: style_attr xf ++ extra) kids.
  Definition v_elem (t : str) : wx := WData (lit "v") t [].
  Definition t_elem (s : str) : wx :=
    WData (lit "t") s (if ws_edges s then [(lit "xml:space", lit "preserve")] else []).
  Definition cell_wx (ref : str) (c : cell) (xf : N) : list wx :=
    match c with
    | CNumber x | CDateTime x => [c_elem ref xf [] [v_elem (num_text x)]]
    | CString _ (Some i) | CRich _ _ (Some i) => [c_elem ref xf [(lit "t", lit "s")] [v_elem (dec i)]]
    | CString _ None | CRich _ _ None => []
    | CInline s => [c_elem ref xf [(lit "t", lit "inlineStr")]
                      [WElem (lit "is") [] [WData (lit "t") (esc s) (if ws_edges s then [(lit "xml:space", lit "preserve")] else [])]]]
    | CFormula f r => [c_elem ref xf (res_attr r) [WData (lit "f") f []; v_elem (res_value r)]]
    | CArray f r d g => [c_elem ref xf (when d [(lit "cm", lit "1")] ++ res_attr r)
                           [WData (lit "f") f [(lit "t", lit "array"); (lit "ref", g)]; v_elem (res_value r)]]
    | CBlank => when (0 <? xf) [WEmpty (lit "c") ((lit "r", ref) :: style_attr xf)]
    | CBool b => [c_elem ref xf [(lit "t", lit "b")] [v_elem (dec (if b then 1 else 0))]]
    | CError n => [c_elem ref xf [(lit "t", lit "e"); (lit "vm", dec (image_id n))] [v_elem (lit "#VALUE!")]]
    end.

  (** What is needed of a cell for its text to be that of [cell_wx]. *)
  Definition cell_text_ok (c : cell) : Prop :=
    match c with
    | CFormula f r => forallb writable f = true /\ plain_text r
    | CArray f r _ g => forallb writable f = true /\ plain_text r /\ forallb simple g = true
    | CInline s => forallb writable s = true
    | _ => True
    end.

  Lemma v_text t : write_wx (v_elem t) = lit "<v>" ++ escape_xml_data t ++ lit "</v>". Proof. reflexivity. Qed.
  Lemma c_text ref xf extra kids : forallb simple ref = true ->
    write_wx (c_elem ref xf extra kids) =
    lit "<c r=""" ++ ref ++ lit """" ++ style xf ++ flat_map write_attribute extra ++ lit ">" ++ flat_map write_wx kids ++ lit "</c>".
  Proof.
    intros H. unfold c_elem. cbn [write_wx]. unfold xml_start_tag, xml_end_tag. cbn [flat_map].
    rewrite wa_simple by assumption. rewrite flat_map_app, style_text. rewrite <- !app_assoc. reflexivity.
  Qed.
  Lemma write_cell_wx row col c xf ref : col_name m col = Some ref -> add32 m row 1 = Some (row + 1) ->
    forallb simple ref = true -> cell_text_ok c ->
    write_cell num_text m image_id row (col, c, xf) = Some (flat_map write_wx (cell_wx (ref ++ dec (row + 1)) c xf)).
  Proof.
    intros E A R K. unfold write_cell. rewrite E. cbn [obind]. rewrite A. cbn [obind].
    assert (R2 : forallb simple (ref ++ dec (row + 1)) = true) by (rewrite forallb_app, R, dec_simple; reflexivity).
    revert R2. generalize (ref ++ dec (row + 1)). clear ref E A R. intros ref R.
    assert (S : forall xf, style xf = if 0 <? xf then lit " s=""" ++ dec xf ++ lit """" else []) by reflexivity.
    destruct c as [|n|s [i|]|x|b|f r|x|s raw [i|]|s|f r d g]; cbn [cell_wx cell_text_ok] in *; cbn [flat_map]; f_equal; rewrite ?app_nil_r.
    - unfold write_blank_cell. destruct (0 <? xf) eqn:Ex; [|reflexivity]. cbn [when flat_map write_wx]. rewrite app_nil_r.
      unfold xml_empty_tag. cbn [flat_map]. rewrite wa_simple by assumption. rewrite style_text, S, Ex.
      cbn [lit]. rewrite <- !app_assoc. reflexivity.
    - rewrite c_text by assumption. cbn [flat_map]. rewrite v_text. rewrite wa_simple by reflexivity. rewrite wa_simple by apply dec_simple.
      unfold write_error_cell. rewrite S. destruct (0 <? xf); rewrite ?app_nil_r, <- ?app_assoc; reflexivity.
    - rewrite c_text by assumption. cbn [flat_map]. rewrite v_text, esc_data_simple by apply dec_simple. rewrite wa_simple by reflexivity.
      unfold write_string_cell. rewrite S. destruct (0 <? xf); rewrite ?app_nil_r, <- ?app_assoc; reflexivity.
    - rewrite c_text by assumption. cbn [flat_map]. rewrite v_text, esc_data_simple by auto.
      unfold write_number_cell. rewrite S. destruct (0 <? xf); rewrite ?app_nil_r, <- ?app_assoc; reflexivity.
    - rewrite c_text by assumption. cbn [flat_map]. rewrite v_text, esc_data_simple by apply dec_simple. rewrite wa_simple by reflexivity.
      unfold write_boolean_cell. rewrite S. destruct (0 <? xf); rewrite ?app_nil_r, <- ?app_assoc; reflexivity.
    - destruct K as [K1 K2]. rewrite c_text by assumption. cbn [flat_map]. rewrite v_text, res_text, <- result_text_eq by assumption.
      unfold write_formula_cell. cbn [write_wx]. unfold xml_data_element. cbn [flat_map]. rewrite ?app_nil_r, <- ?app_assoc. reflexivity.
    - rewrite c_text by assumption. cbn [flat_map]. rewrite v_text, esc_data_simple by auto.
      unfold write_number_cell. rewrite S. destruct (0 <? xf); rewrite ?app_nil_r, <- ?app_assoc; reflexivity.
    - rewrite c_text by assumption. cbn [flat_map]. rewrite v_text, esc_data_simple by apply dec_simple. rewrite wa_simple by reflexivity.
      unfold write_string_cell. rewrite S. destruct (0 <? xf); rewrite ?app_nil_r, <- ?app_assoc; reflexivity.
    - unfold write_inline_string_cell. rewrite escape_xml_escapes_esc. cbn [obind]. f_equal.
      rewrite c_text by assumption. cbn [flat_map write_wx]. unfold xml_start_tag, xml_data_element. cbn [flat_map]. rewrite wa_simple by reflexivity.
      rewrite S. destruct (ws_edges s); cbn [flat_map]; rewrite ?wa_simple by reflexivity;
        destruct (0 <? xf); rewrite ?app_nil_r, <- ?app_assoc; reflexivity.
    - destruct K as (K1 & K2 & K3). rewrite c_text by assumption. cbn [flat_map]. rewrite v_text, flat_map_app, res_text, <- result_text_eq by assumption.
      unfold write_array_formula_cell. cbn [write_wx]. unfold xml_data_element. cbn [flat_map]. rewrite wa_simple by reflexivity. rewrite wa_simple by assumption.
      destruct d; rewrite ?app_nil_r, <- ?app_assoc; reflexivity.
  Qed.
End W.
