(** Data validations: what the builder builds and what the writer writes. *)
From Verif Require Import Base F64 Ref_Model Ref_Spec Xml_Model Xml_Spec Xml_Proofs Xml_Read Xml_Read_Proofs Xml_Tree Rich_Model Rich_Proofs
  Cells_Model SheetXml_Spec SheetXml_Proofs SheetXml_Proofs3 Doc_Spec Url_Model Formula_Model Doc_Model Props_Doc View_Model View_Spec Setup_Spec Tag_Proofs Part_Proofs StrMap DV_Model DV_Spec.

Lemma doubled_eq s : replace_char 34 [34; 34] s = doubled s. Proof. reflexivity. Qed.
Lemma joined_eq l : list_text l = joined l.
Proof.
  unfold list_text, joined. destruct l as [|s l]; [reflexivity|]. cbn [map]. revert s. induction l as [|t l IH]; intros s; cbn [map join_commas flat_map]; [rewrite app_nil_r; reflexivity|].
  change (replace_char 34 [34; 34] s ++ 44 :: join_commas (replace_char 34 [34; 34] t :: map (replace_char 34 [34; 34]) l) = doubled s ++ 44 :: doubled t ++ flat_map (fun t0 => 44 :: doubled t0) l).
  rewrite IH. reflexivity.
Qed.
Lemma multi_eq s : replace_char 44 [32] (replace_char 36 [] s) = map (fun c => if c =? 44 then 32 else c) (filter (fun c => negb (c =? 36)) s).
Proof.
  unfold replace_char. induction s as [|c s IH]; [reflexivity|]. cbn [flat_map filter]. destruct (c =? 36) eqn:E; cbn [negb app map]; [exact IH|].
  cbn [flat_map]. rewrite IH. destruct (c =? 44); reflexivity.
Qed.
Lemma attr_text_ok s : attr_text s -> attr_ok s.
Proof.
  intros H. unfold attr_ok. apply forallb_forall. intros c Hc. destruct (H c Hc) as (A & B & C). unfold attr_char. rewrite A.
  destruct (N.eqb_spec c 9); [congruence|]. destruct (N.eqb_spec c 13); [congruence|]. reflexivity.
Qed.

Section DV.
  Variable num_text : f64 -> str.
  Hypothesis plain_numbers : forall x, forallb simple (num_text x) = true.
  Notation stored := (fun s => fst (formula_new s)).
  Notation step := (dv_step num_text).
  Notation build := (dv_build num_text).

  Lemma step_none d o : step d o = None <-> too_long o = true.
  Proof.
    destruct o; cbn [dv_step too_long]; try (split; discriminate); unfold nchars; rewrite ?joined_eq; cbv zeta;
      match goal with |- context [if ?b then _ else _] => destruct b; split; congruence end.
  Qed.
  Lemma build_none ops : forall d, build d ops = None <-> existsb too_long ops = true.
  Proof.
    induction ops as [|o r IH]; intros d; [cbn; split; discriminate|]. cbn [dv_build existsb]. destruct (step d o) as [d'|] eqn:E.
    - cbn [obind]. rewrite IH. assert (T : too_long o = false). { destruct (too_long o) eqn:T; [|reflexivity]. apply (step_none d) in T. congruence. } rewrite T. reflexivity.
    - cbn [obind]. apply step_none in E. rewrite E. cbn [orb]. tauto.
  Qed.
  Lemma build_some ops : existsb too_long ops = false -> exists d, build dv_new ops = Some d.
  Proof. intros H. destruct (build dv_new ops) as [d|] eqn:E; [exists d; reflexivity|]. apply build_none in E. congruence. Qed.

  (** Each field is given by the last call that sets it. *)
  Lemma build_field {A} (f : dv -> A) (g : dv_op -> option A) : (forall d o d', step d o = Some d' -> f d' = match g o with Some v => v | None => f d end) ->
    forall ops d d', build d ops = Some d' -> f d' = last_given g (f d) ops.
  Proof.
    intros H. induction ops as [|o r IH]; intros d d' E; [cbn in E; assert (d' = d) by congruence; subst; reflexivity|].
    cbn [dv_build] in E. destruct (step d o) as [e|] eqn:Es; [|discriminate]. cbn [obind] in E. rewrite (IH e d' E). rewrite (H d o e Es). reflexivity.
  Qed.
  Definition rule_of (d : dv) : restriction :=
    match dv_kind d with
    | TAny => ("none", "between", None, None)
    | k => (dv_type_name k,
            match dv_check d with
            | IEqualTo _ => "equal" | INotEqualTo _ => "notEqual" | IGreaterThan _ => "greaterThan" | IGreaterThanOrEqualTo _ => "greaterThanOrEqual"
            | ILessThan _ => "lessThan" | ILessThanOrEqualTo _ => "lessThanOrEqual" | INotBetween _ _ => "notBetween" | _ => "between"
            end,
            match dv_check d with
            | IEqualTo v | INotEqualTo v | IGreaterThan v | IGreaterThanOrEqualTo v | ILessThan v | ILessThanOrEqualTo v
            | IBetween v _ | INotBetween v _ | ICustomFormula v | IListSource v => Some v
            end,
            match dv_check d with IBetween _ w | INotBetween _ w => Some w | _ => None end)
    end%string.
  Ltac steps := intros d o d' E; destruct o; cbn [dv_step] in E; cbv zeta in E; try (destruct (_ <? _) in E; [discriminate E|]); try discriminate E;
    injection E as <-; try reflexivity.
  Lemma f_rule : forall d o d', step d o = Some d' -> rule_of d' = match of_rule num_text stored o with Some v => v | None => rule_of d end.
  Proof.
    steps.
    - destruct k, r; reflexivity.
    - cbn [of_rule]. unfold rule_of. cbn [dv_kind dv_set_rule dv_type_name dv_check]. rewrite joined_eq. reflexivity.
  Qed.
  Lemma f_style : forall d o d', step d o = Some d' -> dv_style_name (dv_alert d') = match of_style o with Some v => v | None => dv_style_name (dv_alert d) end.
  Proof. steps. destruct a; reflexivity. Qed.
  Lemma f_blank : forall d o d', step d o = Some d' -> dv_blank d' = match of_blank o with Some v => v | None => dv_blank d end. Proof. steps. Qed.
  Lemma f_dropdown : forall d o d', step d o = Some d' -> dv_dropdown d' = match of_dropdown o with Some v => v | None => dv_dropdown d end. Proof. steps. Qed.
  Lemma f_input : forall d o d', step d o = Some d' -> dv_input d' = match of_input o with Some v => v | None => dv_input d end. Proof. steps. Qed.
  Lemma f_error : forall d o d', step d o = Some d' -> dv_error d' = match of_error o with Some v => v | None => dv_error d end. Proof. steps. Qed.
  Lemma f_ititle : forall d o d', step d o = Some d' -> dv_input_title d' = match of_input_title o with Some v => v | None => dv_input_title d end. Proof. steps. Qed.
  Lemma f_imsg : forall d o d', step d o = Some d' -> dv_input_message d' = match of_input_message o with Some v => v | None => dv_input_message d end. Proof. steps. Qed.
  Lemma f_etitle : forall d o d', step d o = Some d' -> dv_error_title d' = match of_error_title o with Some v => v | None => dv_error_title d end. Proof. steps. Qed.
  Lemma f_emsg : forall d o d', step d o = Some d' -> dv_error_message d' = match of_error_message o with Some v => v | None => dv_error_message d end. Proof. steps. Qed.
  Lemma f_multi : forall d o d', step d o = Some d' -> dv_multi d' = match of_multi o with Some v => v | None => dv_multi d end.
  Proof. steps. cbn [of_multi dv_set_rest dv_multi]. apply multi_eq. Qed.

  (** The validation as the file must say it. *)
  Definition says (d : dv) : validation :=
    let '(type, operator, a, b) := rule_of d in
    {| q_type := lit type; q_operator := lit operator; q_formula1 := a; q_formula2 := b;
       q_style := if String.eqb type "none" then lit "stop" else lit (dv_style_name (dv_alert d));
       q_blank := dv_blank d; q_dropdown := dv_dropdown d; q_input := dv_input d; q_error := dv_error d;
       q_input_title := dv_input_title d; q_input_message := dv_input_message d;
       q_error_title := dv_error_title d; q_error_message := dv_error_message d |}.
  Lemma build_says ops d : build dv_new ops = Some d -> says d = asked num_text stored ops.
  Proof.
    intros E. unfold says, asked, asked_rule.
    rewrite (build_field _ _ f_rule _ _ _ E), (build_field _ _ f_style _ _ _ E), (build_field _ _ f_blank _ _ _ E), (build_field _ _ f_dropdown _ _ _ E), (build_field _ _ f_input _ _ _ E),
      (build_field _ _ f_error _ _ _ E), (build_field _ _ f_ititle _ _ _ E), (build_field _ _ f_imsg _ _ _ E), (build_field _ _ f_etitle _ _ _ E), (build_field _ _ f_emsg _ _ _ E).
    reflexivity.
  Qed.
  Lemma build_multi ops d : build dv_new ops = Some d -> dv_multi d = last_given of_multi [] ops.
  Proof. intros E. exact (build_field _ _ f_multi _ _ _ E). Qed.
  Lemma build_idle ops d : build dv_new ops = Some d -> is_invalid_any d = idle num_text stored ops.
  Proof.
    intros E. unfold idle. rewrite <- (build_says ops d E). unfold is_invalid_any, says, rule_of.
    destruct (dv_kind d); cbn [is_any dv_type_name q_type q_input_title q_input_message q_error_title q_error_message andb]; try reflexivity.
    change (str_eqb (lit "none") (lit "none")) with true. destruct (dv_input_title d), (dv_input_message d), (dv_error_title d), (dv_error_message d); reflexivity.
  Qed.

  (** Texts *)
  Record dv_ok (d : dv) : Prop := {
    ok_1 : match rule_of d with (_, _, a, b) => match a with Some t => doc_text t | None => True end /\ match b with Some t => doc_text t | None => True end end;
    ok_2 : attr_ok (dv_input_title d); ok_3 : attr_ok (dv_input_message d); ok_4 : attr_ok (dv_error_title d); ok_5 : attr_ok (dv_error_message d);
    ok_6 : attr_ok (dv_multi d) }.
  Lemma value_doc v : value_ok stored v -> doc_text (value_text num_text v).
  Proof. destruct v; cbn [value_ok value_text]; intros H; [apply int_doc|apply doc_simple, plain_numbers|apply doc_simple, plain_numbers|exact H]. Qed.
  Lemma doc_app a b : doc_text a -> doc_text b -> doc_text (a ++ b).
  Proof. unfold doc_text. intros A B. rewrite forallb_app, A, B. reflexivity. Qed.
  Lemma doubled_doc s : doc_text s -> doc_text (doubled s).
  Proof.
    unfold doc_text, doubled. induction s as [|c s IH]; [reflexivity|]. cbn [forallb flat_map]. intros H. apply andb_prop in H as [Hc H]. rewrite forallb_app, (IH H), andb_true_r.
    destruct (c =? 34); [reflexivity|]. cbn [forallb]. rewrite Hc. reflexivity.
  Qed.
  Lemma joined_doc l : Forall doc_text l -> doc_text (34 :: joined l ++ [34]).
  Proof.
    intros F. change (34 :: joined l ++ [34]) with ([34] ++ joined l ++ [34]). apply doc_app; [reflexivity|]. apply doc_app; [|reflexivity].
    unfold joined. destruct F as [|s l Hs F]; [reflexivity|]. apply doc_app; [apply doubled_doc; exact Hs|]. induction F as [|t l Ht F IH]; [reflexivity|]. cbn [flat_map].
    change (44 :: doubled t) with ([44] ++ doubled t). apply doc_app; [apply doc_app; [reflexivity|apply doubled_doc; exact Ht]|exact IH].
  Qed.
  Lemma multi_ok s : attr_text s -> attr_ok (replace_char 44 [32] (replace_char 36 [] s)).
  Proof.
    intros H. apply attr_text_ok in H. rewrite multi_eq. unfold attr_ok in *. rewrite forallb_forall in H. apply forallb_forall. intros c Hc. apply in_map_iff in Hc as (x & <- & Hx).
    apply filter_In in Hx as [Hx _]. destruct (x =? 44); [reflexivity|auto].
  Qed.
  Lemma step_ok d o d' : dv_ok d -> op_texts stored o -> step d o = Some d' -> dv_ok d'.
  Proof.
    intros [] T E. destruct o; cbn [dv_step] in E; cbv zeta in E; try (destruct (_ <? _) in E; [discriminate E|]); try discriminate E; injection E as <-;
      try (constructor; try assumption; cbn [dv_set_texts dv_set_rest dv_input_title dv_input_message dv_error_title dv_error_message dv_multi]; try assumption; first [apply attr_text_ok; exact T | apply multi_ok; exact T]).
    - constructor; try assumption. cbn [op_texts] in T. unfold rule_of. destruct k, r; cbn; repeat split; try (apply value_doc); tauto.
    - constructor; try assumption. unfold rule_of. cbn [dv_set_rule dv_kind dv_check]. rewrite joined_eq. split; [apply joined_doc; exact T|exact I].
    - constructor; try assumption. unfold rule_of. cbn [dv_set_rule dv_kind dv_check]. split; [exact T|exact I].
    - constructor; try assumption. unfold rule_of. cbn [dv_set_rule dv_kind dv_check]. split; [exact T|exact I].
    - constructor; try assumption. unfold rule_of. cbn [dv_set_rule dv_kind dv_check]. split; exact I.
  Qed.
  Lemma build_ok ops : Forall (op_texts stored) ops -> forall d d', dv_ok d -> build d ops = Some d' -> dv_ok d'.
  Proof.
    induction 1 as [|o r T F IH]; intros d d' D E; [cbn in E; assert (d' = d) by congruence; subst; exact D|].
    cbn [dv_build] in E. destruct (step d o) as [e|] eqn:Es; [|discriminate]. cbn [obind] in E. apply (IH e d'); [|exact E]. eapply step_ok; eassumption.
  Qed.
  Lemma new_ok : dv_ok dv_new.
  Proof. constructor; try reflexivity. split; exact I. Qed.

  (** One element *)
  Definition common_all (range : str) (d : dv) : list (str * str) :=
    [(lit "allowBlank", lit "1"); (lit "showDropDown", lit "1"); (lit "showInputMessage", lit "1"); (lit "showErrorMessage", lit "1");
     (lit "errorTitle", dv_error_title d); (lit "error", dv_error_message d); (lit "promptTitle", dv_input_title d); (lit "prompt", dv_input_message d); (lit "sqref", range)].
  Lemma common_sub range d : sub (dv_common_attrs range d) (common_all range d).
  Proof.
    unfold dv_common_attrs, common_all.
    change [(lit "allowBlank", lit "1"); (lit "showDropDown", lit "1"); (lit "showInputMessage", lit "1"); (lit "showErrorMessage", lit "1");
     (lit "errorTitle", dv_error_title d); (lit "error", dv_error_message d); (lit "promptTitle", dv_input_title d); (lit "prompt", dv_input_message d); (lit "sqref", range)]
    with ([(lit "allowBlank", lit "1")] ++ [(lit "showDropDown", lit "1")] ++ [(lit "showInputMessage", lit "1")] ++ [(lit "showErrorMessage", lit "1")] ++
     [(lit "errorTitle", dv_error_title d)] ++ [(lit "error", dv_error_message d)] ++ [(lit "promptTitle", dv_input_title d)] ++ [(lit "prompt", dv_input_message d)] ++ [(lit "sqref", range)]).
    repeat (apply sub_app; [apply sub_when|]). apply sub_refl.
  Qed.
  Lemma dv_xml_ok range d : attr_ok range -> dv_ok d -> wx_ok (dv_xml (range, d)) /\ tag_of (dv_xml (range, d)) = lit "dataValidation".
  Proof.
    intros R [A B C D E F]. unfold dv_xml. destruct (is_any (dv_kind d)) eqn:K.
    - split; [|reflexivity]. split; [reflexivity|]. eapply sub_attrs; [apply common_sub|]. unfold common_all. good.
    - split; [|reflexivity]. apply wx_ok_elem. split; [reflexivity|]. split.
      + eapply sub_attrs; [apply (sub_app _ [(lit "type", lit (dv_type_name (dv_kind d)))] _ ([(lit "errorStyle", lit (dv_style_name (dv_alert d)))] ++ [(lit "operator", lit (dv_operator (dv_check d)))] ++ common_all range d)); [apply sub_refl|]; apply sub_app; [apply sub_when|]; apply sub_app; [apply sub_when|apply common_sub]|].
        unfold common_all. cbn [app]. assert (T : attr_ok (lit (dv_type_name (dv_kind d)))) by (destruct (dv_kind d); reflexivity).
        assert (S : attr_ok (lit (dv_style_name (dv_alert d)))) by (destruct (dv_alert d); reflexivity). assert (O : attr_ok (lit (dv_operator (dv_check d)))) by (destruct (dv_check d); reflexivity). good.
      + unfold rule_of in A. destruct (dv_kind d); try discriminate K; (destruct (dv_check d); cbn [dv_formulas formula_xml]; destruct A as [A1 A2]; repeat (match goal with |- Forall _ (_ :: _) => constructor; [apply ok_data; [reflexivity|apply attrs_nil|assumption]|] end); constructor).
  Qed.
  Lemma attr_given k j v : attr k (given_attr j v) = if String.eqb j k && given v then Some v else None.
  Proof. unfold given_attr. rewrite attr_when, attr_cons, attr_nil. destruct (String.eqb j k), (given v); reflexivity. Qed.
  Lemma attr_yes k j b : attr k (yes b j) = if String.eqb j k && b then Some (lit "1") else None.
  Proof. unfold yes. rewrite attr_when, attr_cons, attr_nil. destruct (String.eqb j k), b; reflexivity. Qed.
  Lemma flag_if (b : bool) : match (if b then Some (lit "1") else None) with Some v => str_eqb v (lit "1") | None => false end = b. Proof. destruct b; reflexivity. Qed.
  Lemma given_if v : match (if given v then Some v else None) with Some w => w | None => [] end = v. Proof. destruct v; reflexivity. Qed.
  Lemma some_if {A} (b : bool) (x : A) o : match (if b then Some x else None) with Some v => Some v | None => o end = if b then Some x else o. Proof. destruct b; reflexivity. Qed.
  Lemma attr_common k range d : attr k (dv_common_attrs range d) =
    if String.eqb "allowBlank" k && dv_blank d then Some (lit "1") else if String.eqb "showDropDown" k && negb (dv_dropdown d) then Some (lit "1") else
    if String.eqb "showInputMessage" k && dv_input d then Some (lit "1") else if String.eqb "showErrorMessage" k && dv_error d then Some (lit "1") else
    if String.eqb "errorTitle" k && given (dv_error_title d) then Some (dv_error_title d) else if String.eqb "error" k && given (dv_error_message d) then Some (dv_error_message d) else
    if String.eqb "promptTitle" k && given (dv_input_title d) then Some (dv_input_title d) else if String.eqb "prompt" k && given (dv_input_message d) then Some (dv_input_message d) else
    if String.eqb "sqref" k then Some range else None.
  Proof. unfold dv_common_attrs. rewrite !attr_app, !attr_yes, !attr_given, attr_cons, attr_nil, !some_if. reflexivity. Qed.
  (** The attributes every validation has. *)
  Lemma common_reads range d :
    attr "sqref" (dv_common_attrs range d) = Some range /\ flag_of "allowBlank" (dv_common_attrs range d) = dv_blank d /\ flag_of "showDropDown" (dv_common_attrs range d) = negb (dv_dropdown d) /\
    flag_of "showInputMessage" (dv_common_attrs range d) = dv_input d /\ flag_of "showErrorMessage" (dv_common_attrs range d) = dv_error d /\
    attr_default "promptTitle" [] (dv_common_attrs range d) = dv_input_title d /\ attr_default "prompt" [] (dv_common_attrs range d) = dv_input_message d /\
    attr_default "errorTitle" [] (dv_common_attrs range d) = dv_error_title d /\ attr_default "error" [] (dv_common_attrs range d) = dv_error_message d /\
    attr "type" (dv_common_attrs range d) = None /\ attr "operator" (dv_common_attrs range d) = None /\ attr "errorStyle" (dv_common_attrs range d) = None.
  Proof.
    unfold attr_default, flag_of. repeat split; rewrite attr_common; cbn [String.eqb Ascii.eqb Bool.eqb andb]; first [reflexivity|apply flag_if|apply given_if].
  Qed.
  Lemma dv_reads range d : dv_ok d -> read_validation (node_of (dv_xml (range, d))) = Some (range, says d).
  Proof.
    intros [A _ _ _ _ _]. pose proof (common_reads range d) as (C1 & C2 & C3 & C4 & C5 & C6 & C7 & C8 & C9 & C10 & C11 & C12). unfold dv_xml. destruct (is_any (dv_kind d)) eqn:K.
    - unfold read_validation. cbn [node_of attrs_of kids_of is_elem]. rewrite str_eqb_refl, C1. cbn [bind opt_kid_text kid find]. rewrite C2, C3, C4, C5, C6, C7, C8, C9. unfold attr_default. rewrite C10, C11, C12.
      rewrite negb_involutive. unfold says, rule_of. destruct (dv_kind d); try discriminate K. reflexivity.
    - set (l := [(lit "type", lit (dv_type_name (dv_kind d)))] ++ when (negb (stops (dv_alert d))) [(lit "errorStyle", lit (dv_style_name (dv_alert d)))] ++ when (has_operator (dv_check d)) [(lit "operator", lit (dv_operator (dv_check d)))] ++ dv_common_attrs range d).
      assert (F : opt_kid_text "formula1" (map node_of (dv_formulas (dv_check d))) = Some (snd (fst (rule_of d))) /\ opt_kid_text "formula2" (map node_of (dv_formulas (dv_check d))) = Some (snd (rule_of d))).
      { unfold rule_of in *. destruct (dv_kind d); try discriminate K; cbn [fst snd]; (destruct (dv_check d); cbn [dv_formulas map]; destruct A as [A1 A2]; unfold formula_xml; rewrite !node_data by assumption; unfold opt_kid_text; rewrite !kid_one; cbn [String.eqb Ascii.eqb Bool.eqb]; rewrite ?text_leaf; split; reflexivity). }
      assert (L : forall k, existsb (String.eqb k) ["type"; "errorStyle"; "operator"]%string = false -> attr k l = attr k (dv_common_attrs range d)).
      { intros k Hk. cbn [existsb] in Hk. rewrite !(String.eqb_sym k) in Hk. apply orb_false_elim in Hk as [H1 Hk]. apply orb_false_elim in Hk as [H2 Hk]. apply orb_false_elim in Hk as [H3 _].
        unfold l. rewrite !attr_app, !attr_when, !attr_cons, !attr_nil, H1, H2, H3. destruct (negb (stops (dv_alert d))), (has_operator (dv_check d)); reflexivity. }
      unfold read_validation. cbn [node_of attrs_of kids_of is_elem]. fold l. rewrite str_eqb_refl. destruct F as [F1 F2]. rewrite F1, F2, (L "sqref"%string eq_refl), C1. cbn [bind].
      unfold flag_of in *. unfold attr_default in *. rewrite (L "allowBlank"%string eq_refl), (L "showDropDown"%string eq_refl), (L "showInputMessage"%string eq_refl), (L "showErrorMessage"%string eq_refl),
        (L "promptTitle"%string eq_refl), (L "prompt"%string eq_refl), (L "errorTitle"%string eq_refl), (L "error"%string eq_refl), C2, C3, C4, C5, C6, C7, C8, C9, negb_involutive. clear L F1 F2.
      assert (T : attr "type" l = Some (lit (dv_type_name (dv_kind d))) /\ match attr "operator" l with Some v => v | None => lit "between" end = lit (snd (fst (fst (rule_of d)))) /\
                  match attr "errorStyle" l with Some v => v | None => lit "stop" end = lit (dv_style_name (dv_alert d))).
      { unfold l. rewrite !attr_app, !attr_when, !attr_cons, !attr_nil, C11, C12. cbn [String.eqb Ascii.eqb Bool.eqb]. split; [reflexivity|].
        unfold rule_of. destruct (dv_kind d); try discriminate K; cbn [fst snd]; destruct (dv_alert d), (dv_check d); split; reflexivity. }
      destruct T as (T1 & T2 & T3). rewrite T1, T2, T3. unfold says, rule_of. destruct (dv_kind d); try discriminate K; reflexivity.
  Qed.
End DV.
