(** Conditional formats: reading back one rule. *)
From Verif Require Import Base F64 Ref_Model Ref_Spec Xml_Model Xml_Spec Xml_Proofs Xml_Read Xml_Read_Proofs Xml_Tree Fmt_Model Rich_Model Rich_Proofs Props_Rich
  Cells_Model SheetXml_Spec SheetXml_Proofs SheetXml_Proofs3 Doc_Spec Url_Model Formula_Model Doc_Model Props_Doc View_Model View_Spec Setup_Spec Tag_Proofs Part_Proofs StrMap
  DV_Model DV_Spec DV_Proofs CF_Model CF_Spec CF_Build.

Definition color_ok (c : Color) : Prop := plain_color c /\ match c with CRGB n => n < 16777216 | _ => True end.
Lemma color_attr c : attr_ok (argb_hex_value c).
Proof.
  destruct c as [n|t s| | |n]; try reflexivity.
  - pose proof (color_attrs_good (CRGB n)) as H. cbn in H. destruct H as [_ H]. specialize (H _ (or_introl eq_refl)). apply H.
  - pose proof (color_attrs_good (CNamed n)) as H. cbn in H. destruct H as [_ H]. specialize (H _ (or_introl eq_refl)). apply H.
Qed.
Lemma color_rgb c : color_ok c -> rgb_of (argb_hex_value c) = Some (rgb c).
Proof.
  intros [P R]. destruct c as [n|t s| | |n]; try (exact (False_ind _ P)).
  - unfold argb_hex_value. cbn [rgb_hex_value]. change (lit "FF" ++ hex6 n) with (70 :: 70 :: hex6 n). cbn [rgb_of N.eqb Pos.eqb andb]. destruct (hex6_reads n R) as [L H]. rewrite L. exact H.
  - cbn in P. assert (In n [0;1;2;3;4;5;6;7;8;9;10;11;12;13;14;15]) as Q by (cbn; lia). cbn in Q. repeat destruct Q as [<-|Q]; [vm_compute; reflexivity..|destruct Q].
Qed.

(** What a built rule says *)
Definition cell_values (r : dv_rule str) : list str :=
  match r with
  | DEqualTo v | DNotEqualTo v | DLessThan v | DLessThanOrEqualTo v | DGreaterThan v | DGreaterThanOrEqualTo v => [v]
  | DBetween v w | DNotBetween v w => [v; w]
  end.
Definition top_details (r : top_rule) : list (string * str) :=
  match r with
  | Top n => [("rank"%string, dec n)] | Bottom n => [("bottom"%string, lit "1"); ("rank"%string, dec n)]
  | TopPercent n => [("percent"%string, lit "1"); ("rank"%string, dec n)] | BottomPercent n => [("percent"%string, lit "1"); ("bottom"%string, lit "1"); ("rank"%string, dec n)]
  end.
Definition scale_name (t : ctype) : bool := match t with TyAutomatic => false | _ => true end.
Definition shown (c : cf) (a id : str) : seen :=
  let plain type d f := {| e_type := lit type; e_style := cf_style c; e_stop := cf_stop c; e_details := d; e_formulas := f; e_body := SNone |} in
  let drawn type b := {| e_type := lit type; e_style := None; e_stop := cf_stop c; e_details := []; e_formulas := []; e_body := b |} in
  match cf_body c with
  | BCell (Some r) => plain "cellIs"%string [("operator"%string, lit (cell_operator r))] (cell_values r)
  | BCell None | BText None => plain ""%string [] []
  | BBlank inv => plain (if inv then "notContainsBlanks" else "containsBlanks")%string [] [lit "LEN(TRIM(" ++ a ++ lit (if inv then "))>0" else "))=0")]
  | BError inv => plain (if inv then "notContainsErrors" else "containsErrors")%string [] [if inv then lit "NOT(ISERROR(" ++ a ++ lit "))" else lit "ISERROR(" ++ a ++ lit ")"]
  | BDuplicate inv => plain (if inv then "uniqueValues" else "duplicateValues")%string [] []
  | BFormula s => plain "expression"%string [] [s]
  | BAverage r => plain "aboveAverage"%string (average_details r) []
  | BTop r => plain "top10"%string (top_details r) []
  | BText (Some r) => plain (text_type r) [("operator"%string, lit (text_operator r)); ("text"%string, rule_text r)] [text_formula a r]
  | BDate r => plain "timePeriod"%string [("timePeriod"%string, lit (date_period r))] [date_formula a r]
  | BScale2 s => drawn "colorScale"%string (SScale [scale_seen (sc_min s); scale_seen (sc_max s)] [rgb (sc_cmin s); rgb (sc_cmax s)])
  | BScale3 s => drawn "colorScale"%string (SScale [scale_seen (sc_min s); scale_seen (sc_mid s); scale_seen (sc_max s)] [rgb (sc_cmin s); rgb (sc_cmid s); rgb (sc_cmax s)])
  | BBar b => drawn "dataBar"%string (SBar (negb (ba_only b)) [bar_seen (cf_x14 c) false (ba_min b); bar_seen (cf_x14 c) true (ba_max b)] (rgb (ba_fill b)) (if cf_x14 c then Some id else None))
  | BIcons i => drawn "iconSet"%string (SIcons (lit (set_name (is_set i))) (negb (is_only i)) (is_reversed i) (map (fun x => icon_seen (want_of x)) (is_icons i)))
  end.
Definition bar_ok (b : bar) : Prop :=
  attr_ok (snd (ba_min b)) /\ attr_ok (snd (ba_max b)) /\ Forall color_ok [ba_fill b; ba_border b; ba_nfill b; ba_nborder b; ba_axis b].
Definition scale_ok (ps : list point) (cs : list Color) : Prop := Forall (fun p => scale_name (fst p) = true /\ attr_ok (snd p)) ps /\ Forall color_ok cs.
Definition body_ok (b : body) : Prop :=
  match b with
  | BCell (Some r) => Forall doc_text (cell_values r)
  | BFormula s => doc_text s
  | BText (Some r) => attr_ok (rule_text r)
  | BScale2 s => scale_ok [sc_min s; sc_max s] [sc_cmin s; sc_cmax s]
  | BScale3 s => scale_ok [sc_min s; sc_mid s; sc_max s] [sc_cmin s; sc_cmid s; sc_cmax s]
  | BBar b => bar_ok b
  | BIcons i => Forall (fun x => attr_ok (ic_value x)) (is_icons i)
  | _ => True
  end.
Lemma attr_doc s : attr_ok s -> doc_text s.
Proof.
  unfold attr_ok, doc_text. intros H. rewrite forallb_forall in H. apply forallb_forall. intros c Hc. specialize (H c Hc). unfold attr_char in H.
  apply andb_prop in H as [H C]. apply andb_prop in H as [H _]. rewrite H. exact C.
Qed.
Lemma rule_attrs_sub type dxf p stop : exists d, sub (rule_attrs type dxf p stop) ([(lit "type", lit type)] ++ [(lit "dxfId", dec d)] ++ [(lit "priority", dec p)] ++ [(lit "stopIfTrue", lit "1")]).
Proof.
  exists (match dxf with Some n => n | None => 0 end). unfold rule_attrs. apply sub_app; [apply sub_refl|]. apply sub_app; [destruct dxf; [apply sub_refl|apply sub_none]|]. apply sub_app; [apply sub_refl|]. apply sub_when.
Qed.
Lemma rule_reads type dxf p stop extra kids : attr "dxfId" extra = None -> attr "stopIfTrue" extra = None ->
  read_rule (Elem (lit "cfRule") (rule_attrs type dxf p stop ++ extra) kids) =
  bind (read_all text_of (all_named "formula" kids)) (fun f => bind (read_body kids) (fun b =>
    Some (p, {| e_type := lit type; e_style := dxf; e_stop := stop; e_details := details extra; e_formulas := f; e_body := b |}))).
Proof.
  intros D S. set (l := rule_attrs type dxf p stop ++ extra).
  assert (A : forall k, attr k l = if String.eqb "type" k then Some (lit type) else if String.eqb "dxfId" k && match dxf with Some _ => true | None => false end then option_map dec dxf else
    if String.eqb "priority" k then Some (dec p) else if String.eqb "stopIfTrue" k && stop then Some (lit "1") else attr k extra).
  { intros k. unfold l, rule_attrs. rewrite !attr_app, attr_yes, attr_cons, attr_nil, attr_cons, attr_nil. destruct (String.eqb "type" k); [reflexivity|].
    destruct dxf as [d|]; [rewrite attr_cons, attr_nil|rewrite attr_nil]; destruct (String.eqb "dxfId" k); cbn [andb option_map]; try reflexivity; destruct (String.eqb "priority" k); try reflexivity; destruct (String.eqb "stopIfTrue" k), stop; reflexivity. }
  unfold read_rule. cbn [attrs_of is_elem kids_of]. rewrite str_eqb_refl. rewrite (A "type"%string), (A "priority"%string), (A "dxfId"%string). cbn [String.eqb Ascii.eqb Bool.eqb andb bind]. rewrite number_of_dec. cbn [bind].
  replace (flag_of "stopIfTrue" l) with stop by (unfold flag_of; rewrite A; cbn [String.eqb Ascii.eqb Bool.eqb andb]; rewrite S; destruct stop; reflexivity).
  replace (details l) with (details extra) by (unfold details, detail_names; cbn [flat_map]; rewrite !A; cbn [String.eqb Ascii.eqb Bool.eqb andb]; reflexivity).
  destruct dxf as [d|]; cbn [option_map]; [rewrite number_of_dec|rewrite D]; reflexivity.
Qed.
(** Rules with formulas only *)
Definition formula_node (s : str) : node := Elem (lit "formula") [] (leaf s).
Lemma formula_nodes l : Forall doc_text l -> map node_of (map cf_formula l) = map formula_node l.
Proof. induction 1 as [|s l D F IH]; [reflexivity|]. cbn [map]. rewrite IH. unfold cf_formula. rewrite node_data by exact D. reflexivity. Qed.
Lemma formulas_read l : read_all text_of (all_named "formula" (map formula_node l)) = Some l /\ read_body (map formula_node l) = Some SNone.
Proof.
  split.
  - induction l as [|s l IH]; [reflexivity|]. unfold all_named in *. cbn [map filter]. unfold formula_node at 1. cbn [is_elem]. rewrite str_eqb_refl. cbn [read_all]. unfold formula_node at 1. rewrite text_leaf. cbn [bind]. rewrite IH. reflexivity.
  - unfold read_body. assert (K : forall k, String.eqb "formula" k = false -> kid k (map formula_node l) = None).
    { intros k E. apply kid_other. apply Forall_forall. intros n Hn. apply in_map_iff in Hn as (s & <- & _). cbn [formula_node is_elem]. rewrite str_eqb_lit. exact E. }
    rewrite !K by reflexivity. reflexivity.
Qed.
Lemma plain_reads type dxf p stop extra l : attr "dxfId" extra = None -> attr "stopIfTrue" extra = None -> Forall doc_text l ->
  read_rule (node_of (WElem (lit "cfRule") (rule_attrs type dxf p stop ++ extra) (map cf_formula l))) =
    Some (p, {| e_type := lit type; e_style := dxf; e_stop := stop; e_details := details extra; e_formulas := l; e_body := SNone |}).
Proof. intros D S F. cbn [node_of]. rewrite rule_reads by assumption. rewrite formula_nodes by exact F. destruct (formulas_read l) as [-> ->]. reflexivity. Qed.
Lemma bare_reads type dxf p stop extra : attr "dxfId" extra = None -> attr "stopIfTrue" extra = None ->
  read_rule (node_of (WEmpty (lit "cfRule") (rule_attrs type dxf p stop ++ extra))) =
    Some (p, {| e_type := lit type; e_style := dxf; e_stop := stop; e_details := details extra; e_formulas := []; e_body := SNone |}).
Proof. intros D S. cbn [node_of]. rewrite rule_reads by assumption. reflexivity. Qed.
Lemma drawn_reads type p stop kids b : all_named "formula" kids = [] -> read_body kids = Some b ->
  read_rule (Elem (lit "cfRule") (rule_attrs type None p stop) kids) =
    Some (p, {| e_type := lit type; e_style := None; e_stop := stop; e_details := []; e_formulas := []; e_body := b |}).
Proof. intros F B. rewrite <- (app_nil_r (rule_attrs type None p stop)). rewrite rule_reads by reflexivity. rewrite F. cbn [read_all bind]. rewrite B. reflexivity. Qed.

(** Drawn rules *)
Lemma point_reads p : scale_name (fst p) = true -> read_scale_point (node_of (scale_cfvo p)) = Some (scale_seen p).
Proof. destruct p as [[] v]; try discriminate; intros _; reflexivity. Qed.
Lemma color_reads_xml tag c : color_ok c -> read_color (node_of (color_xml tag c)) = Some (rgb c).
Proof. intros H. unfold read_color, color_xml. cbn [node_of attrs_of]. rewrite attr_cons. cbn [String.eqb Ascii.eqb Bool.eqb bind]. apply color_rgb. exact H. Qed.
Lemma bar_point_reads ext top p : read_bar_point (node_of (bar_cfvo ext top p)) = Some (bar_seen ext top p).
Proof. destruct p as [[] v]; destruct ext, top; reflexivity. Qed.
Lemma icon_point_reads i : read_icon_point (node_of (icon_cfvo i)) = Some (icon_seen (want_of i)).
Proof. destruct i as [s n no cu gr ty v]. destruct ty, gr; reflexivity. Qed.
Lemma named_all k j (f : wx -> Prop) l : Forall (fun x => tag_of x = lit j) l -> all_named k (map node_of l) = if String.eqb j k then map node_of l else [].
Proof.
  unfold all_named. induction 1 as [|x l H F IH]; [destruct (String.eqb j k); reflexivity|]. cbn [map filter]. rewrite is_elem_tag, H, str_eqb_lit, IH. destruct (String.eqb j k); reflexivity.
Qed.
Lemma until_attr c s : attr_ok s -> attr_ok (until c s).
Proof. unfold attr_ok. induction s as [|d s IH]; [reflexivity|]. cbn [until forallb]. intros H. apply andb_prop in H as [H1 H2]. destruct (d =? c); [reflexivity|]. cbn [forallb]. rewrite H1, IH by exact H2. reflexivity. Qed.
Lemma doc_lit_app s t : doc_text (lit s) -> doc_text t -> doc_text (lit s ++ t). Proof. apply doc_app. Qed.
Lemma text_formula_doc a r : doc_text a -> attr_ok (rule_text r) -> doc_text (text_formula a r).
Proof.
  intros A R. apply attr_doc in R. destruct r; cbn [text_formula rule_text] in *.
  1, 2: change (34 :: s ++ 34 :: lit "," ++ a ++ ?x) with ([34] ++ s ++ [34] ++ lit "," ++ a ++ x) || idtac.
  all: repeat first [assumption | reflexivity | apply dec_doc | apply doc_app | match goal with |- doc_text (?c :: ?l) => change (c :: l) with ([c] ++ l) end].
Qed.
Lemma joined_by_doc a l : doc_text a -> Forall (fun s => doc_text (lit s)) l -> doc_text (joined_by a l).
Proof. intros A. induction 1 as [|s l H F IH]; [reflexivity|]. cbn [joined_by]. destruct l; [exact H|]. apply doc_app; [exact H|]. apply doc_app; [exact A|exact IH]. Qed.
Lemma date_formula_doc a r : doc_text a -> doc_text (date_formula a r).
Proof. intros A. apply joined_by_doc; [exact A|]. destruct r; repeat (constructor; [reflexivity|]); constructor. Qed.
Lemma rule_attrs_good type dxf p stop extra : attr_ok (lit type) -> attrs_good extra -> forallb (fun k => match attr k extra with None => true | _ => false end) ["type"; "dxfId"; "priority"; "stopIfTrue"]%string = true ->
  attrs_good (rule_attrs type dxf p stop ++ extra).
Proof.
  intros T [N1 G] D. destruct (rule_attrs_sub type dxf p stop) as (d & S). eapply sub_attrs; [apply sub_app; [exact S|apply sub_refl]|].
  assert (H : attrs_good ([(lit "type", lit type)] ++ [(lit "dxfId", dec d)] ++ [(lit "priority", dec p)] ++ [(lit "stopIfTrue", lit "1")])) by good.
  destruct H as [N2 G2]. split.
  - rewrite map_app. assert (F : forall x, In x (map fst ([(lit "type", lit type)] ++ [(lit "dxfId", dec d)] ++ [(lit "priority", dec p)] ++ [(lit "stopIfTrue", lit "1")])) -> ~ In x (map fst extra)).
    { assert (Q : forall k, attr k extra = None -> ~ In (lit k) (map fst extra)).
      { intros k E Hin. unfold attr in E. destruct (find _ extra) eqn:Ef; [discriminate|]. apply in_map_iff in Hin as (q & Eq & Hq). apply (find_none _ _ Ef) in Hq. rewrite Eq, str_eqb_refl in Hq. discriminate. }
      cbn [forallb] in D. repeat (apply andb_prop in D as [? D]).
      cbn [app map fst In]. intros x [<-|[<-|[<-|[<-|[]]]]]; apply Q; match goal with H : match ?o with Some _ => false | None => true end = true |- ?o = None => destruct o; [discriminate|reflexivity] end. }
    clear - N1 N2 F. cbv beta in *. change (fun p : str * str => fst p) with (@fst str str) in *. revert F N2. generalize (map fst ([(lit "type", lit type)] ++ [(lit "dxfId", dec d)] ++ [(lit "priority", dec p)] ++ [(lit "stopIfTrue", lit "1")])). intros l F N2.
    induction N2 as [|x l H N2 IH]; [exact N1|]. cbn [app]. constructor; [rewrite in_app_iff; intros [Hx|Hx]; [exact (H Hx)|exact (F x (or_introl eq_refl) Hx)]|]. apply IH. intros y Hy. apply F. right. exact Hy.
  - intros q Hq. apply in_app_iff in Hq as [Hq|Hq]; auto.
Qed.
Lemma formulas_ok l : Forall doc_text l -> Forall wx_ok (map cf_formula l).
Proof. induction 1 as [|s l D F IH]; [constructor|]. cbn [map]. constructor; [apply ok_data; [reflexivity|apply attrs_nil|exact D]|exact IH]. Qed.
Lemma cell_formulas_eq r : cell_formulas r = map cf_formula (cell_values r). Proof. destruct r; reflexivity. Qed.
Lemma plain_ok type dxf p stop extra l : attr_ok (lit type) -> attrs_good extra -> forallb (fun k => match attr k extra with None => true | _ => false end) ["type"; "dxfId"; "priority"; "stopIfTrue"]%string = true ->
  Forall doc_text l -> wx_ok (WElem (lit "cfRule") (rule_attrs type dxf p stop ++ extra) (map cf_formula l)).
Proof. intros T G D F. apply wx_ok_elem. split; [reflexivity|]. split; [apply rule_attrs_good; assumption|apply formulas_ok; exact F]. Qed.
Lemma no_formula tag attrs kids r : String.eqb tag "formula" = false -> all_named "formula" (Elem (lit tag) attrs kids :: r) = all_named "formula" r.
Proof. intros H. unfold all_named. cbn [filter is_elem]. rewrite str_eqb_lit, H. reflexivity. Qed.
Lemma scale_point_ok p : attr_ok (snd p) -> wx_ok (scale_cfvo p).
Proof. intros H. split; [reflexivity|]. destruct p as [[] v]; cbn [fst snd ctype_name app] in *; good. Qed.
Lemma color_xml_ok tag c : good_name (lit tag) = true -> wx_ok (color_xml tag c).
Proof. intros G. split; [exact G|]. pose proof (color_attr c). good. Qed.
Lemma bar_cfvo_ok ext top p : attr_ok (snd p) -> wx_ok (bar_cfvo ext top p).
Proof. intros H. split; [reflexivity|]. destruct p as [[] v]; destruct ext, top; cbn [fst snd when negb] in *; good. Qed.
Lemma icon_cfvo_ok i : attr_ok (ic_value i) -> wx_ok (icon_cfvo i).
Proof. intros H. split; [reflexivity|]. destruct i as [s n no cu gr ty v]. cbn [ic_type ic_value ic_greater] in *. destruct ty, gr; cbn [when app]; good. Qed.
Lemma ext_list_ok id : doc_text id -> wx_ok (extension_list id).
Proof.
  intros D. apply wx_ok_elem. split; [reflexivity|]. split; [apply attrs_nil|]. constructor; [|constructor]. apply wx_ok_elem. split; [reflexivity|]. split; [good|]. constructor; [|constructor].
  apply ok_data; [reflexivity|apply attrs_nil|exact D].
Qed.
Lemma cf_rule_reads c p range id : cf_valid c = true -> body_ok (cf_body c) -> attr_ok range -> doc_text id ->
  exists x, rule_xml c p range id = [x] /\ wx_ok x /\ tag_of x = lit "cfRule" /\ read_rule (node_of x) = Some (p, shown c (range_to_anchor range) id).
Proof.
  intros V B R I. assert (A : doc_text (range_to_anchor range)) by (apply attr_doc; unfold range_to_anchor; apply until_attr, until_attr; exact R).
  unfold rule_xml, shown, cf_valid in *. set (a := range_to_anchor range) in *. clearbody a.
  destruct (cf_body c) as [[r|]|inv|inv|inv|s|r|r|[r|]|r|s|s|b|i] eqn:Eb; try discriminate V; cbn [has_format body_ok] in *.
  - (* cell *) eexists. split; [reflexivity|]. rewrite cell_formulas_eq. split; [|split; [reflexivity|]].
    + apply plain_ok; [reflexivity|destruct r; cbn [cell_operator]; good|reflexivity|exact B].
    + rewrite plain_reads; [destruct r; reflexivity|reflexivity|reflexivity|exact B].
  - eexists. split; [reflexivity|]. assert (D : Forall doc_text [lit "LEN(TRIM(" ++ a ++ lit (if inv then "))>0" else "))=0")]).
    { constructor; [|constructor]. apply doc_app; [reflexivity|]. apply doc_app; [exact A|]. destruct inv; reflexivity. }
    rewrite <- (app_nil_r (rule_attrs _ _ _ _)). split; [|split; [reflexivity|]].
    + apply (plain_ok _ _ _ _ [] [_]); [destruct inv; reflexivity|apply attrs_nil|reflexivity|exact D].
    + etransitivity; [apply (plain_reads _ _ _ _ [] [_]); [reflexivity|reflexivity|exact D]|]. reflexivity.
  - eexists. split; [reflexivity|]. assert (D : Forall doc_text [if inv then lit "NOT(ISERROR(" ++ a ++ lit "))" else lit "ISERROR(" ++ a ++ lit ")"]).
    { constructor; [|constructor]. destruct inv; (apply doc_app; [reflexivity|]; apply doc_app; [exact A|reflexivity]). }
    rewrite <- (app_nil_r (rule_attrs _ _ _ _)). split; [|split; [reflexivity|]].
    + apply (plain_ok _ _ _ _ [] [_]); [destruct inv; reflexivity|apply attrs_nil|reflexivity|exact D].
    + etransitivity; [apply (plain_reads _ _ _ _ [] [_]); [reflexivity|reflexivity|exact D]|]. reflexivity.
  - eexists. split; [reflexivity|]. rewrite <- (app_nil_r (rule_attrs _ _ _ _)). split; [|split; [reflexivity|]].
    + split; [reflexivity|]. apply rule_attrs_good; [destruct inv; reflexivity|apply attrs_nil|reflexivity].
    + rewrite bare_reads by reflexivity. reflexivity.
  - eexists. split; [reflexivity|]. rewrite <- (app_nil_r (rule_attrs _ _ _ _)). assert (D : Forall doc_text [s]) by (constructor; [exact B|constructor]). split; [|split; [reflexivity|]].
    + apply (plain_ok _ _ _ _ [] [_]); [reflexivity|apply attrs_nil|reflexivity|exact D].
    + etransitivity; [apply (plain_reads _ _ _ _ [] [_]); [reflexivity|reflexivity|exact D]|]. reflexivity.
  - eexists. split; [reflexivity|]. split; [|split; [reflexivity|]].
    + split; [reflexivity|]. apply rule_attrs_good; [reflexivity|destruct r; first [apply attrs_nil|cbn [avg_attrs]; good]|destruct r; reflexivity].
    + rewrite bare_reads by (destruct r; reflexivity). destruct r; reflexivity.
  - eexists. split; [reflexivity|]. split; [|split; [reflexivity|]].
    + split; [reflexivity|]. apply rule_attrs_good; [reflexivity|destruct r; cbn [top_attrs]; good|destruct r; reflexivity].
    + rewrite bare_reads by (destruct r; reflexivity). destruct r; reflexivity.
  - eexists. split; [reflexivity|]. assert (D : Forall doc_text [text_formula a r]) by (constructor; [apply text_formula_doc; assumption|constructor]). split; [|split; [reflexivity|]].
    + apply (plain_ok _ _ _ _ _ [_]); [destruct r; reflexivity| |reflexivity|exact D]. assert (O : attr_ok (lit (text_operator r))) by (destruct r; reflexivity). good.
    + etransitivity; [apply (plain_reads _ _ _ _ _ [_]); [reflexivity|reflexivity|exact D]|]. reflexivity.
  - eexists. split; [reflexivity|]. assert (D : Forall doc_text [date_formula a r]) by (constructor; [apply date_formula_doc; assumption|constructor]). split; [|split; [reflexivity|]].
    + apply (plain_ok _ _ _ _ _ [_]); [reflexivity| |reflexivity|exact D]. assert (O : attr_ok (lit (date_period r))) by (destruct r; reflexivity). good.
    + etransitivity; [apply (plain_reads _ _ _ _ _ [_]); [reflexivity|reflexivity|exact D]|]. reflexivity.
  - destruct B as [P C]. inversion_clear P as [|? ? [P1 P2] P3]. inversion_clear P3 as [|? ? [P4 P5] _]. inversion_clear C as [|? ? C1 C2]. inversion_clear C2 as [|? ? C3 _].
    eexists. split; [reflexivity|]. split; [|split; [reflexivity|]].
    + apply wx_ok_elem. split; [reflexivity|]. split; [rewrite <- (app_nil_r (rule_attrs _ _ _ _)); apply rule_attrs_good; [reflexivity|apply attrs_nil|reflexivity]|]. constructor; [|constructor].
      apply wx_ok_elem. split; [reflexivity|]. split; [apply attrs_nil|]. repeat (constructor; [first [apply scale_point_ok; assumption|apply color_xml_ok; reflexivity]|]). constructor.
    + cbn [node_of]. apply drawn_reads; [reflexivity|]. cbn [map]. cbn [node_of]. unfold read_body. rewrite !kid_one. cbn [String.eqb Ascii.eqb Bool.eqb kid find kids_of map].
      change (all_named "cfvo" _) with [node_of (scale_cfvo (sc_min s)); node_of (scale_cfvo (sc_max s))]. change (all_named "color" _) with [node_of (color_xml "color" (sc_cmin s)); node_of (color_xml "color" (sc_cmax s))].
      cbn [read_all]. rewrite !point_reads, !color_reads_xml by assumption. reflexivity.
  - destruct B as [P C]. inversion_clear P as [|? ? [P1 P2] P3]. inversion_clear P3 as [|? ? [P4 P5] P6]. inversion_clear P6 as [|? ? [P7 P8] _]. inversion_clear C as [|? ? C1 C2]. inversion_clear C2 as [|? ? C3 C4]. inversion_clear C4 as [|? ? C5 _].
    eexists. split; [reflexivity|]. split; [|split; [reflexivity|]].
    + apply wx_ok_elem. split; [reflexivity|]. split; [rewrite <- (app_nil_r (rule_attrs _ _ _ _)); apply rule_attrs_good; [reflexivity|apply attrs_nil|reflexivity]|]. constructor; [|constructor].
      apply wx_ok_elem. split; [reflexivity|]. split; [apply attrs_nil|]. repeat (constructor; [first [apply scale_point_ok; assumption|apply color_xml_ok; reflexivity]|]). constructor.
    + cbn [node_of]. apply drawn_reads; [reflexivity|]. cbn [map]. cbn [node_of]. unfold read_body. rewrite !kid_one. cbn [String.eqb Ascii.eqb Bool.eqb kid find kids_of map].
      change (all_named "cfvo" _) with [node_of (scale_cfvo (sc_min s)); node_of (scale_cfvo (sc_mid s)); node_of (scale_cfvo (sc_max s))].
      change (all_named "color" _) with [node_of (color_xml "color" (sc_cmin s)); node_of (color_xml "color" (sc_cmid s)); node_of (color_xml "color" (sc_cmax s))].
      cbn [read_all]. rewrite !point_reads, !color_reads_xml by assumption. reflexivity.
  - destruct B as (P1 & P2 & C). inversion_clear C as [|? ? C1 _].
    eexists. split; [reflexivity|]. split; [|split; [reflexivity|]].
    + apply wx_ok_elem. split; [reflexivity|]. split; [rewrite <- (app_nil_r (rule_attrs _ _ _ _)); apply rule_attrs_good; [reflexivity|apply attrs_nil|reflexivity]|]. constructor.
      * apply wx_ok_elem. split; [reflexivity|]. split; [destruct (ba_only b); cbn [when]; [good|apply attrs_nil]|]. repeat (constructor; [first [apply bar_cfvo_ok; assumption|apply color_xml_ok; reflexivity]|]). constructor.
      * destruct (cf_x14 c); cbn [when]; [constructor; [apply ext_list_ok; exact I|constructor]|constructor].
    + cbn [node_of]. apply drawn_reads; [destruct (cf_x14 c); reflexivity|]. cbn [map]. cbn [node_of]. unfold read_body. rewrite !kid_one. cbn [String.eqb Ascii.eqb Bool.eqb].
      assert (K : kid "colorScale" (map node_of (when (cf_x14 c) [extension_list id])) = None /\ kid "iconSet" (map node_of (when (cf_x14 c) [extension_list id])) = None) by (destruct (cf_x14 c); split; reflexivity).
      destruct K as [-> ->]. cbn [kids_of map attrs_of].
      change (all_named "cfvo" _) with [node_of (bar_cfvo (cf_x14 c) false (ba_min b)); node_of (bar_cfvo (cf_x14 c) true (ba_max b))].
      change (kid "color" _) with (Some (node_of (color_xml "color" (ba_fill b)))). cbn [read_all bind]. rewrite !bar_point_reads. cbn [bind]. rewrite color_reads_xml by assumption. cbn [bind].
      assert (Q : forall l, read_id (Elem (lit "dataBar") l [node_of (bar_cfvo (cf_x14 c) false (ba_min b)); node_of (bar_cfvo (cf_x14 c) true (ba_max b)); node_of (color_xml "color" (ba_fill b))] :: map node_of (when (cf_x14 c) [extension_list id])) = Some (if cf_x14 c then Some id else None)).
      { intros l. unfold read_id. rewrite kid_one. cbn [String.eqb Ascii.eqb Bool.eqb]. destruct (cf_x14 c); cbn [when map]; [|reflexivity]. unfold extension_list. cbn [node_of]. rewrite kid_one. cbn [String.eqb Ascii.eqb Bool.eqb kids_of map].
        cbn [node_of]. rewrite kid_one. cbn [String.eqb Ascii.eqb Bool.eqb kids_of bind map]. rewrite node_data by exact I. unfold kid_text. rewrite kid_one. cbn [String.eqb Ascii.eqb Bool.eqb]. rewrite text_leaf. reflexivity. }
      rewrite Q. cbn [bind]. destruct (ba_only b); reflexivity.
  - eexists. split; [reflexivity|]. split; [|split; [reflexivity|]].
    + apply wx_ok_elem. split; [reflexivity|]. split; [rewrite <- (app_nil_r (rule_attrs _ _ _ _)); apply rule_attrs_good; [reflexivity|apply attrs_nil|reflexivity]|]. constructor; [|constructor].
      apply wx_ok_elem. split; [reflexivity|]. split.
      * eapply sub_attrs; [apply sub_app; [apply sub_when|apply sub_app; apply sub_when]|]. assert (O : attr_ok (lit (icon_set_name (is_set i)))) by (destruct (is_set i); reflexivity). cbn [app]. good.
      * apply Forall_forall. intros x Hx. apply in_map_iff in Hx as (j & <- & Hj). rewrite Forall_forall in B. apply icon_cfvo_ok. auto.
    + cbn [node_of]. apply drawn_reads; [reflexivity|]. cbn [map]. cbn [node_of]. unfold read_body. rewrite !kid_one. cbn [String.eqb Ascii.eqb Bool.eqb kid find kids_of attrs_of].
      rewrite (named_all "cfvo" "cfvo" (fun _ => True)) by (apply Forall_forall; intros x Hx; apply in_map_iff in Hx as (j & <- & Hj); reflexivity). cbn [String.eqb Ascii.eqb Bool.eqb].
      assert (Q : read_all read_icon_point (map node_of (map icon_cfvo (is_icons i))) = Some (map (fun x => icon_seen (want_of x)) (is_icons i))).
      { clear. induction (is_icons i) as [|j l IH]; [reflexivity|]. cbn [map read_all]. rewrite icon_point_reads. cbn [bind]. rewrite IH. reflexivity. }
      rewrite Q. cbn [bind]. destruct (is_set i), (is_only i), (is_reversed i); reflexivity.
Qed.
