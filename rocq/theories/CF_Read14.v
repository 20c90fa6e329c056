(** Conditional formats: reading back one extended rule. *)
From Verif Require Import Base F64 Ref_Model Ref_Spec Xml_Model Xml_Spec Xml_Proofs Xml_Read Xml_Read_Proofs Xml_Tree Fmt_Model Rich_Model Rich_Proofs Props_Rich
  Cells_Model SheetXml_Spec SheetXml_Proofs SheetXml_Proofs3 Doc_Spec Url_Model Formula_Model Doc_Model Props_Doc View_Model View_Spec Setup_Spec Tag_Proofs Part_Proofs StrMap
  DV_Model DV_Spec DV_Proofs CF_Model CF_Spec CF_Build CF_Read CF_Asked.

Definition bar14 (b : bar) : seen14_body :=
  XBar [point14 false (ba_min b); point14 true (ba_max b)] (negb (ba_solid b))
    (lit match ba_dir b with DirContext => "context" | DirLeftToRight => "leftToRight" | DirRightToLeft => "rightToLeft" end)
    (if ba_off b then None else Some (rgb (ba_border b)))
    (if color_eq_dec (ba_fill b) (ba_nfill b) then None else Some (rgb (ba_nfill b)))
    (if ba_off b then None else Some (rgb (if color_eq_dec (ba_fill b) (ba_nborder b) then ba_border b else ba_nborder b)))
    (lit match ba_pos b with AxisAutomatic => "automatic" | AxisMidpoint => "middle" | AxisNone => "none" end)
    (match ba_pos b with AxisNone => None | _ => Some (rgb (ba_axis b)) end).
Definition thresholds (i : icon) : list (str * str * bool) :=
  match ic_type i with TyAutomatic | TyLowest | TyHighest => [] | t => [(lit (point_name t), ic_value i, false)] end.
Definition icons14 (i : iconset) : seen14_body :=
  XIcons (lit (set_name (is_set i))) true false (flat_map thresholds (is_icons i))
    (if is_custom i then Some (pictures14 (is_set i) 0 (map want_of (is_icons i))) else None).
Definition shown14 (c : cf) (p : N) : option seen14 :=
  match cf_body c with BBar b => Some (None, false, bar14 b) | BIcons i => Some (Some p, false, icons14 i) | _ => None end.

Lemma x14_value_ok t v : attr_ok (lit t) -> doc_text v -> wx_ok (x14_value t v).
Proof. intros T D. apply wx_ok_elem. split; [reflexivity|]. split; [good|]. constructor; [|constructor]. apply ok_data; [reflexivity|apply attrs_nil|exact D]. Qed.
Lemma x14_value_node t v : doc_text v -> node_of (x14_value t v) = Elem (lit "x14:cfvo") [(lit "type", lit t)] [Elem (lit "xm:f") [] (leaf v)].
Proof. intros D. rewrite <- (node_data (lit "xm:f") v [] D). reflexivity. Qed.
Lemma x14_value_reads t v : doc_text v -> read_point14 (node_of (x14_value t v)) = Some (lit t, Some v).
Proof.
  intros D. rewrite x14_value_node by exact D. unfold read_point14. cbn [attrs_of kids_of]. rewrite attr_cons. cbn [String.eqb Ascii.eqb Bool.eqb bind]. unfold opt_kid_text. rewrite kid_one. cbn [String.eqb Ascii.eqb Bool.eqb]. rewrite text_leaf. reflexivity.
Qed.
Lemma bar_x14_point_ok top p : doc_text (snd p) -> wx_ok (bar_x14_cfvo top p) /\ tag_of (bar_x14_cfvo top p) = lit "x14:cfvo" /\ read_point14 (node_of (bar_x14_cfvo top p)) = Some (point14 top p).
Proof.
  intros D. destruct p as [[] v]; cbn [snd] in D; unfold bar_x14_cfvo, point14; cbn [fst snd point_name];
    first [split; [apply x14_value_ok; [reflexivity|exact D]|split; [reflexivity|apply x14_value_reads; exact D]] | destruct top; (split; [split; [reflexivity|good]|split; reflexivity])].
Qed.
Lemma attr_x14_bar k b : attr k (bar_x14_attrs b) =
  if String.eqb "minLength" k then Some (lit "0") else if String.eqb "maxLength" k then Some (lit "100") else
  if String.eqb "border" k && negb (ba_off b) then Some (lit "1") else if String.eqb "gradient" k && ba_solid b then Some (lit "0") else
  match (if String.eqb "direction" k then match ba_dir b with DirLeftToRight => Some (lit "leftToRight") | DirRightToLeft => Some (lit "rightToLeft") | DirContext => None end else None) with Some v => Some v | None =>
  if String.eqb "negativeBarColorSameAsPositive" k && color_eqb (ba_fill b) (ba_nfill b) then Some (lit "1") else
  if String.eqb "negativeBarBorderColorSameAsPositive" k && (negb (ba_off b) && negb (color_eqb (ba_fill b) (ba_nborder b))) then Some (lit "0") else
  if String.eqb "axisPosition" k then match ba_pos b with AxisMidpoint => Some (lit "middle") | AxisNone => Some (lit "none") | AxisAutomatic => None end else None end.
Proof.
  unfold bar_x14_attrs. rewrite !attr_app, !attr_yes, !attr_when, !attr_cons, !attr_nil.
  destruct (String.eqb "minLength" k); [reflexivity|]. destruct (String.eqb "maxLength" k); [reflexivity|]. destruct (String.eqb "border" k && negb (ba_off b)); [reflexivity|].
  destruct (String.eqb "gradient" k), (ba_solid b); cbn [andb]; try reflexivity;
  (destruct (ba_dir b); rewrite ?attr_cons, ?attr_nil; destruct (String.eqb "direction" k); try reflexivity;
   destruct (String.eqb "negativeBarColorSameAsPositive" k && color_eqb (ba_fill b) (ba_nfill b)); try reflexivity;
   destruct (String.eqb "negativeBarBorderColorSameAsPositive" k), (negb (ba_off b) && negb (color_eqb (ba_fill b) (ba_nborder b))); cbn [andb]; try reflexivity;
   destruct (ba_pos b); rewrite ?attr_cons, ?attr_nil; destruct (String.eqb "axisPosition" k); reflexivity).
Qed.
Definition bar_x14_all (d a : string) : list (str * str) :=
  [(lit "minLength", lit "0"); (lit "maxLength", lit "100")] ++ [(lit "border", lit "1")] ++ [(lit "gradient", lit "0")] ++ [(lit "direction", lit d)] ++
  [(lit "negativeBarColorSameAsPositive", lit "1")] ++ [(lit "negativeBarBorderColorSameAsPositive", lit "0")] ++ [(lit "axisPosition", lit a)].
Lemma bar_x14_attrs_good b : attrs_good (bar_x14_attrs b).
Proof.
  set (d := match ba_dir b with DirRightToLeft => "rightToLeft" | _ => "leftToRight" end%string). set (a := match ba_pos b with AxisNone => "none" | _ => "middle" end%string).
  apply (sub_attrs _ (bar_x14_all d a)).
  - unfold bar_x14_attrs, bar_x14_all. apply sub_app; [apply sub_refl|]. apply sub_app; [apply sub_when|]. apply sub_app; [apply sub_when|]. apply sub_app; [unfold d; destruct (ba_dir b); [apply sub_none|apply sub_refl|apply sub_refl]|].
    apply sub_app; [apply sub_when|]. apply sub_app; [apply sub_when|]. unfold a. destruct (ba_pos b); [apply sub_none|apply sub_refl|apply sub_refl].
  - assert (D : attr_ok (lit d)) by (unfold d; destruct (ba_dir b); reflexivity). assert (A : attr_ok (lit a)) by (unfold a; destruct (ba_pos b); reflexivity). unfold bar_x14_all. cbn [app]. good.
Qed.
Lemma kid_color k j b c r : kid k (map node_of (when b [color_xml j c]) ++ r) = if String.eqb j k && b then Some (node_of (color_xml j c)) else kid k r.
Proof. destruct b; cbn [when map app]; [|rewrite andb_false_r; reflexivity]. unfold color_xml. cbn [node_of]. rewrite kid_one, andb_true_r. reflexivity. Qed.
Lemma when_ok b l : Forall wx_ok l -> Forall wx_ok (when b l). Proof. destruct b; [intros H; exact H|constructor]. Qed.
Lemma all_named_app k a b : all_named k (a ++ b) = all_named k a ++ all_named k b. Proof. apply filter_app. Qed.
Lemma all_named_color k j b c : String.eqb j k = false -> all_named k (map node_of (when b [color_xml j c])) = [].
Proof. intros H. destruct b; [|reflexivity]. cbn [when map]. unfold all_named, color_xml. cbn [node_of filter is_elem]. rewrite str_eqb_lit, H. reflexivity. Qed.
Lemma eqb_dec (a b : Color) {T} (x y : T) : (if color_eqb a b then x else y) = if color_eq_dec a b then x else y.
Proof. unfold color_eqb. destruct (color_eq_dec a b); reflexivity. Qed.
Lemma bar_x14_reads b id : bar_ok b -> attr_ok id ->
  wx_ok (bar_x14 b id) /\ tag_of (bar_x14 b id) = lit "x14:cfRule" /\ read_rule14 (node_of (bar_x14 b id)) = Some (id, (None, false, bar14 b)).
Proof.
  intros (P1 & P2 & C) I. apply attr_doc in P1. apply attr_doc in P2.
  destruct (bar_x14_point_ok false (ba_min b) P1) as (O1 & T1 & R1). destruct (bar_x14_point_ok true (ba_max b) P2) as (O2 & T2 & R2).
  inversion_clear C as [|? ? C1 C']. inversion_clear C' as [|? ? C2 C'']. inversion_clear C'' as [|? ? C3 C']. inversion_clear C' as [|? ? C4 C'']. inversion_clear C'' as [|? ? C5 _].
  split; [|split; [reflexivity|]].
  - apply wx_ok_elem. split; [reflexivity|]. split; [good|]. constructor; [|constructor]. apply wx_ok_elem. split; [reflexivity|]. split; [apply bar_x14_attrs_good|].
    apply Forall_app. split; [constructor; [exact O1|constructor; [exact O2|constructor]]|].
    repeat (apply Forall_app; split; [apply when_ok; constructor; [apply color_xml_ok; reflexivity|constructor]|]). apply when_ok. constructor; [apply color_xml_ok; reflexivity|constructor].
  - unfold bar_x14. cbn [node_of]. unfold read_rule14. cbn [attrs_of kids_of]. unfold flag_of at 1. rewrite !attr_cons, !attr_nil. cbn [String.eqb Ascii.eqb Bool.eqb bind map node_of].
    unfold read_body14. rewrite !kid_one. cbn [String.eqb Ascii.eqb Bool.eqb kid find kids_of attrs_of]. rewrite !map_app. set (cf2 := map node_of [bar_x14_cfvo false (ba_min b); bar_x14_cfvo true (ba_max b)]).
    assert (Q : all_named "x14:cfvo" cf2 = cf2) by (unfold cf2, all_named; cbn [map filter]; rewrite !is_elem_tag, T1, T2; reflexivity).
    assert (S : forall k r, String.eqb "x14:cfvo" k = false -> kid k (cf2 ++ r) = kid k r).
    { intros k r H. apply kid_skip. unfold cf2. cbn [map]. constructor; [rewrite is_elem_tag, T1, str_eqb_lit; exact H|]. constructor; [rewrite is_elem_tag, T2, str_eqb_lit; exact H|constructor]. }
    assert (O : forall k l, (forall r, String.eqb "x14:cfvo" k = false -> opt_color k (cf2 ++ r) = opt_color k r) ->
      l = map node_of (when (negb (ba_off b)) [color_xml "x14:borderColor" (ba_border b)]) ++
          map node_of (when (negb (color_eqb (ba_fill b) (ba_nfill b))) [color_xml "x14:negativeFillColor" (ba_nfill b)]) ++
          map node_of (when (negb (ba_off b) && negb (color_eqb (ba_fill b) (ba_nborder b))) [color_xml "x14:negativeBorderColor" (ba_nborder b)]) ++
          map node_of (when (negb (axis_none (ba_pos b))) [color_xml "x14:axisColor" (ba_axis b)]) ->
      opt_color k l = if String.eqb "x14:borderColor" k && negb (ba_off b) then Some (Some (rgb (ba_border b))) else
        if String.eqb "x14:negativeFillColor" k && negb (color_eqb (ba_fill b) (ba_nfill b)) then Some (Some (rgb (ba_nfill b))) else
        if String.eqb "x14:negativeBorderColor" k && (negb (ba_off b) && negb (color_eqb (ba_fill b) (ba_nborder b))) then Some (Some (rgb (ba_nborder b))) else
        if String.eqb "x14:axisColor" k && negb (axis_none (ba_pos b)) then Some (Some (rgb (ba_axis b))) else Some None).
    { intros k l _ ->. unfold opt_color. rewrite !kid_color. rewrite <- (app_nil_r (map node_of (when (negb (axis_none _)) _))), kid_color.
      repeat match goal with |- context [if ?x then Some (node_of (color_xml ?j ?c)) else _] => destruct x; [rewrite color_reads_xml by assumption; reflexivity|] end. reflexivity. }
    set (rest := map node_of (when (negb (ba_off b)) [color_xml "x14:borderColor" (ba_border b)]) ++ _) in *.
    assert (N0 : all_named "x14:cfvo" rest = []) by (unfold rest; rewrite !all_named_app, !all_named_color by reflexivity; reflexivity).
    assert (S' : forall k r, String.eqb "x14:cfvo" k = false -> opt_color k (cf2 ++ r) = opt_color k r) by (intros k r H; unfold opt_color; rewrite S by exact H; reflexivity).
    rewrite all_named_app, Q, N0, app_nil_r. unfold cf2 at 1. cbn [map read_all]. rewrite R1, R2. cbn [bind]. rewrite !S' by reflexivity.
    rewrite !(O _ rest (fun r H => S' _ r H) eq_refl). cbn [String.eqb Ascii.eqb Bool.eqb andb]. unfold bar14, on_default, flag_of, attr_default. rewrite !attr_x14_bar. cbn [String.eqb Ascii.eqb Bool.eqb andb].
    unfold color_eqb. destruct (ba_off b), (ba_solid b), (ba_dir b), (color_eq_dec (ba_fill b) (ba_nfill b)), (color_eq_dec (ba_fill b) (ba_nborder b)), (ba_pos b); reflexivity.
Qed.

(** Icons *)
Lemma icon_points_read l : Forall (fun x => attr_ok (ic_value x)) l ->
  Forall (fun x => wx_ok x /\ tag_of x = lit "x14:cfvo") (flat_map icon_x14_cfvo l) /\ read_all read_icon_point14 (map node_of (flat_map icon_x14_cfvo l)) = Some (flat_map thresholds l).
Proof.
  induction 1 as [|i l V F [IH1 IH2]]; [split; [constructor|reflexivity]|]. cbn [flat_map]. apply attr_doc in V.
  assert (P : forall t, attr_ok (lit t) -> (wx_ok (x14_value t (ic_value i)) /\ tag_of (x14_value t (ic_value i)) = lit "x14:cfvo") /\ read_icon_point14 (node_of (x14_value t (ic_value i))) = Some (lit t, ic_value i, false)).
  { intros t T. split; [split; [apply x14_value_ok; assumption|reflexivity]|]. rewrite x14_value_node by exact V. unfold read_icon_point14. cbn [attrs_of kids_of]. rewrite attr_cons. cbn [String.eqb Ascii.eqb Bool.eqb bind]. unfold kid_text. rewrite kid_one. cbn [String.eqb Ascii.eqb Bool.eqb]. rewrite text_leaf. reflexivity. }
  unfold icon_x14_cfvo at 1 3, thresholds at 1. destruct (ic_type i); cbn [app map point_name]; try (split; assumption);
  match goal with |- context [x14_value ?t _] => destruct (P t eq_refl) as [P1 P2] end;
  (split; [constructor; assumption|cbn [read_all]; rewrite P2; cbn [bind]; rewrite IH2; reflexivity]).
Qed.
Lemma custom_icons_read s k l : Forall (fun x => wx_ok x /\ tag_of x = lit "x14:cfIcon") (custom_icons s k l) /\ read_all read_picture (map node_of (custom_icons s k l)) = Some (pictures14 s k (map want_of l)).
Proof.
  revert k. induction l as [|i l IH]; intros k; [split; [constructor|reflexivity]|]. cbn [custom_icons]. destruct (IH (k + 1)) as [IH1 IH2]. split.
  - constructor; [|exact IH1]. split; [|reflexivity]. split; [reflexivity|]. destruct (ic_none i); [good|]. destruct (ic_set i) as [t|].
    + assert (attr_ok (lit (icon_set_name t))) by (destruct t; reflexivity). good.
    + assert (attr_ok (lit (icon_set_name s))) by (destruct s; reflexivity). good.
  - cbn [map read_all]. cbn [node_of]. unfold read_picture at 1. cbn [attrs_of]. cbn [pictures14]. unfold picture14 at 1. cbn [want_of w_none w_picture].
    destruct (ic_none i); [|destruct (ic_set i)]; rewrite !attr_cons; cbn [String.eqb Ascii.eqb Bool.eqb bind]; rewrite ?number_of_dec, ?set_name_eq, IH2; reflexivity.
Qed.
Lemma named_where k l : Forall (fun x => wx_ok x /\ tag_of x = lit k) l -> all_named k (map node_of l) = map node_of l.
Proof. intros H. rewrite (named_all k k (fun _ => True)), String.eqb_refl; [reflexivity|]. eapply Forall_impl; [|exact H]. intros x [_ E]. exact E. Qed.
Lemma named_none k j l : Forall (fun x => wx_ok x /\ tag_of x = lit j) l -> String.eqb j k = false -> all_named k (map node_of l) = [].
Proof. intros H E. rewrite (named_all k j (fun _ => True)), E; [reflexivity|]. eapply Forall_impl; [|exact H]. intros x [_ X]. exact X. Qed.
Lemma icons_x14_reads i p id : Forall (fun x => attr_ok (ic_value x)) (is_icons i) -> attr_ok id ->
  wx_ok (icons_x14 i p id) /\ tag_of (icons_x14 i p id) = lit "x14:cfRule" /\ read_rule14 (node_of (icons_x14 i p id)) = Some (id, (Some p, false, icons14 i)).
Proof.
  intros V I. destruct (icon_points_read _ V) as [P1 P2]. destruct (custom_icons_read (is_set i) 0 (is_icons i)) as [C1 C2].
  assert (C1' : Forall (fun x => wx_ok x /\ tag_of x = lit "x14:cfIcon") (when (is_custom i) (custom_icons (is_set i) 0 (is_icons i)))) by (destruct (is_custom i); [exact C1|constructor]).
  split; [|split; [reflexivity|]].
  - apply wx_ok_elem. split; [reflexivity|]. split; [good|]. constructor; [|constructor]. apply wx_ok_elem. split; [reflexivity|]. split.
    + eapply sub_attrs; [apply sub_app; apply sub_when|]. assert (attr_ok (lit (icon_set_name (is_set i)))) by (destruct (is_set i); reflexivity). cbn [app]. good.
    + apply Forall_app. split; (eapply Forall_impl; [|eassumption]; intros x [X _]; exact X).
  - unfold icons_x14. cbn [node_of]. unfold read_rule14. cbn [attrs_of kids_of]. unfold flag_of at 1. rewrite !attr_cons, !attr_nil. cbn [String.eqb Ascii.eqb Bool.eqb bind map node_of]. rewrite number_of_dec. cbn [bind].
    unfold read_body14. rewrite !kid_one. cbn [String.eqb Ascii.eqb Bool.eqb kid find kids_of attrs_of]. rewrite map_app, !all_named_app.
    rewrite (named_where _ _ P1), (named_none "x14:cfvo" _ _ C1' eq_refl), (named_none "x14:cfIcon" _ _ P1 eq_refl), (named_where _ _ C1'), app_nil_r. cbn [app]. rewrite P2. cbn [bind].
    unfold icons14. assert (S : attr_default "iconSet" (lit "3TrafficLights1") (when (negb (is_default_set (is_set i))) [(lit "iconSet", lit (icon_set_name (is_set i)))] ++ yes (is_custom i) "custom") = lit (set_name (is_set i)) /\
      on_default "showValue" (when (negb (is_default_set (is_set i))) [(lit "iconSet", lit (icon_set_name (is_set i)))] ++ yes (is_custom i) "custom") = true /\
      flag_of "reverse" (when (negb (is_default_set (is_set i))) [(lit "iconSet", lit (icon_set_name (is_set i)))] ++ yes (is_custom i) "custom") = false /\
      flag_of "custom" (when (negb (is_default_set (is_set i))) [(lit "iconSet", lit (icon_set_name (is_set i)))] ++ yes (is_custom i) "custom") = is_custom i) by (destruct (is_set i), (is_custom i); repeat split; reflexivity).
    destruct S as (S1 & S2 & S3 & S4). rewrite S1, S2, S3, S4. destruct (is_custom i); cbn [when map]; [rewrite C2|]; reflexivity.
Qed.
Lemma x14_rule_reads c p id : body_ok (cf_body c) -> attr_ok id ->
  match shown14 c p with
  | Some s => exists x, x14_rule_xml c p id = [x] /\ wx_ok x /\ tag_of x = lit "x14:cfRule" /\ read_rule14 (node_of x) = Some (id, s)
  | None => x14_rule_xml c p id = []
  end.
Proof.
  intros B I. unfold shown14, x14_rule_xml. destruct (cf_body c); try reflexivity; cbn [body_ok] in B; eexists; (split; [reflexivity|]).
  - apply bar_x14_reads; assumption.
  - apply icons_x14_reads; assumption.
Qed.
