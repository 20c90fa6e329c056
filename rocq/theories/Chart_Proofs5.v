(** Charts: data labels read back. *)
From Verif Require Import Base F64 Xml_Model Xml_Spec Xml_Proofs Xml_Read Xml_Read_Proofs Xml_Tree Fmt_Model Rich_Model Rich_Proofs SheetXml_Spec SheetXml_Proofs SheetXml_Proofs3 Doc_Model Doc_Spec Props_Doc Tag_Proofs Part_Proofs
  CF_Spec CF_Model CF_Build CF_Read Ref_Model Ref_Proofs Ref_Spec Quote_Proofs Note_Spec Note_Proofs Note_Proofs2 Note_Proofs4 Note_Proofs5 Cache_Model Spark_Model Spark_Spec Dml_Model Dml_Spec Dml_Proofs Draw_Model Draw_Proofs Draw_Proofs3
  Chart_Model Chart_Series Chart_Axis Chart_Whole Chart_Spec Chart_Spec2 Chart_Spec3 Chart_Proofs Chart_Proofs2 Chart_Proofs3 Chart_Proofs4.
From Verif Require Color_Spec Props_Spark Xml_Spec.

(** What the calls leave in a label. *)
Definition labelled (l : list label_op) (b : clabel) : Prop :=
  lb_format b = chart_format (label_format l) /\ lb_value b = wants_value l /\ lb_category b = wants_category l /\ lb_series b = wants_series l /\ lb_leader b = wants_leader l /\ lb_key b = wants_key l /\
  lb_percent b = wants_percent l /\ lb_position b = label_position l /\ lb_separator b = label_separator l /\ lb_hidden b = wants_hidden l /\ lb_num_format b = label_number l.
Lemma separator_same c : separator_ok c = (c =? 59) || (c =? 46) || (c =? 32) || (c =? 10).
Proof. unfold separator_ok. cbn [existsb]. rewrite orb_false_r, !orb_assoc. reflexivity. Qed.
Lemma make_labelled l : labelled l (make_label l).
Proof.
  unfold labelled, make_label. split; [apply (Draw_Proofs2.last_folded lb_format chart_format (fun o => match o with LbFormat l => Some l | _ => None end)); [intros s []; reflexivity|reflexivity]|].
  do 6 (split; [unfold wants_value, wants_category, wants_series, wants_leader, wants_key, wants_percent, has;
    first [apply (flag_fold _ lb_value)|apply (flag_fold _ lb_category)|apply (flag_fold _ lb_series)|apply (flag_fold _ lb_leader)|apply (flag_fold _ lb_key)|apply (flag_fold _ lb_percent)]; [intros s []; reflexivity|reflexivity]|]).
  split; [apply (last_fold lb_position (fun o => match o with LbPosition n => Some n | _ => None end)); intros s []; reflexivity|].
  split; [apply (last_fold lb_separator (fun o => match o with LbSeparator c => if (c =? 59) || (c =? 46) || (c =? 32) || (c =? 10) then Some c else None | _ => None end)); intros s []; try reflexivity; cbn [label_step lb_separator]; rewrite separator_same; destruct (_ || _); reflexivity|].
  split; [apply (flag_fold _ lb_hidden); [intros s []; reflexivity|reflexivity]|].
  apply (last_fold lb_num_format (fun o => match o with LbNumFormat s => Some s | _ => None end)); intros s []; reflexivity.
Qed.
Definition usual_font (f : list font_op) : cfont := label_font (make_font f).
Lemma made_label_font l : lb_font (make_label l) = option_map usual_font (label_font_calls l).
Proof. apply (Draw_Proofs2.last_folded lb_font (option_map usual_font) (fun o => match o with LbFont l => Some (Some l) | _ => None end)); [intros s []; reflexivity|reflexivity]. Qed.
Lemma position_word n : n <> 0 -> word_of position_names n = word_at positions (n - 1).
Proof. intros H. unfold word_of, word_at. replace (N.to_nat n) with (S (N.to_nat (n - 1))) by lia. reflexivity. Qed.
Lemma separator_is l : In (label_separator l) [44; 59; 46; 32; 10].
Proof.
  unfold label_separator. apply (last_all (fun c => In c [44; 59; 46; 32; 10]) (fun _ => True)); [|left; reflexivity|apply Forall_forall; intros; exact I].
  intros o v _ H. destruct o; try discriminate. destruct (_ || _) eqn:Q; [|discriminate]. injection H as <-. cbn [In]. rewrite !orb_true_iff, !N.eqb_eq in Q. intuition congruence.
Qed.
Definition label_tags : list string :=
  ["c:numFmt"; "c:spPr"; "c:txPr"; "c:dLblPos"; "c:showLegendKey"; "c:showVal"; "c:showCatName"; "c:showSerName"; "c:showPercent"; "c:separator"; "c:showLeaderLines"; "c:extLst"]%string.

Ltac one_part M Pt k S := erewrite (M _ k _ _ _ eq_refl); [|discriminate|apply Pt; unfold label_tags; at_part|exact S]; cbn [bind].
Ltac one_flag Fl Pt k c := rewrite (Fl k c eq_refl); [|discriminate|apply Pt; unfold label_tags; at_part]; cbn [bind].
Section Env.
Variable E : env.
Hypothesis Env : env_ok E.
Let Num : forall x, attr_text (e_num E x) := proj1 Env.
Notation known := (range_known (quotable E)).
Lemma parts_tagged f custom b : Forall2 tagged label_tags (label_parts E f custom b). Proof. unfold label_parts, label_tags. cbv zeta. kinds. Qed.
Definition label_good (o : label_op) : Prop := label_known (quotable E) o.
Lemma label_format_known l : Forall label_good l -> Forall format_known (label_format l).
Proof. intros K. apply (format_from _ label_good); [|exact K]. intros o v A B. destruct o; try discriminate. injection B as <-. exact A. Qed.
Lemma label_fonts_known l : Forall label_good l -> forall f, label_font_calls l = Some f -> Forall font_known f.
Proof.
  intros K f Hf. assert (P : match label_font_calls l with Some f => Forall font_known f | None => True end); [|rewrite Hf in P; exact P].
  apply (last_all (fun o => match o with Some f => Forall font_known f | None => True end) label_good); [|exact I|exact K]. intros o v A B. destruct o; try discriminate. injection B as <-. exact A.
Qed.
Lemma label_number_known l : Forall label_good l -> attr_text (label_number l).
Proof. intros K. apply (last_all attr_text label_good); [|reflexivity|exact K]. intros o v A B. destruct o; try discriminate. injection B as <-. exact A. Qed.
Lemma label_position_known l : Forall label_good l -> label_position l < 10.
Proof. intros K. apply (last_all (fun n => n < 10) label_good); [|reflexivity|exact K]. intros o v A B. destruct o; try discriminate. injection B as <-. exact A. Qed.
Lemma label_reads f custom l b t pretags pre : labelled l b -> Forall label_good l -> (forall g, lb_font b = Some g -> fits g) -> option_map (fun g => text_of_font E g false) (lb_font b) = t ->
  Forall2 tagged pretags pre -> (forall k, In k label_tags -> k <> "c:spPr"%string -> part k pretags pre = []) -> shape_in (map node_of (concat (pre ++ label_parts E f custom b))) = Some (asked_shape (label_format l)) ->
  Forall (Forall wx_ok) (label_parts E f custom b) /\ read_label f (map node_of (concat (pre ++ label_parts E f custom b))) = Some (asked_label f custom t l).
Proof.
  intros (A1 & A2 & A3 & A4 & A5 & A6 & A7 & A8 & A9 & A10 & A11) K Ft Vt Tp Pp Sh. pose proof (label_number_known l K) as Kn. pose proof (label_position_known l K) as Kp.
  assert (S1 : says read_own_format (when (negb (is_nil (lb_num_format b))) [num_fmt_xml (lb_num_format b) false]) match label_number l with [] => None | s => Some s end).
  { rewrite A11. destruct (label_number l) as [|c r]; [apply says_nil|]. apply says_one; [split; [reflexivity|]; pose proof (bit_ok false); good|reflexivity]. }
  pose proof (says_font E Env (lb_font b) t false Ft Vt) as S2.
  set (dp := when (negb (lb_position b =? 0) && negb (lb_position b =? default_position f)) [word_xml "c:dLblPos" (word_of position_names (lb_position b))]).
  assert (S3 : exists p, says value_of dp p /\ match p with Some p => p | None => usual_position f end = match label_position l with 0 => usual_position f | n => word_at positions (n - 1) end).
  { unfold dp. rewrite A8. eexists. split; [apply says_word; [reflexivity|apply nth_attr; repeat constructor]|]. destruct (N.eqb_spec (label_position l) 0) as [->|N0]; [reflexivity|]. cbn [negb andb].
    assert (Y : match label_position l with 0 => usual_position f | n => word_at positions (n - 1) end = word_at positions (label_position l - 1)) by (destruct (label_position l); [congruence|reflexivity]). rewrite Y.
    destruct (N.eqb_spec (label_position l) (default_position f)) as [->|N1]; cbn [negb]; [destruct f; reflexivity|apply position_word; exact N0]. }
  destruct S3 as (p & S3 & Ep).
  pose proof (separator_is l) as Ls. set (sp := when (negb (lb_separator b =? 44)) [WData (lit "c:separator") [lb_separator b; 32] []]).
  assert (S4 : says text_of sp (if label_separator l =? 44 then None else Some [label_separator l; 32])).
  { unfold sp. rewrite A9. destruct (N.eqb_spec (label_separator l) 44) as [->|N44]; [apply says_nil|]. cbn [negb when]. assert (D : doc_text [label_separator l; 32]) by (cbn [In] in Ls; destruct Ls as [<-|[<-|[<-|[<-|[<-|[]]]]]]; reflexivity).
    apply says_one; [apply ok_word; [reflexivity|exact D]|]. rewrite (node_data _ _ _ D), text_leaf. reflexivity. }
  assert (Se : wx_ok leader_ext /\ needed "c:ext" (fun x => flag_at "c15:showLeaderLines" (kids_of x)) (kids_of (node_of leader_ext)) = Some true).
  { split; [|reflexivity]. apply elem_ok; [reflexivity|]. constructor; [constructor; [|constructor]|constructor]. apply ok_elem; [reflexivity|good|]. constructor; [apply flag_ok; reflexivity|constructor]. }
  pose proof (says_when (fun e => needed "c:ext" (fun x => flag_at "c15:showLeaderLines" (kids_of x)) (kids_of e)) (lb_leader b && negb (is_round f)) leader_ext true (fun _ => Se)) as S5.
  assert (Er : match f with FPie | FDoughnut => true | _ => false end = is_round f) by reflexivity.
  destruct (sp_reads _ (label_format_known l K)) as [Ws _]. rewrite <- A1 in Ws. split.
  - unfold label_parts. cbv zeta. rewrite Er. constructor; [exact (proj1 S1)|]. constructor; [exact Ws|]. constructor; [exact (proj1 S2)|]. constructor; [exact (proj1 S3)|].
    do 5 (constructor; [apply when_flag; reflexivity|]). constructor; [exact (proj1 S4)|]. constructor; [apply when_flag; reflexivity|]. constructor; [exact (proj1 S5)|constructor].
  - assert (K2 : Forall2 tagged (pretags ++ label_tags) (pre ++ label_parts E f custom b)) by (apply Forall2_app; [exact Tp|apply parts_tagged]).
    assert (G : forall k, In k label_tags -> k <> "c:spPr"%string -> part k (pretags ++ label_tags) (pre ++ label_parts E f custom b) = part k label_tags (label_parts E f custom b)) by (intros k I N; rewrite part_app by exact Tp; rewrite (Pp k I N); reflexivity).
    assert (In1 : forall k, existsb (String.eqb k) label_tags = true -> In k label_tags) by (intros k H; apply existsb_exists in H as (x & Hx & Q); apply String.eqb_eq in Q; subst; exact Hx).
    unfold read_label. unfold label_parts in G at 2. cbv zeta in G. rewrite Er in G. unfold label_tags in G at 3.
    assert (M : forall A k (fn : node -> option A) v xs, existsb (String.eqb k) label_tags = true -> k <> "c:spPr"%string -> part k label_tags (label_parts E f custom b) = xs -> says fn xs v ->
      maybe k fn (map node_of (concat (pre ++ label_parts E f custom b))) = Some v).
    { intros A k fn v xs I N P S. apply (says_maybe k fn _ _ _ _ K2 (eq_trans (G k (In1 k I) N) P) S). }
    assert (Fl : forall k c, existsb (String.eqb k) label_tags = true -> k <> "c:spPr"%string -> part k label_tags (label_parts E f custom b) = when c [flag_xml k] ->
      flag_at k (map node_of (concat (pre ++ label_parts E f custom b))) = Some c).
    { intros k c I N P. apply (flag_parts k c _ _ K2). rewrite <- P. apply (G k (In1 k I) N). }
    assert (Pt : forall k xs, part k label_tags [when (negb (is_nil (lb_num_format b))) [num_fmt_xml (lb_num_format b) false]; sp_pr (lb_format b); opt_xml (lb_font b) (fun t => tx_pr E t false); dp;
       when (lb_key b) [flag_xml "c:showLegendKey"]; when (lb_value b || (negb custom && negb (lb_category b) && negb (lb_percent b))) [flag_xml "c:showVal"];
       when (lb_category b) [flag_xml "c:showCatName"]; when (lb_series b) [flag_xml "c:showSerName"]; when (lb_percent b) [flag_xml "c:showPercent"]; sp;
       when (lb_leader b && is_round f) [flag_xml "c:showLeaderLines"]; when (lb_leader b && negb (is_round f)) [leader_ext]] = xs -> part k label_tags (label_parts E f custom b) = xs) by (intros k xs H; exact H).
    one_part M Pt "c:numFmt"%string S1. rewrite Sh. cbn [bind].
    one_part M Pt "c:txPr"%string S2.
    one_part M Pt "c:dLblPos"%string S3.
    one_flag Fl Pt "c:showLegendKey"%string (lb_key b).
    one_flag Fl Pt "c:showVal"%string (lb_value b || (negb custom && negb (lb_category b) && negb (lb_percent b))).
    one_flag Fl Pt "c:showCatName"%string (lb_category b).
    one_flag Fl Pt "c:showSerName"%string (lb_series b).
    one_flag Fl Pt "c:showPercent"%string (lb_percent b).
    one_part M Pt "c:separator"%string S4.
    unfold read_leader. one_flag Fl Pt "c:showLeaderLines"%string (lb_leader b && is_round f).
    one_part M Pt "c:extLst"%string S5.
    rewrite A2, A3, A4, A5, A6, A7. unfold asked_label. rewrite Ep. f_equal. f_equal. destruct (wants_leader l), (is_round f); reflexivity.
Qed.

(** ** The label of a series *)
Lemma label_fits l : Forall label_good l -> forall g, lb_font (make_label l) = Some g -> fits g.
Proof. intros K g Hg. rewrite made_label_font in Hg. destruct (label_font_calls l) as [f|] eqn:Q; [|discriminate]. injection Hg as <-. exact (made_fits f (label_fonts_known l K f Q)). Qed.
Lemma label_text l : option_map (fun g => text_of_font E g false) (lb_font (make_label l)) = option_map (asked_text (e_num E) false) (label_font_calls l).
Proof. rewrite made_label_font. destruct (label_font_calls l) as [f|]; [|reflexivity]. cbn [option_map]. f_equal. rewrite <- font_view. reflexivity. Qed.

(** ** Labels of points *)
Notation asked_custom := (asked_custom (e_num E) (e_parses E) (e_cache E)).
Lemma custom_names l : ti_name (lb_title (make_label l)) = fold_left name_text (label_names l) [] /\ ti_range (lb_title (make_label l)) = fold_left name_range (label_names l) no_range /\
  ti_font (lb_title (make_label l)) = font_new /\ ti_horizontal (lb_title (make_label l)) = false.
Proof.
  unfold make_label, label_names. induction l as [|o l IH] using rev_ind; [repeat split|]. rewrite fold_left_app, flat_map_app, !fold_left_app. cbn [fold_left flat_map]. rewrite app_nil_r. destruct IH as (I1 & I2 & I3 & I4).
  set (s := fold_left label_step l label_new) in *. destruct o; cbn [label_step lb_title label_title title_para title_step ti_name ti_range ti_font ti_horizontal fold_left]; rewrite <- ?I1, <- ?I2; repeat split; try assumption; reflexivity.
Qed.
Lemma label_default_idle l : label_default (make_label l) = idle l.
Proof.
  destruct (make_labelled l) as (A1 & A2 & A3 & A4 & A5 & A6 & A7 & A8 & A9 & A10 & A11). unfold label_default, idle. rewrite A1, A2, A3, A4, A5, A6, A7, A8, A9, A10, A11, has_formatting_calls, made_label_font.
  assert (N0 : is_nil (label_number l) = no_calls (label_number l)) by (destruct (label_number l); reflexivity). rewrite N0.
  assert (F0 : some (option_map usual_font (label_font_calls l)) = negb (match label_font_calls l with None => true | _ => false end)) by (destruct (label_font_calls l); reflexivity). rewrite F0.
  rewrite !negb_orb, !negb_involutive. reflexivity.
Qed.
Lemma label_names_known l : Forall label_good l -> Forall (arg_known (quotable E)) (label_names l).
Proof. induction 1 as [|o l H F IH]; [constructor|]. unfold label_names. cbn [flat_map]. apply Forall_app. split; [destruct o; try constructor; [exact H|constructor]|exact IH]. Qed.
Definition rest_free (k : string) : Prop := In k label_tags -> k <> "c:spPr"%string -> True.
Lemma custom_reads f i l : Forall label_good l -> plain_words l -> wx_ok (custom_label E f i (make_label l)) /\ read_custom f (node_of (custom_label E f i (make_label l))) = Some (i, asked_custom f l).
Proof.
  intros K [Se Pl]. set (b := make_label l). pose proof (make_labelled l) as Lb. fold b in Lb. pose proof Lb as (A1 & A2 & A3 & A4 & A5 & A6 & A7 & A8 & A9 & A10 & A11). unfold custom_label. cbv zeta. rewrite A10. unfold Chart_Spec2.asked_custom. cbv zeta.
  pose proof (label_fits l K) as Lf. fold b in Lf. pose proof (label_text l) as Lt. fold b in Lt. pose proof (label_format_known l K) as Kf.
  destruct (wants_hidden l) eqn:Hh.
  - split.
    + apply elem_ok; [reflexivity|]. constructor; [constructor; [apply num_ok; reflexivity|constructor]|]. constructor; [constructor; [apply flag_ok; reflexivity|constructor]|]. apply Forall_forall. intros x Hx. cbn in Hx. assert (x = []) by (intuition congruence). subst. constructor.
    + unfold read_custom. rewrite elem_kids. cbv zeta. cbn [app repeat concat]. change [num_xml "c:idx" i; flag_xml "c:delete"] with (concat [[num_xml "c:idx" i]; [flag_xml "c:delete"]]).
      tagging ["c:idx"; "c:delete"]%string kinds. pose proof (says_num1 "c:idx" i eq_refl) as S1. needed_part K2 S1. rewrite (flag_parts "c:delete" true _ _ K2) by at_part. reflexivity.
  - destruct (custom_names l) as (C1 & C2 & C3 & C4). fold b in C1, C2, C3, C4. pose proof (names_say _ Se) as Ns. pose proof (name_known E _ (label_names_known l K)) as Nk.
    set (titled := named (lb_title b) || range_given (ti_range (lb_title b))).
    set (font := match lb_font b with Some t => Some (with_font t (cf_bold t) false (cf_default_bold t) (cf_rtl t)) | None => None end).
    set (title := match font with Some t => if titled then title_para (lb_title b) (ti_plain (lb_title b)) (let u := title_font t in with_font u (cf_bold u) false (cf_default_bold u) (cf_rtl u)) else lb_title b | None => lb_title b end).
    set (shown := {| lb_format := lb_format b; lb_title := title |}).
    assert (Ls : labelled l shown) by (refine (conj A1 (conj A2 (conj A3 (conj A4 (conj A5 (conj A6 (conj A7 (conj A8 (conj A9 (conj _ A11)))))))))); rewrite Hh; first [exact A10|reflexivity]).
    assert (Tn : ti_name title = ti_name (lb_title b) /\ ti_range title = ti_range (lb_title b) /\ ti_horizontal title = false /\ ti_plain title = ti_plain (lb_title b)).
    { unfold title. destruct font; [destruct titled|]; repeat split; assumption. }
    destruct Tn as (T1 & T2 & T3 & T4).
    assert (Ff : forall g, font = Some g -> fits g). { intros g Hg. unfold font in Hg. destruct (lb_font b) as [t|] eqn:Q; [|discriminate]. injection Hg as <-. exact (Lf t eq_refl). }
    assert (Ft : option_map (fun g => text_of_font E g false) font = option_map (asked_text (e_num E) false) (label_font_calls l)).
    { rewrite <- Lt. unfold font. destruct (lb_font b); reflexivity. }
    set (empty := when (negb (has_formatting (lb_format b)) && match lb_font b with Some t => auto_or_default (cf_color t) | None => false end) [WEmpty (lit "c:spPr") []]).
    set (lay := when (negb (some (lb_font b)) || titled) [layout_xml E layout_new]).
    set (tx := if named title then [tx_rich E title] else when (range_given (ti_range title)) [tx_formula E (ti_range title)]).
    assert (Stx : Forall wx_ok tx /\ tagged "c:tx" tx).
    { unfold tx, named. rewrite T1, T2, C1, C2. destruct (the_name (label_names l)) as [|s|c].
      - destruct Ns as [-> ->]. split; constructor.
      - destruct Ns as [E1 Ne]. rewrite E1. destruct s as [|a s]; [congruence|]. cbn [is_nil negb]. split; [|apply tagged_one; reflexivity]. constructor; [|constructor]. apply tx_rich_reads; [exact Env| |rewrite T1, C1, E1; exact Nk].
        unfold title. destruct font as [g|] eqn:Qf; [|rewrite C3; apply fits_new]. destruct titled; [exact (Ff g eq_refl)|rewrite C3; apply fits_new].
      - destruct Ns as (-> & -> & ->). cbn [is_nil negb when]. split; [|apply tagged_one; reflexivity]. constructor; [|constructor]. apply (tx_formula_reads E Env c Nk). }
    assert (Rtx : says read_words tx (match the_name (label_names l) with NoName => None | ByText s => Some (Rich s (match option_map (asked_text (e_num E) false) (label_font_calls l) with Some t => t | None => asked_text (e_num E) false [] end))
      | ByRange c => Some (Cells (source_asked (e_parses E) (e_cache E) AsText c)) end)).
    { split; [exact (proj1 Stx)|]. unfold tx, named. rewrite T1, T2, C1, C2. destruct (the_name (label_names l)) as [|s|c].
      - destruct Ns as [-> ->]. reflexivity.
      - destruct Ns as [E1 Ne]. rewrite E1. destruct s as [|a s]; [congruence|]. cbn [is_nil negb]. destruct (tx_rich_reads E Env title) as [_ R]; [unfold title; destruct font as [g|] eqn:Qf; [|rewrite C3; apply fits_new]; destruct titled; [exact (Ff g eq_refl)|rewrite C3; apply fits_new]|rewrite T1, C1, E1; exact Nk|].
        rewrite R. cbn [bind]. rewrite T1, C1, E1, T3, T4. f_equal. f_equal. f_equal.
        assert (Ti : titled = true) by (unfold titled, named; rewrite C1, E1; reflexivity).
        assert (Fb : lb_font b = option_map usual_font (label_font_calls l)) by apply made_label_font. unfold title, font. rewrite Fb. destruct (label_font_calls l) as [h|]; cbn [option_map].
        + rewrite Ti. cbn [title_para ti_font]. rewrite <- font_view. unfold text_of_font. change (turn_of (with_font _ _ _ _ _) false) with (turn_of (make_font h) false). rewrite made_rtl, Pl.
          replace (if ti_plain (lb_title b) then None else cf_rtl _) with (@None bool) by (destruct (ti_plain (lb_title b)); [reflexivity|]; cbn; symmetry; rewrite made_rtl; exact Pl). reflexivity.
        + rewrite C3. unfold asked_text. destruct (ti_plain (lb_title b)); reflexivity.
      - destruct Ns as (-> & -> & ->). cbn [is_nil negb when]. destruct (tx_formula_reads E Env c Nk) as [_ R]. rewrite R. reflexivity. }
    assert (Fs : lb_font shown = if named (lb_title b) then None else font) by reflexivity.
    set (t2 := if named (lb_title b) then None else option_map (asked_text (e_num E) false) (label_font_calls l)).
    assert (Fs1 : forall g, lb_font shown = Some g -> fits g) by (intros g; rewrite Fs; destruct (named (lb_title b)); [discriminate|apply Ff]).
    assert (Fs2 : option_map (fun g => text_of_font E g false) (lb_font shown) = t2) by (rewrite Fs; unfold t2; destruct (named (lb_title b)); [reflexivity|exact Ft]).
    set (pre := [[num_xml "c:idx" i]; []; empty; lay; tx]). set (pretags := ["c:idx"; "c:delete"; "c:spPr"; "c:layout"; "c:tx"]%string).
    assert (Tl : tagged "c:layout" lay) by (apply tagged_when, tagged_one, (layout_reads E Num layout_new)).
    assert (Tp : Forall2 tagged pretags pre) by (unfold pre, pretags; constructor; [apply tagged_one; reflexivity|]; constructor; [constructor|]; constructor; [apply tagged_when, tagged_one; reflexivity|]; constructor; [exact Tl|]; constructor; [apply Stx|constructor]).
    assert (Pp : forall k, In k label_tags -> k <> "c:spPr"%string -> part k pretags pre = []).
    { intros k Hk Hn. unfold label_tags in Hk. cbn [In] in Hk. unfold pretags, pre. repeat (destruct Hk as [<-|Hk]; [first [congruence|reflexivity]|]). destruct Hk. }
    assert (K2 : Forall2 tagged (pretags ++ label_tags) (pre ++ label_parts E f true shown)) by (apply Forall2_app; [exact Tp|apply parts_tagged]).
    assert (Sh : shape_in (map node_of (concat (pre ++ label_parts E f true shown))) = Some (asked_shape (label_format l))).
    { destruct (has_formatting (lb_format b)) eqn:Hf.
      - apply (shape_parts (label_format l) _ _ K2 Kf). rewrite part_app by exact Tp. assert (Em : empty = []) by (unfold empty; rewrite ?Hf; reflexivity). unfold pretags, pre, label_tags, label_parts. cbv zeta. rewrite Em. parted. change (lb_format shown) with (lb_format b). rewrite A1. reflexivity.
      - assert (Ec : label_format l = []) by (rewrite A1, has_formatting_calls in Hf; destruct (label_format l); [reflexivity|discriminate]). rewrite Ec.
        assert (Es : part "c:spPr" (pretags ++ label_tags) (pre ++ label_parts E f true shown) = empty).
        { rewrite part_app by exact Tp. unfold pretags, pre, label_tags, label_parts. cbv zeta. parted. cbn [lb_format]. unfold sp_pr. change (lb_format shown) with (lb_format b). rewrite Hf. cbn [when]. rewrite app_nil_r. reflexivity. }
        unfold shape_in. rewrite (parts_maybe _ _ _ _ K2), Es. unfold empty. destruct (negb _ && _); reflexivity. }
    destruct (label_reads f true l shown t2 pretags pre Ls K Fs1 Fs2 Tp Pp Sh) as [Wp Rp].
    assert (Xe : elem "c:dLbl" ([num_xml "c:idx" i] :: [[]; empty; lay; tx] ++ label_parts E f true shown) = elem "c:dLbl" (pre ++ label_parts E f true shown)) by reflexivity. rewrite Xe. split.
    + apply elem_ok; [reflexivity|]. apply Forall_app. split; [|exact Wp]. unfold pre. constructor; [constructor; [apply num_ok; reflexivity|constructor]|]. constructor; [constructor|].
      constructor; [apply ok_if; constructor; [apply ok_leaf; reflexivity|constructor]|]. constructor; [apply ok_if; apply says_layout; exact Env|]. constructor; [apply Stx|constructor].
    + unfold read_custom. rewrite elem_kids. cbv zeta.
      assert (Pk : forall k, ~ In k label_tags -> part k (pretags ++ label_tags) (pre ++ label_parts E f true shown) = part k pretags pre).
      { intros k Hk. rewrite part_app by exact Tp. assert (Z : forall t ls, ~ In k t -> part k t ls = []).
        { clear. intros t. induction t as [|j t IH]; intros ls Hk; [destruct ls; reflexivity|]. destruct ls as [|a r]; [reflexivity|]. cbn [part]. rewrite IH by (intros H; apply Hk; right; exact H).
          destruct (String.eqb_spec j k) as [->|]; [exfalso; apply Hk; left; reflexivity|reflexivity]. }
        rewrite (Z _ _ Hk). apply app_nil_r. }
      assert (Nin : forall k, existsb (String.eqb k) label_tags = false -> ~ In k label_tags). { intros k H I. assert (existsb (String.eqb k) label_tags = true) by (apply existsb_exists; exists k; split; [exact I|apply String.eqb_refl]). congruence. }
      rewrite (says_needed "c:idx" number_val _ _ i [num_xml "c:idx" i] K2 ltac:(rewrite Pk by (apply Nin; reflexivity); unfold pretags, pre; at_part) (says_num1 "c:idx" i eq_refl)). cbn [bind].
      rewrite (flag_parts "c:delete" false _ _ K2) by (rewrite Pk by (apply Nin; reflexivity); unfold pretags, pre; at_part). cbn [bind].
      rewrite (says_maybe "c:tx" read_words _ _ _ tx K2 ltac:(rewrite Pk by (apply Nin; reflexivity); unfold pretags, pre; at_part) Rtx). cbn [bind]. rewrite Rp. cbn [bind]. unfold t2, named. rewrite C1.
      destruct (the_name (label_names l)) as [|s|c]; [destruct Ns as [-> _]; reflexivity| |destruct Ns as (-> & _); reflexivity]. destruct Ns as [-> Ne]. destruct s; [congruence|reflexivity].
Qed.
Lemma customs_made f points l : Forall (fun c => Forall label_good c /\ plain_words c) l -> forall n,
  Forall wx_ok (custom_labels E f (N.of_nat n) points (map make_label l)) /\ tagged "c:dLbl" (custom_labels E f (N.of_nat n) points (map make_label l)) /\
  read_all (read_custom f) (map node_of (custom_labels E f (N.of_nat n) points (map make_label l))) = Some (map (fun p => (fst p, asked_custom f (snd p))) (filter (fun p => (fst p <? points) && negb (idle (snd p))) (from_n n l))).
Proof.
  induction 1 as [|a l [H H2] F IH]; intros n; [repeat split; constructor|]. rewrite from_cons. cbn [map custom_labels filter fst snd]. destruct (N.leb_spec points (N.of_nat n)).
  - replace (N.of_nat n <? points) with false by lia. cbn [andb].
    assert (Z : forall k, (n <= k)%nat -> filter (fun p => (fst p <? points) && negb (idle (snd p))) (from_n k l) = []).
    { clear -H0. intros k Hk. revert k Hk. induction l as [|b l IH]; intros k Hk; [reflexivity|]. rewrite from_cons. cbn [filter fst snd]. replace (N.of_nat k <? points) with false by lia. apply IH. lia. }
    rewrite Z by lia. repeat split; constructor.
  - replace (N.of_nat n <? points) with true by lia. cbn [andb]. rewrite label_default_idle. replace (N.of_nat n + 1) with (N.of_nat (S n)) by lia. destruct (IH (S n)) as (W & T & R).
    destruct (idle a) eqn:Q; cbn [negb when app]; [split; [exact W|split; [exact T|exact R]]|]. destruct (custom_reads f (N.of_nat n) a H H2) as [W1 R1].
    split; [constructor; assumption|]. split; [constructor; [reflexivity|exact T]|]. cbn [map read_all fst snd]. rewrite R1, R. reflexivity.
Qed.

(** ** The labels of a series *)
Lemma labels_reads f points l custom : Forall label_good l -> Forall (fun c => Forall label_good c /\ plain_words c) custom ->
  wx_ok (labels_xml E f points (make_label l) (map make_label custom)) /\
  read_labels f (node_of (labels_xml E f points (make_label l) (map make_label custom))) = Some (asked_customs (e_num E) (e_parses E) (e_cache E) f points custom, series_label (e_num E) f l).
Proof.
  intros K Kc. pose proof (make_labelled l) as Lb. pose proof (label_format_known l K) as Kf. pose proof Lb as (A1 & _). destruct (customs_made f points custom Kc 0) as (Wc & Tc & Rc). change (N.of_nat 0) with 0 in *.
  set (cs := custom_labels E f 0 points (map make_label custom)) in *. unfold labels_xml. fold cs. set (b := make_label l) in *.
  assert (Tp : Forall2 tagged ["c:dLbl"]%string [cs]) by (constructor; [exact Tc|constructor]).
  assert (K2 : Forall2 tagged ("c:dLbl"%string :: label_tags) (cs :: label_parts E f false b)) by (constructor; [exact Tc|apply parts_tagged]).
  assert (Pp : forall k, In k label_tags -> k <> "c:spPr"%string -> part k ["c:dLbl"]%string [cs] = []).
  { intros k Hk Hn. unfold label_tags in Hk. cbn [In] in Hk. repeat (destruct Hk as [<-|Hk]; [first [congruence|reflexivity]|]). destruct Hk. }
  assert (Sh : shape_in (map node_of (concat ([cs] ++ label_parts E f false b))) = Some (asked_shape (label_format l))).
  { apply (shape_parts (label_format l) _ _ K2 Kf). unfold label_tags, label_parts. cbv zeta. parted. rewrite A1. reflexivity. }
  destruct (label_reads f false l b _ ["c:dLbl"]%string [cs] Lb K (label_fits l K) (label_text l) Tp Pp Sh) as [Wp Rp]. split.
  - apply elem_ok; [reflexivity|]. constructor; [exact Wc|exact Wp].
  - unfold read_labels. rewrite elem_kids. rewrite (parts_filter _ _ _ K2).
    assert (Pc : part "c:dLbl" ("c:dLbl"%string :: label_tags) (cs :: label_parts E f false b) = cs) by (unfold label_tags, label_parts; cbv zeta; parted; reflexivity).
    rewrite Pc, Rc. cbn [bind]. change (concat (cs :: label_parts E f false b)) with (concat ([cs] ++ label_parts E f false b)). rewrite Rp. cbn [bind]. unfold asked_customs. rewrite indexed_from. reflexivity.
Qed.
End Env.
