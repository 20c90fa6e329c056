(** Charts: texts and layouts read back. *)
From Verif Require Import Base F64 Xml_Model Xml_Spec Xml_Proofs Xml_Read Xml_Read_Proofs Xml_Tree Fmt_Model Rich_Model Rich_Proofs SheetXml_Spec SheetXml_Proofs SheetXml_Proofs3 Doc_Model Doc_Spec Props_Doc Tag_Proofs Part_Proofs
  CF_Spec CF_Model CF_Build CF_Read Ref_Model Ref_Proofs Ref_Spec Quote_Proofs Note_Spec Note_Proofs Note_Proofs2 Note_Proofs4 Note_Proofs5 Cache_Model Spark_Model Spark_Spec Dml_Model Dml_Spec Dml_Proofs Draw_Model Draw_Proofs Draw_Proofs3 Chart_Model Chart_Spec Chart_Proofs.
From Verif Require Color_Spec Props_Spark.

Ltac kinds := repeat (first [apply Forall2_nil | apply Forall2_cons]);
  repeat first [apply tagged_nil | apply tagged_sp | apply tagged_when | apply tagged_app | apply tagged_one; reflexivity | apply tagged_opt; intros; reflexivity | apply tagged_map; intros; reflexivity].
Ltac parted := cbn [part]; eqbs; cbn [app]; rewrite ?app_nil_r.

(** ** Fonts *)
Lemma last_flag {O} (f : O -> bool) (p : cfont -> bool) step (l : list O) s : (forall s o, p (step s o) = if f o then true else p s) -> p s = false -> p (fold_left step l s) = existsb f l.
Proof. intros H H0. rewrite (last_fold p (fun o => if f o then Some true else None)) by (intros; rewrite H; destruct (f o); reflexivity). rewrite H0. symmetry. apply last_existsb. Qed.
Lemma angle_same z : angle_ok z = ((-90 <=? z) && (z <=? 90) || (z =? 270) || (z =? 271))%Z.
Proof. unfold angle_ok. lia. Qed.
Section Env.
Variable E : env.
Hypothesis Num : forall x, attr_text (e_num E x).
Definition letters_of (f : cfont) : letters :=
  {| le_bold := cf_bold f; le_italic := cf_italic f; le_underline := cf_underline f; le_size := if flt (f_of_N 0) (cf_size f) then Some (e_num E (cf_size f)) else None;
     le_color := match cf_color f with CDefault | CAutomatic => None | c => Some (seen_color c) end; le_name := cf_name f; le_pitch := cf_pitch f; le_charset := cf_charset f |}.
Lemma made_letters l : letters_of (make_font l) = asked_letters (e_num E) l.
Proof.
  unfold letters_of, asked_letters, make_font.
  rewrite (last_fold cf_bold (fun o => match o with CfBold => Some (Some true) | CfUnbold => Some (Some false) | _ => None end)) by (intros s []; reflexivity).
  rewrite (last_flag (fun o => match o with CfItalic => true | _ => false end) cf_italic) by (first [reflexivity|intros s []; reflexivity]).
  rewrite (last_flag (fun o => match o with CfUnderline => true | _ => false end) cf_underline) by (first [reflexivity|intros s []; reflexivity]).
  rewrite (last_fold cf_size (fun o => match o with CfSize x => Some (fmul x (f_of_N 100)) | _ => None end)) by (intros s []; reflexivity).
  rewrite (last_fold cf_color (fun o => match o with CfColor c => in_range c | _ => None end)) by (intros s []; try reflexivity; cbn [font_step cf_color]; rewrite in_range_eq; destruct (color_valid _); reflexivity).
  rewrite (last_fold cf_name (fun o => match o with CfName s => Some s | _ => None end)) by (intros s []; reflexivity).
  rewrite (last_fold cf_pitch (fun o => match o with CfPitch s => Some s | _ => None end)) by (intros s []; reflexivity).
  rewrite (last_fold cf_charset (fun o => match o with CfCharset s => Some s | _ => None end)) by (intros s []; reflexivity). reflexivity.
Qed.
Lemma made_rtl l : cf_rtl (make_font l) = asked_rtl l. Proof. unfold make_font. apply (last_fold cf_rtl). intros s []; reflexivity. Qed.
Lemma made_rotation l : cf_rotation (make_font l) = asked_rotation l.
Proof. unfold make_font. apply (last_fold cf_rotation). intros s []; try reflexivity. cbn [font_step cf_rotation]. rewrite angle_same. destruct (_ || _); reflexivity. Qed.
Definition fits (f : cfont) : Prop := attr_text (cf_name f) /\ Color_Spec.real_color (cf_color f) = true.
Lemma made_fits l : Forall font_known l -> fits (make_font l).
Proof.
  intros K. unfold fits, make_font. split.
  - rewrite (last_fold cf_name (fun o => match o with CfName s => Some s | _ => None end)) by (intros s []; reflexivity). apply (last_all attr_text font_known); [|reflexivity|exact K]. intros o v H Q. destruct o; try discriminate. injection Q as <-. exact H.
  - rewrite (last_fold cf_color (fun o => match o with CfColor c => in_range c | _ => None end)) by (intros s []; try reflexivity; cbn [font_step cf_color]; rewrite in_range_eq; destruct (color_valid _); reflexivity).
    apply (last_all (fun c => Color_Spec.real_color c = true) font_known); [|reflexivity|exact K]. intros o v H Q. destruct o; try discriminate. exact (real_kept _ H _ Q).
Qed.
Lemma latin_reads f : attr_text (cf_name f) -> is_latin f = true \/ True -> wx_ok (chart_latin f) /\ read_latin (node_of (chart_latin f)) = Some (cf_name f, cf_pitch f, cf_charset f).
Proof.
  intros A _. unfold chart_latin. split.
  - split; [reflexivity|]. destruct (negb (is_nil (cf_name f))), (0 <? cf_pitch f), ((0 <? cf_charset f) || _); cbn [when app]; good.
  - rewrite node_empty. unfold read_latin, opt_attr. cbn [attrs_of]. cbv zeta. rewrite !attr_app, !attr_when. rewrite !attr_cons. eqbs. change (attr "pitchFamily" []) with (@None str). change (attr "charset" []) with (@None str). change (attr "typeface" []) with (@None str).
    destruct (N.ltb_spec 0 (cf_pitch f)) as [P1|P1], (N.ltb_spec 0 (cf_charset f)) as [P2|P2], (cf_name f) as [|c t]; cbn [is_nil negb orb]; rewrite ?number_of_dec; cbn [bind];
      try (assert (P3 : cf_pitch f = 0) by lia; rewrite P3); try (assert (P4 : cf_charset f = 0) by lia; rewrite P4); reflexivity.
Qed.
Lemma auto_default c : auto_or_default c = match c with CDefault | CAutomatic => true | _ => false end. Proof. destruct c; reflexivity. Qed.
Lemma props_reads tag lang f : good_name (lit tag) = true -> fits f -> wx_ok (props_xml E tag lang f) /\ read_letters (node_of (props_xml E tag lang f)) = Some (letters_of f) /\ tag_of (props_xml E tag lang f) = lit tag.
Proof.
  intros G [A R]. pose proof (Num (cf_size f)) as Nz. destruct (latin_reads f A (or_intror I)) as [Wl Rl]. destruct (solid_reads (cf_color f) 0 R ltac:(lia)) as (Ws & Rs & Fs).
  unfold props_xml. set (attrs := font_attrs E lang f).
  assert (Ga : attrs_good attrs).
  { unfold attrs, font_attrs. pose proof (bit_ok (cf_italic f)) as B2. destruct (cf_bold f) as [b|]; [pose proof (bit_ok b) as B1|]; destruct lang, (flt _ _), (cf_underline f), (cf_baseline f); cbn [some when app]; destruct (_ || _); cbn [when app]; good. }
  set (kids := concat _).
  assert (X : exists x, (if is_latin f || negb (auto_or_default (cf_color f)) then WElem (lit tag) attrs kids else WEmpty (lit tag) attrs) = x /\ node_of x = Elem (lit tag) attrs (map node_of kids) /\ wx_ok x /\ tag_of x = lit tag).
  { eexists. split; [reflexivity|]. unfold kids. destruct (is_latin f || _) eqn:Q.
    - split; [reflexivity|]. split; [|reflexivity]. apply ok_elem; [exact G|exact Ga|]. apply Forall_concat. constructor; [apply ok_if; constructor; [exact Ws|constructor]|]. constructor; [apply ok_if; constructor; [exact Wl|constructor]|constructor].
    - apply orb_false_iff in Q as [-> ->]. split; [reflexivity|]. split; [split; [exact G|exact Ga]|reflexivity]. }
  destruct X as (x & -> & Ex & Wx & Tx). split; [exact Wx|]. split; [|exact Tx]. rewrite Ex. unfold read_letters. cbn [attrs_of kids_of]. cbv zeta.
  assert (At : attr "b" attrs = option_map bit (cf_bold f) /\ attr "i" attrs = (if cf_italic f || (some (cf_bold f) && negb (cf_default_bold f)) then Some (bit (cf_italic f)) else None) /\
    attr "u" attrs = (if cf_underline f then Some (lit "sng") else None) /\ attr "sz" attrs = if flt (f_of_N 0) (cf_size f) then Some (e_num E (cf_size f)) else None).
  { unfold attrs, font_attrs. rewrite !attr_app, !attr_when. rewrite !attr_cons. eqbs. destruct (cf_bold f), lang, (flt _ _), (cf_underline f), (cf_baseline f), (cf_italic f), (cf_default_bold f); repeat split. }
  destruct At as (A1 & A2 & A3 & A4). unfold opt_attr. rewrite A1, A2, A3, A4.
  assert (B : match option_map bit (cf_bold f) with Some s => bind (bit_of s) (fun a => Some (Some a)) | None => Some None end = Some (cf_bold f)) by (destruct (cf_bold f) as [[|]|]; reflexivity). rewrite B. cbn [bind].
  assert (I2 : exists i, match (if cf_italic f || (some (cf_bold f) && negb (cf_default_bold f)) then Some (bit (cf_italic f)) else None) with Some s => bind (bit_of s) (fun a => Some (Some a)) | None => Some None end = Some i /\
    match i with Some i => i | None => false end = cf_italic f). { destruct (cf_italic f); cbn [orb]; [eexists; split; reflexivity|]. destruct (_ && _); eexists; split; reflexivity. }
  destruct I2 as (i & -> & Ei). cbn [bind].
  assert (Kf : fill_of (map node_of kids) = Some (if auto_or_default (cf_color f) then None else Some (Solid (seen_color (cf_color f)) (seen_opacity (cf_color f) 0))) /\
    maybe "a:latin" read_latin (map node_of kids) = Some (if is_latin f then Some (cf_name f, cf_pitch f, cf_charset f) else None)).
  { unfold kids, fill_of, maybe. cbn [concat]. rewrite app_nil_r.
    assert (S : is_elem "a:latin" (node_of (solid_xml (cf_color f) 0)) = false) by reflexivity. assert (S2 : is_fill (node_of (chart_latin f)) = false) by reflexivity. assert (S3 : is_elem "a:latin" (node_of (chart_latin f)) = true) by reflexivity.
    destruct (auto_or_default (cf_color f)), (is_latin f); cbn [negb when app map filter]; rewrite ?Fs, ?S, ?S2, ?S3; cbn [filter]; rewrite ?Rs, ?Rl; split; reflexivity. }
  destruct Kf as [-> ->]. cbn [bind].
  assert (La : match (if is_latin f then Some (cf_name f, cf_pitch f, cf_charset f) else None) with Some t => t | None => ([], 0, 0) end = (cf_name f, cf_pitch f, cf_charset f)).
  { destruct (is_latin f) eqn:Q; [reflexivity|]. unfold is_latin in Q. apply orb_false_iff in Q as [Q Q3]. apply orb_false_iff in Q as [Q1 Q2]. destruct (cf_name f); [|discriminate]. f_equal; [f_equal|]; lia. }
  rewrite La. unfold letters_of. rewrite auto_default. rewrite Ei.
  destruct (cf_color f); cbn [bind seen_opacity]; change ((100 - 0) * 1000) with 100000; cbn [bind]; destruct (cf_underline f); reflexivity.
Qed.
Definition turn_of (f : cfont) (horizontal : bool) : turn :=
  match (match cf_rotation f with Some r => Some r | None => if horizontal then Some (-90)%Z else None end) with
  | None => None
  | Some r => if (r =? 270)%Z then Some (0%Z, lit "wordArtVert") else if (r =? 271)%Z then Some (0%Z, lit "eaVert") else Some ((r * 60000)%Z, lit "horz")
  end.
Lemma int_attr z : attr_ok (int_text z).
Proof. unfold int_text, attr_ok. destruct (z <? 0)%Z; [cbn [forallb]; rewrite (attr_dec (Z.to_N (- z))); reflexivity|apply attr_dec]. Qed.
Lemma body_reads f h : wx_ok (body_xml f h) /\ read_turn (node_of (body_xml f h)) = Some (turn_of f h) /\ tag_of (body_xml f h) = lit "a:bodyPr".
Proof.
  unfold body_xml, turn_of. destruct (match cf_rotation f with Some r => Some r | None => if h then Some (-90)%Z else None end) as [r|]; [|split; [apply ok_leaf; reflexivity|split; reflexivity]].
  pose proof (int_attr (r * 60000)) as Ia. destruct (r =? 270)%Z; [split; [split; [reflexivity|good]|split; reflexivity]|]. destruct (r =? 271)%Z; [split; [split; [reflexivity|good]|split; reflexivity]|].
  split; [split; [reflexivity|good]|]. split; [|reflexivity]. rewrite node_empty. unfold read_turn. cbn [attrs_of]. ats. rewrite int_reads. reflexivity.
Qed.
Definition text_of_font (f : cfont) (h : bool) : text := {| te_turn := turn_of f h; te_rtl := cf_rtl f; te_letters := letters_of f |}.
Lemma rtl_attrs f : attrs_good match cf_rtl f with Some b => [(lit "rtl", bit b)] | None => [] end.
Proof. destruct (cf_rtl f) as [b|]; [|apply attrs_nil]. pose proof (bit_ok b). good. Qed.
Lemma rtl_reads f : opt_attr "rtl" bit_of match cf_rtl f with Some b => [(lit "rtl", bit b)] | None => [] end = Some (cf_rtl f).
Proof. unfold opt_attr. destruct (cf_rtl f) as [b|]; [|reflexivity]. rewrite attr_hit, bit_reads. reflexivity. Qed.
Lemma p_pr_ok f : fits f -> wx_ok (p_pr E f).
Proof. intros F. unfold p_pr. apply ok_elem; [reflexivity|apply rtl_attrs|]. constructor; [apply props_reads; [reflexivity|exact F]|constructor]. Qed.
Lemma tx_pr_reads f h : fits f -> wx_ok (tx_pr E f h) /\ read_text (node_of (tx_pr E f h)) = Some (text_of_font f h).
Proof.
  intros F. destruct (props_reads "a:defRPr" false f eq_refl F) as (W & R & T). destruct (body_reads f h) as (Wb & Rb & Tb). pose proof (p_pr_ok f F) as Wp. unfold tx_pr. split.
  - apply elem_ok; [reflexivity|]. constructor; [constructor; [exact Wb|constructor]|]. constructor; [constructor; [apply ok_leaf; reflexivity|constructor]|]. constructor; [|constructor].
    constructor; [|constructor]. apply elem_ok; [reflexivity|]. constructor; [constructor; [exact Wp|constructor]|]. constructor; [constructor; [split; [reflexivity|good]|constructor]|constructor].
  - unfold read_text. rewrite elem_kids. unfold needed.
    assert (K : Forall2 tagged ["a:bodyPr"; "a:lstStyle"; "a:p"]%string [[body_xml f h]; [lst_style]; [elem "a:p" [[p_pr E f]; [end_para]]]]) by (constructor; [apply tagged_one; exact Tb|]; kinds).
    rewrite (parts_maybe "a:bodyPr" _ _ _ K). parted. rewrite Rb. cbn [bind]. rewrite (parts_maybe "a:p" _ _ _ K). parted. rewrite elem_kids.
    assert (K2 : Forall2 tagged ["a:pPr"; "a:endParaRPr"]%string [[p_pr E f]; [end_para]]) by kinds. rewrite (parts_maybe "a:pPr" _ _ _ K2). parted.
    unfold p_pr at 1 2. rewrite node_elem. cbn [attrs_of kids_of]. rewrite rtl_reads. cbn [bind].
    assert (K3 : Forall2 tagged ["a:defRPr"]%string [[props_xml E "a:defRPr" false f]]) by (constructor; [apply tagged_one; exact T|constructor]).
    change (map node_of [props_xml E "a:defRPr" false f]) with (map node_of (concat [[props_xml E "a:defRPr" false f]])). rewrite (parts_maybe "a:defRPr" _ _ _ K3). parted. rewrite R. reflexivity.
Qed.
Lemma rich_reads t : fits (ti_font t) -> doc_text (ti_name t) ->
  wx_ok (rich_xml E t) /\ read_rich (node_of (rich_xml E t)) =
    Some (ti_name t, {| te_turn := turn_of (ti_font t) (ti_horizontal t); te_rtl := if ti_plain t then None else cf_rtl (ti_font t); te_letters := letters_of (ti_font t) |}).
Proof.
  intros F D. set (f := ti_font t) in *. destruct (props_reads "a:rPr" true f eq_refl F) as (W & R & T). destruct (body_reads f (ti_horizontal t)) as (Wb & Rb & Tb). pose proof (p_pr_ok f F) as Wp. unfold rich_xml. fold f. split.
  - apply elem_ok; [reflexivity|]. constructor; [constructor; [exact Wb|constructor]|]. constructor; [constructor; [apply ok_leaf; reflexivity|constructor]|]. constructor; [|constructor].
    constructor; [|constructor]. apply elem_ok; [reflexivity|]. constructor; [apply ok_if; constructor; [exact Wp|constructor]|]. constructor; [constructor; [|constructor]|constructor].
    apply elem_ok; [reflexivity|]. constructor; [constructor; [exact W|constructor]|]. constructor; [constructor; [apply ok_word; [reflexivity|exact D]|constructor]|constructor].
  - unfold read_rich. rewrite elem_kids. unfold needed. set (r := elem "a:r" _). set (p := elem "a:p" _).
    assert (K : Forall2 tagged ["a:bodyPr"; "a:lstStyle"; "a:p"]%string [[body_xml f (ti_horizontal t)]; [lst_style]; [p]]) by (constructor; [apply tagged_one; exact Tb|]; kinds).
    rewrite (parts_maybe "a:bodyPr" _ _ _ K). parted. rewrite Rb. cbn [bind]. rewrite (parts_maybe "a:p" _ _ _ K). parted. unfold p. rewrite elem_kids.
    assert (K2 : Forall2 tagged ["a:pPr"; "a:r"]%string [when (negb (ti_plain t)) [p_pr E f]; [r]]) by kinds. 
    assert (Mp : maybe "a:pPr" (fun q => opt_attr "rtl" bit_of (attrs_of q)) (map node_of (concat [when (negb (ti_plain t)) [p_pr E f]; [r]])) = Some (if ti_plain t then None else Some (cf_rtl f))).
    { rewrite (parts_maybe "a:pPr" _ _ _ K2). parted. destruct (ti_plain t); cbn [negb when]; [reflexivity|]. unfold p_pr. rewrite node_elem. cbn [attrs_of]. rewrite rtl_reads. reflexivity. }
    rewrite Mp. cbn [bind]. rewrite (parts_maybe "a:r" _ _ _ K2). parted. unfold r. rewrite elem_kids.
    assert (K3 : Forall2 tagged ["a:rPr"; "a:t"]%string [[props_xml E "a:rPr" true f]; [WData (lit "a:t") (ti_name t) []]]) by (constructor; [apply tagged_one; exact T|]; kinds).
    rewrite (parts_maybe "a:rPr" _ _ _ K3). parted. rewrite R. cbn [bind]. rewrite (parts_maybe "a:t" _ _ _ K3). parted.
    rewrite (node_data _ _ _ D), text_leaf. cbn [bind].
    destruct (ti_plain t); reflexivity.
Qed.

(** ** Layouts *)
Definition layout_of (l : clayout) : layout :=
  if some (ly_x l) || some (ly_y l) || some (ly_w l) || some (ly_h l) then
    {| lo_inner := ly_inner l; lo_x := option_map (e_num E) (ly_x l); lo_y := option_map (e_num E) (ly_y l); lo_w := if ly_sized l then option_map (e_num E) (ly_w l) else None;
       lo_h := if ly_sized l then option_map (e_num E) (ly_h l) else None |}
  else automatic_layout.
Lemma layout_reads l : wx_ok (layout_xml E l) /\ read_layout (node_of (layout_xml E l)) = Some (layout_of l) /\ tag_of (layout_xml E l) = lit "c:layout".
Proof.
  unfold layout_xml, layout_of. destruct (_ || _); [|split; [apply ok_leaf; reflexivity|split; reflexivity]].
  assert (O : forall tag o, good_name (lit tag) = true -> Forall wx_ok (opt_xml o (fun x => word_xml tag (e_num E x)))) by (intros tag [x|] G; [constructor; [apply word_ok; [exact G|apply Num]|constructor]|constructor]).
  split; [|split; [|reflexivity]].
  - apply elem_ok; [reflexivity|]. constructor; [constructor; [|constructor]|constructor]. apply elem_ok; [reflexivity|].
    repeat (constructor; [first [apply O; reflexivity|apply ok_if; apply O; reflexivity|constructor; [apply word_ok; reflexivity|constructor]|apply ok_if; constructor; [apply word_ok; reflexivity|constructor]]|]). constructor.
  - unfold read_layout. rewrite elem_kids. set (m := elem "c:manualLayout" _). assert (K : Forall2 tagged ["c:manualLayout"]%string [[m]]) by kinds. rewrite (parts_maybe _ _ _ _ K). parted. unfold m, read_manual. rewrite elem_kids. cbv zeta.
    unfold needed. match goal with |- context [map node_of (concat ?ls)] => assert (K2 : Forall2 tagged ["c:layoutTarget"; "c:xMode"; "c:yMode"; "c:x"; "c:y"; "c:w"; "c:h"]%string ls) by kinds end.
    rewrite !(parts_maybe _ _ _ _ K2). parted. rewrite !value_word.
    destruct (ly_inner l), (ly_x l), (ly_y l), (ly_sized l), (ly_w l), (ly_h l); cbn [when opt_xml bind]; rewrite ?value_word; reflexivity.
Qed.
Lemma made_layout l inner sized : layout_of (with_layout (make_layout l) inner sized) = asked_layout (e_num E) inner sized l.
Proof.
  unfold layout_of, asked_layout. cbn [with_layout ly_x ly_y ly_w ly_h ly_inner ly_sized]. unfold make_layout.
  assert (H : forall (f : clayout -> option f64) (g : f64 * f64 -> f64) h, (forall s o, f (layout_step s o) = match h o with Some v => option_map g v | None => f s end) -> f layout_new = None ->
    f (fold_left layout_step l layout_new) = option_map g (last_of h None l)).
  { intros f g h H H0. apply (Draw_Proofs2.last_folded f (option_map g) h); [exact H|exact H0]. }
  rewrite (H ly_x fst (fun o => match o with LyOffset x y => if in_chart x && in_chart y then Some (Some (x, y)) else None | _ => None end)); [|intros s []; cbn -[fle f_of_N]; unfold fraction, in_chart; try (destruct (_ && _)); reflexivity|reflexivity].
  rewrite (H ly_y snd (fun o => match o with LyOffset x y => if in_chart x && in_chart y then Some (Some (x, y)) else None | _ => None end)); [|intros s []; cbn -[fle f_of_N]; unfold fraction, in_chart; try (destruct (_ && _)); reflexivity|reflexivity].
  rewrite (H ly_w fst (fun o => match o with LySize x y => if in_chart x && in_chart y then Some (Some (x, y)) else None | _ => None end)); [|intros s []; cbn -[fle f_of_N]; unfold fraction, in_chart; try (destruct (_ && _)); reflexivity|reflexivity].
  rewrite (H ly_h snd (fun o => match o with LySize x y => if in_chart x && in_chart y then Some (Some (x, y)) else None | _ => None end)); [|intros s []; cbn -[fle f_of_N]; unfold fraction, in_chart; try (destruct (_ && _)); reflexivity|reflexivity].
  fold (asked_offset l). fold (asked_dims l). destruct (asked_offset l) as [[x y]|], (asked_dims l) as [[w h]|]; reflexivity.
Qed.
Lemma layout_same l : layout_of (make_layout l) = asked_layout (e_num E) false false l.
Proof.
  rewrite <- made_layout. unfold layout_of. cbn [with_layout ly_x ly_y ly_w ly_h ly_inner ly_sized].
  assert (I : ly_inner (make_layout l) = false /\ ly_sized (make_layout l) = false).
  { unfold make_layout. assert (G : forall s, ly_inner s = false -> ly_sized s = false -> ly_inner (fold_left layout_step l s) = false /\ ly_sized (fold_left layout_step l s) = false).
    { induction l as [|o r IH]; intros s A B; [split; assumption|]. cbn [fold_left]. apply IH; assumption. }
    apply G; reflexivity. }
  destruct I as [-> ->]. reflexivity.
Qed.
Lemma plain_layout : layout_of layout_new = automatic_layout. Proof. reflexivity. Qed.
Lemma turn_asked l h : turn_of (make_font l) h = asked_turn h l.
Proof.
  unfold turn_of, asked_turn. rewrite made_rotation. destruct (asked_rotation l) as [z|]; [|destruct h; reflexivity].
  destruct (Z.eqb_spec z 270) as [->|N1]; [reflexivity|]. destruct (Z.eqb_spec z 271) as [->|N2]; [reflexivity|]. destruct z as [|p|p]; try reflexivity. repeat (destruct p as [p|p|]; try reflexivity; try congruence).
Qed.
End Env.
