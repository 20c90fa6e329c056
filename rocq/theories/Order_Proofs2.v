(** The workbook, comments and table parts, and drawings, in schema order. *)
From Verif Require Import Tag_Proofs. From Verif Require Import Base F64 SMap Xml_Model Xml_Spec Xml_Read Xml_Tree Fmt_Model Ref_Model Rich_Model SheetXml_Spec Chart_Order Chart_Order_Proofs Order_Spec Order_Proofs.
From Verif Require Book_Model Doc_Model Note_Model Tbl_Model Dml_Model Draw_Model.

(** ** xl/workbook.xml *)
Lemma workbook_st x f : Book_Model.bf_sheets f <> [] -> st sml "" (Doc_Model.workbook_xml x f).
Proof.
  intros Ne. unfold Doc_Model.workbook_xml.
  assert (S1 : st sml "workbook" (WElem (lit "sheets") [] (map Doc_Model.sheet_xml (Book_Model.bf_sheets f)))).
  { apply (st_list sml "workbook" "sheets" _ "sheet"); [right; split; [reflexivity|destruct (Book_Model.bf_sheets f); [contradiction|discriminate]]|]. apply all_st. intros e. split; [reflexivity|apply st_leaf; reflexivity]. }
  set (nf := match Book_Model.bf_names f with [] => [] | l => _ end).
  assert (Nf : nf = [] \/ exists k, nf = [k] /\ tag_of k = lit "definedNames" /\ st sml "workbook" k).
  { unfold nf. destruct (Book_Model.bf_names f) as [|p l]; [left; reflexivity|right]. eexists. split; [reflexivity|]. split; [reflexivity|].
    apply (st_list sml "workbook" "definedNames" _ "definedName"); [left; reflexivity|]. apply all_st. intros e. split; [reflexivity|apply st_data; reflexivity]. }
  clearbody nf. eapply st_kids; [reflexivity| |].
  - rewrite !map_app. destruct (Doc_Model.x_read_only x =? 2); destruct Nf as [-> | (k & -> & Tk & _)]; cbn [map app when]; rewrite ?Tk; reflexivity.
  - repeat (apply Forall_app; split); try solve [stand].
    + constructor; [stand|]. constructor; [|constructor; [exact S1|constructor]]. eapply st_kids; [reflexivity|reflexivity|stand].
    + destruct Nf as [-> | (k & -> & _ & Sk)]; stand.
Qed.

(** ** xl/comments1.xml *)
Lemma run_st n b s : tag_of (Note_Model.note_run n b s) = lit "r" /\ st sml "text" (Note_Model.note_run n b s).
Proof.
  split; [reflexivity|]. unfold Note_Model.note_run. eapply st_kids; [reflexivity|reflexivity|]. constructor; [|stand].
  unfold Note_Model.run_props. eapply st_kids; [reflexivity|destruct b; reflexivity|]. destruct b; stand.
Qed.
Lemma comment_st v au k id n x : Note_Model.comment_xml v au k id n = Some x -> tag_of x = lit "comment" /\ st sml "commentList" x.
Proof.
  unfold Note_Model.comment_xml. destruct (row_col_to_cell v (k / 16384) (k mod 16384)) as [c|]; [|discriminate]. intros [= <-]. split; [reflexivity|].
  eapply st_kids; [reflexivity|reflexivity|]. constructor; [|constructor]. unfold Note_Model.text_block.
  destruct (Note_Model.xn_prefix n); [eapply (st_kids sml); [reflexivity|reflexivity|]; constructor; [apply run_st|constructor; [apply run_st|constructor]]|].
  eapply (st_kids sml); [reflexivity|reflexivity|]. constructor; [apply run_st|constructor].
Qed.
Lemma comment_list_st v au m : forall ids l, Note_Model.comment_list v au m ids = Some l -> Forall (fun x => tag_of x = lit "comment" /\ st sml "commentList" x) l.
Proof.
  induction m as [|[k n] m IH]; intros ids l; [intros [= <-]; constructor|]. destruct ids as [|id ids]; [intros [= <-]; constructor|]. cbn [Note_Model.comment_list].
  destruct (Note_Model.comment_xml v au k id n) as [x|] eqn:E; [|discriminate]. cbn [obind]. destruct (Note_Model.comment_list v au m ids) as [r|] eqn:E2; [|discriminate]. intros [= <-].
  constructor; [eapply comment_st, E|eapply IH, E2].
Qed.
Lemma comments_st v au m ids w : au <> [] -> Note_Model.comments_xml v au m ids = Some w -> st sml "" w.
Proof.
  intros Ne. unfold Note_Model.comments_xml. destruct (Note_Model.comment_list v au m ids) as [l|] eqn:E; [|discriminate]. cbn [obind]. intros [= <-]. apply comment_list_st in E.
  destruct au as [|a au]; [contradiction|]. cbn [Pkg_Model.is_nil app]. eapply st_kids; [reflexivity|reflexivity|]. constructor; [|constructor; [|constructor]].
  - apply (st_list sml "comments" "authors" _ "author"); [left; reflexivity|]. apply (all_st sml (fun a => WData (lit "author") a [])). intros b. split; [reflexivity|apply st_data; reflexivity].
  - apply (st_list sml "comments" "commentList" _ "comment"); [left; reflexivity|exact E].
Qed.

(** ** xl/tables/table1.xml *)
Lemma column_st dxf i c : tag_of (Tbl_Model.column_xml dxf i c) = lit "tableColumn" /\ st sml "tableColumns" (Tbl_Model.column_xml dxf i c).
Proof.
  unfold Tbl_Model.column_xml, Tbl_Model.column_formulas. destruct (Tbl_Model.k_formula c), (Tbl_Model.k_fun c); (split; [reflexivity|]); first [apply st_leaf; reflexivity | eapply st_kids; [reflexivity|reflexivity|cbn [app]; stand]].
Qed.
Lemma columns_st dxf l : forall i, Forall (fun x => tag_of x = lit "tableColumn" /\ st sml "tableColumns" x) (Tbl_Model.columns_from dxf i l).
Proof. induction l as [|c l IH]; intros i; [constructor|]. cbn [Tbl_Model.columns_from]. constructor; [apply column_st|apply IH]. Qed.
Lemma table_st m dxf i R t w : Tbl_Model.x_columns t <> [] -> Tbl_Model.table_xml m dxf i R t = Some w -> st sml "" w.
Proof.
  intros Ne. unfold Tbl_Model.table_xml. destruct (cell_range m _ _ _ _) as [range|]; [|discriminate]. cbn [obind].
  assert (C : st sml "table" (Tbl_Model.columns_xml dxf (Tbl_Model.x_columns t))).
  { unfold Tbl_Model.columns_xml. apply (st_list sml "table" "tableColumns" _ "tableColumn"); [right; split; [reflexivity|destruct (Tbl_Model.x_columns t); [contradiction|discriminate]]|apply columns_st]. }
  destruct (Tbl_Model.x_filter t && Tbl_Model.x_header t).
  - destruct (cell_range m _ _ _ _) as [fr|]; [|discriminate]. cbn [obind]. intros [= <-]. eapply st_kids; [reflexivity|reflexivity|]. cbn [app]. stand.
  - cbn [obind]. intros [= <-]. eapply st_kids; [reflexivity|reflexivity|]. cbn [app]. stand.
Qed.

(** ** Drawings *)
Import Dml_Model Draw_Model.
Lemma corner_st tag c : In tag ["xdr:from"; "xdr:to"]%string -> st dml "xdr:twoCellAnchor" (corner_xml tag c).
Proof. intros H. cbn [In] in H. repeat (destruct H as [<-|H]); try contradiction; (eapply st_kids; [reflexivity|reflexivity|stand]). Qed.
Lemma scheme_st parent s a b t : tag_of (scheme_xml s a b t) = lit "a:schemeClr" /\ st dml parent (scheme_xml s a b t).
Proof.
  unfold scheme_xml. destruct (_ || _ || _); (split; [reflexivity|]); [|apply st_leaf; reflexivity].
  eapply st_kids; [reflexivity|destruct (0 <? a), (0 <? b), (0 <? t); reflexivity|]. repeat (apply Forall_app; split); stand.
Qed.
Lemma color_st parent c t : (length (color_xml c t) <= 1)%nat /\ Forall (among color_names) (color_xml c t) /\ Forall (st dml parent) (color_xml c t).
Proof.
  assert (S : forall x, among color_names x -> st dml parent x -> (length [x] <= 1)%nat /\ Forall (among color_names) [x] /\ Forall (st dml parent) [x]) by (intros; split; [cbn; lia|]; split; constructor; auto).
  assert (R : forall c, (length [if (0 <? t)%N then WElem (lit "a:srgbClr") [(lit "val", rgb_hex_value c)] [alpha_xml t] else WEmpty (lit "a:srgbClr") [(lit "val", rgb_hex_value c)]] <= 1)%nat /\
    Forall (among color_names) [if 0 <? t then WElem (lit "a:srgbClr") [(lit "val", rgb_hex_value c)] [alpha_xml t] else WEmpty (lit "a:srgbClr") [(lit "val", rgb_hex_value c)]] /\
    Forall (st dml parent) [if 0 <? t then WElem (lit "a:srgbClr") [(lit "val", rgb_hex_value c)] [alpha_xml t] else WEmpty (lit "a:srgbClr") [(lit "val", rgb_hex_value c)]]).
  { intros c0. destruct (0 <? t); (apply S; [reflexivity|]); [|apply st_leaf; reflexivity]. eapply st_kids; [reflexivity|reflexivity|stand]. }
  unfold color_xml. destruct c as [rgb|theme shade| | |n]; try apply R; [|apply S; [reflexivity|apply st_leaf; reflexivity]].
  destruct (chart_scheme theme shade) as [[[s a] b]|]; [|split; [cbn; lia|]; split; constructor]. destruct (scheme_st parent s a b t) as [T X]. apply S; [|exact X]. unfold among. rewrite T. reflexivity.
Qed.
(** An element with at most a colour in it. *)
Lemma colored_st parent tag attrs c t : sequence dml (lit parent) (lit tag) = Some [Either color_names] -> st dml parent (WElem (lit tag) attrs (color_xml c t)).
Proof.
  intros S. destruct (color_st tag c t) as (L & A & F). eapply st_kids; [exact S| |exact F]. rewrite <- (app_nil_r (color_xml c t)). apply fill_either; [exact A|exact L|apply fill_end].
Qed.
Lemma solid_st parent c t : tag_of (solid_xml c t) = lit "a:solidFill" /\ st dml parent (solid_xml c t).
Proof. split; [reflexivity|]. apply colored_st. reflexivity. Qed.
Lemma patt_st parent p : st dml parent (patt_xml p).
Proof.
  unfold patt_xml. eapply st_kids; [reflexivity|destruct (is_default (pf_fore p)), (is_default (pf_back p)); reflexivity|].
  apply Forall_app. split; [apply st_when; constructor; [apply colored_st; reflexivity|constructor]|]. destruct (negb _); [|apply st_when]; (constructor; [apply colored_st; reflexivity|constructor]).
Qed.
Lemma grad_st parent g : st dml parent (grad_xml g).
Proof.
  unfold grad_xml. eapply st_kids; [reflexivity|destruct (gr_type g =? 0); reflexivity|]. constructor.
  - apply (st_list dml "a:gradFill" "a:gsLst" _ "a:gs"); [left; reflexivity|]. apply all_st. intros a. split; [reflexivity|]. apply colored_st. reflexivity.
  - destruct (gr_type g =? 0); [stand|]. unfold path_xml. constructor; [eapply st_kids; [reflexivity|reflexivity|stand]|stand].
Qed.

Lemma default_scheme_st parent tone l : tag_of (default_scheme tone l) = lit "a:schemeClr" /\ st dml parent (default_scheme tone l).
Proof. destruct l; (split; [reflexivity|]); [eapply st_kids; [reflexivity|reflexivity|stand]|apply st_leaf; reflexivity]. Qed.
Lemma default_solid_st parent tone l : st dml parent (WElem (lit "a:solidFill") [] [default_scheme tone l]).
Proof. destruct (default_scheme_st "a:solidFill" tone l) as [T S]. eapply st_kids; [reflexivity|destruct l; reflexivity|constructor; [exact S|constructor]]. Qed.
Lemma fill_box_st parent f : among fill_names (tbox_fill f) /\ st dml parent (tbox_fill f).
Proof.
  unfold tbox_fill, fill_xml. destruct (df_no_fill f); [split; [reflexivity|apply st_leaf; reflexivity]|]. destruct (df_solid f) as [s|]; [split; [reflexivity|apply solid_st]|].
  destruct (df_patt f) as [q|]; [split; [reflexivity|apply patt_st]|]. destruct (df_grad f) as [g|]; [split; [reflexivity|apply grad_st]|]. split; [reflexivity|apply default_solid_st].
Qed.
Lemma line_st parent l : tag_of (line_xml l) = lit "a:ln" /\ st dml parent (line_xml l).
Proof.
  split; [reflexivity|]. unfold line_xml, line_fill_xml, dash_xml. eapply st_kids; [reflexivity| |].
  - destruct (_ || _ || _); [|reflexivity]. destruct (ln_hidden l); [reflexivity|]. destruct (is_default (ln_color l)), (negb (ln_dash l =? 0)); reflexivity.
  - destruct (_ || _ || _); [|constructor; [apply default_solid_st|constructor]]. destruct (ln_hidden l); [stand|]. apply Forall_app. split; [|stand].
    destruct (is_default (ln_color l)); (constructor; [|constructor]); [apply default_solid_st|apply solid_st].
Qed.
Lemma box_line_st parent f : tag_of (tbox_line f) = lit "a:ln" /\ st dml parent (tbox_line f).
Proof.
  unfold tbox_line. destruct (df_no_line f); [|destruct (df_line f); apply line_st]. split; [reflexivity|]. unfold no_line_xml. eapply st_kids; [reflexivity|reflexivity|stand].
Qed.
Lemma style_st : st dml "xdr:sp" style_xml.
Proof.
  unfold style_xml. eapply st_kids; [reflexivity|reflexivity|]. constructor; [|constructor; [|constructor; [|constructor; [|constructor]]]]; (eapply st_kids; [reflexivity|reflexivity|]);
    (constructor; [|constructor]); first [apply default_scheme_st | stand].
Qed.
Lemma props_st parent i d name : In parent ["xdr:nvPicPr"; "xdr:nvGraphicFramePr"; "xdr:nvSpPr"]%string -> tag_of (c_nv_pr i d name) = lit "xdr:cNvPr" /\ st dml parent (c_nv_pr i d name).
Proof.
  intros H. unfold c_nv_pr. cbv zeta. destruct (_ || _); (split; [reflexivity|]); cbn [In] in H; repeat (destruct H as [<-|H]); try contradiction; try (apply st_leaf; reflexivity);
    (eapply st_kids; [reflexivity|destruct (in_url d), (in_decorative d); reflexivity|apply Forall_app; split; [destruct (in_url d); stand|]; apply st_when; constructor; [|constructor]];
     unfold decorative_xml; eapply st_kids; [reflexivity|reflexivity|stand]).
Qed.
Lemma xfrm_st d : st dml "xdr:spPr" (xfrm_xml d).
Proof. unfold xfrm_xml. eapply st_kids; [reflexivity|reflexivity|stand]. Qed.
Lemma geom_st : st dml "xdr:spPr" geom_xml.
Proof. unfold geom_xml. eapply st_kids; [reflexivity|reflexivity|stand]. Qed.
Definition anchored (x : wx) : Prop := among object_names x /\ forall parent, In parent ["xdr:twoCellAnchor"; "xdr:absoluteAnchor"]%string -> st dml parent x.
Ltac each_parent H := cbn [In] in H; repeat (destruct H as [<-|H]); try contradiction.
Lemma pic_st i d : anchored (pic_xml i d).
Proof.
  split; [reflexivity|]. intros parent H. destruct (props_st "xdr:nvPicPr" i d "Picture") as [T S]; [cbn; auto|].
  assert (S1 : st dml "xdr:pic" (WElem (lit "xdr:nvPicPr") [] [c_nv_pr i d "Picture"; WElem (lit "xdr:cNvPicPr") [] [WEmpty (lit "a:picLocks") [(lit "noChangeAspect", lit "1")]]])).
  { eapply st_kids; [reflexivity|cbn [map]; rewrite T; reflexivity|]. constructor; [exact S|]. constructor; [|constructor]. eapply st_kids; [reflexivity|reflexivity|stand]. }
  assert (S2 : st dml "xdr:pic" (WElem (lit "xdr:blipFill") [] [WEmpty (lit "a:blip") [xmlns_r; (lit "r:embed", rid (in_rel d))]; WElem (lit "a:stretch") [] [WEmpty (lit "a:fillRect") []]])).
  { eapply st_kids; [reflexivity|reflexivity|]. constructor; [stand|]. constructor; [|constructor]. eapply st_kids; [reflexivity|reflexivity|stand]. }
  assert (S3 : st dml "xdr:pic" (WElem (lit "xdr:spPr") [] [xfrm_xml d; geom_xml])).
  { eapply st_kids; [reflexivity|reflexivity|]. constructor; [apply xfrm_st|]. constructor; [apply geom_st|constructor]. }
  unfold pic_xml. each_parent H; (eapply st_kids; [reflexivity|reflexivity|stand]).
Qed.
Lemma frame_st i d : anchored (frame_xml i d).
Proof.
  split; [reflexivity|]. intros parent H. destruct (props_st "xdr:nvGraphicFramePr" i d "Chart") as [T S]; [cbn; auto|]. unfold frame_xml.
  match goal with |- st _ _ (WElem _ _ [?a; ?b; ?c]) => assert (S1 : st dml "xdr:graphicFrame" a); [|assert (S2 : st dml "xdr:graphicFrame" b); [|assert (S3 : st dml "xdr:graphicFrame" c)]] end.
  { eapply st_kids; [reflexivity|cbn [map]; rewrite T; destruct (in_type d); reflexivity|]. constructor; [exact S|]. constructor; [|constructor]. destruct (in_type d); try (apply st_leaf; reflexivity). eapply st_kids; [reflexivity|reflexivity|stand]. }
  { eapply st_kids; [reflexivity|reflexivity|stand]. }
  { eapply st_kids; [reflexivity|reflexivity|stand]. }
  each_parent H; (eapply st_kids; [reflexivity|reflexivity|]); constructor; try assumption; constructor; try assumption; constructor; try assumption; constructor.
Qed.
Section Numbers.
Variable num_text : f64 -> str.
Lemma tfont_st tag parent f : In tag ["a:rPr"; "a:endParaRPr"]%string -> In parent ["a:p"; "a:r"; "a:fld"]%string -> tag_of (tfont_xml num_text tag f) = lit tag /\ st dml parent (tfont_xml num_text tag f).
Proof.
  intros H P. unfold tfont_xml. destruct (_ || _); (split; [reflexivity|]); each_parent H; each_parent P; try (apply st_leaf; reflexivity);
    (eapply st_kids; [reflexivity|destruct (negb (auto_or_default (sf_color f))), (is_latin f); reflexivity|apply Forall_app; split; apply st_when; [constructor; [apply solid_st|constructor]|stand]]).
Qed.
Lemma para_st t s : tag_of (para_xml num_text t s) = lit "a:p" /\ st dml "xdr:txBody" (para_xml num_text t s).
Proof.
  split; [reflexivity|]. unfold para_xml, align_xml.
  destruct (tfont_st "a:rPr" "a:r" (tb_font t)) as [T1 S1]; [cbn; auto..|]. destruct (tfont_st "a:rPr" "a:fld" (tb_font t)) as [_ S2]; [cbn; auto..|]. destruct (tfont_st "a:endParaRPr" "a:p" (tb_font t)) as [T3 S3]; [cbn; auto..|].
  eapply st_kids; [reflexivity| |].
  - rewrite map_app. destruct (st_h (tb_options t)), (tb_link t), (is_nil s); cbn [map app]; rewrite ?T3; reflexivity.
  - apply Forall_app. split; [destruct (st_h (tb_options t)); stand|]. destruct (tb_link t); [|destruct (is_nil s)].
    + constructor; [|constructor; [exact S3|constructor]]. eapply st_kids; [reflexivity|destruct (is_nil s); cbn [map]; rewrite T1; reflexivity|]. constructor; [exact S2|]. destruct (is_nil s); stand.
    + stand.
    + constructor; [|constructor]. eapply st_kids; [reflexivity|cbn [map]; rewrite T1; reflexivity|]. stand.
Qed.
Lemma body_st d t : st dml "xdr:sp" (tx_body num_text d t).
Proof.
  unfold tx_body. set (ps := map (para_xml num_text t) _). assert (F : ps <> [] /\ Forall (fun x => tag_of x = lit "a:p" /\ st dml "xdr:txBody" x) ps).
  { split; [|apply all_st; intros s; apply para_st]. unfold ps, is_nil. destruct (in_name d) as [|c r] eqn:E; [discriminate|]. intros H. apply (f_equal (@length _)) in H. rewrite map_length in H. cbn [length] in H.
    unfold lines in H. revert H. assert (L : forall s cur, (s <> [] \/ cur <> []) -> length (lines_from cur s) <> O).
    { induction s as [|x s IH]; intros cur K; [destruct cur; [destruct K; contradiction|discriminate]|]. cbn [lines_from]. destruct (x =? 10); [discriminate|]. apply IH. right. discriminate. }
    apply L. left. discriminate. }
  destruct F as [Ne F]. eapply st_kids; [reflexivity| |].
  - assert (A : Forall (among ["a:p"%string]) ps) by (eapply Forall_impl; [|exact F]; intros x [E _]; unfold among; rewrite E; reflexivity).
    rewrite <- (app_nil_r ps). match goal with |- in_order _ (map tag_of (?a :: ?b :: ?r)) = true => change (a :: b :: r) with ([a] ++ [b] ++ r) end.
    apply fill_must; [reflexivity|]. apply fill_may; [apply amo_one; reflexivity|]. apply fill_some; [exact Ne|exact A|apply fill_end].
  - constructor; [apply st_leaf; reflexivity|]. constructor; [apply st_leaf; reflexivity|]. eapply Forall_impl; [|exact F]. intros x [_ H]. exact H.
Qed.
Lemma sp_st i d t : anchored (sp_xml num_text i d t).
Proof.
  split; [reflexivity|]. intros parent H. destruct (props_st "xdr:nvSpPr" i d "TextBox") as [T S]; [cbn; auto|]. unfold sp_xml.
  match goal with |- st _ _ (WElem _ _ [?a; ?b; _; _]) => assert (S1 : st dml "xdr:sp" a); [|assert (S2 : st dml "xdr:sp" b)] end.
  { eapply st_kids; [reflexivity|cbn [map]; rewrite T; reflexivity|]. constructor; [exact S|stand]. }
  { destruct (fill_box_st "xdr:spPr" (tb_format t)) as [A F]. destruct (box_line_st "xdr:spPr" (tb_format t)) as [B L]. eapply st_kids; [reflexivity| |].
    - cbn [map]. unfold among in A. rewrite B. unfold xfrm_xml, geom_xml. cbn [tag_of]. revert A. generalize (tag_of (tbox_fill (tb_format t))). intros g A.
      unfold is_among, fill_names in A. cbn [existsb] in A. rewrite orb_false_r in A. repeat (apply orb_prop in A as [A|A]); apply str_eqb_eq in A; subst g; reflexivity.
    - constructor; [apply xfrm_st|]. constructor; [apply geom_st|]. stand. }
  assert (S3 := style_st). assert (S4 := body_st d t). each_parent H; (eapply st_kids; [reflexivity|reflexivity|stand]).
Qed.
Lemma two_cell_st i d b : anchored b -> tag_of (two_cell i d b) = lit "xdr:twoCellAnchor" /\ st dml "xdr:wsDr" (two_cell i d b).
Proof.
  intros [A S]. split; [reflexivity|]. unfold two_cell. specialize (S "xdr:twoCellAnchor"%string (or_introl eq_refl)). eapply st_kids; [reflexivity| |].
  - cbn [map]. unfold corner_xml. cbn [tag_of]. revert A. unfold among. generalize (tag_of b). intros g A. unfold is_among, object_names in A. cbn [existsb] in A. rewrite orb_false_r in A.
    repeat (apply orb_prop in A as [A|A]); apply str_eqb_eq in A; subst g; reflexivity.
  - constructor; [apply corner_st; cbn; auto|]. constructor; [apply corner_st; cbn; auto|]. stand.
Qed.
Lemma absolute_st d : tag_of (absolute_xml d) = lit "xdr:absoluteAnchor" /\ st dml "xdr:wsDr" (absolute_xml d).
Proof.
  split; [reflexivity|]. unfold absolute_xml. destruct (frame_st 1 d) as [_ S]. specialize (S "xdr:absoluteAnchor"%string (or_intror (or_introl eq_refl))). eapply st_kids; [reflexivity|reflexivity|stand].
Qed.
Lemma anchors_st l : forall i shapes k, anchors num_text i shapes l = Some k -> Forall (among ["xdr:twoCellAnchor"; "xdr:oneCellAnchor"; "xdr:absoluteAnchor"]%string) k /\ Forall (st dml "xdr:wsDr") k.
Proof.
  induction l as [|d l IH]; intros i shapes k; [intros [= <-]; split; constructor|]. cbn [anchors].
  assert (Add : forall x o, option_map (cons x) o = Some k -> (forall k, o = Some k -> Forall (among ["xdr:twoCellAnchor"; "xdr:oneCellAnchor"; "xdr:absoluteAnchor"]%string) k /\ Forall (st dml "xdr:wsDr") k) ->
    (tag_of x = lit "xdr:twoCellAnchor" \/ tag_of x = lit "xdr:absoluteAnchor") -> st dml "xdr:wsDr" x ->
    Forall (among ["xdr:twoCellAnchor"; "xdr:oneCellAnchor"; "xdr:absoluteAnchor"]%string) k /\ Forall (st dml "xdr:wsDr") k).
  { intros x [r|] E H T S; [|discriminate]. injection E as <-. destruct (H r eq_refl) as [H1 H2]. split; constructor; auto. unfold among. destruct T as [T|T]; rewrite T; reflexivity. }
  destruct (in_type d).
  - intros E. destruct (two_cell_st i d _ (frame_st i d)) as [T S]. eapply Add; [exact E|intros r Hr; eapply IH, Hr|auto|exact S].
  - intros E. destruct (absolute_st d) as [T S]. eapply Add; [exact E|intros r Hr; eapply IH, Hr|auto|exact S].
  - intros E. destruct (two_cell_st i d _ (pic_st i d)) as [T S]. eapply Add; [exact E|intros r Hr; eapply IH, Hr|auto|exact S].
  - destruct shapes as [|t ts]; [discriminate|]. intros E. destruct (two_cell_st i d _ (sp_st i d t)) as [T S]. eapply Add; [exact E|intros r Hr; eapply IH, Hr|auto|exact S].
Qed.
Lemma drawing_st attrs l i shapes k : anchors num_text i shapes l = Some k -> st dml "" (WElem (lit "xdr:wsDr") attrs k).
Proof.
  intros E. destruct (anchors_st _ _ _ _ E) as [A F]. eapply st_kids; [reflexivity| |exact F]. rewrite <- (app_nil_r k). apply fill_any; [exact A|apply fill_end].
Qed.
End Numbers.
