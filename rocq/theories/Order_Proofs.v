(** Elements in schema order: filling the places (Chart_Order_Proofs) for any table. *)
From Verif Require Import Base F64 Xml_Model Xml_Spec Xml_Read Xml_Tree Fmt_Model Styles_Model Rich_Model SheetXml_Spec Tag_Proofs StylesXml_Model Chart_Order Chart_Order_Proofs Order_Spec.

Section Table.
Variable T : table.
Definition st (parent : string) (x : wx) : Prop := stands T (lit parent) (node_of x) = true.
Lemma st_kids parent tag attrs kids o : sequence T (lit parent) (lit tag) = Some o -> in_order o (map tag_of kids) = true -> Forall (st tag) kids -> st parent (WElem (lit tag) attrs kids).
Proof.
  intros S H F. unfold st. change (node_of (WElem (lit tag) attrs kids)) with (Elem (lit tag) attrs (map node_of kids)). cbn [stands]. rewrite S, elements_nodes, H. cbn [andb].
  apply forallb_forall. intros n Hn. apply in_map_iff in Hn as (x & <- & Hx). rewrite Forall_forall in F. apply F, Hx.
Qed.
Definition bare (parent tag : string) : bool := match sequence T (lit parent) (lit tag) with Some o => in_order o [] | None => true end.
Lemma st_leaf parent tag attrs : bare parent tag = true -> st parent (WEmpty (lit tag) attrs).
Proof. intros H. unfold st. cbn [node_of stands]. unfold bare in H. destruct (sequence T (lit parent) (lit tag)); [|reflexivity]. cbn [elements flat_map forallb]. rewrite H. reflexivity. Qed.
Lemma st_data parent tag s attrs : bare parent tag = true -> st parent (WData (lit tag) s attrs).
Proof.
  intros H. unfold st. cbn [node_of stands]. unfold bare in H. destruct (sequence T (lit parent) (lit tag)); [|reflexivity]. destruct s; cbn [elements flat_map forallb app stands andb]; rewrite H; reflexivity.
Qed.
Lemma st_foreign parent tag attrs kids : sequence T (lit parent) (lit tag) = None -> st parent (WElem (lit tag) attrs kids).
Proof. intros H. unfold st. cbn [node_of stands]. rewrite H. reflexivity. Qed.
Lemma st_when parent b l : Forall (st parent) l -> Forall (st parent) (when b l). Proof. intros H. destruct b; [exact H|constructor]. Qed.
(** Any number of elements [t] in an element [tag]. *)
Lemma st_list parent tag attrs t kids : sequence T (lit parent) (lit tag) = Some [Any [t]] \/ (sequence T (lit parent) (lit tag) = Some [Some_of [t]] /\ kids <> []) ->
  Forall (fun x => tag_of x = lit t /\ st tag x) kids -> st parent (WElem (lit tag) attrs kids).
Proof.
  intros S F. assert (A : Forall (among [t]) kids).
  { eapply Forall_impl; [|exact F]. intros x [E _]. unfold among. rewrite E. apply among_in. left. reflexivity. }
  assert (F2 : Forall (st tag) kids) by (eapply Forall_impl; [|exact F]; intros x [_ X]; exact X).
  destruct S as [S|[S K]]; (eapply st_kids; [exact S| |exact F2]); rewrite <- (app_nil_r kids).
  - apply fill_any; [exact A|apply fill_end].
  - apply fill_some; [exact K|exact A|apply fill_end].
Qed.
End Table.
Ltac stand := repeat first [ assumption | apply Forall_nil | apply Forall_cons | apply st_when | apply st_leaf; reflexivity | apply st_data; reflexivity | apply st_foreign; reflexivity ].

(** ** Styles *)
Lemma font_st rich dxf f parent : rich = false -> tag_of (font_xml rich dxf f) = lit "font" /\ st sml parent (font_xml rich dxf f).
Proof.
  intros ->. split; [reflexivity|]. unfold font_xml. cbv iota.
  set (A := fun x : wx => among ["b"; "i"; "strike"; "condense"; "extend"; "outline"; "shadow"; "u"; "vertAlign"; "sz"; "color"; "name"; "family"; "charset"; "scheme"]%string x /\ st sml "font" x).
  assert (W : forall b l, Forall A l -> Forall A (when b l)) by (intros [] l H; [exact H|constructor]).
  match goal with |- st _ _ (WElem _ _ ?k) => assert (F : Forall A k) end.
  { assert (L : forall t a, is_among ["b"; "i"; "strike"; "condense"; "extend"; "outline"; "shadow"; "u"; "vertAlign"; "sz"; "color"; "name"; "family"; "charset"; "scheme"]%string (lit t) = true -> bare sml "font" t = true -> A (WEmpty (lit t) a)).
    { intros t a H1 H2. split; [exact H1|apply st_leaf; exact H2]. }
    assert (One : forall t a, is_among ["b"; "i"; "strike"; "condense"; "extend"; "outline"; "shadow"; "u"; "vertAlign"; "sz"; "color"; "name"; "family"; "charset"; "scheme"]%string (lit t) = true -> bare sml "font" t = true -> Forall A [WEmpty (lit t) a]).
    { intros t a H1 H2. constructor; [apply L; assumption|constructor]. }
    clearbody A. assert (K : forall l r, Forall A l -> Forall A r -> Forall A (l ++ r)) by (intros; apply Forall_app; split; assumption).
    repeat (apply K; [apply W; apply One; reflexivity|]). apply K; [destruct (font_color f), dxf; first [apply Forall_nil | apply One; reflexivity]|]. apply W.
    apply K; [apply One; reflexivity|]. repeat (apply K; [apply W; apply One; reflexivity|]). destruct (scheme f); [constructor|apply One; reflexivity]. }
  eapply st_kids; [reflexivity| |].
  - match goal with |- in_order _ (map _ ?k) = true => rewrite <- (app_nil_r k) end. apply fill_any; [|apply fill_end]. eapply Forall_impl; [|exact F]. intros x [H _]. exact H.
  - eapply Forall_impl; [|exact F]. intros x [_ H]. exact H.
Qed.
Lemma default_fill_st n parent : tag_of (default_fill n) = lit "fill" /\ st sml parent (default_fill n).
Proof. split; [reflexivity|]. unfold default_fill. eapply st_kids; [reflexivity|reflexivity|stand]. Qed.
Lemma fill_st dxf f parent : tag_of (fill_xml dxf f) = lit "fill" /\ st sml parent (fill_xml dxf f).
Proof.
  unfold fill_xml. destruct (_ && _ && _); [apply default_fill_st|]. cbv zeta. destruct (if _ && _ && _ && _ then _ else _) as [fg bg]. split; [reflexivity|].
  eapply st_kids; [reflexivity|reflexivity|]. constructor; [|constructor]. eapply st_kids; [reflexivity| |].
  - destruct (negb _); reflexivity.
  - apply Forall_app. split; stand.
Qed.
Lemma side_st tag s c : In tag ["left"; "right"; "top"; "bottom"; "diagonal"]%string -> tag_of (side_xml tag s c) = lit tag /\ st sml "border" (side_xml tag s c).
Proof.
  intros H. unfold side_xml. destruct (s =? 0); (split; [reflexivity|]); cbn [In] in H; repeat (destruct H as [<-|H]); try contradiction; try (apply st_leaf; reflexivity); (eapply st_kids; [reflexivity|reflexivity|stand]).
Qed.
Lemma border_st dxf b parent : tag_of (border_xml dxf b) = lit "border" /\ st sml parent (border_xml dxf b).
Proof.
  split; [reflexivity|]. unfold border_xml.
  destruct (side_st "left" (left_style b) (left_color b)) as [T1 S1]; [cbn; auto|]. destruct (side_st "right" (right_style b) (right_color b)) as [T2 S2]; [cbn; auto|].
  destruct (side_st "top" (top_style b) (top_color b)) as [T3 S3]; [cbn; auto|]. destruct (side_st "bottom" (bottom_style b) (bottom_color b)) as [T4 S4]; [cbn; auto|].
  destruct (side_st "diagonal" (diagonal_style b) (diagonal_color b)) as [T5 S5]; [cbn; auto 10|].
  eapply st_kids; [reflexivity| |].
  - destruct dxf; cbn [app map]; rewrite T1, T2, T3, T4, ?T5; reflexivity.
  - apply Forall_app. split; [stand|]. destruct dxf; stand.
Qed.
Lemma alignment_st a : tag_of (alignment_xml a) = lit "alignment" /\ st sml "xf" (alignment_xml a).
Proof. split; [reflexivity|apply st_leaf; reflexivity]. Qed.
Lemma ext_st parent u t : parent = "xf"%string \/ parent = "dxf"%string -> st sml parent (complement u t).
Proof. intros H. unfold complement. destruct H as [-> | ->]; (eapply st_kids; [reflexivity|reflexivity|stand]). Qed.
Lemma xf_st parent p : tag_of (xf_xml p) = lit "xf" /\ st sml parent (xf_xml p).
Proof.
  destruct p as [f x]. unfold xf_xml. destruct (_ || _ || _); (split; [reflexivity|]); [|apply st_leaf; reflexivity]. eapply st_kids; [reflexivity| |].
  - destruct (has_alignment _), (has_protection _), (checkbox _); reflexivity.
  - apply Forall_app. split; [stand|]. apply Forall_app. split; [stand|]. apply st_when. constructor; [apply ext_st; auto|constructor].
Qed.
Lemma dxf_st p : tag_of (dxf_xml p) = lit "dxf" /\ st sml "dxfs" (dxf_xml p).
Proof.
  destruct p as [f n]. unfold dxf_xml. split; [reflexivity|].
  destruct (font_st false true (font f) "dxf" eq_refl) as [T1 S1]. destruct (fill_st true (fill f) "dxf") as [T2 S2]. destruct (border_st true (borders f) "dxf") as [T3 S3].
  eapply st_kids; [reflexivity| |].
  - rewrite !map_app. unfold when. destruct (has_dxf_font _), (0 <? n), (has_dxf_fill _), (border_eq_dec _ _), (checkbox f); cbn [map app]; rewrite ?T1, ?T2, ?T3; reflexivity.
  - repeat (apply Forall_app; split); try (destruct (border_eq_dec _ _)); stand. apply ext_st; auto.
Qed.
Lemma all_st {A} (T : table) (g : A -> wx) t tag l : (forall a, tag_of (g a) = lit t /\ st T tag (g a)) -> Forall (fun x => tag_of x = lit t /\ st T tag x) (map g l).
Proof. intros H. apply Forall_map, Forall_forall. intros a _. apply H. Qed.
Lemma styles_st xfs dxfs hyper comments : xfs <> [] -> length (cell_xfs xfs dxfs) = length xfs -> st sml "" (styles_root xfs dxfs hyper comments).
Proof.
  intros Ne L. unfold styles_root.
  set (nf := match num_fmts_written xfs dxfs with [] => [] | l => _ end).
  assert (Nf : nf = [] \/ exists k, nf = [k] /\ tag_of k = lit "numFmts" /\ st sml "styleSheet" k).
  { unfold nf. destruct (num_fmts_written xfs dxfs) as [|p l]; [left; reflexivity|right]. eexists. split; [reflexivity|]. split; [reflexivity|]. unfold counted.
    eapply st_list; [right; split; [reflexivity|discriminate]|]. apply (all_st sml num_fmt_xml). intros a. split; [reflexivity|apply st_leaf; reflexivity]. }
  clearbody nf.
  assert (S1 : st sml "styleSheet" (counted "fonts" (fonts_count xfs comments) (map (font_xml false false) (fonts_written xfs) ++ when comments [comment_font]))).
  { unfold counted. apply (st_list sml "styleSheet" "fonts" _ "font"); [left; reflexivity|]. apply Forall_app. split; [apply all_st; intros a; apply font_st; reflexivity|]. destruct comments; constructor; [|constructor].
    split; [reflexivity|]. eapply st_kids; [reflexivity|reflexivity|stand]. }
  assert (S2 : st sml "styleSheet" (counted "fills" (snd (prepare_fills xfs)) (default_fill (lit "none") :: default_fill (lit "gray125") :: map (StylesXml_Model.fill_xml false) (skipn 2 (fills_written xfs))))).
  { unfold counted. apply (st_list sml "styleSheet" "fills" _ "fill"); [left; reflexivity|]. constructor; [apply default_fill_st|]. constructor; [apply default_fill_st|]. apply all_st. intros a. apply fill_st. }
  assert (S3 : st sml "styleSheet" (counted "borders" (snd (prepare_borders xfs)) (map (border_xml false) (borders_written xfs)))).
  { unfold counted. apply (st_list sml "styleSheet" "borders" _ "border"); [left; reflexivity|]. apply all_st. intros a. apply border_st. }
  assert (S4 : st sml "styleSheet" (cell_style_xfs_xml hyper (hyperlink_font_id xfs))).
  { unfold cell_style_xfs_xml. apply (st_list sml "styleSheet" "cellStyleXfs" _ "xf"); [right; split; [reflexivity|discriminate]|]. constructor; [split; [reflexivity|apply st_leaf; reflexivity]|].
    destruct hyper; constructor; [|constructor]. split; [reflexivity|]. unfold link_style_xf. eapply st_kids; [reflexivity|reflexivity|stand]. }
  assert (S5 : st sml "styleSheet" (counted "cellXfs" (N.of_nat (length xfs)) (map xf_xml (combine xfs (cell_xfs xfs dxfs))))).
  { unfold counted. apply (st_list sml "styleSheet" "cellXfs" _ "xf"); [right; split; [reflexivity|]|apply all_st; intros a; apply xf_st].
    destruct xfs; [contradiction|]. destruct (cell_xfs (f :: xfs) dxfs); discriminate. }
  assert (S6 : st sml "styleSheet" (cell_styles_xml hyper)).
  { unfold cell_styles_xml. apply (st_list sml "styleSheet" "cellStyles" _ "cellStyle"); [right; split; [reflexivity|destruct hyper; discriminate]|]. apply Forall_app. split; [destruct hyper; constructor; [|constructor]|constructor; [|constructor]];
    (split; [reflexivity|apply st_leaf; reflexivity]). }
  assert (S7 : tag_of (dxfs_xml xfs dxfs) = lit "dxfs" /\ st sml "styleSheet" (dxfs_xml xfs dxfs)).
  { unfold dxfs_xml. destruct dxfs as [|d ds]; (split; [reflexivity|]); [apply st_leaf; reflexivity|]. apply (st_list sml "styleSheet" "dxfs" _ "dxf"); [left; reflexivity|]. apply all_st. apply dxf_st. }
  destruct S7 as [T7 S7]. eapply st_kids; [reflexivity| |].
  - rewrite map_app. destruct Nf as [-> | (k & -> & Tk & _)]; cbn [map app]; rewrite ?Tk, T7; reflexivity.
  - apply Forall_app. split; [destruct Nf as [-> | (k & -> & _ & Sk)]; stand|]. stand.
Qed.
