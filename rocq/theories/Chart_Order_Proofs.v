From Verif Require Import Base F64 Xml_Model Xml_Spec Xml_Proofs Xml_Read Xml_Read_Proofs Xml_Tree Fmt_Model Rich_Model Rich_Proofs SheetXml_Spec SheetXml_Proofs SheetXml_Proofs3 Doc_Model Doc_Spec Props_Doc Tag_Proofs Part_Proofs
  CF_Spec CF_Model CF_Build CF_Read Ref_Model Ref_Proofs Ref_Spec Quote_Proofs Note_Spec Note_Proofs Note_Proofs2 Note_Proofs4 Note_Proofs5 Cache_Model Spark_Model Spark_Spec Dml_Model Dml_Spec Dml_Proofs Draw_Model Draw_Proofs Draw_Proofs3
  Chart_Model Chart_Series Chart_Axis Chart_Whole Chart_Proofs Chart_Order Chart_Order2.

(** ** Filling places *)
Notation tags := (map tag_of).
Lemma named_lit t : is_named t (lit t) = true. Proof. apply str_eqb_refl. Qed.
Lemma among_in ts t : In t ts -> is_among ts (lit t) = true.
Proof. intros H. apply existsb_exists. exists t. split; [exact H|apply named_lit]. Qed.
Definition among (ts : list string) (x : wx) : Prop := is_among ts (tag_of x) = true.
Lemma fill_may t rest p q : at_most_one t p -> in_order rest (tags q) = true -> in_order (May t :: rest) (tags (p ++ q)) = true.
Proof.
  intros [T L] H. destruct p as [|x [|y p]]; [|cbn [map app]|cbn in L; lia]; cbn [in_order].
  - cbn [app]. rewrite H. reflexivity.
  - rewrite (Forall_inv T), named_lit. change ((fix map (l : list wx) : list str := match l with [] => [] | a :: t0 => tag_of a :: map t0 end) q) with (tags q). rewrite H. apply orb_true_r.
Qed.
Lemma fill_must t rest x q : tag_of x = lit t -> in_order rest (tags q) = true -> in_order (Must t :: rest) (tags ([x] ++ q)) = true.
Proof. intros T H. cbn [map app in_order]. rewrite T, named_lit. exact H. Qed.
Lemma fill_one_of ts rest x q : among ts x -> in_order rest (tags q) = true -> in_order (One_of ts :: rest) (tags ([x] ++ q)) = true.
Proof. intros T H. cbn [map app in_order]. unfold among in T. rewrite T. exact H. Qed.
Lemma fill_either ts rest p q : Forall (among ts) p -> (length p <= 1)%nat -> in_order rest (tags q) = true -> in_order (Either ts :: rest) (tags (p ++ q)) = true.
Proof.
  intros T L H. destruct p as [|x [|y p]]; [|cbn [map app]|cbn in L; lia]; cbn [in_order].
  - cbn [app]. rewrite H. reflexivity.
  - pose proof (Forall_inv T) as X. unfold among in X. rewrite X. cbn [andb]. change ((fix map (l : list wx) : list str := match l with [] => [] | a :: t0 => tag_of a :: map t0 end) q) with (tags q). rewrite H. apply orb_true_r.
Qed.
Lemma fill_any ts rest p q : Forall (among ts) p -> in_order rest (tags q) = true -> in_order (Any ts :: rest) (tags (p ++ q)) = true.
Proof.
  intros T H. induction T as [|x p X T IH].
  - cbn [app]. destruct q as [|y q]; cbn [map in_order]; cbn [map] in H; rewrite H; reflexivity.
  - cbn [app map]. cbn [in_order]. unfold among in X. rewrite X. cbn [in_order] in IH. rewrite IH. apply orb_true_r.
Qed.
Lemma fill_some ts rest p q : p <> [] -> Forall (among ts) p -> in_order rest (tags q) = true -> in_order (Some_of ts :: rest) (tags (p ++ q)) = true.
Proof.
  intros N T H. destruct p as [|x p]; [contradiction|]. pose proof (Forall_inv T) as X. pose proof (fill_any ts rest p q (Forall_inv_tail T) H) as Y. cbn [app map in_order] in *. unfold among in X. rewrite X. exact Y.
Qed.
Lemma skip_may t rest q : in_order rest q = true -> in_order (May t :: rest) q = true. Proof. intros H. cbn [in_order]. rewrite H. reflexivity. Qed.
Lemma skip_either t rest q : in_order rest q = true -> in_order (Either t :: rest) q = true. Proof. intros H. cbn [in_order]. rewrite H. reflexivity. Qed.
Lemma skip_any t rest q : in_order rest q = true -> in_order (Any t :: rest) q = true. Proof. intros H. destruct q; cbn [in_order]; rewrite H; reflexivity. Qed.
Lemma fill_end : in_order [] (tags []) = true. Proof. reflexivity. Qed.

(** ** Elements *)
Definition conf (parent : string) (x : wx) : Prop := conforms (lit parent) (node_of x) = true.
Lemma elements_nodes l : elements (map node_of l) = tags l.
Proof. induction l as [|x l IH]; [reflexivity|]. cbn [map elements flat_map]. unfold elements in IH. rewrite IH. destruct x; reflexivity. Qed.
Lemma conf_kids parent tag attrs kids orders : content (lit parent) (lit tag) = Some orders -> (exists o, In o orders /\ in_order o (tags kids) = true) -> Forall (conf tag) kids -> conf parent (WElem (lit tag) attrs kids).
Proof.
  intros C (o & I & H) F. unfold conf. rewrite node_elem. cbn [conforms]. rewrite C. apply andb_true_intro. split.
  - apply existsb_exists. exists o. split; [exact I|]. rewrite elements_nodes. exact H.
  - apply forallb_forall. intros n Hn. apply in_map_iff in Hn as (x & <- & Hx). rewrite Forall_forall in F. apply F, Hx.
Qed.
Lemma conf_elem parent tag parts order : content (lit parent) (lit tag) = Some [order] -> in_order order (tags (concat parts)) = true -> Forall (Forall (conf tag)) parts -> conf parent (elem tag parts).
Proof.
  intros C H F. unfold elem. eapply conf_kids; [exact C|exists order; split; [left; reflexivity|exact H]|]. apply Forall_forall. intros x Hx. apply in_concat in Hx as (p & Hp & Hx). rewrite Forall_forall in F. specialize (F p Hp). rewrite Forall_forall in F. apply F, Hx.
Qed.
(** Leaves: no element in them. *)
Definition leafy (parent tag : string) : bool := match content (lit parent) (lit tag) with Some orders => existsb (fun o => in_order o []) orders | None => true end.
Lemma conf_leaf parent tag attrs : leafy parent tag = true -> conf parent (WEmpty (lit tag) attrs).
Proof. intros H. unfold conf. cbn [node_of conforms]. unfold leafy in H. destruct (content (lit parent) (lit tag)); [|reflexivity]. cbn [elements flat_map forallb]. rewrite H. reflexivity. Qed.
Lemma conf_data parent tag s attrs : leafy parent tag = true -> conf parent (WData (lit tag) s attrs).
Proof.
  intros H. unfold conf. cbn [node_of conforms]. unfold leafy in H. destruct (content (lit parent) (lit tag)); [|reflexivity]. destruct s; cbn [elements flat_map forallb]; [rewrite H; reflexivity|]. cbn [app conforms andb]. rewrite H. reflexivity.
Qed.
Lemma conf_foreign parent tag attrs kids : content (lit parent) (lit tag) = None -> conf parent (WElem (lit tag) attrs kids).
Proof. intros H. unfold conf. cbn [node_of conforms]. rewrite H. reflexivity. Qed.
Lemma conf_when parent b l : Forall (conf parent) l -> Forall (conf parent) (when b l). Proof. intros H. destruct b; [exact H|constructor]. Qed.
Lemma conf_opt {A} parent (o : option A) f : (forall a, conf parent (f a)) -> Forall (conf parent) (opt_xml o f). Proof. intros H. destruct o; [constructor; [apply H|constructor]|constructor]. Qed.
Lemma amo_opt {A} t (o : option A) f : (forall a, tag_of (f a) = lit t) -> at_most_one t (opt_xml o f). Proof. intros H. destruct o; [apply amo_one, H|apply amo_nil]. Qed.
Lemma amo_cond t b l : at_most_one t l -> at_most_one t (when b l). Proof. intros H. destruct b; [exact H|apply amo_nil]. Qed.
Lemma amo_sp f : at_most_one "c:spPr" (sp_pr f). Proof. unfold sp_pr. apply amo_when. reflexivity. Qed.

Lemma fill_nothing rest q : in_order rest (tags q) = true -> in_order rest (tags ([] ++ q)) = true. Proof. intros H. exact H. Qed.
Ltac one_tag := solve [ apply amo_nil | apply amo_sp | apply amo_one; first [reflexivity | assumption] | apply amo_when; first [reflexivity | assumption] | apply amo_opt; intros; first [reflexivity | eauto] | assumption
  | apply amo_cond; first [assumption | apply amo_opt; intros; reflexivity]
  | match goal with |- at_most_one _ (match ?x with _ => _ end) => destruct x; first [apply amo_nil | apply amo_one; reflexivity] end].
Ltac each := solve [apply Forall_nil | repeat (apply Forall_cons; [reflexivity|]); apply Forall_nil | assumption].
Ltac fill := cbn [concat]; match goal with |- in_order ?o ?q = true => let o' := eval cbv in o in change (in_order o' q = true) end;
  repeat match goal with
  | |- in_order _ (map tag_of (@app wx (@nil wx) ?q)) = true => apply (fill_nothing _ q)
  | |- in_order [] _ = true => apply fill_end
  | |- in_order (May _ :: _) _ = true => first [apply fill_may; [one_tag|] | apply skip_may]
  | |- in_order (Must _ :: _) _ = true => apply fill_must; [first [reflexivity | assumption]|]
  | |- in_order (One_of _ :: _) _ = true => apply fill_one_of; [reflexivity|]
  | |- in_order (Any _ :: _) _ = true => first [apply fill_any; [each|] | apply skip_any]
  | |- in_order (Some_of _ :: _) _ = true => apply fill_some; [discriminate|each|]
  | |- in_order (Either _ :: _) _ = true => first [apply fill_either; [each|cbn; lia|] | apply skip_either]
  end.
Ltac inside := repeat first [ assumption | apply Forall_nil | apply Forall_cons | apply conf_when | apply conf_opt; intros | apply conf_leaf; reflexivity | apply conf_data; reflexivity | assumption | apply conf_foreign; reflexivity | solve [eauto] ].

(** ** Shapes *)
Lemma fill_some_xml parent f : (length match fill_xml f with Some x => [x] | None => [] end <= 1)%nat /\ Forall (among fill_names) match fill_xml f with Some x => [x] | None => [] end /\ Forall (conf parent) match fill_xml f with Some x => [x] | None => [] end.
Proof.
  unfold fill_xml. destruct (df_no_fill f); [|destruct (df_solid f); [|destruct (df_patt f); [|destruct (df_grad f)]]]; (split; [cbn; lia|]); (split; [repeat constructor|]); constructor; try constructor.
Qed.
Lemma solid_conf parent c t : conf parent (solid_xml c t). Proof. reflexivity. Qed.
Lemma ln_conf parent l : conf parent (chart_ln l) /\ tag_of (chart_ln l) = lit "a:ln".
Proof.
  unfold chart_ln. destruct (_ || _); (split; [|reflexivity]); [|apply conf_leaf; reflexivity]. eapply conf_kids; [reflexivity|eexists; split; [left; reflexivity|]|].
  - destruct (ln_hidden l); [reflexivity|]. unfold dash_xml. destruct (negb (is_default (ln_color l))), (negb (ln_dash l =? 0)); reflexivity.
  - destruct (ln_hidden l); [inside|]. unfold dash_xml. apply Forall_app. split; inside.
Qed.
Lemma sp_conf parent f : Forall (conf parent) (sp_pr f).
Proof.
  unfold sp_pr. apply conf_when. constructor; [|constructor]. destruct (fill_some_xml "c:spPr" f) as (L & A & F). eapply conf_elem; [reflexivity| |].
  - cbn [concat]. apply fill_either; [exact A|exact L|]. apply fill_may; [|apply fill_end]. destruct (df_no_line f); [apply amo_one; reflexivity|]. apply amo_opt. intros l. apply (ln_conf "c:spPr" l).
  - constructor; [exact F|]. constructor; [|constructor]. destruct (df_no_line f); [repeat constructor|]. apply conf_opt. intros l. apply ln_conf.
Qed.
Section Env.
Variable E : env.
(** ** Text *)
Lemma props_conf (tag : string) parent lang f : (tag = "a:defRPr" \/ tag = "a:rPr")%string -> conf parent (props_xml E tag lang f) /\ tag_of (props_xml E tag lang f) = lit tag.
Proof.
  intros T. unfold props_xml. destruct (is_latin f || negb (auto_or_default (cf_color f))).
  - split; [|reflexivity]. destruct T as [-> | ->]; (eapply conf_kids; [reflexivity|eexists; split; [left; reflexivity|]|]); try (destruct (negb (auto_or_default (cf_color f))), (is_latin f); reflexivity);
      cbn [concat]; rewrite app_nil_r; apply Forall_app; split; inside.
  - split; [|reflexivity]. destruct T as [-> | ->]; apply conf_leaf; reflexivity.
Qed.
Lemma p_pr_conf parent f : conf parent (p_pr E f).
Proof.
  unfold p_pr. destruct (props_conf "a:defRPr" "a:pPr" false f (or_introl eq_refl)) as [C T]. eapply conf_kids; [reflexivity|eexists; split; [left; reflexivity|]|].
  - change [props_xml E "a:defRPr" false f] with (concat [[props_xml E "a:defRPr" false f]]). fill.
  - inside.
Qed.
Lemma tx_pr_conf parent f h : conf parent (tx_pr E f h).
Proof.
  unfold tx_pr. eapply conf_elem; [reflexivity|fill|]. inside.
  eapply conf_elem; [reflexivity|fill|]. pose proof (p_pr_conf "a:p" f). inside.
Qed.
Lemma rich_conf parent t : conf parent (rich_xml E t).
Proof.
  unfold rich_xml. eapply conf_elem; [reflexivity|fill|]. inside.
  pose proof (p_pr_conf "a:p" (ti_font t)). destruct (props_conf "a:rPr" "a:r" true (ti_font t) (or_intror eq_refl)) as [C T]. eapply conf_elem; [reflexivity|fill|]. inside. eapply conf_elem; [reflexivity|fill|]. inside.
Qed.
Lemma layout_conf parent l : conf parent (layout_xml E l) /\ tag_of (layout_xml E l) = lit "c:layout".
Proof.
  unfold layout_xml. destruct (_ || _); [|split; [apply conf_leaf; reflexivity|reflexivity]]. split; [|reflexivity]. eapply conf_elem; [reflexivity|fill|]. inside. eapply conf_elem; [reflexivity|fill|]. inside.
Qed.
(** ** References *)
Lemma pts_among (l : list (N * str)) : Forall (among ["c:pt"%string]) (map pt_xml l). Proof. induction l; constructor; [reflexivity|assumption]. Qed.
Lemma pts_conf parent l : Forall (conf parent) (map pt_xml l).
Proof. apply Forall_map, Forall_forall. intros x _. unfold pt_xml. eapply conf_kids; [reflexivity|eexists; split; [left; reflexivity|reflexivity]|]. inside. Qed.
Lemma num_ref_conf parent c : conf parent (num_ref E c).
Proof.
  unfold num_ref. cbv zeta. set (ps := map pt_xml (num_pts _ _ _)). assert (A : Forall (among ["c:pt"%string]) ps) by apply pts_among. assert (P : Forall (conf "c:numCache") ps) by apply pts_conf.
  eapply conf_elem; [reflexivity|fill|]. inside. eapply conf_elem; [reflexivity|fill|]. inside.
Qed.
Lemma str_ref_conf parent c : conf parent (str_ref E c).
Proof.
  unfold str_ref. cbv zeta. set (ps := map pt_xml (str_pts _ _)). assert (A : Forall (among ["c:pt"%string]) ps) by apply pts_among. assert (P : Forall (conf "c:strCache") ps) by apply pts_conf.
  eapply conf_elem; [reflexivity|fill|]. inside. eapply conf_elem; [reflexivity|fill|]. inside.
Qed.
Lemma cache_conf parent c b : conf parent (cache_ref E c b).
Proof. unfold cache_ref. destruct (c_type (e_cache E c)), b; first [apply num_ref_conf | apply str_ref_conf]. Qed.
Lemma cache_num c : tag_of (cache_ref E c true) = lit "c:numRef". Proof. unfold cache_ref. destruct (c_type (e_cache E c)); reflexivity. Qed.
Lemma cache_tag c b : tag_of (cache_ref E c b) = lit "c:numRef" \/ tag_of (cache_ref E c b) = lit "c:strRef". Proof. unfold cache_ref. destruct (c_type (e_cache E c)), b; auto. Qed.
Lemma data_conf (tag parent : string) c : (tag = "c:val" /\ parent = "c:ser" \/ tag = "c:yVal" \/ tag = "c:plus" \/ tag = "c:minus")%string -> conf parent (elem tag [[cache_ref E c true]]).
Proof.
  pose proof (cache_num c) as T. pose proof (cache_conf tag c true) as K. intros H.
  destruct H as [[-> ->]|[->|[->| ->]]]; (eapply conf_elem; [reflexivity| |inside]); cbn [concat]; (apply fill_one_of; [unfold among; rewrite T; reflexivity|apply fill_end]).
Qed.
Lemma cats_conf (tag parent : string) c : (tag = "c:cat" \/ tag = "c:xVal")%string -> conf parent (elem tag [[cache_ref E c false]]).
Proof.
  pose proof (cache_tag c false) as T. pose proof (cache_conf tag c false) as K. intros H.
  destruct H as [-> | ->]; (eapply conf_elem; [reflexivity| |inside]); cbn [concat]; (apply fill_one_of; [unfold among; destruct T as [T|T]; rewrite T; reflexivity|apply fill_end]).
Qed.
(** ** Titles *)
Lemma tx_rich_conf (parent : string) t : (parent = "c:title" \/ parent = "c:dLbl")%string -> conf parent (tx_rich E t).
Proof. intros H. pose proof (rich_conf "c:tx" t) as C. unfold tx_rich. destruct H as [-> | ->]; (eapply conf_elem; [reflexivity|fill|inside]). Qed.
Lemma tx_formula_conf (parent : string) c : (parent = "c:title" \/ parent = "c:dLbl" \/ parent = "c:ser")%string -> conf parent (tx_formula E c).
Proof. intros H. pose proof (str_ref_conf "c:tx" c) as C. unfold tx_formula. destruct H as [-> | [-> | ->]]; (eapply conf_elem; [reflexivity|fill|inside]). Qed.
Lemma title_conf parent t : Forall (conf parent) (title_xml E t) /\ at_most_one "c:title" (title_xml E t).
Proof.
  unfold title_xml. cbv zeta. pose proof (layout_conf "c:title" (ti_layout t)) as [L T]. pose proof (sp_conf "c:title" (ti_format t)) as S. pose proof (tx_rich_conf "c:title" t (or_introl eq_refl)) as R.
  pose proof (tx_formula_conf "c:title" (ti_range t) (or_introl eq_refl)) as F. pose proof (tx_pr_conf "c:title" (ti_font t) (ti_horizontal t)) as P.
  destruct (named t); [|destruct (range_given (ti_range t)); [|destruct (has_formatting (ti_format t)); [|split; [constructor|apply amo_nil]]]]; (split; [constructor; [|constructor]; (eapply conf_elem; [reflexivity|fill|inside])|apply amo_one; reflexivity]).
Qed.
Lemma series_title_conf t : Forall (conf "c:ser") (series_title E t) /\ at_most_one "c:tx" (series_title E t).
Proof.
  unfold series_title. destruct (named t).
  - split; [|apply amo_one; reflexivity]. constructor; [|constructor]. unfold tx_value. eapply conf_elem; [reflexivity|fill|inside].
  - split; [|apply amo_when; reflexivity]. apply conf_when. constructor; [|constructor]. apply tx_formula_conf. auto.
Qed.
(** ** Markers, labels, points *)
Lemma marker_conf k : conf "c:ser" (marker_xml k).
Proof. unfold marker_xml. pose proof (sp_conf "c:marker" (mk_format k)) as S. eapply conf_elem; [reflexivity|fill|inside]. Qed.
Lemma shown_marker_conf k : Forall (conf "c:ser") (shown_marker k) /\ at_most_one "c:marker" (shown_marker k).
Proof.
  unfold shown_marker. destruct k as [k|]; [|split; [constructor|apply amo_nil]]. split; [|apply amo_when; reflexivity]. apply conf_when. constructor; [apply marker_conf|constructor].
Qed.
Lemma leader_conf parent : conf parent leader_ext. Proof. unfold leader_ext. eapply conf_elem; [reflexivity|fill|inside]. Qed.
Definition round (f : family) : bool := match f with FPie | FDoughnut => true | _ => false end.
Lemma label_parts_conf parent f custom l : leafy parent "c:numFmt" = true -> leafy parent "c:dLblPos" = true -> leafy parent "c:showLegendKey" = true -> leafy parent "c:showVal" = true -> leafy parent "c:showCatName" = true ->
  leafy parent "c:showSerName" = true -> leafy parent "c:showPercent" = true -> leafy parent "c:separator" = true -> leafy parent "c:showLeaderLines" = true -> Forall (Forall (conf parent)) (label_parts E f custom l).
Proof.
  intros. pose proof (sp_conf parent (lb_format l)) as S. pose proof (leader_conf parent). unfold label_parts. cbv zeta. inside; try (apply conf_leaf; assumption); try (apply conf_data; assumption). apply tx_pr_conf.
Qed.
Lemma custom_conf f i l : lb_font l = None -> (round f = true -> lb_leader l = false) -> conf "c:dLbls" (custom_label E f i l).
Proof.
  intros F R. unfold custom_label. rewrite F. cbv zeta. cbn [some negb orb].
  set (t := lb_title l). set (shown := {| lb_format := _ |}).
  assert (L : Forall (Forall (conf "c:dLbl")) (label_parts E f true shown)) by (apply label_parts_conf; reflexivity). pose proof (layout_conf "c:dLbl" layout_new) as [C T].
  pose proof (tx_rich_conf "c:dLbl" t (or_intror eq_refl)) as X. pose proof (tx_formula_conf "c:dLbl" (ti_range t) (or_intror (or_introl eq_refl))) as Y.
  unfold elem. destruct (lb_hidden l).
  - eapply conf_kids; [reflexivity|exists label_alone; split; [left; reflexivity|reflexivity]|]. cbn [repeat app concat]. inside.
  - eapply conf_kids; [reflexivity|exists label_described; split; [right; left; reflexivity|]|].
    + rewrite andb_false_r. cbn [when]. set (tx := if named t then _ else _). assert (A : at_most_one "c:tx" tx) by (unfold tx; destruct (named t); [apply amo_one; reflexivity|apply amo_when; reflexivity]).
      change ([[]; []; [layout_xml E layout_new]; tx] ++ label_parts E f true shown) with ([] :: [] :: [layout_xml E layout_new] :: tx :: label_parts E f true shown).
      unfold label_described. unfold label_parts, label_end. cbv zeta. cbn [app]. 
      assert (Q : lb_leader shown && match f with FPie | FDoughnut => true | _ => false end = false).
      { cbn [shown lb_leader]. unfold round in R. destruct f; first [apply andb_false_r | rewrite R; reflexivity]. }
      rewrite Q. cbn [when]. fill.
    + rewrite andb_false_r. cbn [when]. apply Forall_concat. repeat (apply Forall_app; split || apply Forall_cons). all: inside. destruct (named t); inside.
Qed.

Lemma customs_conf f points l : Forall (fun b => lb_font b = None /\ (round f = true -> lb_leader b = false)) l -> forall i, Forall (conf "c:dLbls") (custom_labels E f i points l) /\ Forall (among ["c:dLbl"%string]) (custom_labels E f i points l).
Proof.
  induction 1 as [|b l [B1 B2] H IH]; intros i; [split; constructor|]. cbn [custom_labels]. destruct (points <=? i); [split; constructor|]. destruct (IH (i + 1)) as [I1 I2]. destruct (label_default b); [split; assumption|].
  split; constructor; [apply custom_conf; assumption|exact I1|reflexivity|exact I2].
Qed.
Lemma labels_conf f points l custom : Forall (fun b => lb_font b = None /\ (round f = true -> lb_leader b = false)) custom -> conf "c:ser" (labels_xml E f points l custom).
Proof.
  intros H. unfold labels_xml. destruct (customs_conf f points custom H 0) as [C A]. set (cs := custom_labels _ _ _ _ _) in *. clearbody cs. eapply conf_elem; [reflexivity| |].
  - unfold label_parts. cbv zeta. fill.
  - constructor; [exact C|]. apply label_parts_conf; reflexivity.
Qed.
Lemma points_conf f points l : forall i, Forall (conf "c:ser") (points_xml f i points l) /\ Forall (among ["c:dPt"%string]) (points_xml f i points l).
Proof.
  induction l as [|p l IH]; intros i; [split; constructor|]. cbn [points_xml]. destruct (points <=? i); [split; constructor|]. destruct (IH (i + 1)) as [I1 I2].
  pose proof (sp_conf "c:marker" p) as S. pose proof (sp_conf "c:dPt" p) as S'. assert (M : conf "c:dPt" (elem "c:marker" [sp_pr p])) by (eapply conf_elem; [reflexivity|fill|inside]).
  split; apply Forall_app; (split; [|assumption]); destruct (has_formatting p); cbn [when]; try constructor; try reflexivity; try constructor. destruct f; (eapply conf_elem; [reflexivity|fill|inside]).
Qed.
Lemma trend_conf t : conf "c:ser" (trend_xml E t).
Proof.
  unfold trend_xml. cbv zeta. pose proof (sp_conf "c:trendline" (tr_format t)) as S. pose proof (sp_conf "c:trendlineLbl" (tr_label_format t)) as S'. pose proof (layout_conf "c:trendlineLbl" layout_new) as [L T].
  eapply conf_elem; [reflexivity|fill|]. inside.
  - destruct (tr_type t); inside.
  - destruct (tr_type t); inside.
  - eapply conf_elem; [reflexivity|fill|]. inside. apply tx_pr_conf.
Qed.
Lemma bars_conf axis b : conf "c:ser" (bars_xml E axis b).
Proof.
  unfold bars_xml. pose proof (sp_conf "c:errBars" (eb_format b)) as S. eapply conf_elem; [reflexivity|fill|]. inside.
  - destruct (eb_type b); inside. apply data_conf. auto.
  - destruct (eb_type b); inside. apply data_conf. auto.
  - destruct (eb_type b); inside.
Qed.
(** ** Series *)
Definition group_tag (f : family) : string :=
  match f with FArea => "c:areaChart" | FBar | FColumn => "c:barChart" | FDoughnut => "c:doughnutChart" | FLine => "c:lineChart" | FPie => "c:pieChart" | FRadar => "c:radarChart" | FScatter => "c:scatterChart" | FStock => "c:stockChart" end.
Record ser_good (k : kind) (s : series) : Prop := {
  g_mark : may_mark k = false -> se_marker s = None; g_shape : may_shape k = false -> se_format s = format_new; g_invert : may_invert k = false -> se_invert s = false /\ se_inverted s = CDefault;
  g_trend : may_trend k = false -> tr_type (se_trend s) = TrNone; g_bars : may_bars k = false -> se_xbars s = None /\ se_ybars s = None;
  g_custom : Forall (fun b => lb_font b = None /\ (round (group_of k) = true -> lb_leader b = false)) (se_custom s) }.
Lemma inverted_conf c : conf "c:ser" (inverted_ext c). Proof. unfold inverted_ext. eapply conf_elem; [reflexivity|fill|inside]. Qed.
Lemma cat_given_conf c : Forall (conf "c:ser") (when (range_given c) [elem "c:cat" [[cache_ref E c false]]]).
Proof. apply conf_when. constructor; [apply cats_conf; auto|constructor]. Qed.
Ltac no_part G := let H := fresh in pose proof (G eq_refl) as H; cbv beta in H.
Lemma series_conf k i s : group_of k <> FScatter -> ser_good k s -> conf (group_tag (group_of k)) (series_xml E k i s).
Proof.
  intros N [G1 G2 G3 G4 G5 G6]. unfold series_xml. cbv zeta. set (points := number_of_points (se_values s)). 
  destruct (series_title_conf (se_title s)) as [Ct At]. pose proof (sp_conf "c:ser" (se_format s)) as Cs. destruct (shown_marker_conf (se_marker s)) as [Cm Am]. 
  destruct (points_conf (group_of k) points (se_points s) 0) as [Cp Ap]. pose proof (fun l => labels_conf (group_of k) points l (se_custom s) G6) as Cl. pose proof (trend_conf (se_trend s)) as Cr. pose proof bars_conf as Cb.
  pose proof (cat_given_conf (se_categories s)) as Cc. pose proof (data_conf "c:val" "c:ser" (se_values s) (or_introl (conj eq_refl eq_refl))) as Cv. pose proof (inverted_conf (se_inverted s)) as Ci.
  assert (Tr : may_trend k = false -> trend_given (se_trend s) = false) by (intros H; unfold trend_given; rewrite (G4 H); reflexivity).
  assert (Inv : may_invert k = false -> auto_or_default (se_inverted s) = true) by (intros H; rewrite (proj2 (G3 H)); reflexivity).
  assert (Mk : may_mark k = false -> shown_marker (se_marker s) = []) by (intros H; rewrite (G1 H); reflexivity).
  assert (F : Forall (Forall (conf "c:ser"))
    [[num_xml "c:idx" i]; [num_xml "c:order" i]; series_title E (se_title s); sp_pr (se_format s); shown_marker (se_marker s); when (se_invert s) [flag_xml "c:invertIfNegative"];
     points_xml (group_of k) 0 points (se_points s); opt_xml (se_label s) (fun l => labels_xml E (group_of k) points l (se_custom s)); when (trend_given (se_trend s)) [trend_xml E (se_trend s)];
     match group_of k with FBar => opt_xml (se_xbars s) (bars_xml E "") | FColumn => opt_xml (se_ybars s) (bars_xml E "") | _ => opt_xml (se_ybars s) (bars_xml E "y") end;
     when (range_given (se_categories s)) [elem "c:cat" [[cache_ref E (se_categories s) false]]]; [elem "c:val" [[cache_ref E (se_values s) true]]];
     when (negb (auto_or_default (se_inverted s))) [inverted_ext (se_inverted s)]; match group_of k, se_smooth s with FLine, Some true => [flag_xml "c:smooth"] | _, _ => [] end]).
  { inside. - destruct (group_of k); apply conf_opt; intros; apply Cb. - destruct (group_of k), (se_smooth s) as [[]|]; inside. }
  set (bars := match group_of k with FBar => opt_xml (se_xbars s) (bars_xml E "") | FColumn => opt_xml (se_ybars s) (bars_xml E "") | _ => opt_xml (se_ybars s) (bars_xml E "y") end) in *. set (smooth := match group_of k, se_smooth s with FLine, Some true => [flag_xml "c:smooth"] | _, _ => [] end) in *.
  assert (Ab : at_most_one "c:errBars" bars) by (unfold bars; destruct (group_of k); apply amo_opt; reflexivity).
  assert (As : at_most_one "c:smooth" smooth) by (unfold smooth; destruct (group_of k), (se_smooth s) as [[]|]; first [apply amo_nil | apply amo_one; reflexivity]).
  set (ps := points_xml _ _ _ _) in *. set (mk := shown_marker _) in *. set (tt := series_title _ _) in *.
  destruct k; try (exfalso; apply N; reflexivity); cbn [group_of group_tag may_mark may_invert may_trend may_bars] in *;
    try rewrite (Mk eq_refl) in F |- *; try rewrite (proj1 (G3 eq_refl)) in F |- *; try rewrite (Inv eq_refl) in F |- *; try rewrite (Tr eq_refl) in F |- *; cbn [negb when] in F |- *;
    (eapply conf_elem; [reflexivity| |exact F]); clear F.
  all: try solve [fill].
  all: unfold bars; rewrite (proj2 (G5 eq_refl)); cbn [opt_xml]; fill.
Qed.
Lemma scatter_conf k i s : group_of k = FScatter -> ser_good k s -> conf "c:scatterChart" (scatter_xml E k i s).
Proof.
  intros K [G1 G2 _ _ _ G6]. unfold scatter_xml. cbv zeta. set (points := number_of_points (se_values s)).
  destruct (series_title_conf (se_title s)) as [Ct At]. pose proof (sp_conf "c:ser" (scatter_format k (se_format s))) as Cs. destruct (shown_marker_conf (se_marker s)) as [Cm Am].
  destruct (points_conf (group_of k) points (se_points s) 0) as [Cp Ap]. pose proof (fun l => labels_conf (group_of k) points l (se_custom s) G6) as Cl. pose proof (trend_conf (se_trend s)) as Cr. pose proof bars_conf as Cb.
  pose proof (cats_conf "c:xVal" "c:ser" (se_categories s) (or_intror eq_refl)) as Cc. pose proof (data_conf "c:yVal" "c:ser" (se_values s) (or_intror (or_introl eq_refl))) as Cv.
  set (tt := series_title _ _) in *. set (mk := shown_marker _) in *. set (ps := points_xml _ _ _ _) in *. set (sp := sp_pr (scatter_format k (se_format s))) in *. set (ls := opt_xml (se_label s) _).
  assert (Cls : Forall (conf "c:ser") ls) by (unfold ls; apply conf_opt; exact Cl). assert (Al : at_most_one "c:dLbls" ls) by (unfold ls; apply amo_opt; reflexivity). clearbody ls.
  assert (M : mk = [] \/ sp = []).
  { unfold mk, sp. destruct k; try discriminate K; first [left; rewrite (G1 eq_refl); reflexivity | right; rewrite (G2 eq_refl); reflexivity]. }
  assert (Asp : at_most_one "c:spPr" sp) by (unfold sp; apply amo_sp). clearbody mk sp.
  eapply conf_elem; [reflexivity| |].
  - destruct (se_xbars s), (se_ybars s), M as [-> | ->]; cbn [opt_xml app]; try match goal with |- context [concat [?a; ?b; ?c; ?d; ?e; ?f; ?g; ?h; [?u; ?v]; ?w; ?x; ?y]] => change (concat [a; b; c; d; e; f; g; h; [u; v]; w; x; y]) with (concat [a; b; c; d; e; f; g; h; [u]; [v]; w; x; y]) end; fill.
  - inside. apply Forall_app. split; apply conf_opt; intros; apply Cb.
Qed.
(** ** Axes *)
Lemma scaling_conf parent a : conf parent (scaling_xml E a).
Proof.
  unfold scaling_xml. cbv zeta. eapply conf_elem; [reflexivity|fill|inside].
Qed.
Lemma grid_conf parent (tag : string) b l : (tag = "c:majorGridlines" \/ tag = "c:minorGridlines")%string -> Forall (conf parent) (grid_xml tag b l) /\ at_most_one tag (grid_xml tag b l).
Proof.
  intros T. unfold grid_xml. split.
  - apply conf_when. constructor; [|constructor]. destruct l as [l|].
    + destruct (ln_conf "c:spPr" l) as [C L]. assert (S : conf tag (elem "c:spPr" [[chart_ln l]])) by (eapply conf_elem; [reflexivity|fill|inside]). destruct T as [-> | ->]; (eapply conf_elem; [reflexivity|fill|inside]).
    + destruct T as [-> | ->]; apply conf_leaf; reflexivity.
  - apply amo_when. destruct l; reflexivity.
Qed.
Definition is_axis (parent : string) : Prop := (parent = "c:catAx" \/ parent = "c:dateAx" \/ parent = "c:valAx")%string.
Lemma head_conf parent id cross a other nf category crossed : is_axis parent -> Forall (conf parent) nf -> Forall (Forall (conf parent)) (axis_head E id cross a other nf category crossed).
Proof.
  intros P F. unfold axis_head. pose proof (scaling_conf parent a). pose proof (title_conf parent (ax_title a)) as [? _]. pose proof (sp_conf parent (ax_format a)). 
  destruct (grid_conf parent "c:majorGridlines" (ax_major_grid a) (ax_major_line a) (or_introl eq_refl)) as [? _]. destruct (grid_conf parent "c:minorGridlines" (ax_minor_grid a) (ax_minor_line a) (or_intror eq_refl)) as [? _].
  assert (forall f, conf parent (tx_pr E f false)) by (intros; apply tx_pr_conf).
  assert (C : Forall (conf parent) (crosses_xml E category (ax_crossing other)) /\ Forall (conf parent) (crosses_at_xml E category (ax_crossing other))).
  { unfold crosses_xml, crosses_at_xml. destruct P as [->|[->| ->]]; destruct (ax_crossing other); split; inside. }
  destruct C as [C1 C2]. destruct P as [->|[->| ->]]; inside.
Qed.
Lemma head_fills id cross a other nf (category crossed : bool) rest parts : at_most_one "c:numFmt" nf -> in_order rest (tags (concat parts)) = true -> in_order (axis_start ++ rest) (tags (concat (axis_head E id cross a other nf category crossed ++ parts))) = true.
Proof.
  intros A H. unfold axis_head. destruct (title_conf "" (ax_title a)) as [_ At]. destruct (grid_conf "" "c:majorGridlines" (ax_major_grid a) (ax_major_line a) (or_introl eq_refl)) as [_ Ag]. destruct (grid_conf "" "c:minorGridlines" (ax_minor_grid a) (ax_minor_line a) (or_intror eq_refl)) as [_ Ah].
  set (cx := when crossed (crosses_xml E category (ax_crossing other))). set (cy := when crossed (crosses_at_xml E category (ax_crossing other))).
  assert (C : Forall (among ["c:crosses"; "c:crossesAt"]%string) (cx ++ cy) /\ (length (cx ++ cy) <= 1)%nat).
  { unfold cx, cy, crosses_xml, crosses_at_xml. destruct crossed, category, (ax_crossing other); (split; [repeat constructor|cbn; lia]). }
  clearbody cx cy. set (ti := title_xml _ _) in *. set (g1 := grid_xml "c:majorGridlines" _ _) in *. set (g2 := grid_xml "c:minorGridlines" _ _) in *. clearbody ti g1 g2.
  set (sc := scaling_xml E a). assert (Ts : tag_of sc = lit "c:scaling") by reflexivity. set (pl := place_xml a other). assert (Tp : tag_of pl = lit "c:axPos") by reflexivity. clearbody sc pl.
  rewrite concat_app. cbn [concat]. rewrite <- !app_assoc. change (axis_start ++ rest) with ltac:(let o := eval cbn [axis_start app] in (axis_start ++ rest) in exact o).
  repeat match goal with
  | |- in_order (May _ :: _) _ = true => apply fill_may; [one_tag|]
  | |- in_order (Must _ :: _) _ = true => apply fill_must; [first [reflexivity | assumption]|]
  end.
  rewrite (app_assoc cx). apply fill_either; [exact (proj1 C)|exact (proj2 C)|exact H].
Qed.
Lemma skips_conf parent a : is_axis parent -> Forall (Forall (conf parent)) (skips a). Proof. intros P. unfold skips. destruct P as [->|[->| ->]]; inside. Qed.
Lemma own_num_conf parent code d (b c : bool) : is_axis parent -> Forall (conf parent) (if b then [num_fmt_xml code false] else when c [num_fmt_xml d true]) /\ at_most_one "c:numFmt" (if b then [num_fmt_xml code false] else when c [num_fmt_xml d true]).
Proof. intros P. split; [destruct P as [->|[->| ->]]; destruct b, c; inside|destruct b; [apply amo_one; reflexivity|apply amo_when; reflexivity]]. Qed.
Lemma cat_conf crosses numeric x y ids : conf "c:plotArea" (cat_ax E crosses numeric x y ids).
Proof.
  unfold cat_ax. destruct (own_num_conf "c:catAx" (ax_num_format x) (lit "General") (own_format x) numeric (or_introl eq_refl)) as [C A]. set (nf := if own_format x then _ else _) in *. eapply conf_elem; [reflexivity| |].
  - apply (head_fills _ _ _ _ _ _ _ [May "c:auto"; May "c:lblAlgn"; May "c:lblOffset"; May "c:tickLblSkip"; May "c:tickMarkSkip"; May "c:noMultiLvlLbl"]%string); [exact A|]. unfold skips.
    match goal with |- context [concat ([?a; ?b; ?c] ++ [?d; ?e])] => change ([a; b; c] ++ [d; e]) with [a; b; c; d; e] end. fill.
  - apply Forall_app. split; [apply head_conf; [left; reflexivity|exact C]|]. apply Forall_app. split; [inside|apply skips_conf; left; reflexivity].
Qed.
Lemma date_conf crosses numeric x y ids : (ax_label_interval x <= 1) -> (ax_tick_interval x <= 1) -> conf "c:plotArea" (date_ax E crosses numeric x y ids).
Proof.
  intros I1 I2. unfold date_ax. destruct (own_num_conf "c:dateAx" (ax_num_format x) (lit "dd/mm/yyyy") (own_format x) numeric (or_intror (or_introl eq_refl))) as [C A]. set (nf := if own_format x then _ else _) in *.
  assert (S : skips x = [[]; []]) by (unfold skips; rewrite (proj2 (N.ltb_ge _ _) I1), (proj2 (N.ltb_ge _ _) I2); reflexivity). rewrite S. eapply conf_elem; [reflexivity| |].
  - apply (head_fills _ _ _ _ _ _ _ [May "c:auto"; May "c:lblOffset"; May "c:baseTimeUnit"; May "c:majorUnit"; May "c:majorTimeUnit"; May "c:minorUnit"; May "c:minorTimeUnit"]%string); [exact A|].
    match goal with |- context [concat ([?a; ?b] ++ [[]; []] ++ [?c; ?d; ?e; ?f])] => change ([a; b] ++ [[]; []] ++ [c; d; e; f]) with [a; b; []; []; c; d; e; f] end. unfold unit_xml. fill.
  - apply Forall_app. split; [apply head_conf; [right; left; reflexivity|exact C]|]. unfold unit_xml. cbn [app]. inside.
Qed.
Lemma value_tail_conf a other : Forall (Forall (conf "c:valAx")) (value_tail E a other).
Proof.
  unfold value_tail, unit_xml, units_xml. destruct (layout_conf "c:dispUnitsLbl" layout_new) as [L T]. inside. eapply conf_elem; [reflexivity|fill|]. inside.
Qed.
Lemma value_conf id cross d x y : conf "c:plotArea" (elem "c:valAx" (axis_head E id cross x y (value_format d x) false true ++ value_tail E x y)).
Proof.
  assert (C : Forall (conf "c:valAx") (value_format d x) /\ at_most_one "c:numFmt" (value_format d x)) by (unfold value_format; destruct (own_format x); (split; [inside|apply amo_one; reflexivity])). destruct C as [C A].
  eapply conf_elem; [reflexivity| |].
  - apply (head_fills _ _ _ _ _ _ _ [May "c:crossBetween"; May "c:majorUnit"; May "c:minorUnit"; May "c:dispUnits"]%string); [exact A|]. unfold value_tail, unit_xml, units_xml. fill.
  - apply Forall_app. split; [apply head_conf; [right; right; reflexivity|exact C]|apply value_tail_conf].
Qed.

End Env.
