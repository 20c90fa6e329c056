From Verif Require Import Base F64 Xml_Model Xml_Spec Xml_Proofs Xml_Read Xml_Read_Proofs Xml_Tree Fmt_Model Rich_Model Rich_Proofs SheetXml_Spec SheetXml_Proofs SheetXml_Proofs3 Doc_Model Doc_Spec Props_Doc Tag_Proofs Part_Proofs
  CF_Spec CF_Model CF_Build CF_Read Ref_Model Ref_Proofs Ref_Spec Quote_Proofs Note_Spec Note_Proofs Note_Proofs2 Note_Proofs4 Note_Proofs5 Cache_Model Spark_Model Spark_Spec Dml_Model Dml_Spec Dml_Proofs Draw_Model Draw_Proofs Draw_Proofs3
  Chart_Model Chart_Series Chart_Axis Chart_Whole Chart_Proofs Chart_Proofs10 Chart_Order Chart_Order2 Chart_Order_Proofs.


Section Env.
Variable E : env.
Lemma lines_conf parent (tag : string) f : (tag = "c:dropLines" \/ tag = "c:hiLowLines" \/ tag = "c:upBars" \/ tag = "c:downBars")%string -> conf parent (lines_xml tag f).
Proof. intros T. unfold lines_xml. pose proof (sp_conf tag f) as S. destruct T as [->|[->|[->| ->]]]; (eapply conf_elem; [reflexivity|fill|inside]). Qed.
Lemma up_down_conf parent c : conf parent (up_down_xml c).
Proof. unfold up_down_xml. pose proof (lines_conf "c:upDownBars" "c:upBars" (ch_up c)) as U. pose proof (lines_conf "c:upDownBars" "c:downBars" (ch_down c)) as D. eapply conf_elem; [reflexivity|fill|]. inside; auto. Qed.
Lemma sers_conf k l : Forall (ser_good k) l -> group_of k <> FScatter -> forall w, Forall (conf (group_tag (group_of k))) (fst (write_series E k w l)) /\ Forall (among ["c:ser"%string]) (fst (write_series E k w l)).
Proof.
  intros G N. induction G as [|s l Gs G IH]; intros w; [split; constructor|]. cbn [write_series]. specialize (IH (after_series E w s)). destruct (write_series E k (after_series E w s) l) as [xs v]. cbn [fst] in *. destruct IH as [I1 I2].
  split; constructor; [apply series_conf; assumption|exact I1|reflexivity|exact I2].
Qed.
Lemma scatters_conf k l : Forall (ser_good k) l -> group_of k = FScatter -> forall w, Forall (conf "c:scatterChart") (fst (write_scatter E k w l)) /\ Forall (among ["c:ser"%string]) (fst (write_scatter E k w l)).
Proof.
  intros G N. induction G as [|s l Gs G IH]; intros w; [split; constructor|]. cbn [write_scatter]. specialize (IH (at_index w (w_index w + 1))). destruct (write_scatter E k (at_index w (w_index w + 1)) l) as [xs v]. cbn [fst] in *. destruct IH as [I1 I2].
  split; constructor; [apply scatter_conf; assumption|exact I1|reflexivity|exact I2].
Qed.
Lemma group_conf c ids primary w l : Forall (ser_good (ch_kind c)) l -> let x := fst (group_xml E c ids primary w l) in conf "c:plotArea" x /\ among group_names x.
Proof.
  intros G. cbv zeta. unfold group_xml. set (k := ch_kind c) in *.
  assert (S : let r := match group_of k with FScatter => write_scatter E k w l | _ => write_series E k w l end in Forall (conf (group_tag (group_of k))) (fst r) /\ Forall (among ["c:ser"%string]) (fst r)).
  { cbv zeta. destruct (group_of k) eqn:K; try (rewrite <- K; apply sers_conf; [exact G|rewrite K; discriminate]). apply scatters_conf; assumption. }
  cbv zeta in S. destruct (match group_of k with FScatter => write_scatter E k w l | _ => write_series E k w l end) as [sers v]. cbn [fst] in S. destruct S as [C A]. cbv zeta. cbn [fst].
  pose proof (fun p => lines_conf p "c:dropLines" (ch_drop_format c) (or_introl eq_refl)) as D1. pose proof (fun p => lines_conf p "c:hiLowLines" (ch_high_low_format c) (or_intror (or_introl eq_refl))) as D2. pose proof (fun p => up_down_conf p c) as D3.
  assert (I : forall p, leafy p "c:axId" = true -> Forall (conf p) (ids_xml ids)) by (intros p Hp; constructor; [|constructor; [|constructor]]; apply conf_leaf; exact Hp).
  destruct (group_of k); cbn [group_tag] in C; (split; [|reflexivity]); (eapply conf_elem; [reflexivity| |]).
  all: unfold drop_xml, high_low_xml.
  all: try solve [inside; first [apply D1 | apply D2 | apply D3 | apply I; reflexivity]].
  all: fill; reflexivity.
Qed.
Lemma write_group_conf c ids primary w : Forall (ser_good (ch_kind c)) (ch_series c) -> let r := fst (write_group E c ids primary w) in Forall (conf "c:plotArea") r /\ Forall (among group_names) r.
Proof.
  intros G. cbv zeta. unfold write_group. set (l := filter _ (ch_series c)). assert (Gl : Forall (ser_good (ch_kind c)) l). { apply Forall_forall. intros s H. apply filter_In in H as [H _]. rewrite Forall_forall in G. apply G, H. }
  destruct l as [|s l]; [split; constructor|]. pose proof (group_conf c ids primary w (s :: l) Gl) as H. cbv zeta in H. destruct (group_xml E c ids primary w (s :: l)) as [x v]. cbn [fst] in *. destruct H. split; constructor; first [assumption | constructor].
Qed.
Lemma write_type_conf c ids ids2 w : Forall (ser_good (ch_kind c)) (ch_series c) -> let r := fst (write_type E c ids ids2 w) in Forall (conf "c:plotArea") r /\ Forall (among group_names) r /\ (ch_series c <> [] -> r <> []).
Proof.
  intros G. cbv zeta. unfold write_type. pose proof (write_group_conf c ids true w G) as H1. cbv zeta in H1. destruct (write_group E c ids true w) as [g1 w1] eqn:E1. pose proof (write_group_conf c ids2 false w1 G) as H2. cbv zeta in H2. destruct (write_group E c ids2 false w1) as [g2 w2] eqn:E2.
  cbn [fst] in *. destruct H1, H2. split; [apply Forall_app; split; assumption|]. split; [apply Forall_app; split; assumption|]. intros N Q. apply app_eq_nil in Q as [Q1 Q2]. subst.
  destruct (ch_series c) as [|s r] eqn:S; [contradiction|]. unfold write_group in E1, E2. rewrite S in E1, E2. cbn [filter] in E1, E2. destruct (se_secondary s); cbn [xorb] in E1, E2.
  - destruct (group_xml E c ids2 false w1 _); discriminate E2.
  - destruct (group_xml E c ids true w _); discriminate E1.
Qed.
Definition unskipped (a : caxis) : Prop := ax_label_interval a <= 1 /\ ax_tick_interval a <= 1.
Record axes_good (c : chart) : Prop := { ag : is_date (ch_x c) = true -> unskipped (ch_x c) /\ unskipped (ch_y c) /\ unskipped (ch_x2 c) /\ unskipped (ch_y2 c) }.
Lemma pick_axis (b : bool) crosses numeric x y ids : (b = true -> unskipped x) -> let a := if b then date_ax E crosses numeric x y ids else cat_ax E crosses numeric x y ids in conf "c:plotArea" a /\ among axis_names a.
Proof. intros H. cbv zeta. destruct b; [destruct (H eq_refl); split; [apply date_conf; assumption|reflexivity]|split; [apply cat_conf|reflexivity]]. Qed.
Lemma primary_conf c w ids : axes_good c -> Forall (conf "c:plotArea") (primary_axes E c w ids) /\ Forall (among axis_names) (primary_axes E c w ids).
Proof.
  intros [A]. unfold primary_axes. cbv zeta. set (f := group_of (ch_kind c)).
  assert (P : let x := fst (match f with FBar => (ch_y c, ch_x c) | _ => (ch_x c, ch_y c) end) in is_date (ch_x c) = true -> unskipped x). { cbv zeta. intros H. destruct (A H) as (U1 & U2 & _). destruct f; assumption. }
  destruct (match f with FBar => (ch_y c, ch_x c) | _ => (ch_x c, ch_y c) end) as [x y]. cbn [fst] in P.
  assert (V : forall d, conf "c:plotArea" (val_ax E d x y ids)) by (intros; apply value_conf). assert (V2 : forall d, conf "c:plotArea" (cat_val_ax E d x y ids)) by (intros; apply value_conf).
  destruct (pick_axis (is_date (ch_x c)) (has_crosses f) (w_numeric w) x y ids P) as [C1 C2]. set (a := if is_date (ch_x c) then _ else _) in *.
  destruct f; (split; [inside; auto|repeat constructor; exact C2]).
Qed.
Lemma secondary_conf c comb w ids : axes_good c -> Forall (conf "c:plotArea") (secondary_axes E c comb w ids) /\ Forall (among axis_names) (secondary_axes E c comb w ids).
Proof.
  intros [A]. unfold secondary_axes. cbv zeta. set (f := group_of (ch_kind c)). set (g := match comb with Some d => group_of (ch_kind d) | None => f end).
  assert (P : let x := fst (match g with FBar => (ch_y2 c, ch_x2 c) | _ => (ch_x2 c, ch_y2 c) end) in is_date (ch_x c) = true -> unskipped x). { cbv zeta. intros H. destruct (A H) as (_ & _ & U1 & U2). destruct g; assumption. }
  destruct (match g with FBar => (ch_y2 c, ch_x2 c) | _ => (ch_x2 c, ch_y2 c) end) as [x y]. cbn [fst] in P.
  assert (V : forall d, conf "c:plotArea" (val_ax E d x y ids)) by (intros; apply value_conf). assert (V2 : forall d, conf "c:plotArea" (cat_val_ax E d x y ids)) by (intros; apply value_conf).
  destruct (has_secondary c comb); [|split; constructor].
  destruct (pick_axis (is_date (ch_x c)) (has_crosses f) (w_numeric w) x y ids P) as [C1 C2]. set (a := if is_date (ch_x c) then _ else _) in *.
  destruct g; try (split; [inside; auto|repeat constructor; exact C2]). destruct (some comb); (split; [inside; auto|repeat constructor]).
Qed.
Lemma dtable_conf t : conf "c:plotArea" (dtable_xml E t).
Proof. unfold dtable_xml. pose proof (sp_conf "c:dTable" (dt_format t)). eapply conf_elem; [reflexivity|fill|]. inside. apply tx_pr_conf. Qed.
Definition series_all (c : chart) : Prop := Forall (ser_good (ch_kind c)) (ch_series c).
Lemma plot_conf id c comb w wc : series_all c -> ch_series c <> [] -> axes_good c -> match comb with Some d => series_all d | None => True end -> conf "c:chart" (fst (plot_area E id c comb w wc)).
Proof.
  intros S Ns A D. unfold plot_area. cbv zeta. pose proof (write_type_conf c (axis_ids id) (axis2_ids id (some comb)) (at_index w 0) S) as H. cbv zeta in H. destruct (write_type E c _ _ _) as [own w1]. cbn [fst] in H. destruct H as (C1 & A1 & N1). specialize (N1 Ns).
  assert (O : let r := fst match comb with Some d => write_type E d (axis_ids id) (axis2_ids id (some comb)) (at_index wc (N.of_nat (length (ch_series c)))) | None => ([], wc) end in Forall (conf "c:plotArea") r /\ Forall (among group_names) r).
  { cbv zeta. destruct comb as [d|]; [|split; constructor]. pose proof (write_type_conf d (axis_ids id) (axis2_ids id (some (Some d))) (at_index wc (N.of_nat (length (ch_series c)))) D) as H. cbv zeta in H. destruct H as (H1 & H2 & _). split; assumption. }
  cbv zeta in O. destruct (match comb with Some d => _ | None => _ end) as [other wc1]. cbn [fst] in *. destruct O as [C2 A2].
  destruct (primary_conf c w1 (axis_ids id) A) as [C3 A3]. destruct (secondary_conf c comb w1 (axis2_ids id (some comb)) A) as [C4 A4]. set (pa := primary_axes _ _ _ _) in *. set (sa := secondary_axes _ _ _ _ _) in *. clearbody pa sa.
  destruct (layout_conf E "c:plotArea" (ch_plot_layout c)) as [C5 T5]. pose proof (sp_conf "c:plotArea" (ch_plot c)) as C6. pose proof dtable_conf as C7.
  eapply conf_elem; [reflexivity| |inside].
  assert (Q : concat [[layout_xml E (ch_plot_layout c)]; own; other; pa; sa; opt_xml (ch_table c) (dtable_xml E); sp_pr (ch_plot c)] = concat [[layout_xml E (ch_plot_layout c)]; own ++ other; pa ++ sa; opt_xml (ch_table c) (dtable_xml E); sp_pr (ch_plot c)]).
  { cbn [concat]. rewrite <- !app_assoc. reflexivity. }
  rewrite Q. assert (X1 : Forall (among group_names) (own ++ other)) by (apply Forall_app; split; assumption). assert (X2 : Forall (among axis_names) (pa ++ sa)) by (apply Forall_app; split; assumption).
  assert (X3 : own ++ other <> []) by (intros Z; apply app_eq_nil in Z as [Z _]; exact (N1 Z)). set (groups := own ++ other) in *. set (axes := pa ++ sa) in *. clearbody groups axes.
  cbn [concat]. cbn [snd]. apply fill_may; [one_tag|]. apply fill_some; [exact X3|exact X1|]. apply fill_any; [exact X2|]. apply fill_may; [one_tag|]. apply fill_may; [one_tag|]. reflexivity.
Qed.
Definition legend_good (c : chart) : Prop := lg_overlay (ch_legend c) = false \/ lg_format (ch_legend c) = format_new.
Lemma legend_conf c : legend_good c -> Forall (conf "c:chart") (legend_xml E c) /\ at_most_one "c:legend" (legend_xml E c).
Proof.
  intros G. unfold legend_xml. cbv zeta. split; [|apply amo_when; reflexivity]. apply conf_when. constructor; [|constructor]. set (font := match group_of (ch_kind c), lg_font (ch_legend c) with FPie, _ => _ | _, _ => _ end).
  destruct (layout_conf E "c:legend" (lg_layout (ch_legend c))) as [C1 T1]. pose proof (sp_conf "c:legend" (lg_format (ch_legend c))) as C2. 
  set (es := map _ (deleted_entries c)). assert (C3 : Forall (conf "c:legend") es) by (apply Forall_map, Forall_forall; intros i _; eapply conf_elem; [reflexivity|fill|inside]).
  assert (A3 : Forall (among ["c:legendEntry"%string]) es) by (apply Forall_map, Forall_forall; reflexivity). clearbody es.
  eapply conf_elem; [reflexivity| |].
  - destruct G as [-> | ->]; cbn [when]; [fill|]. change (sp_pr format_new) with (@nil wx). fill.
  - inside. apply tx_pr_conf.
Qed.
Lemma print_conf : conf "c:chartSpace" print_settings. Proof. reflexivity. Qed.
Lemma na_conf : conf "c:chart" na_ext. Proof. reflexivity. Qed.
Theorem part_conf sheet protected id c comb w wc : series_all c -> ch_series c <> [] -> axes_good c -> legend_good c -> match comb with Some d => series_all d | None => True end ->
  conforms [] (node_of (fst (chart_part E sheet protected id c comb w wc))) = true.
Proof.
  intros S Ns A G D. unfold chart_part. pose proof (plot_conf id c comb w wc S Ns A D) as P. assert (T : tag_of (fst (plot_area E id c comb w wc)) = lit "c:plotArea").
  { unfold plot_area. cbv zeta. destruct (write_type E c _ _ _). destruct (match comb with Some d => _ | None => _ end). reflexivity. }
  destruct (plot_area E id c comb w wc) as [plot v]. cbn [fst] in *. destruct (legend_conf c G) as [C1 A1]. destruct (title_conf E "c:chart" (ch_title c)) as [C2 A2]. pose proof (sp_conf "c:chartSpace" (ch_area c)) as C3. pose proof print_conf. pose proof na_conf.
  set (lg := legend_xml E c) in *. set (ti := title_xml E (ch_title c)) in *. clearbody lg ti.
  change (conf "" (WElem (lit "c:chartSpace")
     [(lit "xmlns:c", lit "http://schemas.openxmlformats.org/drawingml/2006/chart"); (lit "xmlns:a", lit "http://schemas.openxmlformats.org/drawingml/2006/main"); (lit "xmlns:r", lit "http://schemas.openxmlformats.org/officeDocument/2006/relationships")]
     (concat [[word_xml "c:lang" (lit "en-US")]; when (negb (ch_style c =? 2)) [num_xml "c:style" (ch_style c)]; when protected [WEmpty (lit "c:protection") []];
      [elem "c:chart" [when (negb (ti_hidden (ch_title c))) ti; when (ti_hidden (ch_title c)) [flag_xml "c:autoTitleDeleted"]; [plot]; lg;
         when (negb (ch_hidden_data c)) [flag_xml "c:plotVisOnly"]; opt_xml (ch_empty c) (fun n => word_xml "c:dispBlanksAs" (word_of empty_names n)); when (ch_na c) [na_ext]]];
      sp_pr (ch_area c); when (negb sheet) [print_settings]]))).
  eapply conf_kids; [reflexivity|eexists; split; [left; reflexivity|fill]|]. apply Forall_concat. inside. eapply conf_elem; [reflexivity|fill|inside].
Qed.
End Env.
