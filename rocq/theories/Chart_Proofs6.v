(** Charts: series read back. *)
From Verif Require Import Base F64 Xml_Model Xml_Spec Xml_Proofs Xml_Read Xml_Read_Proofs Xml_Tree Fmt_Model Rich_Model Rich_Proofs SheetXml_Spec SheetXml_Proofs SheetXml_Proofs3 Doc_Model Doc_Spec Props_Doc Tag_Proofs Part_Proofs
  CF_Spec CF_Model CF_Build CF_Read Ref_Model Ref_Proofs Ref_Spec Quote_Proofs Note_Spec Note_Proofs Note_Proofs2 Note_Proofs4 Note_Proofs5 Cache_Model Spark_Model Spark_Spec Dml_Model Dml_Spec Dml_Proofs Draw_Model Draw_Proofs Draw_Proofs3
  Chart_Model Chart_Series Chart_Axis Chart_Whole Chart_Spec Chart_Spec2 Chart_Spec3 Chart_Proofs Chart_Proofs2 Chart_Proofs3 Chart_Proofs4 Chart_Proofs5.
From Verif Require Color_Spec Props_Spark Xml_Spec.


Lemma valid_in c : color_valid c = match in_range c with Some _ => true | None => false end.
Proof. rewrite in_range_eq. destruct (color_valid c); reflexivity. Qed.

(** What the calls leave in a series. *)
Definition dressed (k : kind) (l : list series_op) (s : series) : Prop :=
  se_values s = the_values l /\ se_categories s = the_categories l /\ ti_name (se_title s) = fold_left name_text (the_names l) [] /\ ti_range (se_title s) = fold_left name_range (the_names l) no_range /\
  se_format s = chart_format (series_format k l) /\ se_marker s = option_map make_marker (series_marker k l) /\ se_label s = option_map make_label (series_labels l) /\ se_points s = map chart_format (series_points l) /\
  se_custom s = map make_label (point_labels l) /\ se_gap s = series_gap l /\ se_overlap s = series_overlap l /\ se_invert s = series_invert l /\ se_inverted s = series_inverted l /\ se_trend s = make_trend (series_trend l) /\
  se_xbars s = option_map make_bars (series_xbars l) /\ se_ybars s = option_map make_bars (series_ybars l) /\ se_delete s = series_deleted l /\ se_smooth s = series_smooth l /\ se_secondary s = on_secondary l.
Lemma label_left l : forall z, se_label z = None -> se_label (fold_left series_step l z) = option_map make_label (series_labels l).
Proof.
  intros z Hz. unfold series_labels, own_labels. induction l as [|o l IH] using rev_ind; [exact Hz|]. rewrite fold_left_app, last_snoc, existsb_app. cbn [fold_left existsb]. set (t := fold_left series_step l z) in *.
  destruct o; cbn [series_step se_label]; rewrite ?orb_false_r; try exact IH; [reflexivity|]. rewrite IH, orb_true_r. destruct (last_of _ None l); [reflexivity|]. destruct (existsb _ l); reflexivity.
Qed.
Lemma title_left l : forall s, ti_name (se_title (fold_left series_step l s)) = fold_left name_text (the_names l) (ti_name (se_title s)) /\ ti_range (se_title (fold_left series_step l s)) = fold_left name_range (the_names l) (ti_range (se_title s)).
Proof.
  induction l as [|o l IH]; intros s; [split; reflexivity|]. cbn [fold_left]. destruct (IH (series_step s o)) as [-> ->]. unfold the_names. cbn [flat_map]. rewrite !fold_left_app. destruct o; split; reflexivity.
Qed.
Lemma point_color_same l : map (fun c => chart_format [FoSolid [SoColor c]]) l = map chart_format (map (fun c => [FoSolid [SoColor c]]) l).
Proof. rewrite map_map. reflexivity. Qed.
Lemma added_dressed k l : dressed k l (added k l).
Proof.
  unfold dressed, added, make_series.
  split; [apply (last_fold se_values (fun o => match o with SrValues c => Some c | _ => None end)); intros s []; reflexivity|].
  split; [apply (last_fold se_categories (fun o => match o with SrCategories c => Some c | _ => None end)); intros s []; reflexivity|].
  split; [apply (title_left l)|]. split; [apply (title_left l)|].
  split; [apply (Draw_Proofs2.last_folded se_format chart_format (fun o => match o with SrFormat l => Some l | _ => None end)); [intros s []; reflexivity|destruct k; reflexivity]|].
  split; [apply (Draw_Proofs2.last_folded se_marker (option_map make_marker) (fun o => match o with SrMarker l => Some (Some l) | _ => None end)); [intros s []; reflexivity|destruct k; reflexivity]|].
  split; [apply label_left; reflexivity|].
  split; [apply (Draw_Proofs2.last_folded se_points (map chart_format) (fun o => match o with SrPoints l => Some l | SrPointColors l => Some (map (fun c => [FoSolid [SoColor c]]) l) | _ => None end)); [intros s []; try reflexivity; apply point_color_same|reflexivity]|].
  split; [apply (Draw_Proofs2.last_folded se_custom (map make_label) (fun o => match o with SrCustom l => Some l | _ => None end)); [intros s []; reflexivity|reflexivity]|].
  split; [apply (last_fold se_gap (fun o => match o with SrGap n => if n <=? 500 then Some n else None | _ => None end)); intros s o; destruct o; try reflexivity; cbn [series_step se_gap]; destruct (n <=? 500); reflexivity|].
  split; [apply (last_fold se_overlap (fun o => match o with SrOverlap z => if ((-100 <=? z) && (z <=? 100))%Z then Some (Some z) else None | _ => None end)); intros s o; destruct o; try reflexivity; cbn [series_step se_overlap]; unfold overlap_ok; destruct ((-100 <=? z) && (z <=? 100))%Z; reflexivity|].
  split; [apply (flag_fold (fun o => match o with SrInvert => true | SrInvertColor c => match in_range c with Some _ => true | None => false end | _ => false end) se_invert); [|reflexivity]; intros s o; destruct o; try reflexivity; cbn [series_step se_invert]; rewrite valid_in; reflexivity|].
  split; [apply (last_fold se_inverted (fun o => match o with SrInvertColor c => in_range c | _ => None end)); intros s o; destruct o; try reflexivity; cbn [series_step se_inverted]; rewrite in_range_eq; destruct (color_valid c); reflexivity|].
  split; [apply (Draw_Proofs2.last_folded se_trend make_trend (fun o => match o with SrTrend l => Some l | _ => None end)); [intros s []; reflexivity|reflexivity]|].
  split; [apply (Draw_Proofs2.last_folded se_xbars (option_map make_bars) (fun o => match o with SrXBars l => Some (Some l) | _ => None end)); [intros s []; reflexivity|reflexivity]|].
  split; [apply (Draw_Proofs2.last_folded se_ybars (option_map make_bars) (fun o => match o with SrYBars l => Some (Some l) | _ => None end)); [intros s []; reflexivity|reflexivity]|].
  split; [apply (last_fold se_delete (fun o => match o with SrDelete b => Some b | _ => None end)); intros s []; reflexivity|].
  split; [apply (last_fold se_smooth (fun o => match o with SrSmooth b => Some (Some b) | _ => None end)); intros s []; reflexivity|].
  apply (last_fold se_secondary (fun o => match o with SrSecondary b => Some b | _ => None end)); intros s []; reflexivity.
Qed.
(** A series that is pushed onto a chart has the chart's own line and markers put over those of the user. *)
Lemma pushed_dressed k l : dressed k (l ++ dressing k) (pushed k l).
Proof.
  unfold pushed. destruct (added_dressed KColumn l) as (A1 & A2 & A3 & A4 & A5 & A6 & A7 & A8 & A9 & A10 & A11 & A12 & A13 & A14 & A15 & A16 & A17 & A18 & A19). change (added KColumn l) with (make_series series_new l) in *.
  set (s := make_series series_new l) in *. clearbody s.
  assert (X : dressing k = [] /\ dress k s = s /\ usual_line k = [] /\ without_markers k = false \/ (exists d, dressing k = [SrFormat d] /\ usual_line k = d /\ unmarked k = false /\ without_markers k = false /\ se_format (dress k s) = chart_format d) \/
    (dressing k = [SrMarker [MkNone]] /\ unmarked k = true /\ se_format (dress k s) = se_format s /\ usual_line k = [])).
  { destruct k; cbn [dressing]; try (left; split; [reflexivity|split; [destruct s; reflexivity|split; reflexivity]]); right; first [left; eexists; repeat split; reflexivity | right; repeat split; reflexivity]. }
  unfold dressed. destruct X as [(E1 & E2 & E3 & E4)|[(d & E1 & E2 & E3 & E4 & E5)|(E1 & E2 & E3 & E4)]].
  - rewrite E1, E2, app_nil_r. unfold series_format, series_marker in *. rewrite E3, E4. repeat split; assumption.
  - rewrite E1. unfold the_values, the_categories, the_names, series_format, series_marker, series_labels, own_labels, series_points, point_labels, series_gap, series_overlap, series_invert, series_inverted, series_trend, series_xbars, series_ybars,
      series_deleted, series_smooth, on_secondary in *. rewrite !last_snoc, flat_map_app, !existsb_app. cbn [flat_map existsb]. rewrite !app_nil_r, !orb_false_r. rewrite E4, E5.
    unfold dress. rewrite E3. cbn [se_values se_categories se_title se_marker se_label se_points se_custom se_gap se_overlap se_invert se_inverted se_trend se_xbars se_ybars se_delete se_smooth se_secondary]. repeat split; assumption.
  - rewrite E1. unfold the_values, the_categories, the_names, series_format, series_marker, series_labels, own_labels, series_points, point_labels, series_gap, series_overlap, series_invert, series_inverted, series_trend, series_xbars, series_ybars,
      series_deleted, series_smooth, on_secondary in *. rewrite !last_snoc, flat_map_app, !existsb_app. cbn [flat_map existsb]. rewrite !app_nil_r, !orb_false_r. rewrite E3, E4.
    unfold dress. rewrite E2. cbn [se_values se_categories se_title se_marker se_label se_points se_custom se_gap se_overlap se_invert se_inverted se_trend se_xbars se_ybars se_delete se_smooth se_secondary]. repeat split; assumption.
Qed.
Lemma scatter_shown k l : scatter_format k (chart_format l) = chart_format (format_shown k l).
Proof.
  unfold scatter_format, format_shown. destruct k; try reflexivity. destruct (made_format None l) as (_ & _ & E3 & _). unfold chart_format in *. rewrite E3.
  destruct (the_line l); [reflexivity|]. cbn [option_map]. unfold make_format. rewrite fold_left_app. cbn [fold_left]. reflexivity.
Qed.

Section Env.
Variable E : env.
Hypothesis Env : env_ok E.
Notation known := (range_known (quotable E)).
Notation asked_ser := (asked_ser (e_num E) (e_parses E) (e_cache E)).
Notation given := (given (e_parses E) (e_cache E)).
Notation asked_bars := (asked_bars (e_num E) (e_parses E) (e_cache E)).

Lemma needed_one {A} k (f : node -> option A) x a : tag_of x = lit k -> f (node_of x) = Some a -> needed k f (map node_of [x]) = Some a.
Proof. intros T R. unfold needed, maybe. cbn [map filter]. rewrite is_elem_tag, T, str_eqb_lit, String.eqb_refl. rewrite R. reflexivity. Qed.
Lemma inverted_reads c : Color_Spec.real_color c = true -> wx_ok (inverted_ext c) /\ read_inverted (node_of (inverted_ext c)) = Some (seen_color c).
Proof.
  intros R. destruct (solid_reads c 0 R ltac:(lia)) as (W & Rd & Fl). unfold inverted_ext. split.
  - apply elem_ok; [reflexivity|]. constructor; [|constructor]. constructor; [|constructor]. apply ok_elem; [reflexivity|good|]. constructor; [|constructor]. apply elem_ok; [reflexivity|]. constructor; [|constructor]. constructor; [|constructor].
    apply ok_elem; [reflexivity|good|]. constructor; [exact W|constructor].
  - unfold read_inverted. rewrite elem_kids. apply needed_one; [reflexivity|]. cbn [node_of kids_of]. apply needed_one; [reflexivity|]. rewrite elem_kids. apply needed_one; [reflexivity|]. cbn [node_of kids_of map].
    unfold fill_of. cbn [filter]. rewrite Fl, Rd. cbn [bind]. destruct c; reflexivity.
Qed.
Lemma inverted_known l : Forall (series_known (quotable E)) l -> Color_Spec.real_color (series_inverted l) = true.
Proof. intros K. apply (last_all (fun c => Color_Spec.real_color c = true) (series_known (quotable E))); [|reflexivity|exact K]. intros o v A B. destruct o; try discriminate. exact (real_kept _ A _ B). Qed.

Lemma series_parts_known k l : Forall (series_known (quotable E)) l ->
  Forall format_known (series_format k l) /\ match series_marker k l with Some m => Forall marker_known m /\ not_both m | None => True end /\ Forall (Forall format_known) (series_points l) /\
  Forall (fun c => Forall (label_known (quotable E)) c /\ plain_words c) (point_labels l) /\ match series_labels l with Some b => Forall (label_known (quotable E)) b | None => True end /\ Forall trend_known (series_trend l) /\
  match series_xbars l with Some b => Forall (bars_known (quotable E)) b | None => True end /\ match series_ybars l with Some b => Forall (bars_known (quotable E)) b | None => True end /\
  Forall (arg_known (quotable E)) (the_names l) /\ (range_given (the_values l) = true -> known (the_values l)) /\ (range_given (the_categories l) = true -> known (the_categories l)).
Proof.
  intros K. set (Q := series_known (quotable E)) in *.
  split; [apply (last_all (Forall format_known) Q); [intros o v A B; destruct o; try discriminate; injection B as <-; exact A|destruct k; repeat constructor|exact K]|].
  split; [apply (last_all (fun o => match o with Some m => Forall marker_known m /\ not_both m | None => True end) Q); [intros o v A B; destruct o; try discriminate; injection B as <-; exact A| |exact K]|].
  { destruct (without_markers k); [|exact I]. split; [repeat constructor|]. intros p q n H. destruct p as [|a [|b p]]; [intros []|discriminate|discriminate]. }
  split; [apply (last_all (Forall (Forall format_known)) Q); [|constructor|exact K]|].
  { intros o v A B. destruct o; try discriminate; injection B as <-; [exact A|]. cbn in A. apply Forall_map. eapply Forall_impl; [|exact A]. intros c Hc. repeat constructor. exact Hc. }
  split; [apply (last_all (Forall (fun c => Forall (label_known (quotable E)) c /\ plain_words c)) Q); [intros o v A B; destruct o; try discriminate; injection B as <-; exact A|constructor|exact K]|].
  split.
  { assert (H : match own_labels l with Some b => Forall (label_known (quotable E)) b | None => True end)
      by (apply (last_all (fun o => match o with Some b => Forall (label_known (quotable E)) b | None => True end) Q); [intros o v A B; destruct o; try discriminate; injection B as <-; exact A|exact I|exact K]).
    unfold series_labels. destruct (own_labels l); [exact H|]. destruct (existsb _ l); [constructor|exact I]. }
  split; [apply (last_all (Forall trend_known) Q); [intros o v A B; destruct o; try discriminate; injection B as <-; exact A|constructor|exact K]|].
  split; [apply (last_all (fun o => match o with Some b => Forall (bars_known (quotable E)) b | None => True end) Q); [intros o v A B; destruct o; try discriminate; injection B as <-; exact A|exact I|exact K]|].
  split; [apply (last_all (fun o => match o with Some b => Forall (bars_known (quotable E)) b | None => True end) Q); [intros o v A B; destruct o; try discriminate; injection B as <-; exact A|exact I|exact K]|].
  split; [apply Forall_flat_map; eapply Forall_impl; [|exact K]; intros o A; destruct o; try constructor; [exact A|constructor]|].
  split; [apply (last_all (fun c => range_given c = true -> known c) Q)|apply (last_all (fun c => range_given c = true -> known c) Q)]; try exact K; try discriminate; intros o v A B; destruct o; try discriminate; injection B as <-; intros _; exact A.
Qed.
Lemma marker_tagged o : tagged "c:marker" (shown_marker o).
Proof. destruct o as [m|]; [|apply tagged_nil]. apply tagged_when, tagged_one. reflexivity. Qed.
Lemma name_tagged t : tagged "c:tx" (series_title E t).
Proof. unfold series_title. destruct (named t); [apply tagged_one; reflexivity|]. apply tagged_when, tagged_one. reflexivity. Qed.

Lemma bars_all o axis : attr_ok (lit axis) -> match o with Some b => Forall (bars_known (quotable E)) b | None => True end ->
  Forall wx_ok (opt_xml (option_map make_bars o) (bars_xml E axis)) /\ tagged "c:errBars" (opt_xml (option_map make_bars o) (bars_xml E axis)) /\
  read_all read_bars (map node_of (opt_xml (option_map make_bars o) (bars_xml E axis))) = Some match o with Some b => [asked_bars (if String.eqb axis "" then None else Some (lit axis)) b] | None => [] end.
Proof.
  intros Ax K. destruct o as [b|]; cbn [option_map opt_xml]; [|split; [constructor|split; [apply tagged_nil|reflexivity]]]. destruct (bars_reads E Env axis b Ax K) as [W R].
  split; [constructor; [exact W|constructor]|]. split; [apply tagged_one; reflexivity|]. cbn [map read_all]. rewrite R. reflexivity.
Qed.
Lemma read_all_both {A} (f : node -> option A) a b u v : read_all f a = Some u -> read_all f b = Some v -> read_all f (a ++ b) = Some (u ++ v).
Proof. revert u. induction a as [|x a IH]; intros u Ha Hb; [injection Ha as <-; exact Hb|]. cbn [app read_all] in *. destruct (f x); [|discriminate]. destruct (read_all f a) as [w|]; [|discriminate]. injection Ha as <-. rewrite (IH w eq_refl Hb). reflexivity. Qed.
Lemma name_says t l : ti_name t = fold_left name_text l [] -> ti_range t = fold_left name_range l no_range -> Forall (arg_known (quotable E)) l -> settled l ->
  says read_words (series_title E t) (asked_name_of (e_parses E) (e_cache E) l).
Proof. intros A B C D. destruct (series_title_reads E Env l t A B C D) as (W & _ & R). split; assumption. Qed.
Lemma marker_says o : match o with Some m => Forall marker_known m /\ not_both m | None => True end -> says read_marker (shown_marker (option_map make_marker o)) match o with Some m => asked_marker m | None => None end.
Proof. destruct o as [m|]; [intros [K B]; exact (marker_reads m K B)|intros _; apply says_nil]. Qed.
Lemma labels_says f points o c : match o with Some b => Forall (label_known (quotable E)) b | None => True end -> Forall (fun c => Forall (label_known (quotable E)) c /\ plain_words c) c ->
  says (read_labels f) (opt_xml (option_map make_label o) (fun l => labels_xml E f points l (map make_label c))) (option_map (fun b => (asked_customs (e_num E) (e_parses E) (e_cache E) f points c, series_label (e_num E) f b)) o).
Proof. intros K C. destruct o as [b|]; [|apply says_nil]. cbn [option_map opt_xml]. destruct (labels_reads E Env f points b c K C) as [W R]. apply says_one; assumption. Qed.
Lemma source_says tag b c num : (b = true -> known c) -> good_name (lit tag) = true ->
  says read_source (when b [elem tag [[cache_ref E c num]]]) (if b then Some (source_asked (e_parses E) (e_cache E) (if num then AsNumbers else AsFound) c) else None).
Proof. intros K G. apply says_when. intros Hb. exact (source_reads E Env tag c num (K Hb) G). Qed.
Lemma points_same c : number_of_points c = points_of c. Proof. reflexivity. Qed.

Definition series_tags : list string := ["c:idx"; "c:order"; "c:tx"; "c:spPr"; "c:marker"; "c:invertIfNegative"; "c:dPt"; "c:dLbls"; "c:trendline"; "c:errBars"; "c:cat"; "c:val"; "c:extLst"; "c:smooth"]%string.
Definition scatter_tags : list string := ["c:idx"; "c:order"; "c:tx"; "c:marker"; "c:spPr"; "c:dPt"; "c:dLbls"; "c:trendline"; "c:errBars"; "c:xVal"; "c:yVal"; "c:smooth"]%string.
Ltac inside H := destruct H as (A1 & A2 & A3 & A4 & A5 & A6 & A7 & A8 & A9 & _ & _ & A12 & A13 & A14 & A15 & A16 & _ & A18 & _).
Lemma scatter_reads k i l s : group_of k = FScatter -> dressed k l s -> series_ready (quotable E) FScatter l ->
  wx_ok (scatter_xml E k i s) /\ read_ser FScatter (node_of (scatter_xml E k i s)) = Some (asked_ser k i l).
Proof.
  intros G D (K & Se & Gv & Gc). inside D. destruct (series_parts_known k l K) as (K1 & K2' & K3 & K4 & K5 & K6 & K7 & K8 & K9 & K10 & K11). specialize (Gc eq_refl).
  unfold scatter_xml. cbv zeta. rewrite A1, A2, A5, A6, A7, A8, A9, A14, A15, A16, A18, G, scatter_shown, points_same. set (points := points_of (the_values l)).
  assert (K1' : Forall format_known (format_shown k (series_format k l))).
  { unfold format_shown. destruct k; try exact K1. destruct (the_line _); [exact K1|]. apply Forall_app. split; [exact K1|]. constructor; [|constructor]. repeat constructor. }
  destruct (sp_reads _ K1') as [Ws _]. destruct (points_made FScatter points _ K3 0%nat) as (Wp & Tp & Rp). change (N.of_nat 0) with 0 in *.
  pose proof (name_says (se_title s) (the_names l) A3 A4 K9 Se) as S1. pose proof (marker_says _ K2') as S2. pose proof (labels_says FScatter points _ _ K5 K4) as S3. pose proof (trend_reads E Env _ K6) as S4.
  destruct (bars_all (series_xbars l) "x" eq_refl K7) as (Wx & Tx & Rx). destruct (bars_all (series_ybars l) "y" eq_refl K8) as (Wy & Ty & Ry).
  pose proof (source_says "c:xVal" true (the_categories l) false (fun _ => K11 Gc) eq_refl) as S5. pose proof (source_says "c:yVal" true (the_values l) true (fun _ => K10 Gv) eq_refl) as S6. cbn [when] in S5, S6. cbv iota in S5, S6.
  pose proof (says_num1 "c:idx" i eq_refl) as S7. pose proof (says_num1 "c:order" i eq_refl) as S8.
  set (sm := match series_smooth l with Some b => b | None => smooth_kind k end).
  split.
  - apply elem_ok; [reflexivity|]. constructor; [exact (proj1 S7)|]. constructor; [exact (proj1 S8)|]. constructor; [exact (proj1 S1)|]. constructor; [exact (proj1 S2)|]. constructor; [exact Ws|]. constructor; [exact Wp|]. constructor; [exact (proj1 S3)|].
    constructor; [exact (proj1 S4)|]. constructor; [apply Forall_app; split; assumption|]. constructor; [exact (proj1 S5)|]. constructor; [exact (proj1 S6)|]. constructor; [apply when_flag; reflexivity|constructor].
  - unfold read_ser. rewrite elem_kids. cbv zeta. change (is_scatter FScatter) with true. cbv iota.
    tagging scatter_tags ltac:(unfold scatter_tags; repeat (first [apply Forall2_nil | apply Forall2_cons]); try assumption; try apply name_tagged; try apply marker_tagged; try (apply tagged_app; assumption); kinds).
    unfold scatter_tags in *. needed_part K2 S7. needed_part K2 S8. maybe_part K2 S1. rewrite (shape_parts _ _ _ K2 K1') by at_part. cbn [bind]. maybe_part K2 S2.
    rewrite (flag_parts "c:invertIfNegative" false _ _ K2) by at_part. cbn [bind]. rewrite (parts_filter "c:dPt" _ _ K2). parted. rewrite Rp. cbn [bind]. maybe_part K2 S3. maybe_part K2 S4.
    rewrite (parts_filter "c:errBars" _ _ K2). parted. rewrite map_app, (read_all_both _ _ _ _ _ Rx Ry). cbn [bind]. maybe_part K2 S5. needed_part K2 S6.
    erewrite (says_maybe "c:extLst" read_inverted _ _ None _ K2); [|at_part|apply says_nil]. cbn [bind]. flag_at_part K2.
    unfold Chart_Spec3.asked_ser. rewrite G. cbv zeta. cbn [is_scatter negb andb]. unfold Chart_Spec3.given. rewrite Gc. subst sm. unfold smooth_kind. reflexivity.
Qed.
Lemma series_reads k i l s : group_of k <> FScatter -> dressed k l s -> series_ready (quotable E) (group_of k) l ->
  wx_ok (series_xml E k i s) /\ read_ser (group_of k) (node_of (series_xml E k i s)) = Some (asked_ser k i l).
Proof.
  intros G D (K & Se & Gv & _). inside D. destruct (series_parts_known k l K) as (K1 & K2' & K3 & K4 & K5 & K6 & K7 & K8 & K9 & K10 & K11).
  unfold series_xml. cbv zeta. rewrite A1, A2, A5, A6, A7, A8, A9, A12, A13, A14, A15, A16, A18, points_same. set (points := points_of (the_values l)). set (f := group_of k) in *.
  assert (Sc : is_scatter f = false) by (destruct f; try reflexivity; destruct (G eq_refl)).
  assert (Fs : format_shown k (series_format k l) = series_format k l) by (unfold f in G; destruct k; try reflexivity; destruct (G eq_refl)).
  destruct (sp_reads _ K1) as [Ws _]. destruct (points_made f points _ K3 0%nat) as (Wp & Tp & Rp). change (N.of_nat 0) with 0 in *.
  pose proof (name_says (se_title s) (the_names l) A3 A4 K9 Se) as S1. pose proof (marker_says _ K2') as S2. pose proof (labels_says f points _ _ K5 K4) as S3. pose proof (trend_reads E Env _ K6) as S4.
  pose proof (source_says "c:cat" (range_given (the_categories l)) (the_categories l) false K11 eq_refl) as S5. pose proof (source_says "c:val" true (the_values l) true (fun _ => K10 Gv) eq_refl) as S6. cbn [when] in S6. cbv iota in S5, S6.
  pose proof (says_num1 "c:idx" i eq_refl) as S7. pose proof (says_num1 "c:order" i eq_refl) as S8.
  set (bars := match f with FBar => opt_xml _ _ | FColumn => _ | _ => _ end).
  set (wanted := match f with FScatter => [] | FBar => match series_xbars l with Some b => [asked_bars None b] | None => [] end | FColumn => match series_ybars l with Some b => [asked_bars None b] | None => [] end
       | _ => match series_ybars l with Some b => [asked_bars (Some (lit "y")) b] | None => [] end end).
  assert (B : Forall wx_ok bars /\ tagged "c:errBars" bars /\ read_all read_bars (map node_of bars) = Some wanted).
  { pose proof (bars_all (series_xbars l) "" eq_refl K7) as B1. pose proof (bars_all (series_ybars l) "" eq_refl K8) as B2. pose proof (bars_all (series_ybars l) "y" eq_refl K8) as B3.
    subst bars wanted. destruct f; try exact B1; try exact B2; try exact B3. destruct (G eq_refl). }
  destruct B as (Wb & Tb & Rb). clearbody bars.
  set (ic := match series_inverted l with CDefault | CAutomatic => None | c => Some (seen_color c) end).
  assert (S9 : says read_inverted (when (negb (auto_or_default (series_inverted l))) [inverted_ext (series_inverted l)]) ic).
  { destruct (inverted_reads (series_inverted l) (inverted_known l K)) as [W R]. subst ic. destruct (series_inverted l); cbn [auto_or_default negb when]; first [apply says_nil | apply says_one; assumption]. }
  set (sm := match f with FLine => match series_smooth l with Some b => b | None => false end | _ => false end).
  assert (Es : match f with FLine => match series_smooth l with Some true => [flag_xml "c:smooth"] | _ => [] end | _ => [] end = when sm [flag_xml "c:smooth"]) by (subst sm; destruct f; try reflexivity; destruct (series_smooth l) as [[]|]; reflexivity).
  rewrite Es. clear Es.
  split.
  - apply elem_ok; [reflexivity|]. constructor; [exact (proj1 S7)|]. constructor; [exact (proj1 S8)|]. constructor; [exact (proj1 S1)|]. constructor; [exact Ws|]. constructor; [exact (proj1 S2)|]. constructor; [apply when_flag; reflexivity|]. constructor; [exact Wp|].
    constructor; [exact (proj1 S3)|]. constructor; [exact (proj1 S4)|]. constructor; [exact Wb|]. constructor; [exact (proj1 S5)|]. constructor; [exact (proj1 S6)|]. constructor; [exact (proj1 S9)|]. constructor; [apply when_flag; reflexivity|constructor].
  - unfold read_ser. rewrite elem_kids. cbv zeta. rewrite Sc.
    tagging series_tags ltac:(unfold series_tags; repeat (first [apply Forall2_nil | apply Forall2_cons]); try assumption; try apply name_tagged; try apply marker_tagged; kinds).
    unfold series_tags in *. needed_part K2 S7. needed_part K2 S8. maybe_part K2 S1. rewrite (shape_parts _ _ _ K2 K1) by at_part. cbn [bind]. maybe_part K2 S2.
    flag_at_part K2. rewrite (parts_filter "c:dPt" _ _ K2). parted. rewrite Rp. cbn [bind]. maybe_part K2 S3. maybe_part K2 S4.
    rewrite (parts_filter "c:errBars" _ _ K2). parted. rewrite Rb. cbn [bind]. maybe_part K2 S5. needed_part K2 S6. maybe_part K2 S9. flag_at_part K2.
    unfold Chart_Spec3.asked_ser. fold f. cbv zeta. rewrite Sc, Fs. cbn [negb andb]. unfold Chart_Spec3.given. subst wanted sm ic points. destruct f; try reflexivity. destruct (G eq_refl).
Qed.
End Env.
