(** Charts: the axes, the plot area, the legend and the part read back. *)
From Verif Require Import Base F64 Xml_Model Xml_Spec Xml_Proofs Xml_Read Xml_Read_Proofs Xml_Tree Fmt_Model Rich_Model Rich_Proofs SheetXml_Spec SheetXml_Proofs SheetXml_Proofs3 Doc_Model Doc_Spec Props_Doc Tag_Proofs Part_Proofs
  CF_Spec CF_Model CF_Build CF_Read Ref_Model Ref_Proofs Ref_Spec Quote_Proofs Note_Spec Note_Proofs Note_Proofs2 Note_Proofs4 Note_Proofs5 Cache_Model Spark_Model Spark_Spec Dml_Model Dml_Spec Dml_Proofs Draw_Model Draw_Proofs Draw_Proofs3
  Chart_Model Chart_Series Chart_Axis Chart_Whole Chart_Spec Chart_Spec2 Chart_Spec3 Chart_Spec4 Chart_Proofs Chart_Proofs2 Chart_Proofs3 Chart_Proofs4 Chart_Proofs5 Chart_Proofs6 Chart_Proofs7 Chart_Proofs8 Chart_Proofs9.
From Verif Require Color_Spec Props_Spark Xml_Spec Note_Proofs3 Draw_Proofs2.

(** ** The tags of what stands in a plot area *)
Lemma elem_at k j x : tag_of x = lit j -> is_elem k (node_of x) = String.eqb j k.
Proof. intros T. rewrite is_elem_tag, T. apply str_eqb_lit. Qed.
Lemma exists_at ks j x : tag_of x = lit j -> existsb (fun k => is_elem k (node_of x)) ks = existsb (String.eqb j) ks.
Proof. intros T. induction ks as [|k ks IH]; [reflexivity|]. cbn [existsb]. rewrite IH, (elem_at k j x T). reflexivity. Qed.
Lemma all_chosen {P : wx -> Prop} {p : node -> bool} {b} l : (forall x, P x -> p (node_of x) = b) -> Forall P l -> Forall (fun x => p (node_of x) = b) l.
Proof. intros H F. eapply Forall_impl; [|exact F]. exact H. Qed.
Lemma plot_kids y own other ax1 ax2 ts ss : tag_of y = lit "c:layout" -> Forall group_there own -> Forall group_there other -> Forall axis_there ax1 -> Forall axis_there ax2 -> tagged "c:dTable" ts -> tagged "c:spPr" ss ->
  let l := map node_of (concat [[y]; own; other; ax1; ax2; ts; ss]) in
  filter is_group l = map node_of (own ++ other) /\ filter is_axis l = map node_of (ax1 ++ ax2) /\ filter (is_elem "c:layout") l = [node_of y] /\ filter (is_elem "c:dTable") l = map node_of ts /\ filter (is_elem "c:spPr") l = map node_of ss.
Proof.
  intros Ty Go Gt A1 A2 Tt Ts. cbv zeta.
  assert (X : forall (p : node -> bool) b1 b2 b3 b4 b5, (forall x, tag_of x = lit "c:layout" -> p (node_of x) = b1) -> (forall x, group_there x -> p (node_of x) = b2) -> (forall x, axis_there x -> p (node_of x) = b3) ->
    (forall x, tag_of x = lit "c:dTable" -> p (node_of x) = b4) -> (forall x, tag_of x = lit "c:spPr" -> p (node_of x) = b5) ->
    filter p (map node_of (concat [[y]; own; other; ax1; ax2; ts; ss])) = map node_of (chosen [b1; b2; b2; b3; b3; b4; b5] [[y]; own; other; ax1; ax2; ts; ss])).
  { intros p b1 b2 b3 b4 b5 H1 H2 H3 H4 H5. apply parts_chosen. constructor; [constructor; [apply H1, Ty|constructor]|]. constructor; [exact (all_chosen own H2 Go)|]. constructor; [exact (all_chosen other H2 Gt)|].
    constructor; [exact (all_chosen ax1 H3 A1)|]. constructor; [exact (all_chosen ax2 H3 A2)|]. constructor; [exact (all_chosen ts H4 Tt)|]. constructor; [exact (all_chosen ss H5 Ts)|constructor]. }
  assert (Gx : forall k, (forall f, String.eqb (group_tag f) k = false) -> forall x, group_there x -> is_elem k (node_of x) = false) by (intros k H x [f T]; rewrite (elem_at k _ x T); apply H).
  assert (Ax : forall k, Forall (fun j => String.eqb j k = false) axis_kinds -> forall x, axis_there x -> is_elem k (node_of x) = false) by (intros k H x (j & I & T); rewrite (elem_at k _ x T); rewrite Forall_forall in H; exact (H j I)).
  split; [|split; [|split; [|split]]].
  - rewrite (X is_group false true false false false).
    + cbn [chosen app]. rewrite !app_nil_r. reflexivity.
    + intros x T. unfold is_group. rewrite (exists_at _ _ x T). reflexivity.
    + intros x [f T]. unfold is_group. rewrite (exists_at _ _ x T). destruct f; reflexivity.
    + intros x (j & I & T). unfold is_group. rewrite (exists_at _ _ x T). destruct I as [<-|[<-|[<-|[]]]]; reflexivity.
    + intros x T. unfold is_group. rewrite (exists_at _ _ x T). reflexivity.
    + intros x T. unfold is_group. rewrite (exists_at _ _ x T). reflexivity.
  - rewrite (X is_axis false false true false false).
    + cbn [chosen app]. rewrite !app_nil_r. reflexivity.
    + intros x T. unfold is_axis. rewrite (exists_at _ _ x T). reflexivity.
    + intros x [f T]. unfold is_axis. rewrite (exists_at _ _ x T). destruct f; reflexivity.
    + intros x (j & I & T). unfold is_axis. rewrite (exists_at _ _ x T). destruct I as [<-|[<-|[<-|[]]]]; reflexivity.
    + intros x T. unfold is_axis. rewrite (exists_at _ _ x T). reflexivity.
    + intros x T. unfold is_axis. rewrite (exists_at _ _ x T). reflexivity.
  - rewrite (X (is_elem "c:layout") true false false false false); [reflexivity|intros x T; rewrite (elem_at _ _ x T); reflexivity|apply Gx; destruct f; reflexivity|apply Ax; repeat constructor|intros x T; rewrite (elem_at _ _ x T); reflexivity|intros x T; rewrite (elem_at _ _ x T); reflexivity].
  - rewrite (X (is_elem "c:dTable") false false false true false); [cbn [chosen app]; rewrite !app_nil_r; reflexivity|intros x T; rewrite (elem_at _ _ x T); reflexivity|apply Gx; destruct f; reflexivity|apply Ax; repeat constructor|intros x T; rewrite (elem_at _ _ x T); reflexivity|intros x T; rewrite (elem_at _ _ x T); reflexivity].
  - rewrite (X (is_elem "c:spPr") false false false false true); [cbn [chosen app]; rewrite !app_nil_r; reflexivity|intros x T; rewrite (elem_at _ _ x T); reflexivity|apply Gx; destruct f; reflexivity|apply Ax; repeat constructor|intros x T; rewrite (elem_at _ _ x T); reflexivity|intros x T; rewrite (elem_at _ _ x T); reflexivity].
Qed.
Section Env.
Variable E : env.
Hypothesis Env : env_ok E.
Let Num : forall x, attr_text (e_num E x) := proj1 Env.
Notation asked_pair := (asked_pair (e_num E) (e_parses E) (e_cache E)).
Notation chart_good := (chart_ready (quotable E)).
Lemma axis_ops_known w l : Forall (chart_known (quotable E)) l -> Forall (axis_known (quotable E)) (axis_calls w l).
Proof.
  induction 1 as [|o l H F IH]; [constructor|]. unfold axis_calls. cbn [flat_map]. apply Forall_app. split; [|exact IH]. destruct w, o; try constructor; try exact H; constructor.
Qed.
Lemma dated k l c : charted k l c -> is_date (ch_x c) = is_dated (usual_axis (group_of k) AxisX) (axis_calls AxisX l).
Proof. intros C. unfold is_date, is_dated. rewrite (g_type _ _ _ (h_x _ _ _ C)). reflexivity. Qed.
Lemma numeric_tracks k sers w : tracks E k sers w -> w_numeric w = match group_of k with FScatter => false | _ => number_categories (e_cache E) sers end.
Proof. unfold tracks. destruct (group_of k); intros T; first [exact T | exact (proj2 (proj2 T))]. Qed.
Lemma primary_reads k l c w ids : charted k l c -> chart_good k l -> tracks E k (written (series_calls k l)) w ->
  let f := group_of k in let r := primary_axes E c w ids in
  Forall wx_ok r /\ Forall axis_there r /\ read_all read_axis (map node_of r) =
  Some (asked_pair f (is_dated (usual_axis f AxisX) (axis_calls AxisX l)) (crosses_kept f) (match f with FScatter => false | _ => number_categories (e_cache E) (written (series_calls k l)) end) false (usual_code k) ids
    (usual_axis f AxisX) (axis_calls AxisX l) (usual_axis f AxisY) (axis_calls AxisY l)).
Proof.
  intros C (K & _ & _ & St) T. cbv zeta. unfold primary_axes. rewrite (h_kind _ _ _ C), (dated _ _ _ C), (numeric_tracks _ _ _ T).
  pose proof (pair_reads E Env (group_of k) (is_dated (usual_axis (group_of k) AxisX) (axis_calls AxisX l)) (crosses_kept (group_of k)) (match group_of k with FScatter => false | _ => number_categories (e_cache E) (written (series_calls k l)) end) false
    (default_format k) ids _ _ _ _ _ _ (proj1 (code_text k)) (h_x _ _ _ C) (h_y _ _ _ C) (usual_axis_fine _ _) (usual_axis_fine _ _) (axis_ops_known AxisX l K) (axis_ops_known AxisY l K) (St AxisX) (St AxisY)) as P.
  rewrite <- (proj2 (code_text k)). destruct (group_of k); exact P.
Qed.
Lemma secondary_reads k l c (comb : option (kind * list chart_op)) w ids : charted k l c -> chart_good k l -> tracks E k (written (series_calls k l)) w ->
  let f := group_of k in let g := match comb with Some (k2, _) => group_of k2 | None => f end in
  let others := match comb with Some (k2, l2) => series_calls k2 l2 | None => [] end in
  let r := secondary_axes E c (option_map (fun p => make_chart (fst p) (snd p)) comb) w ids in
  Forall wx_ok r /\ Forall axis_there r /\ read_all read_axis (map node_of r) =
  Some (if existsb on_secondary (series_calls k l) || existsb on_secondary others then
    asked_pair g (is_dated (usual_axis f AxisX) (axis_calls AxisX l)) (crosses_kept f) (match f with FScatter => false | _ => number_categories (e_cache E) (written (series_calls k l)) end)
      (match g with FScatter => is_there comb | _ => true end) (usual_code k) ids (usual_axis f AxisX2) (axis_calls AxisX2 l) (usual_axis f AxisY2) (axis_calls AxisY2 l) else []).
Proof.
  intros C (K & _ & _ & St) T. cbv zeta. unfold secondary_axes.
  assert (Hs : has_secondary c (option_map (fun p => make_chart (fst p) (snd p)) comb) = existsb on_secondary (series_calls k l) || existsb on_secondary (match comb with Some (k2, l2) => series_calls k2 l2 | None => [] end)).
  { unfold has_secondary. f_equal; [symmetry; apply (any_dressed k); [apply dressed_secondary|exact (h_series _ _ _ C)]|]. destruct comb as [[k2 l2]|]; [|reflexivity]. cbn [option_map fst snd]. symmetry.
    apply (any_dressed k2); [apply dressed_secondary|exact (h_series _ _ _ (make_charted k2 l2))]. }
  rewrite Hs, (h_kind _ _ _ C), (dated _ _ _ C), (numeric_tracks _ _ _ T). destruct (_ || _); [|repeat split; destruct (match match option_map _ _ with Some _ => _ | None => _ end with FBar => _ | _ => _ end); constructor].
  assert (Hg : (match option_map (fun p => make_chart (fst p) (snd p)) comb with Some d => group_of (ch_kind d) | None => group_of k end) = match comb with Some (k2, _) => group_of k2 | None => group_of k end).
  { destruct comb as [[k2 l2]|]; [|reflexivity]. cbn [option_map fst snd]. rewrite (h_kind _ _ _ (make_charted k2 l2)). reflexivity. }
  assert (Hc : some (option_map (fun p => make_chart (fst p) (snd p)) comb) = is_there comb) by (destruct comb; reflexivity). cbv zeta. rewrite Hg, Hc. clear Hg Hc Hs. set (g := match comb with Some (k2, _) => group_of k2 | None => group_of k end). set (cm := is_there comb).
  pose proof (pair_reads E Env g (is_dated (usual_axis (group_of k) AxisX) (axis_calls AxisX l)) (crosses_kept (group_of k)) (match group_of k with FScatter => false | _ => number_categories (e_cache E) (written (series_calls k l)) end)
    (match g with FScatter => cm | _ => true end)
    (default_format k) ids _ _ _ _ _ _ (proj1 (code_text k)) (h_x2 _ _ _ C) (h_y2 _ _ _ C) (usual_axis_fine _ _) (usual_axis_fine _ _) (axis_ops_known AxisX2 l K) (axis_ops_known AxisY2 l K) (St AxisX2) (St AxisY2)) as P.
  rewrite <- (proj2 (code_text k)). change has_crosses with crosses_kept. destruct g; exact P.
Qed.

(** ** The data table *)
Lemma dtable_reads l : Forall dtable_known l -> wx_ok (dtable_xml E (make_dtable l)) /\ read_dtable (node_of (dtable_xml E (make_dtable l))) = Some (asked_dtable (e_num E) l).
Proof.
  intros K. unfold make_dtable. set (t := fold_left _ _ _).
  assert (A1 : dt_horizontal t = table_horizontal l) by (apply (last_fold dt_horizontal (fun o => match o with DtHorizontal b => Some b | _ => None end)); intros s []; reflexivity).
  assert (A2 : dt_vertical t = table_vertical l) by (apply (last_fold dt_vertical (fun o => match o with DtVertical b => Some b | _ => None end)); intros s []; reflexivity).
  assert (A3 : dt_outline t = table_outline l) by (apply (last_fold dt_outline (fun o => match o with DtOutline b => Some b | _ => None end)); intros s []; reflexivity).
  assert (A4 : dt_keys t = table_keys l) by (apply (last_fold dt_keys (fun o => match o with DtKeys b => Some b | _ => None end)); intros s []; reflexivity).
  assert (A5 : dt_font t = option_map make_font (table_font l)) by (apply (Draw_Proofs2.last_folded dt_font (option_map make_font) (fun o => match o with DtFont l => Some (Some l) | _ => None end)); [intros s []; reflexivity|reflexivity]).
  assert (A6 : dt_format t = chart_format (table_format l)) by (apply (Draw_Proofs2.last_folded dt_format chart_format (fun o => match o with DtFormat l => Some l | _ => None end)); [intros s []; reflexivity|reflexivity]).
  clearbody t.
  assert (Kf : Forall format_known (table_format l)) by (apply (format_from _ dtable_known); [intros o v A B; destruct o; try discriminate; injection B as <-; exact A|exact K]).
  assert (Kt : match table_font l with Some f => Forall font_known f | None => True end).
  { apply (last_all (fun x => match x with Some q => Forall font_known q | None => True end) dtable_known); [|exact I|exact K]. intros o v A B; destruct o; try discriminate; injection B as <-; exact A. }
  assert (S1 : says read_text (opt_xml (dt_font t) (fun f => tx_pr E f false)) (option_map (asked_text (e_num E) false) (table_font l))).
  { rewrite A5. apply (says_font E Env); [intros f Hf; destruct (table_font l) as [q|]; [|discriminate]; injection Hf as <-; apply made_fits, Kt|]. destruct (table_font l) as [q|]; [|reflexivity]. cbn [option_map]. rewrite font_view. reflexivity. }
  destruct (sp_reads _ Kf) as [Ws _]. unfold dtable_xml. split.
  - apply elem_ok; [reflexivity|]. do 4 (apply Forall_cons; [apply when_flag; reflexivity|]). apply Forall_cons; [rewrite A6; exact Ws|]. apply Forall_cons; [exact (proj1 S1)|apply Forall_nil].
  - unfold read_dtable. rewrite elem_kids. cbv zeta. tagging ["c:showHorzBorder"; "c:showVertBorder"; "c:showOutline"; "c:showKeys"; "c:spPr"; "c:txPr"]%string kinds.
    flag_at_part K2. flag_at_part K2. flag_at_part K2. flag_at_part K2. rewrite (shape_parts (table_format l) _ _ K2 Kf) by (parted; rewrite A6; reflexivity). cbn [bind]. maybe_part K2 S1. unfold asked_dtable. rewrite A1, A2, A3, A4. reflexivity.
Qed.

(** ** The plot area *)
Notation asked_plot := (asked_plot (e_num E) (e_parses E) (e_cache E)).
Definition joined (comb : option (kind * list chart_op)) : option chart := option_map (fun p => make_chart (fst p) (snd p)) comb.
Definition joined_state (comb : option (kind * list chart_op)) : wstate := match comb with Some (k, _) => state_new k | None => state_new KArea end.
Definition joined_ready (comb : option (kind * list chart_op)) : Prop := match comb with Some (k, l) => chart_good k l | None => True end.
Lemma series_count k l c : charted k l c -> length (ch_series c) = length (series_calls k l).
Proof. intros C. exact (Note_Proofs3.forall2_length _ _ _ (h_series _ _ _ C)). Qed.
Lemma plot_layout_is k l c : charted k l c -> layout_of E (ch_plot_layout c) = asked_layout (e_num E) true true (c_plot_layout l).
Proof. intros C. destruct (h_layout _ _ _ C) as [->|[-> ->]]; [apply made_layout|reflexivity]. Qed.
Lemma plot_reads id k l comb : chart_good k l -> joined_ready comb ->
  let r := fst (plot_area E id (make_chart k l) (joined comb) (state_new k) (joined_state comb)) in
  wx_ok r /\ tag_of r = lit "c:plotArea" /\ read_plot (node_of r) = Some (asked_plot id k l comb).
Proof.
  intros G J. cbv zeta. pose proof (make_charted k l) as C. set (c := make_chart k l) in *. unfold plot_area. cbv zeta.
  pose proof (type_written E Env k l c (axis_ids id) (axis2_ids id (some (joined comb))) (at_index (state_new k) 0) C G (new_tracks E k 0)) as H1. cbv zeta in H1.
  destruct (write_type E c (axis_ids id) (axis2_ids id (some (joined comb))) (at_index (state_new k) 0)) as [own w1]. cbn [fst snd] in H1. destruct H1 as (W1 & G1 & R1 & I1 & T1). cbn [at_index w_index] in R1.
  assert (Hc : some (joined comb) = is_there comb) by (destruct comb; reflexivity).
  assert (H2 : exists other wc, match joined comb with Some d => write_type E d (axis_ids id) (axis2_ids id (some (joined comb))) (at_index (joined_state comb) (N.of_nat (length (ch_series c)))) | None => ([], joined_state comb) end = (other, wc) /\
    Forall wx_ok other /\ Forall group_there other /\
    read_all read_group (map node_of other) = Some match comb with Some (k2, l2) => asked_groups (e_num E) (e_parses E) (e_cache E) k2 l2 (axis_ids id) (axis2_ids id (some (joined comb))) (N.of_nat (length (series_calls k l))) | None => [] end).
  { destruct comb as [[k2 l2]|]; [|exists [], (joined_state None); repeat split; constructor]. cbn [joined option_map fst snd joined_state]. rewrite (series_count k l c C).
    pose proof (type_written E Env k2 l2 (make_chart k2 l2) (axis_ids id) (axis2_ids id (some (Some (make_chart k2 l2)))) (at_index (state_new k2) (N.of_nat (length (series_calls k l)))) (make_charted k2 l2) J (new_tracks E k2 _)) as H2. cbv zeta in H2.
    destruct (write_type E (make_chart k2 l2) _ _ _) as [other wc]. exists other, wc. destruct H2 as (A1 & A2 & A3 & _). cbn [fst at_index w_index] in *. repeat split; assumption. }
  destruct H2 as (other & wc & -> & W2 & G2 & R2). rewrite Hc in *.
  destruct (primary_reads k l c w1 (axis_ids id) C G T1) as (W3 & A3 & R3). destruct (secondary_reads k l c comb w1 (axis2_ids id (is_there comb)) C G T1) as (W4 & A4 & R4). fold (joined comb) in W4, A4, R4.
  destruct G as (K & _ & _ & _). destruct (line_formats E l K) as (_ & _ & _ & _ & _ & Kp). destruct (layout_reads E Num (ch_plot_layout c)) as (Wl & Rl & Tl). rewrite (plot_layout_is k l c C) in Rl. destruct (sp_reads _ Kp) as [Ws Rs].
  assert (S5 : says read_dtable (opt_xml (ch_table c) (dtable_xml E)) (option_map (asked_dtable (e_num E)) (c_table l))).
  { rewrite (h_table _ _ _ C). destruct (c_table l) as [t|] eqn:Et; [|apply says_nil]. cbn [option_map opt_xml]. assert (Kt : Forall dtable_known t).
    { assert (P : match c_table l with Some q => Forall dtable_known q | None => True end) by (apply (last_all (fun x => match x with Some q => Forall dtable_known q | None => True end) (chart_known (quotable E))); [|exact I|exact K];
        intros o v A B; destruct o; try discriminate; injection B as <-; exact A). rewrite Et in P. exact P. }
    destruct (dtable_reads t Kt) as [Wt Rt]. apply says_one; assumption. }
  cbn [fst]. split; [|split; [reflexivity|]].
  - apply elem_ok; [reflexivity|]. do 7 (apply Forall_cons; [first [exact W1 | exact W2 | exact W3 | exact W4 | exact (proj1 S5) | rewrite (h_plot _ _ _ C); exact Ws | constructor; [exact Wl|constructor]]|]). apply Forall_nil.
  - unfold read_plot. rewrite elem_kids. cbv zeta.
    destruct (plot_kids (layout_xml E (ch_plot_layout c)) own other (primary_axes E c w1 (axis_ids id)) (secondary_axes E c (joined comb) w1 (axis2_ids id (is_there comb))) (opt_xml (ch_table c) (dtable_xml E)) (sp_pr (ch_plot c)) Tl G1 G2 A3 A4
      ltac:(apply tagged_opt; reflexivity) (tagged_sp _)) as (F1 & F2 & F3 & F4 & F5). cbv zeta in F1, F2, F3, F4, F5.
    unfold needed, maybe, shape_in, maybe. rewrite F1, F2, F3, F4, F5. cbn [bind]. rewrite Rl. cbn [bind]. rewrite !map_app, (read_all_both _ _ _ _ _ R1 R2). cbn [bind]. rewrite (read_all_both _ _ _ _ _ R3 R4). cbn [bind].
    destruct S5 as [_ R5]. assert (X : (match map node_of (opt_xml (ch_table c) (dtable_xml E)) with [] => Some None | [n] => bind (read_dtable n) (fun a => Some (Some a)) | _ => None end) = Some (option_map (asked_dtable (e_num E)) (c_table l))).
    { destruct (opt_xml (ch_table c) (dtable_xml E)) as [|a [|b r]]; exact R5. }
    rewrite X. cbn [bind]. rewrite (h_plot _ _ _ C). unfold Chart_Spec4.asked_plot. cbv zeta.
    destruct (sp_pr (chart_format (c_plot l))) as [|a [|b r]]; [cbn [map bind]; rewrite Rs; reflexivity|destruct Rs as [_ Rs]; cbn [map]; rewrite Rs; reflexivity|destruct Rs].
Qed.

(** ** The legend *)
Lemma indices_dressed k p q cs sers : (forall c s, dressed k c s -> p c = q s) -> Forall2 (dressed k) cs sers -> forall i, indices_of q i sers = map fst (filter (fun x => p (snd x)) (numbered_from i cs)).
Proof.
  intros H. induction 1 as [|c s cs ss D F IH]; intros i; [reflexivity|]. rewrite numbered_cons. cbn [indices_of filter snd]. rewrite (H c s D), IH. destruct (q s); reflexivity.
Qed.
Lemma dressed_deleted k c s : dressed k c s -> series_deleted c = se_delete s.
Proof. intros (_ & _ & _ & _ & _ & _ & _ & _ & _ & _ & _ & _ & _ & _ & _ & _ & H & _). symmetry. exact H. Qed.
Lemma dressed_trend k c s : dressed k c s -> se_trend s = make_trend (series_trend c).
Proof. intros (_ & _ & _ & _ & _ & _ & _ & _ & _ & _ & _ & _ & _ & H & _). exact H. Qed.
Lemma made_trend l : trend_given (make_trend l) = match asked_trend_type l with TrNone => false | _ => true end /\ tr_delete (make_trend l) = trend_deleted l.
Proof.
  assert (A1 : tr_type (make_trend l) = asked_trend_type l) by (apply (last_fold tr_type (fun o => match o with TrType t => Some t | _ => None end)); intros s []; reflexivity).
  split; [unfold trend_given; rewrite A1; destruct (asked_trend_type l); reflexivity|]. apply (last_fold tr_delete (fun o => match o with TrDelete t => Some t | _ => None end)). intros s []; reflexivity.
Qed.
Lemma deleted_is k l c : charted k l c -> deleted_entries c = match legend_deletes (legend_calls l) with [] => entries_off (series_calls k l) | d => d end.
Proof.
  intros C. unfold deleted_entries. rewrite (h_legend _ _ _ C).
  assert (A : lg_deleted (fold_left legend_step (legend_calls l) legend_new) = legend_deletes (legend_calls l)) by (apply (last_fold lg_deleted (fun o => match o with LgDelete l => Some l | _ => None end)); intros s []; reflexivity).
  rewrite A. destruct (legend_deletes (legend_calls l)) as [|d ds]; [|reflexivity]. unfold entries_off. rewrite (series_count k l c C). f_equal.
  - apply (indices_dressed k); [apply dressed_deleted|exact (h_series _ _ _ C)].
  - apply (indices_dressed k (fun s => trend_deleted (series_trend s))).
    + intros a s D. rewrite (dressed_trend _ _ _ D). symmetry. apply made_trend.
    + apply filter_dressed; [|exact (h_series _ _ _ C)]. intros a s D. rewrite (dressed_trend _ _ _ D). symmetry. apply made_trend.
Qed.
Definition entry_xml (i : N) : wx := elem "c:legendEntry" [[num_xml "c:idx" i]; [flag_xml "c:delete"]].
Lemma entries_read l : Forall wx_ok (map entry_xml l) /\ read_all read_entry (map node_of (map entry_xml l)) = Some l.
Proof.
  induction l as [|i l [W R]]; [split; [constructor|reflexivity]|]. cbn [map read_all]. split.
  - constructor; [|exact W]. apply elem_ok; [reflexivity|]. constructor; [constructor; [apply num_ok; reflexivity|constructor]|]. constructor; [constructor; [apply flag_ok; reflexivity|constructor]|constructor].
  - assert (X : read_entry (node_of (entry_xml i)) = Some i); [|rewrite X, R; reflexivity]. unfold read_entry, entry_xml. rewrite elem_kids. pose proof (says_num1 "c:idx" i eq_refl) as S1. tagging ["c:idx"; "c:delete"]%string kinds. needed_part K2 S1.
    rewrite (flag_parts "c:delete" true _ _ K2) by at_part. reflexivity.
Qed.
Lemma legend_says k l c : charted k l c -> Forall (chart_known (quotable E)) l -> says read_legend (legend_xml E c) (asked_legend (e_num E) k l).
Proof.
  intros C K. unfold legend_xml. cbv zeta. rewrite (deleted_is k l c C), (h_kind _ _ _ C), (h_legend _ _ _ C). set (m := legend_calls l). set (g := fold_left legend_step m legend_new).
  assert (Km : Forall legend_known m). { subst m. clear g C. induction K as [|o l H F IH]; [constructor|]. unfold legend_calls. cbn [flat_map]. apply Forall_app. split; [|exact IH]. destruct o; try constructor; [exact H|constructor]. }
  assert (A1 : lg_position g = legend_place m) by (apply (last_fold lg_position (fun o => match o with LgPosition b => Some b | _ => None end)); intros s []; reflexivity).
  assert (A2 : lg_hidden g = legend_off m) by (apply flag_fold; [intros s []; reflexivity|reflexivity]).
  assert (A3 : lg_overlay g = legend_overlay m) by (apply (last_fold lg_overlay (fun o => match o with LgOverlay b => Some b | _ => None end)); intros s []; reflexivity).
  assert (A4 : lg_format g = chart_format (legend_format m)) by (apply (Draw_Proofs2.last_folded lg_format chart_format (fun o => match o with LgFormat l => Some l | _ => None end)); [intros s []; reflexivity|reflexivity]).
  assert (A5 : lg_font g = option_map make_font (legend_font m)) by (apply (Draw_Proofs2.last_folded lg_font (option_map make_font) (fun o => match o with LgFont l => Some (Some l) | _ => None end)); [intros s []; reflexivity|reflexivity]).
  assert (A6 : layout_of E (lg_layout g) = asked_layout (e_num E) false true (legend_layout m)).
  { subst g. unfold legend_layout. clear. induction m as [|o m IH] using rev_ind; [reflexivity|]. rewrite fold_left_app, last_snoc. cbn [fold_left]. destruct o; try exact IH. cbn [legend_step lg_layout]. apply made_layout. }
  clearbody g.
  assert (Kf : Forall format_known (legend_format m)) by (apply (format_from _ legend_known); [intros o v A B; destruct o; try discriminate; injection B as <-; exact A|exact Km]).
  assert (Kt : match legend_font m with Some f => Forall font_known f | None => True end).
  { apply (last_all (fun x => match x with Some q => Forall font_known q | None => True end) legend_known); [|exact I|exact Km]. intros o v A B; destruct o; try discriminate; injection B as <-; exact A. }
  unfold asked_legend. fold m. rewrite A2. destruct (legend_off m); [apply says_nil|]. cbn [negb when].
  set (font := match group_of k, lg_font g with FPie, None | FDoughnut, None => _ | _, _ => _ end).
  assert (S1 : says read_text (opt_xml font (fun f => tx_pr E f false)) (legend_text (e_num E) (group_of k) (legend_font m))).
  { apply (says_font E Env).
    - intros f Hf. subst font. rewrite A5 in Hf. destruct (legend_font m) as [q|]; cbn [option_map] in Hf.
      + pose proof (made_fits q Kt) as Ft. destruct (group_of k); try (injection Hf as <-; exact Ft); (destruct (cf_rtl (make_font q)); injection Hf as <-; exact Ft).
      + destruct (group_of k); try discriminate; injection Hf as <-; split; reflexivity.
    - subst font. rewrite A5. unfold legend_text. destruct (legend_font m) as [q|]; cbn [option_map].
      + destruct (group_of k); cbn [option_map]; try (rewrite font_view; reflexivity); rewrite <- !(font_view E); unfold text_of_font; cbn [te_turn te_rtl te_letters]; destruct (cf_rtl (make_font q)) as [b|] eqn:Eb; cbn [option_map]; try rewrite Eb; reflexivity.
      + destruct (group_of k); reflexivity. }
  assert (S2 : says value_of [word_xml "c:legendPos" (word_of legend_names (lg_position g))] (Some (word_at ["r"; "l"; "t"; "b"; "tr"]%string (legend_place m)))).
  { rewrite A1. apply says_word1; [reflexivity|]. apply nth_attr. repeat constructor. }
  pose proof (says_layout E Env (lg_layout g)) as S3. rewrite A6 in S3. destruct (sp_reads _ Kf) as [Ws _].
  set (dl := match legend_deletes m with [] => entries_off (series_calls k l) | d => d end) in *. change (map (fun i => elem "c:legendEntry" [[num_xml "c:idx" i]; [flag_xml "c:delete"]]) dl) with (map entry_xml dl). destruct (entries_read dl) as [We Re].
  apply says_one.
  - apply elem_ok; [reflexivity|]. do 6 (apply Forall_cons; [first [exact (proj1 S2) | exact We | exact (proj1 S3) | rewrite A4; exact Ws | exact (proj1 S1) | apply when_flag; reflexivity]|]). apply Forall_nil.
  - unfold read_legend. rewrite elem_kids. cbv zeta. tagging ["c:legendPos"; "c:legendEntry"; "c:layout"; "c:spPr"; "c:overlay"; "c:txPr"]%string ltac:(repeat (first [apply Forall2_nil | apply Forall2_cons]); [kinds|apply tagged_map; reflexivity|apply tagged_one; apply (layout_reads E Num)|kinds..]).
    needed_part K2 S2. rewrite (parts_filter "c:legendEntry" _ _ K2). parted. rewrite Re. cbn [bind]. needed_part K2 S3. rewrite (shape_parts (legend_format m) _ _ K2 Kf) by (parted; rewrite A4; reflexivity). cbn [bind]. flag_at_part K2. maybe_part K2 S1. rewrite A3. reflexivity.
Qed.

(** ** The part *)
Notation asked_chart := (asked_chart (e_num E) (e_parses E) (e_cache E)).
Definition written_chart (sheet protected : bool) (id : N) (k : kind) (l : list chart_op) (comb : option (kind * list chart_op)) : wx :=
  fst (chart_part E sheet protected id (make_chart k l) (joined comb) (state_new k) (joined_state comb)).
Lemma has_parts k tags ls : Forall2 tagged tags ls -> has_kid k (map node_of (concat ls)) = negb (is_nil (part k tags ls)).
Proof.
  intros H. unfold has_kid. pose proof (parts_filter k tags ls H) as P. assert (X : forall l, existsb (is_elem k) l = negb (is_nil (filter (is_elem k) l))).
  { induction l as [|a l IH]; [reflexivity|]. cbn [existsb filter]. rewrite IH. destruct (is_elem k a); reflexivity. }
  rewrite X, P. destruct (part k tags ls); reflexivity.
Qed.
Lemma kid_parts k tags ls : Forall2 tagged tags ls -> kid k (map node_of (concat ls)) = match part k tags ls with [] => None | x :: _ => Some (node_of x) end.
Proof.
  intros H. pose proof (parts_filter k tags ls H) as P. assert (X : forall l, kid k l = match filter (is_elem k) l with [] => None | x :: _ => Some x end).
  { induction l as [|a l IH]; [reflexivity|]. unfold kid in *. cbn [find filter]. destruct (is_elem k a); [reflexivity|exact IH]. }
  rewrite X, P. destruct (part k tags ls); reflexivity.
Qed.
Lemma na_says b : says read_na (when b [na_ext]) (if b then Some true else None).
Proof.
  apply says_when. intros _. split; [|reflexivity]. unfold na_ext. apply elem_ok; [reflexivity|]. constructor; [|constructor]. constructor; [|constructor]. apply ok_elem; [reflexivity| |].
  - apply attrs_check; [reflexivity|]. repeat (apply Forall_cons; [split; reflexivity|]). apply Forall_nil.
  - constructor; [|constructor]. apply elem_ok; [reflexivity|]. constructor; [|constructor]. constructor; [apply flag_ok; reflexivity|constructor].
Qed.
Lemma chart_reads sheet protected id k l comb : chart_good k l -> joined_ready comb ->
  wx_ok (written_chart sheet protected id k l comb) /\ read_chart (node_of (written_chart sheet protected id k l comb)) = Some (asked_chart sheet protected id k l comb).
Proof.
  intros G J. unfold written_chart, chart_part. pose proof (plot_reads id k l comb G J) as P. cbv zeta in P. pose proof (make_charted k l) as C. set (c := make_chart k l) in *.
  destruct (plot_area E id c (joined comb) (state_new k) (joined_state comb)) as [plot v]. cbn [fst] in P |- *. destruct P as (Wp & Tp & Rp). destruct G as (K & _ & Sn & _).
  destruct (line_formats E l K) as (_ & _ & _ & _ & Ka & _). destruct (sp_reads _ Ka) as [Ws _].
  assert (Kt : Forall (title_known (quotable E)) (title_calls l)). { clear -K. induction K as [|o l H F IH]; [constructor|]. unfold title_calls. cbn [flat_map]. apply Forall_app. split; [|exact IH]. destruct o; try constructor; [exact H|constructor]. }
  assert (Tt : titled E false (title_calls l) (ch_title c)) by (rewrite (h_title _ _ _ C); apply make_titled; reflexivity).
  assert (To : ti_hidden (ch_title c) = title_off (title_calls l)) by apply Tt. rewrite To.
  assert (S1 : says read_title (when (negb (title_off (title_calls l))) (title_xml E (ch_title c))) (if title_off (title_calls l) then None else asked_title (e_num E) (e_parses E) (e_cache E) false (title_calls l)) /\
    tagged "c:title" (when (negb (title_off (title_calls l))) (title_xml E (ch_title c)))).
  { destruct (title_reads E Env false _ _ Tt Kt Sn) as (W & T & R). destruct (title_off (title_calls l)); cbn [negb when]; [split; [apply says_nil|constructor]|]. split; [|exact T]. split; [exact W|].
    destruct (title_xml E (ch_title c)) as [|x [|y r]]; [symmetry; cbn [map]; rewrite R; reflexivity|exact R|destruct R]. }
  destruct S1 as [S1 T1]. pose proof (legend_says k l c C K) as S2. assert (T2 : tagged "c:legend" (legend_xml E c)) by (unfold legend_xml; apply tagged_when, tagged_one; reflexivity).
  assert (S3 : says read_plot [plot] (Some (asked_plot id k l comb))) by (apply says_one; assumption).
  assert (S4 : says value_of (opt_xml (ch_empty c) (fun n => word_xml "c:dispBlanksAs" (word_of empty_names n))) (option_map (word_at ["gap"; "zero"; "span"]%string) (c_empty l))).
  { rewrite (h_empty _ _ _ C). apply says_opt. intros b _. split; [apply word_ok; [reflexivity|apply nth_attr; repeat constructor]|reflexivity]. }
  pose proof (na_says (ch_na c)) as S5. rewrite (h_na _ _ _ C) in S5 at 2.
  assert (S6 : says number_val (when (negb (ch_style c =? 2)) [num_xml "c:style" (ch_style c)]) (if c_style l =? 2 then None else Some (c_style l))).
  { rewrite (h_style _ _ _ C). pose proof (says_num (negb (c_style l =? 2)) "c:style" (c_style l) eq_refl) as S. destruct (c_style l =? 2); exact S. }
  assert (S7 : says value_of [word_xml "c:lang" (lit "en-US")] (Some (lit "en-US"))) by (apply says_word1; reflexivity).
  assert (Wc : wx_ok (elem "c:chart" [when (negb (title_off (title_calls l))) (title_xml E (ch_title c)); when (title_off (title_calls l)) [flag_xml "c:autoTitleDeleted"]; [plot]; legend_xml E c;
         when (negb (ch_hidden_data c)) [flag_xml "c:plotVisOnly"]; opt_xml (ch_empty c) (fun n => word_xml "c:dispBlanksAs" (word_of empty_names n)); when (ch_na c) [na_ext]])).
  { apply elem_ok; [reflexivity|]. do 7 (apply Forall_cons; [first [exact (proj1 S1) | exact (proj1 S2) | exact (proj1 S3) | exact (proj1 S4) | exact (proj1 S5) | apply when_flag; reflexivity]|]). apply Forall_nil. }
  split.
  - apply wx_ok_elem. split; [reflexivity|]. split; [apply attrs_check; [reflexivity|]; repeat (apply Forall_cons; [split; reflexivity|]); apply Forall_nil|]. apply Forall_concat.
    assert (W1 : Forall wx_ok (when protected [WEmpty (lit "c:protection") []])) by (apply ok_if; constructor; [apply ok_leaf; reflexivity|constructor]).
    assert (W2 : Forall wx_ok (when (negb sheet) [print_settings])).
    { apply ok_if. constructor; [|constructor]. apply elem_ok; [reflexivity|]. constructor; [constructor; [apply ok_leaf; reflexivity|constructor]|]. constructor; [constructor; [split; [reflexivity|]|constructor]|].
      * apply attrs_check; [reflexivity|]; repeat (apply Forall_cons; [split; reflexivity|]); apply Forall_nil.
      * constructor; [constructor; [apply ok_leaf; reflexivity|constructor]|constructor]. }
    do 6 (apply Forall_cons; [first [exact (proj1 S7) | exact (proj1 S6) | exact W1 | constructor; [exact Wc|constructor] | rewrite (h_area _ _ _ C); exact Ws | exact W2]|]). apply Forall_nil.
  - assert (X : forall t a ls, kids_of (node_of (WElem t a (concat ls))) = map node_of (concat ls)) by reflexivity.
    assert (X1 : forall a ls, is_elem "c:chartSpace" (node_of (WElem (lit "c:chartSpace") a (concat ls))) = true) by reflexivity. unfold read_chart. rewrite X1, X. cbv zeta. clear X X1.
    tagging ["c:lang"; "c:style"; "c:protection"; "c:chart"; "c:spPr"; "c:printSettings"]%string kinds. needed_part K2 S7. maybe_part K2 S6. rewrite (shape_parts (c_area l) _ _ K2 Ka) by (parted; rewrite (h_area _ _ _ C); reflexivity). cbn [bind].
    rewrite (kid_parts "c:chart" _ _ K2). rewrite !(has_parts _ _ _ K2). parted. cbn [bind]. rewrite elem_kids. clear K2.
    tagging ["c:title"; "c:autoTitleDeleted"; "c:plotArea"; "c:legend"; "c:plotVisOnly"; "c:dispBlanksAs"; "c:extLst"]%string
      ltac:(repeat (first [apply Forall2_nil | apply Forall2_cons]); [exact T1|kinds|apply tagged_one; exact Tp|exact T2|kinds..]).
    maybe_part K2 S1. flag_at_part K2. needed_part K2 S3. maybe_part K2 S2. flag_at_part K2. maybe_part K2 S4. maybe_part K2 S5. unfold Chart_Spec4.asked_chart. rewrite (h_hidden_data _ _ _ C). destruct protected, sheet; reflexivity.
Qed.
End Env.
