(** Charts: axes read back. *)
From Verif Require Import Base F64 Xml_Model Xml_Spec Xml_Proofs Xml_Read Xml_Read_Proofs Xml_Tree Fmt_Model Rich_Model Rich_Proofs SheetXml_Spec SheetXml_Proofs SheetXml_Proofs3 Doc_Model Doc_Spec Props_Doc Tag_Proofs Part_Proofs
  CF_Spec CF_Model CF_Build CF_Read Ref_Model Ref_Proofs Ref_Spec Quote_Proofs Note_Spec Note_Proofs Note_Proofs2 Note_Proofs4 Note_Proofs5 Cache_Model Spark_Model Spark_Spec Dml_Model Dml_Spec Dml_Proofs Draw_Model Draw_Proofs Draw_Proofs3
  Chart_Model Chart_Series Chart_Axis Chart_Whole Chart_Spec Chart_Spec2 Chart_Spec3 Chart_Proofs Chart_Proofs2 Chart_Proofs3 Chart_Proofs4 Chart_Proofs5 Chart_Proofs6.
From Verif Require Color_Spec Props_Spark Xml_Spec.

Definition fresh (u : usual) : caxis :=
  first_axis axis_new (us_type u) (us_side u) (us_between u) (us_turned u) (us_grid u) (us_auto u) (us_tick u) (us_crossing u) (us_hidden u) (us_labels u).
Lemma first_x_usual f : first_x f = fresh (usual_axis f AxisX). Proof. destruct f; reflexivity. Qed.
Lemma first_y_usual f : first_y f = fresh (usual_axis f AxisY). Proof. destruct f; reflexivity. Qed.
Lemma first_x2_usual f : first_x2 f = fresh (usual_axis f AxisX2). Proof. destruct f; reflexivity. Qed.
Lemma first_y2_usual f : first_y2 f = fresh (usual_axis f AxisY2). Proof. destruct f; reflexivity. Qed.
Definition turned_axis (u : usual) (l : list axis_op) : caxis := fold_left axis_step l (fresh u).
(** What the calls leave in an axis. *)
Record axised (u : usual) (l : list axis_op) (a : caxis) : Prop := {
  g_type : ax_type a = x_type u l; g_side : ax_position a = us_side u; g_labels : ax_labels a = x_labels u l; g_format : ax_format a = chart_format (x_format l);
  g_font : ax_font a = option_map (fun f => axis_font (make_font f)) (x_font l); g_code : ax_num_format a = x_code l; g_reverse : ax_reverse a = x_reversed l; g_hidden : ax_hidden a = x_hidden u l;
  g_auto : ax_automatic a = x_auto u l; g_between : ax_between a = x_between u l; g_max : ax_max a = x_max l; g_min : ax_min a = x_min l; g_major : ax_major a = x_major l; g_minor : ax_minor a = x_minor l;
  g_major_grid : ax_major_grid a = x_major_grid u l; g_minor_grid : ax_minor_grid a = x_minor_grid l; g_major_line : ax_major_line a = option_map (make_line None) (x_major_line l);
  g_minor_line : ax_minor_line a = option_map (make_line None) (x_minor_line l); g_log : (if 2 <=? ax_log a then Some (ax_log a) else None) = x_log l; g_label_skip : ax_label_interval a = x_label_skip l;
  g_mark_skip : ax_tick_interval a = x_mark_skip l; g_major_tick : ax_major_tick a = x_major_tick u l; g_minor_tick : ax_minor_tick a = x_minor_tick l; g_major_date : ax_major_date a = x_major_date l;
  g_minor_date : ax_minor_date a = x_minor_date l; g_units : ax_units a = x_units l; g_units_shown : ax_units_shown a = x_units_shown l; g_crossing : ax_crossing a = x_crossing u l; g_align : ax_align a = x_align l;
  g_title : ax_title a = fold_left title_step (axis_title_calls l) (ax_title (fresh u)) }.
Ltac lastly f := match goal with |- _ = last_of ?g _ _ => exact (last_fold f g axis_step ltac:(intros s []; reflexivity) _ _) end.
Ltac picked f g := unfold g; lastly f.
Ltac ranged f g := unfold g; match goal with |- _ = last_of ?h _ _ => apply (last_fold f h axis_step); intros s o; destruct o; try reflexivity; cbn [axis_step]; cbn; match goal with |- context [if ?b then _ else _] => destruct b; reflexivity end end.
Lemma turned_axised u l : axised u l (turned_axis u l).
Proof.
  unfold turned_axis. constructor.
  - picked ax_type x_type.
  - induction l as [|o l IH] using rev_ind; [reflexivity|]. rewrite fold_left_app. exact IH.
  - picked ax_labels x_labels.
  - apply (Draw_Proofs2.last_folded ax_format chart_format (fun o => match o with XFormat l => Some l | _ => None end)); [intros s []; reflexivity|reflexivity].
  - apply (Draw_Proofs2.last_folded ax_font (option_map (fun f => axis_font (make_font f))) (fun o => match o with XFont l => Some (Some l) | _ => None end)); [intros s []; reflexivity|reflexivity].
  - picked ax_num_format x_code.
  - apply (flag_fold (fun o => match o with XReverse => true | _ => false end) ax_reverse); [intros s []; reflexivity|reflexivity].
  - picked ax_hidden x_hidden.
  - picked ax_automatic x_auto.
  - picked ax_between x_between.
  - picked ax_max x_max.
  - picked ax_min x_min.
  - unfold x_major. apply (last_fold ax_major (fun o => match o with XMajorUnit x => if flt x (f_of_N 0) then None else Some (Some x) | _ => None end) axis_step). intros s o. destruct o; try reflexivity. cbn [axis_step ax_major]. destruct (flt _ _); reflexivity.
  - unfold x_minor. apply (last_fold ax_minor (fun o => match o with XMinorUnit x => if flt x (f_of_N 0) then None else Some (Some x) | _ => None end) axis_step). intros s o. destruct o; try reflexivity. cbn [axis_step ax_minor]. destruct (flt _ _); reflexivity.
  - picked ax_major_grid x_major_grid.
  - picked ax_minor_grid x_minor_grid.
  - apply (Draw_Proofs2.last_folded ax_major_line (option_map (make_line None)) (fun o => match o with XMajorLine l => Some (Some l) | _ => None end)); [intros s []; reflexivity|reflexivity].
  - apply (Draw_Proofs2.last_folded ax_minor_line (option_map (make_line None)) (fun o => match o with XMinorLine l => Some (Some l) | _ => None end)); [intros s []; reflexivity|reflexivity].
  - apply (last_fold (fun a => if 2 <=? ax_log a then Some (ax_log a) else None) (fun o => match o with XLog n => if 2 <=? n then Some (Some n) else None | _ => None end) axis_step). intros s o. destruct o; try reflexivity.
    cbn [axis_step ax_log]. destruct (2 <=? n) eqn:Q; [rewrite Q; reflexivity|reflexivity].
  - picked ax_label_interval x_label_skip.
  - picked ax_tick_interval x_mark_skip.
  - picked ax_major_tick x_major_tick.
  - picked ax_minor_tick x_minor_tick.
  - picked ax_major_date x_major_date.
  - picked ax_minor_date x_minor_date.
  - picked ax_units x_units.
  - picked ax_units_shown x_units_shown.
  - picked ax_crossing x_crossing.
  - picked ax_align x_align.
  - generalize (fresh u). induction l as [|o l IH]; intros a; [reflexivity|]. cbn [fold_left]. rewrite IH. unfold axis_title_calls. cbn [flat_map]. rewrite fold_left_app. destruct o; reflexivity.
Qed.

Section Env.
Variable E : env.
Hypothesis Env : env_ok E.
Let Num : forall x, attr_text (e_num E x) := proj1 Env.
Notation akn := (axis_known (quotable E)).
Notation asked_axis := (asked_axis (e_num E) (e_parses E) (e_cache E)).

Lemma axis_font_view f : text_of_font E (axis_font (make_font f)) false = axis_text (e_num E) f /\ (fits (make_font f) -> fits (axis_font (make_font f))).
Proof.
  split; [|exact (fun H => H)]. unfold axis_text. rewrite <- (font_view E f false). unfold text_of_font. cbn [te_turn te_rtl te_letters].
  set (g := make_font f). unfold letters_of, axis_font, with_font. cbn [cf_bold cf_italic cf_underline cf_name cf_size cf_color cf_pitch cf_charset cf_rtl le_bold le_italic le_underline le_size le_color le_name le_pitch le_charset].
  destruct (cf_bold g) as [b|]; destruct (cf_italic g); reflexivity.
Qed.
Lemma axis_parts_known u l : us_labels u < 4 -> match us_tick u with Some n => n < 4 | None => True end -> Forall akn l ->
  Forall format_known (x_format l) /\ match x_font l with Some f => Forall font_known f | None => True end /\ attr_text (x_code l) /\ x_labels u l < 4 /\
  match x_major_line l with Some c => Forall line_known c | None => True end /\ match x_minor_line l with Some c => Forall line_known c | None => True end /\ Forall (title_known (quotable E)) (axis_title_calls l).
Proof.
  intros U1 U2 K.
  split; [apply (last_all (Forall format_known) akn); [intros o v A B; destruct o; try discriminate; injection B as <-; exact A|constructor|exact K]|].
  split; [apply (last_all (fun o => match o with Some f => Forall font_known f | None => True end) akn); [intros o v A B; destruct o; try discriminate; injection B as <-; exact A|exact I|exact K]|].
  split; [apply (last_all attr_text akn); [intros o v A B; destruct o; try discriminate; injection B as <-; exact A|reflexivity|exact K]|].
  split; [apply (last_all (fun n => n < 4) akn); [intros o v A B; destruct o; try discriminate; injection B as <-; exact A|exact U1|exact K]|].
  split; [apply (last_all (fun o => match o with Some f => Forall line_known f | None => True end) akn); [intros o v A B; destruct o; try discriminate; injection B as <-; exact A|exact I|exact K]|].
  split; [apply (last_all (fun o => match o with Some f => Forall line_known f | None => True end) akn); [intros o v A B; destruct o; try discriminate; injection B as <-; exact A|exact I|exact K]|].
  apply Forall_flat_map. eapply Forall_impl; [|exact K]. intros o A. destruct o; try constructor; try exact A; constructor.
Qed.
Lemma ln_tag d : tag_of (chart_ln d) = lit "a:ln".
Proof. unfold chart_ln. repeat match goal with |- context [if ?b then _ else _] => destruct b end; reflexivity. Qed.
Lemma grid_says tag b o : good_name (lit tag) = true -> match o with Some c => Forall line_known c | None => True end -> says read_grid (grid_xml tag b (option_map (make_line None) o)) (grid_seen b o).
Proof.
  intros G K. unfold grid_xml, grid_seen. destruct b; cbn [when]; [|apply says_nil]. destruct o as [c|]; cbn [option_map].
  - destruct (chart_ln_reads c K) as [W R]. apply says_one.
    + apply elem_ok; [exact G|]. constructor; [|constructor]. constructor; [|constructor]. apply elem_ok; [reflexivity|]. constructor; [|constructor]. constructor; [exact W|constructor].
    + unfold read_grid. rewrite elem_kids. cbn [concat app]. unfold maybe. cbn [map filter]. rewrite is_elem_tag. change (str_eqb (tag_of (elem "c:spPr" [[chart_ln (make_line None c)]])) (lit "c:spPr")) with true. cbv iota. rewrite elem_kids. cbn [concat app].
      rewrite (needed_one "a:ln" read_line (chart_ln (make_line None c)) (asked_line c) (ln_tag _) R). reflexivity.
  - apply says_one; [apply ok_leaf; exact G|]. rewrite node_empty. reflexivity.
Qed.

Definition axis_tags : list string :=
  ["c:axId"; "c:scaling"; "c:delete"; "c:axPos"; "c:majorGridlines"; "c:minorGridlines"; "c:title"; "c:numFmt"; "c:majorTickMark"; "c:minorTickMark"; "c:tickLblPos"; "c:spPr"; "c:txPr"; "c:crossAx"; "c:crosses"; "c:crossesAt";
   "c:auto"; "c:lblAlgn"; "c:lblOffset"; "c:tickLblSkip"; "c:tickMarkSkip"; "c:crossBetween"; "c:majorUnit"; "c:majorTimeUnit"; "c:minorUnit"; "c:minorTimeUnit"; "c:dispUnits"]%string.
Definition category_role (r : role) : bool := match r with Values => false | _ => true end.
Definition no_scale {A} (t : axis_type) (o : option A) : option A := if is_cat t then None else o.
Lemma scaling_reads u l a : axised u l a -> wx_ok (scaling_xml E a) /\
  read_scaling (node_of (scaling_xml E a)) = Some (no_scale (x_type u l) (x_log l), if x_reversed l then lit "maxMin" else lit "minMax", no_scale (x_type u l) (option_map (e_num E) (x_max l)), no_scale (x_type u l) (option_map (e_num E) (x_min l))).
Proof.
  intros A. unfold scaling_xml, is_category. rewrite (g_type _ _ _ A), (g_max _ _ _ A), (g_min _ _ _ A), (g_reverse _ _ _ A). set (t := x_type u l).
  assert (Ct : match t with AxCategory => true | _ => false end = is_cat t) by reflexivity. rewrite Ct. pose proof (g_log _ _ _ A) as G.
  assert (S1 : says number_val (when (negb (is_cat t) && (2 <=? ax_log a)) [num_xml "c:logBase" (ax_log a)]) (no_scale t (x_log l))).
  { rewrite <- G. pose proof (says_num (negb (is_cat t) && (2 <=? ax_log a)) "c:logBase" (ax_log a) eq_refl) as S. unfold no_scale. destruct (is_cat t); exact S. }
  assert (S2 : forall tag o, good_name (lit tag) = true -> says value_of (when (negb (is_cat t)) (opt_xml o (fun x => word_xml tag (e_num E x)))) (no_scale t (option_map (e_num E) o))).
  { intros tag o G2. unfold no_scale. destruct (is_cat t); cbn [negb when]; [apply says_nil|]. apply (says_num_text E Env o tag G2). }
  pose proof (S2 "c:max"%string (x_max l) eq_refl) as S3. pose proof (S2 "c:min"%string (x_min l) eq_refl) as S4. pose proof (says_word1 "c:orientation" (if x_reversed l then lit "maxMin" else lit "minMax") eq_refl ltac:(destruct (x_reversed l); reflexivity)) as S5. split.
  - apply elem_ok; [reflexivity|]. constructor; [exact (proj1 S1)|]. constructor; [exact (proj1 S5)|]. constructor; [exact (proj1 S3)|]. constructor; [exact (proj1 S4)|constructor].
  - unfold read_scaling. rewrite elem_kids. cbv zeta. tagging ["c:logBase"; "c:orientation"; "c:max"; "c:min"]%string kinds. maybe_part K2 S1. needed_part K2 S5. maybe_part K2 S3. maybe_part K2 S4. reflexivity.
Qed.
Lemma crosses_says r (b : bool) c : says value_of (when b (crosses_xml E (category_role r) c)) (if b then fst (crosses_seen (e_num E) r c) else None) /\
  says value_of (when b (crosses_at_xml E (category_role r) c)) (if b then snd (crosses_seen (e_num E) r c) else None).
Proof.
  destruct b; cbn [when]; [|split; apply says_nil]. destruct c as [| | |n|x], r; cbn [crosses_xml crosses_at_xml category_role negb when crosses_seen fst snd crossing_text]; split;
    first [apply says_nil | apply says_word1; [reflexivity|first [reflexivity | apply attr_dec | apply Num]]].
Qed.
Lemma axis_reads r tag (crossed : bool) code nf id cross u l a v m b tail :
  axised u l a -> axised v m b -> us_labels u < 4 -> match us_tick u with Some n => n < 4 | None => True end -> Forall akn l -> settled (names_of (axis_title_calls l)) ->
  In tag axis_kinds -> tag = match r with Categories => "c:catAx" | Dates => "c:dateAx" | Values => "c:valAx" end%string ->
  says read_format_code nf (match x_code l with [] => code | c => Some (c, false) end) -> tagged "c:numFmt" nf ->
  forall p1 p2 p3 p4 p5 p6 p7 p8 p9 p10 p11 au al off s1 s2 cb u1 t1 u2 t2 du,
  tail = [p1; p2; p3; p4; p5; p6; p7; p8; p9; p10; p11] -> Forall2 tagged ["c:auto"; "c:lblAlgn"; "c:lblOffset"; "c:tickLblSkip"; "c:tickMarkSkip"; "c:crossBetween"; "c:majorUnit"; "c:majorTimeUnit"; "c:minorUnit"; "c:minorTimeUnit"; "c:dispUnits"]%string tail ->
  p1 = when au [flag_xml "c:auto"] -> says value_of p2 al -> says value_of p3 off -> says number_val p4 s1 -> says number_val p5 s2 -> says value_of p6 cb -> says value_of p7 u1 -> says value_of p8 t1 -> says value_of p9 u2 -> says value_of p10 t2 ->
  says read_units p11 du ->
  wx_ok (elem tag (axis_head E id cross a b nf (category_role r) crossed ++ tail)) /\
  read_axis (node_of (elem tag (axis_head E id cross a b nf (category_role r) crossed ++ tail))) =
  Some (let q := asked_axis r crossed code (id, cross) u l v m in
    {| xs_kind := xs_kind q; xs_id := xs_id q; xs_log := xs_log q; xs_order := xs_order q; xs_max := xs_max q; xs_min := xs_min q; xs_hidden := xs_hidden q; xs_place := xs_place q; xs_major_grid := xs_major_grid q;
       xs_minor_grid := xs_minor_grid q; xs_title := xs_title q; xs_format := xs_format q; xs_major_tick := xs_major_tick q; xs_minor_tick := xs_minor_tick q; xs_labels := xs_labels q; xs_shape := xs_shape q; xs_text := xs_text q;
       xs_cross := xs_cross q; xs_crosses := xs_crosses q; xs_crosses_at := xs_crosses_at q; xs_auto := au; xs_align := al; xs_offset := off; xs_label_skip := s1; xs_mark_skip := s2; xs_between := cb; xs_major := u1; xs_minor := u2;
       xs_major_time := t1; xs_minor_time := t2; xs_units := du |}).
Proof.
  intros A B U1 U2 K Se In_tag Etag Snf Tnf p1 p2 p3 p4 p5 p6 p7 p8 p9 p10 p11 au al off s1 s2 cb u1 t1 u2 t2 du -> Tt Ep1 P2 P3 P4 P5 P6 P7 P8 P9 P10 P11. subst p1.
  destruct (axis_parts_known u l U1 U2 K) as (K1 & K2' & K3 & K4 & K5 & K6 & K7). destruct (scaling_reads u l a A) as [Wsc Rsc].
  pose proof (says_num1 "c:axId" id eq_refl) as Q1. pose proof (says_one read_scaling _ _ Wsc Rsc) as Q2.
  assert (Q3 : says value_of [place_xml a b] (Some (word_at sides (if x_reversed m || match x_crossing v m with CrMax => true | _ => false end then opposite (us_side u) else us_side u)))).
  { unfold place_xml. rewrite (g_reverse _ _ _ B), (g_crossing _ _ _ B), (g_side _ _ _ A). unfold is_max. change reverse_place with opposite. apply says_word1; [reflexivity|]. apply (nth_attr place_names). repeat constructor. }
  pose proof (grid_says "c:majorGridlines" (x_major_grid u l) (x_major_line l) eq_refl K5) as Q4. pose proof (grid_says "c:minorGridlines" (x_minor_grid l) (x_minor_line l) eq_refl K6) as Q5.
  assert (Q6 : says read_title (title_xml E (ax_title a)) (asked_title (e_num E) (e_parses E) (e_cache E) (us_turned u) (axis_title_calls l)) /\ tagged "c:title" (title_xml E (ax_title a))).
  { rewrite (g_title _ _ _ A). pose proof (make_titled E (us_turned u) (axis_title_calls l) (ax_title (fresh u)) eq_refl eq_refl eq_refl eq_refl eq_refl eq_refl eq_refl eq_refl eq_refl) as Ti.
    destruct (title_reads E Env _ _ _ Ti K7 Se) as (W & T & R). split; [|exact T]. split; [exact W|]. destruct (title_xml E _) as [|x [|y z]]; [rewrite R; reflexivity|exact R|destruct R]. }
  destruct Q6 as [Q6 T6].
  assert (Tk : forall tag o, good_name (lit tag) = true -> says value_of (opt_xml o (fun n => word_xml tag (word_of tick_names n))) (option_map (word_at ["none"; "in"; "out"; "cross"]%string) o)).
  { intros tg o G. apply (says_opt value_of o (fun n => word_xml tg (word_of tick_names n)) (word_at ["none"; "in"; "out"; "cross"]%string)). intros n _. split; [apply word_ok; [exact G|apply (nth_attr tick_names); repeat constructor]|]. reflexivity. }
  pose proof (Tk "c:majorTickMark"%string (x_major_tick u l) eq_refl) as Q7. pose proof (Tk "c:minorTickMark"%string (x_minor_tick l) eq_refl) as Q8.
  pose proof (says_word1 "c:tickLblPos" (word_of Chart_Axis.label_names (x_labels u l)) eq_refl (nth_attr Chart_Axis.label_names (x_labels u l) ltac:(repeat constructor))) as Q9. destruct (sp_reads _ K1) as [Ws _].
  assert (Q10 : says read_text (opt_xml (option_map (fun f => axis_font (make_font f)) (x_font l)) (fun f => tx_pr E f false)) (option_map (axis_text (e_num E)) (x_font l))).
  { apply (says_font E Env). - intros f Hf. destruct (x_font l) as [c|]; [|discriminate]. injection Hf as <-. apply axis_font_view, made_fits. exact K2'.
    - destruct (x_font l) as [c|]; [|reflexivity]. cbn [option_map]. f_equal. apply axis_font_view. }
  pose proof (says_num1 "c:crossAx" cross eq_refl) as Q11. destruct (crosses_says r crossed (x_crossing v m)) as [Q12 Q13].
  unfold axis_head. rewrite (g_hidden _ _ _ A), (g_major_grid _ _ _ A), (g_minor_grid _ _ _ A), (g_major_line _ _ _ A), (g_minor_line _ _ _ A), (g_major_tick _ _ _ A), (g_minor_tick _ _ _ A), (g_labels _ _ _ A), (g_format _ _ _ A), (g_font _ _ _ A), (g_crossing _ _ _ B).
  cbn [app]. split.
  - apply elem_ok; [rewrite Etag; destruct r; reflexivity|].
    do 27 (apply Forall_cons; [first [exact (proj1 Q1) | exact (proj1 Q2) | exact (proj1 Q3) | exact (proj1 Q4) | exact (proj1 Q5) | exact (proj1 Q6) | exact (proj1 Q7) | exact (proj1 Q8) | exact (proj1 Q9) | exact Ws | exact (proj1 Q10) | exact (proj1 Q11) | exact (proj1 Q12)
      | exact (proj1 Q13) | exact (proj1 Snf) | exact (proj1 P2) | exact (proj1 P3) | exact (proj1 P4) | exact (proj1 P5) | exact (proj1 P6) | exact (proj1 P7) | exact (proj1 P8) | exact (proj1 P9) | exact (proj1 P10) | exact (proj1 P11) | apply when_flag; reflexivity]|]). apply Forall_nil.
  - unfold read_axis. rewrite elem_kids. cbv zeta.
    assert (Kd : kind_of axis_kinds (node_of (elem tag [])) = Some tag) by (rewrite Etag; destruct r; reflexivity).
    assert (Kd2 : forall ls, kind_of axis_kinds (node_of (elem tag ls)) = Some tag) by (intros ls; rewrite <- Kd; reflexivity). rewrite Kd2. cbn [bind].
    assert (K2 : Forall2 tagged axis_tags [[num_xml "c:axId" id]; [scaling_xml E a]; when (x_hidden u l) [flag_xml "c:delete"]; [place_xml a b]; grid_xml "c:majorGridlines" (x_major_grid u l) (option_map (make_line None) (x_major_line l));
   grid_xml "c:minorGridlines" (x_minor_grid l) (option_map (make_line None) (x_minor_line l)); title_xml E (ax_title a); nf; opt_xml (x_major_tick u l) (fun n => word_xml "c:majorTickMark" (word_of tick_names n));
   opt_xml (x_minor_tick l) (fun n => word_xml "c:minorTickMark" (word_of tick_names n)); [word_xml "c:tickLblPos" (word_of Chart_Axis.label_names (x_labels u l))]; sp_pr (chart_format (x_format l));
   opt_xml (option_map (fun f => axis_font (make_font f)) (x_font l)) (fun f => tx_pr E f false); [num_xml "c:crossAx" cross]; when crossed (crosses_xml E (category_role r) (x_crossing v m));
   when crossed (crosses_at_xml E (category_role r) (x_crossing v m)); when au [flag_xml "c:auto"]; p2; p3; p4; p5; p6; p7; p8; p9; p10; p11]).
    { assert (Gt : forall tg b o, tagged tg (grid_xml tg b o)) by (intros tg [|] [o|]; first [apply tagged_one; reflexivity | apply tagged_nil]).
      unfold axis_tags. do 16 (apply Forall2_cons; [first [exact T6 | exact Tnf | apply Gt | apply tagged_when; destruct (x_crossing v m), r; cbn [crosses_xml crosses_at_xml category_role negb when]; first [apply tagged_nil | apply tagged_one; reflexivity] | kinds]|]). exact Tt. }
    unfold axis_tags in K2. needed_part K2 Q1. needed_part K2 Q2. flag_at_part K2. needed_part K2 Q3. maybe_part K2 Q4. maybe_part K2 Q5. maybe_part K2 Q6. maybe_part K2 Snf. maybe_part K2 Q7. maybe_part K2 Q8. needed_part K2 Q9.
    rewrite (shape_parts _ _ _ K2 K1) by at_part. cbn [bind]. maybe_part K2 Q10. needed_part K2 Q11. maybe_part K2 Q12. maybe_part K2 Q13. flag_at_part K2. maybe_part K2 P2. maybe_part K2 P3. maybe_part K2 P4. maybe_part K2 P5. maybe_part K2 P6.
    maybe_part K2 P7. maybe_part K2 P9. maybe_part K2 P8. maybe_part K2 P10. maybe_part K2 P11. rewrite Etag. reflexivity.
Qed.

Definition usual_fine (u : usual) : Prop := us_labels u < 4 /\ match us_tick u with Some n => n < 4 | None => True end.
Lemma usual_axis_fine f w : usual_fine (usual_axis f w).
Proof. destruct f, w; split; try exact I; reflexivity. Qed.
Lemma own_code u l a : axised u l a -> own_format a = negb (no_calls (x_code l)).
Proof. intros A. unfold own_format. rewrite (g_code _ _ _ A). destruct (x_code l); reflexivity. Qed.
Lemma code_says (code : str) b : attr_text code -> says read_format_code [num_fmt_xml code b] (Some (code, b)).
Proof.
  intros A. pose proof (bit_ok b) as B. apply says_one; [split; [reflexivity|good]|]. unfold num_fmt_xml. rewrite node_empty. unfold read_format_code. cbn [attrs_of]. ats. cbn [bind]. rewrite bit_reads. reflexivity.
Qed.
Lemma code_part u l a (numeric : bool) code : axised u l a -> Forall akn l -> attr_text code ->
  says read_format_code (if own_format a then [num_fmt_xml (ax_num_format a) false] else when numeric [num_fmt_xml code true]) (match x_code l with [] => if numeric then Some (code, true) else None | c => Some (c, false) end) /\
  tagged "c:numFmt" (if own_format a then [num_fmt_xml (ax_num_format a) false] else when numeric [num_fmt_xml code true]).
Proof.
  intros A K C. assert (K3 : attr_text (x_code l)) by (apply (last_all attr_text akn); [intros o v D F; destruct o; try discriminate; injection F as <-; exact D|reflexivity|exact K]).
  rewrite (own_code u l a A), (g_code _ _ _ A). pose proof (code_says (x_code l) false K3) as S. destruct (x_code l) as [|c s]; cbn [no_calls negb].
  - split; [|apply tagged_when, tagged_one; reflexivity]. destruct numeric; [apply code_says; exact C|apply says_nil].
  - split; [exact S|apply tagged_one; reflexivity].
Qed.
Lemma skip_says tag n : good_name (lit tag) = true -> says number_val (when (1 <? n) [num_xml tag n]) (if 1 <? n then Some n else None).
Proof. intros G. apply says_num. exact G. Qed.
Lemma date_says tag o : good_name (lit tag) = true -> says value_of (opt_xml o (fun n => word_xml tag (word_of date_names n))) (option_map (word_at ["days"; "months"; "years"]%string) o).
Proof. intros G. apply (says_opt value_of o (fun n => word_xml tag (word_of date_names n)) (word_at ["days"; "months"; "years"]%string)). intros n _. split; [apply word_ok; [exact G|apply (nth_attr date_names); repeat constructor]|]. reflexivity. Qed.
Lemma units_says u l a : axised u l a -> says read_units (units_xml E a) (if x_units l =? 0 then None else
       Some (word_at ["none"; "hundreds"; "thousands"; "tenThousands"; "hundredThousands"; "millions"; "tenMillions"; "hundredMillions"; "billions"; "trillions"]%string (x_units l), x_units_shown l)).
Proof.
  intros A. unfold units_xml. rewrite (g_units _ _ _ A), (g_units_shown _ _ _ A). destruct (x_units l =? 0); cbn [negb when]; [apply says_nil|].
  pose proof (says_word1 "c:builtInUnit" (word_of unit_names (x_units l)) eq_refl (nth_attr unit_names (x_units l) ltac:(repeat constructor))) as S1.
  assert (W : wx_ok (elem "c:dispUnitsLbl" [[layout_xml E layout_new]])) by (apply elem_ok; [reflexivity|]; constructor; [exact (proj1 (says_layout E Env layout_new))|constructor]).
  assert (S2 : says (fun _ => Some tt) (when (x_units_shown l) [elem "c:dispUnitsLbl" [[layout_xml E layout_new]]]) (if x_units_shown l then Some tt else None)) by (apply says_when; intros _; split; [exact W|reflexivity]).
  apply says_one.
  - apply elem_ok; [reflexivity|]. constructor; [exact (proj1 S1)|]. constructor; [exact (proj1 S2)|constructor].
  - unfold read_units. rewrite elem_kids. tagging ["c:builtInUnit"; "c:dispUnitsLbl"]%string kinds. needed_part K2 S1. maybe_part K2 S2. destruct (x_units_shown l); reflexivity.
Qed.
Ltac the_axis A B U K Se C := eapply axis_reads with (1 := A) (2 := B) (3 := proj1 U) (4 := proj2 U) (5 := K) (6 := Se) (9 := proj1 C) (10 := proj2 C).
Lemma cat_reads crosses numeric u l x v m y ids : axised u l x -> axised v m y -> usual_fine u -> Forall akn l -> settled (names_of (axis_title_calls l)) ->
  wx_ok (cat_ax E crosses numeric x y ids) /\
  read_axis (node_of (cat_ax E crosses numeric x y ids)) = Some (asked_axis Categories (crosses || negb (x_hidden u l)) (if numeric then Some (lit "General", true) else None) ids u l v m).
Proof.
  intros A B U K Se. pose proof (code_part u l x numeric (lit "General") A K eq_refl) as C. unfold cat_ax. rewrite (g_hidden _ _ _ A). set (nf := if own_format x then _ else _) in *. unfold skips.
  match goal with |- context [elem ?t (axis_head E ?a ?b x y nf true ?cr ++ [?p1; ?p2; ?p3] ++ [?p4; ?p5])] =>
    replace (elem t (axis_head E a b x y nf true cr ++ [p1; p2; p3] ++ [p4; p5])) with (elem t (axis_head E a b x y nf (category_role Categories) cr ++ [p1; p2; p3; p4; p5; []; []; []; []; []; []])) by (unfold elem; f_equal; rewrite !(concat_app (axis_head _ _ _ _ _ _ _ _)); f_equal) end.
  pose proof (says_word1 "c:lblAlgn" (word_of align_names (x_align l)) eq_refl (nth_attr align_names (x_align l) ltac:(repeat constructor))) as P2.
  pose proof (axis_reads Categories "c:catAx" (crosses || negb (x_hidden u l)) (if numeric then Some (lit "General", true) else None) nf (fst ids) (snd ids) u l x v m y _ A B (proj1 U) (proj2 U) K Se (or_introl eq_refl) eq_refl (proj1 C) (proj2 C)
    _ _ _ _ _ _ _ _ _ _ _ (negb (x_auto u l)) (Some (word_of align_names (x_align l))) (Some (lit "100")) (if 1 <? x_label_skip l then Some (x_label_skip l) else None) (if 1 <? x_mark_skip l then Some (x_mark_skip l) else None) None None None None None None (eq_refl [when (negb (ax_automatic x)) [flag_xml "c:auto"]; [word_xml "c:lblAlgn" (word_of align_names (ax_align x))]; [word_xml "c:lblOffset" (lit "100")];
      when (1 <? ax_label_interval x) [num_xml "c:tickLblSkip" (ax_label_interval x)]; when (1 <? ax_tick_interval x) [num_xml "c:tickMarkSkip" (ax_tick_interval x)]; []; []; []; []; []; []])) as H.
  rewrite (g_auto _ _ _ A), (g_align _ _ _ A), (g_label_skip _ _ _ A), (g_mark_skip _ _ _ A) in *.
  destruct H as [W R]; [kinds|reflexivity|exact P2|apply says_word1; reflexivity|apply skip_says; reflexivity|apply skip_says; reflexivity|apply says_nil|apply says_nil|apply says_nil|apply says_nil|apply says_nil|apply says_nil|].
  split; [exact W|]. rewrite R. destruct ids; reflexivity.
Qed.
Lemma date_reads crosses numeric u l x v m y ids : axised u l x -> axised v m y -> usual_fine u -> Forall akn l -> settled (names_of (axis_title_calls l)) ->
  wx_ok (date_ax E crosses numeric x y ids) /\
  read_axis (node_of (date_ax E crosses numeric x y ids)) = Some (asked_axis Dates (crosses || negb (x_hidden u l)) (if numeric then Some (lit "dd/mm/yyyy", true) else None) ids u l v m).
Proof.
  intros A B U K Se. pose proof (code_part u l x numeric (lit "dd/mm/yyyy") A K eq_refl) as C. unfold date_ax. rewrite (g_hidden _ _ _ A). set (nf := if own_format x then _ else _) in *. unfold skips.
  match goal with |- context [elem ?t (axis_head E ?a ?b x y nf true ?cr ++ [?p1; ?p3] ++ [?p4; ?p5] ++ [?p6; ?p7; ?p8; ?p9])] =>
    replace (elem t (axis_head E a b x y nf true cr ++ [p1; p3] ++ [p4; p5] ++ [p6; p7; p8; p9])) with (elem t (axis_head E a b x y nf (category_role Dates) cr ++ [p1; []; p3; p4; p5; []; p6; p7; p8; p9; []])) by (unfold elem; f_equal; rewrite !(concat_app (axis_head _ _ _ _ _ _ _ _)); f_equal) end.
  pose proof (axis_reads Dates "c:dateAx" (crosses || negb (x_hidden u l)) (if numeric then Some (lit "dd/mm/yyyy", true) else None) nf (fst ids) (snd ids) u l x v m y _ A B (proj1 U) (proj2 U) K Se (or_intror (or_introl eq_refl)) eq_refl (proj1 C) (proj2 C)
    _ _ _ _ _ _ _ _ _ _ _ (x_auto u l) None (Some (lit "100")) (if 1 <? x_label_skip l then Some (x_label_skip l) else None) (if 1 <? x_mark_skip l then Some (x_mark_skip l) else None) None (option_map (e_num E) (x_major l)) (option_map (word_at ["days"; "months"; "years"]%string) (x_major_date l)) (option_map (e_num E) (x_minor l)) (option_map (word_at ["days"; "months"; "years"]%string) (x_minor_date l)) None (eq_refl [when (ax_automatic x) [flag_xml "c:auto"]; []; [word_xml "c:lblOffset" (lit "100")];
      when (1 <? ax_label_interval x) [num_xml "c:tickLblSkip" (ax_label_interval x)]; when (1 <? ax_tick_interval x) [num_xml "c:tickMarkSkip" (ax_tick_interval x)]; []; unit_xml E "c:majorUnit" (ax_major x);
      opt_xml (ax_major_date x) (fun n => word_xml "c:majorTimeUnit" (word_of date_names n)); unit_xml E "c:minorUnit" (ax_minor x); opt_xml (ax_minor_date x) (fun n => word_xml "c:minorTimeUnit" (word_of date_names n)); []])) as H.
  rewrite (g_auto _ _ _ A), (g_label_skip _ _ _ A), (g_mark_skip _ _ _ A), (g_major _ _ _ A), (g_minor _ _ _ A), (g_major_date _ _ _ A), (g_minor_date _ _ _ A) in *. unfold unit_xml in *.
  destruct H as [W R]; [kinds|reflexivity|apply says_nil|apply says_word1; reflexivity|apply skip_says; reflexivity|apply skip_says; reflexivity|apply says_nil|apply (says_num_text E Env); reflexivity|apply date_says; reflexivity|
    apply (says_num_text E Env); reflexivity|apply date_says; reflexivity|apply says_nil|].
  split; [exact W|]. rewrite R. destruct ids; reflexivity.
Qed.
Lemma value_reads d u l x v m y id cross : attr_text d -> axised u l x -> axised v m y -> usual_fine u -> Forall akn l -> settled (names_of (axis_title_calls l)) ->
  let z := elem "c:valAx" (axis_head E id cross x y (value_format d x) false true ++ value_tail E x y) in
  wx_ok z /\ read_axis (node_of z) = Some (asked_axis Values true (Some (d, true)) (id, cross) u l v m).
Proof.
  intros Hd A B U K Se z. subst z. pose proof (code_part u l x true d A K Hd) as C. cbn [when] in C. cbv iota in C. unfold value_format, value_tail. replace [if own_format x then num_fmt_xml (ax_num_format x) false else num_fmt_xml d true] with
    (if own_format x then [num_fmt_xml (ax_num_format x) false] else [num_fmt_xml d true]) by (destruct (own_format x); reflexivity). set (nf := if own_format x then _ else _) in *.
  match goal with |- context [elem ?t (axis_head E ?a ?b x y nf false ?cr ++ [?p6; ?p7; ?p9; ?p11])] =>
    replace (elem t (axis_head E a b x y nf false cr ++ [p6; p7; p9; p11])) with (elem t (axis_head E a b x y nf (category_role Values) cr ++ [[]; []; []; []; []; p6; p7; []; p9; []; p11])) by (unfold elem; f_equal; rewrite !(concat_app (axis_head _ _ _ _ _ _ _ _)); f_equal) end.
  pose proof (axis_reads Values "c:valAx" true (Some (d, true)) nf id cross u l x v m y _ A B (proj1 U) (proj2 U) K Se (or_intror (or_intror (or_introl eq_refl))) eq_refl (proj1 C) (proj2 C)
    _ _ _ _ _ _ _ _ _ _ _ false None None None None (Some (if x_between v m then lit "between" else lit "midCat")) (no_scale (x_type u l) (option_map (e_num E) (x_major l))) None (no_scale (x_type u l) (option_map (e_num E) (x_minor l))) None (if x_units l =? 0 then None else Some (word_at ["none"; "hundreds"; "thousands"; "tenThousands"; "hundredThousands"; "millions"; "tenMillions"; "hundredMillions"; "billions"; "trillions"]%string (x_units l), x_units_shown l)) (eq_refl [[]; []; []; []; [];
      [word_xml "c:crossBetween" (if ax_between y then lit "between" else lit "midCat")]; when (negb (is_category x)) (unit_xml E "c:majorUnit" (ax_major x)); []; when (negb (is_category x)) (unit_xml E "c:minorUnit" (ax_minor x)); []; units_xml E x])) as H.
  unfold is_category in *. rewrite (g_between _ _ _ B), (g_type _ _ _ A), (g_major _ _ _ A), (g_minor _ _ _ A) in *. unfold unit_xml in *.
  assert (S2 : forall tag o, good_name (lit tag) = true -> says value_of (when (negb match x_type u l with AxCategory => true | _ => false end) (opt_xml o (fun x => word_xml tag (e_num E x)))) (no_scale (x_type u l) (option_map (e_num E) o))).
  { intros tag o G2. unfold no_scale, is_cat. destruct (x_type u l); cbn [negb when]; try apply says_nil; apply (says_num_text E Env o tag G2). }
  destruct H as [W R]; [unfold units_xml; kinds|reflexivity|apply says_nil|apply says_nil|apply says_nil|apply says_nil|apply says_word1; [reflexivity|destruct (x_between v m); reflexivity]|apply S2; reflexivity|apply says_nil|apply S2; reflexivity|apply says_nil|apply (units_says u l x A)|].
  split; [exact W|]. rewrite R. reflexivity.
Qed.
End Env.
