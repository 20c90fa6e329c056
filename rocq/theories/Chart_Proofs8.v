(** Charts: groups of series read back. *)
From Verif Require Import Base F64 Xml_Model Xml_Spec Xml_Proofs Xml_Read Xml_Read_Proofs Xml_Tree Fmt_Model Rich_Model Rich_Proofs SheetXml_Spec SheetXml_Proofs SheetXml_Proofs3 Doc_Model Doc_Spec Props_Doc Tag_Proofs Part_Proofs
  CF_Spec CF_Model CF_Build CF_Read Ref_Model Ref_Proofs Ref_Spec Quote_Proofs Note_Spec Note_Proofs Note_Proofs2 Note_Proofs4 Note_Proofs5 Cache_Model Spark_Model Spark_Spec Dml_Model Dml_Spec Dml_Proofs Draw_Model Draw_Proofs Draw_Proofs3
  Chart_Model Chart_Series Chart_Axis Chart_Whole Chart_Spec Chart_Spec2 Chart_Spec3 Chart_Spec4 Chart_Proofs Chart_Proofs2 Chart_Proofs3 Chart_Proofs4 Chart_Proofs5 Chart_Proofs6 Chart_Proofs7.
From Verif Require Color_Spec Props_Spark Xml_Spec.

(** What the calls leave in a chart. *)
Record charted (k : kind) (l : list chart_op) (c : chart) : Prop := {
  h_kind : ch_kind c = k; h_series : Forall2 (dressed k) (series_calls k l) (ch_series c); h_title : ch_title c = fold_left title_step (title_calls l) title_new;
  h_x : axised (usual_axis (group_of k) AxisX) (axis_calls AxisX l) (ch_x c); h_y : axised (usual_axis (group_of k) AxisY) (axis_calls AxisY l) (ch_y c);
  h_x2 : axised (usual_axis (group_of k) AxisX2) (axis_calls AxisX2 l) (ch_x2 c); h_y2 : axised (usual_axis (group_of k) AxisY2) (axis_calls AxisY2 l) (ch_y2 c);
  h_legend : ch_legend c = fold_left legend_step (legend_calls l) legend_new; h_area : ch_area c = chart_format (c_area l); h_plot : ch_plot c = chart_format (c_plot l);
  h_layout : ch_plot_layout c = with_layout (make_layout (c_plot_layout l)) true true \/ (ch_plot_layout c = layout_new /\ c_plot_layout l = []);
  h_style : ch_style c = c_style l; h_turn : ch_rotation c = c_turn l; h_hole : ch_hole c = c_hole l; h_up_down : ch_up_down c = c_up_down l; h_up : ch_up c = chart_format (c_up l); h_down : ch_down c = chart_format (c_down l);
  h_high_low : ch_high_low c = c_high_low l; h_high_low_format : ch_high_low_format c = chart_format (c_high_low_format l); h_drop : ch_drop c = c_drop l; h_drop_format : ch_drop_format c = chart_format (c_drop_format l);
  h_table : ch_table c = option_map make_dtable (c_table l); h_empty : ch_empty c = c_empty l; h_na : ch_na c = c_na l; h_hidden_data : ch_hidden_data c = c_hidden_data l }.
Lemma kind_kept l : forall c, ch_kind (fold_left chart_step l c) = ch_kind c.
Proof. induction l as [|o l IH]; intros c; [reflexivity|]. cbn [fold_left]. rewrite IH. reflexivity. Qed.
Lemma series_left l : forall c cs, Forall2 (dressed (ch_kind c)) cs (ch_series c) -> Forall2 (dressed (ch_kind c)) (cs ++ series_calls (ch_kind c) l) (ch_series (fold_left chart_step l c)).
Proof.
  induction l as [|o l IH]; intros c cs H; [rewrite app_nil_r; exact H|]. cbn [fold_left]. unfold series_calls. cbn [flat_map]. rewrite app_assoc. apply (IH (chart_step c o)). cbn [chart_step ch_kind ch_series].
  destruct o; rewrite ?app_nil_r; try exact H; (apply Forall2_app; [exact H|constructor; [|constructor]]); [apply added_dressed|apply pushed_dressed].
Qed.
Lemma parts_left {A O} (p : chart -> A) (step : A -> O -> A) (g : chart_op -> list O) : (forall c o, p (chart_step c o) = fold_left step (g o) (p c)) -> forall l c, p (fold_left chart_step l c) = fold_left step (flat_map g l) (p c).
Proof. intros H. induction l as [|o l IH]; intros c; [reflexivity|]. cbn [fold_left flat_map]. rewrite IH, H, fold_left_app. reflexivity. Qed.
Ltac from_last f g := unfold g; match goal with |- _ = last_of ?h _ _ => exact (last_fold f h chart_step ltac:(intros s []; reflexivity) _ _) end.
Ltac from_format f h := apply (Draw_Proofs2.last_folded f chart_format h); [intros s []; reflexivity|reflexivity].
Lemma make_charted k l : charted k l (make_chart k l).
Proof.
  unfold make_chart. constructor.
  - rewrite kind_kept. reflexivity.
  - apply (series_left l (chart_new k) []). constructor.
  - apply (parts_left ch_title title_step (fun o => match o with ChTitle t => [t] | _ => [] end)). intros c []; reflexivity.
  - rewrite (parts_left ch_x axis_step (fun o => match o with ChX a => [a] | _ => [] end)) by (intros c []; reflexivity). cbn [chart_new ch_x]. rewrite first_x_usual. apply turned_axised.
  - rewrite (parts_left ch_y axis_step (fun o => match o with ChY a => [a] | _ => [] end)) by (intros c []; reflexivity). cbn [chart_new ch_y]. rewrite first_y_usual. apply turned_axised.
  - rewrite (parts_left ch_x2 axis_step (fun o => match o with ChX2 a => [a] | _ => [] end)) by (intros c []; reflexivity). cbn [chart_new ch_x2]. rewrite first_x2_usual. apply turned_axised.
  - rewrite (parts_left ch_y2 axis_step (fun o => match o with ChY2 a => [a] | _ => [] end)) by (intros c []; reflexivity). cbn [chart_new ch_y2]. rewrite first_y2_usual. apply turned_axised.
  - apply (parts_left ch_legend legend_step (fun o => match o with ChLegend t => [t] | _ => [] end)). intros c []; reflexivity.
  - from_format ch_area (fun o => match o with ChArea l => Some l | _ => None end).
  - from_format ch_plot (fun o => match o with ChPlot l => Some l | _ => None end).
  - unfold c_plot_layout. induction l as [|o l IH] using rev_ind; [right; split; reflexivity|]. rewrite fold_left_app, last_snoc. cbn [fold_left]. destruct o; try exact IH. left. reflexivity.
  - unfold c_style. apply (last_fold ch_style (fun o => match o with ChStyle n => if (1 <=? n) && (n <=? 48) then Some n else None | _ => None end) chart_step). intros s o. destruct o; try reflexivity. cbn [chart_step ch_style]. destruct ((1 <=? n) && (n <=? 48)); reflexivity.
  - unfold c_turn. apply (last_fold ch_rotation (fun o => match o with ChRotation n => if n <=? 360 then Some n else None | _ => None end) chart_step). intros s o. destruct o; try reflexivity. cbn [chart_step ch_rotation]. destruct (n <=? 360); reflexivity.
  - unfold c_hole. apply (last_fold ch_hole (fun o => match o with ChHole n => if n <=? 90 then Some n else None | _ => None end) chart_step). intros s o. destruct o; try reflexivity. cbn [chart_step ch_hole]. destruct (n <=? 90); reflexivity.
  - from_last ch_up_down c_up_down.
  - from_format ch_up (fun o => match o with ChUp l => Some l | _ => None end).
  - from_format ch_down (fun o => match o with ChDown l => Some l | _ => None end).
  - from_last ch_high_low c_high_low.
  - from_format ch_high_low_format (fun o => match o with ChHighLowFormat l => Some l | _ => None end).
  - from_last ch_drop c_drop.
  - from_format ch_drop_format (fun o => match o with ChDropFormat l => Some l | _ => None end).
  - apply (Draw_Proofs2.last_folded ch_table (option_map make_dtable) (fun o => match o with ChTable l => Some (Some l) | _ => None end)); [intros s []; reflexivity|reflexivity].
  - from_last ch_empty c_empty.
  - apply (flag_fold (fun o => match o with ChNa => true | _ => false end) ch_na); [intros s []; reflexivity|reflexivity].
  - apply (flag_fold (fun o => match o with ChHiddenData => true | _ => false end) ch_hidden_data); [intros s []; reflexivity|reflexivity].
Qed.

Lemma last_cons {A B} (f : A -> option B) d a l : last_of f d (a :: l) = last_of f (match f a with Some v => v | None => d end) l.
Proof. unfold last_of. cbn [fold_left]. reflexivity. Qed.
Lemma numbered_cons {A} first (a : A) l : numbered_from first (a :: l) = (first, a) :: numbered_from (first + 1) l.
Proof.
  unfold numbered_from. cbn [length seq map combine]. f_equal; [f_equal; lia|]. f_equal. rewrite <- seq_shift, map_map. apply map_ext. intros n. lia.
Qed.
Section Env.
Variable E : env.
Hypothesis Env : env_ok E.
Let Num : forall x, attr_text (e_num E x) := proj1 Env.
Notation asked_ser := (asked_ser (e_num E) (e_parses E) (e_cache E)).
Notation number_of_cats := (fun s => if range_given (the_categories s) then Some (match c_type (e_cache E (the_categories s)) with TString => false | _ => true end) else None).

(** The series of a group. *)
Definition series_made (k : kind) (w : wstate) (cs : list (list series_op)) (r : list wx * wstate) : Prop :=
  Forall wx_ok (fst r) /\ tagged "c:ser" (fst r) /\ read_all (read_ser (group_of k)) (map node_of (fst r)) = Some (map (fun p => asked_ser k (fst p) (snd p)) (numbered_from (w_index w) cs)) /\
  w_index (snd r) = w_index w + N.of_nat (length cs).
Lemma series_written k cs : group_of k <> FScatter -> Forall (series_ready (quotable E) (group_of k)) cs -> forall sers w, Forall2 (dressed k) cs sers ->
  let r := write_series E k w sers in series_made k w cs r /\ w_gap (snd r) = last_of (fun s => if series_gap s =? 150 then None else Some (series_gap s)) (w_gap w) cs /\
  w_overlap (snd r) = last_of (fun s => option_map Some (series_overlap s)) (w_overlap w) cs /\ w_numeric (snd r) = last_of number_of_cats (w_numeric w) cs.
Proof.
  intros G. induction 1 as [|c cs R F IH]; intros sers w D; inversion D as [|? s ? ss D1 D2]; subst; cbn zeta; cbn [write_series].
  - cbn [fst snd]. split; [|repeat split]. split; [constructor|]. split; [apply tagged_nil|]. split; [reflexivity|]. cbn. lia.
  - pose proof (IH ss (after_series E w s) D2) as H. cbv zeta in H. destruct (write_series E k (after_series E w s) ss) as [xs v]. unfold series_made in *. cbn [fst snd] in *. destruct H as ((W & T & Rd & Ix) & Gp & Ov & Nm).
    destruct (series_reads E Env k (w_index w) c s G D1 R) as [W1 R1]. destruct D1 as (A1 & A2 & _ & _ & _ & _ & _ & _ & _ & A10 & A11 & _). rewrite !last_cons.
    split; [|split; [|split]].
    + split; [constructor; assumption|]. split; [constructor; [reflexivity|exact T]|]. split; [|rewrite Ix; cbn [after_series w_index length]; lia]. rewrite numbered_cons. cbn [map read_all fst snd]. rewrite R1. cbn [after_series w_index] in Rd. rewrite Rd. reflexivity.
    + rewrite Gp. cbn [after_series w_gap]. rewrite A10. f_equal. destruct (series_gap c =? 150); reflexivity.
    + rewrite Ov. cbn [after_series w_overlap]. rewrite A11. f_equal. destruct (series_overlap c); reflexivity.
    + rewrite Nm. cbn [after_series w_numeric]. rewrite A2. f_equal. destruct (range_given _); reflexivity.
Qed.
Lemma scatter_written k cs : group_of k = FScatter -> Forall (series_ready (quotable E) FScatter) cs -> forall sers w, Forall2 (dressed k) cs sers ->
  let r := write_scatter E k w sers in series_made k w cs r /\ w_gap (snd r) = w_gap w /\ w_overlap (snd r) = w_overlap w /\ w_numeric (snd r) = w_numeric w.
Proof.
  intros G. induction 1 as [|c cs R F IH]; intros sers w D; inversion D as [|? s ? ss D1 D2]; subst; cbn zeta; cbn [write_scatter].
  - cbn [fst snd]. split; [|repeat split]. split; [constructor|]. split; [apply tagged_nil|]. split; [reflexivity|]. cbn. lia.
  - pose proof (IH ss (at_index w (w_index w + 1)) D2) as H. cbv zeta in H. destruct (write_scatter E k (at_index w (w_index w + 1)) ss) as [xs v]. unfold series_made in *. cbn [fst snd] in *. destruct H as ((W & T & Rd & Ix) & Gp & Ov & Nm).
    destruct (scatter_reads E Env k (w_index w) c s G D1 R) as [W1 R1].
    split; [|split; [exact Gp|split; [exact Ov|exact Nm]]].
    split; [constructor; assumption|]. split; [constructor; [reflexivity|exact T]|]. split; [|rewrite Ix; cbn [at_index w_index length]; lia]. rewrite numbered_cons. cbn [map read_all fst snd]. rewrite G in *. rewrite R1. cbn [at_index w_index] in Rd. rewrite Rd. reflexivity.
Qed.

(** ** A group with all it may have *)
Definition lines_of (tag : string) (o : option (list format_op)) : list wx := opt_xml o (fun l => lines_xml tag (chart_format l)).
Lemma lines_says tag o : good_name (lit tag) = true -> match o with Some l => Forall format_known l | None => True end -> says read_shape (lines_of tag o) (option_map asked_shape o).
Proof.
  intros G K. unfold lines_of. destruct o as [l|]; cbn [opt_xml option_map]; [|apply says_nil]. unfold lines_xml. destruct (sp_reads l K) as [W _]. apply says_one.
  - apply elem_ok; [exact G|]. constructor; [exact W|constructor].
  - unfold read_shape. rewrite elem_kids. assert (K2 : Forall2 tagged ["c:spPr"]%string [sp_pr (chart_format l)]) by kinds. apply (shape_parts l _ _ K2 K). at_part.
Qed.
Definition up_down_of (o : option (list format_op * list format_op)) : list wx :=
  opt_xml o (fun p => elem "c:upDownBars" [[num_xml "c:gapWidth" 150]; [lines_xml "c:upBars" (chart_format (fst p))]; [lines_xml "c:downBars" (chart_format (snd p))]]).
Lemma up_down_says o : match o with Some (u, d) => Forall format_known u /\ Forall format_known d | None => True end ->
  says read_up_down (up_down_of o) (option_map (fun p => (150, asked_shape (fst p), asked_shape (snd p))) o).
Proof.
  intros K. unfold up_down_of. destruct o as [[u d]|]; cbn [opt_xml option_map fst snd]; [|apply says_nil]. destruct K as [Ku Kd]. pose proof (lines_says "c:upBars" (Some u) eq_refl Ku) as S1. pose proof (lines_says "c:downBars" (Some d) eq_refl Kd) as S2.
  pose proof (says_num1 "c:gapWidth" 150 eq_refl) as S3. unfold lines_of in S1, S2. cbn [opt_xml option_map] in S1, S2. apply says_one.
  - apply elem_ok; [reflexivity|]. constructor; [exact (proj1 S3)|]. constructor; [exact (proj1 S1)|]. constructor; [exact (proj1 S2)|constructor].
  - unfold read_up_down. rewrite elem_kids. cbv zeta. tagging ["c:gapWidth"; "c:upBars"; "c:downBars"]%string kinds. needed_part K2 S3. needed_part K2 S1. needed_part K2 S2. reflexivity.
Qed.
Lemma word_says o tag : good_name (lit tag) = true -> match o with Some s => attr_ok s | None => True end -> says value_of (opt_xml o (word_xml tag)) o.
Proof. intros G K. destruct o as [s|]; [apply says_word1; [exact G|exact K]|apply says_nil]. Qed.
Lemma num_says o tag : good_name (lit tag) = true -> says number_val (opt_xml o (num_xml tag)) o.
Proof. intros G. destruct o as [s|]; [apply says_num1; exact G|apply says_nil]. Qed.
Lemma overlap_says o : says int_val (opt_xml o (fun z => word_xml "c:overlap" (int_text z))) o.
Proof.
  destruct o as [z|]; [|apply says_nil]. apply says_one; [apply word_ok; [reflexivity|apply int_attr]|]. unfold int_val. change (value_of (node_of (word_xml "c:overlap" (int_text z)))) with (Some (int_text z)). cbn [bind]. apply int_reads.
Qed.
Lemma ids_read l : Forall wx_ok (map (num_xml "c:axId") l) /\ tagged "c:axId" (map (num_xml "c:axId") l) /\ read_all number_val (map node_of (map (num_xml "c:axId") l)) = Some l.
Proof.
  induction l as [|a l (W & T & R)]; [repeat split; constructor|]. cbn [map read_all]. split; [constructor; [apply num_ok; reflexivity|exact W]|]. split; [constructor; [reflexivity|exact T]|].
  rewrite value_num. rewrite R. reflexivity.
Qed.
Definition group_tags : list string := ["c:barDir"; "c:grouping"; "c:radarStyle"; "c:scatterStyle"; "c:varyColors"; "c:ser"; "c:gapWidth"; "c:overlap"; "c:dropLines"; "c:hiLowLines"; "c:upDownBars"; "c:marker"; "c:firstSliceAng"; "c:holeSize"; "c:axId"]%string.
Definition full_group (tag : string) (dir gr rs ss : option str) (vc : bool) (sers : list wx) (gap : option N) (ov : option Z) (dl hl : option (list format_op)) (ud : option (list format_op * list format_op)) (mk : bool) (tn ho : option N) (ids : list N) : wx :=
  elem tag [opt_xml dir (word_xml "c:barDir"); opt_xml gr (word_xml "c:grouping"); opt_xml rs (word_xml "c:radarStyle"); opt_xml ss (word_xml "c:scatterStyle"); when vc [flag_xml "c:varyColors"]; sers; opt_xml gap (num_xml "c:gapWidth");
            opt_xml ov (fun z => word_xml "c:overlap" (int_text z)); lines_of "c:dropLines" dl; lines_of "c:hiLowLines" hl; up_down_of ud; when mk [flag_xml "c:marker"]; opt_xml tn (num_xml "c:firstSliceAng"); opt_xml ho (num_xml "c:holeSize");
            map (num_xml "c:axId") ids].
Definition attr_maybe (o : option str) : Prop := match o with Some s => attr_ok s | None => True end.
Definition known_maybe (o : option (list format_op)) : Prop := match o with Some l => Forall format_known l | None => True end.
Lemma full_reads tag f dir gr rs ss vc sers gap ov dl hl ud mk tn ho ids list_ : attr_maybe dir -> attr_maybe gr -> attr_maybe rs -> attr_maybe ss -> known_maybe dl -> known_maybe hl ->
  match ud with Some (u, d) => Forall format_known u /\ Forall format_known d | None => True end -> family_in tag dir = Some f -> tag = group_tag f ->
  Forall wx_ok sers -> tagged "c:ser" sers -> read_all (read_ser f) (map node_of sers) = Some list_ ->
  wx_ok (full_group tag dir gr rs ss vc sers gap ov dl hl ud mk tn ho ids) /\ read_group (node_of (full_group tag dir gr rs ss vc sers gap ov dl hl ud mk tn ho ids)) =
  Some {| gr_kind := tag; gr_dir := dir; gr_grouping := gr; gr_radar := rs; gr_scatter := ss; gr_vary := vc; gr_series := list_; gr_gap := gap; gr_overlap := ov; gr_drop := option_map asked_shape dl; gr_high_low := option_map asked_shape hl;
    gr_up_down := option_map (fun p => (150, asked_shape (fst p), asked_shape (snd p))) ud; gr_markers := mk; gr_turn := tn; gr_hole := ho; gr_ids := ids |}.
Proof.
  intros A1 A2 A3 A4 A5 A6 A7 Fm Tg Ws Ts Rs. destruct (ids_read ids) as (Wi & Ti & Ri).
  pose proof (word_says dir "c:barDir" eq_refl A1) as S1. pose proof (word_says gr "c:grouping" eq_refl A2) as S2. pose proof (word_says rs "c:radarStyle" eq_refl A3) as S3. pose proof (word_says ss "c:scatterStyle" eq_refl A4) as S4.
  pose proof (num_says gap "c:gapWidth" eq_refl) as S5. pose proof (overlap_says ov) as S6. pose proof (lines_says "c:dropLines" dl eq_refl A5) as S7. pose proof (lines_says "c:hiLowLines" hl eq_refl A6) as S8.
  pose proof (up_down_says ud A7) as S9. pose proof (num_says tn "c:firstSliceAng" eq_refl) as S10. pose proof (num_says ho "c:holeSize" eq_refl) as S11. unfold full_group. split.
  - apply elem_ok; [rewrite Tg; destruct f; reflexivity|]. do 15 (apply Forall_cons; [first [exact (proj1 S1) | exact (proj1 S2) | exact (proj1 S3) | exact (proj1 S4) | exact (proj1 S5) | exact (proj1 S6) | exact (proj1 S7) | exact (proj1 S8) | exact (proj1 S9) |
      exact (proj1 S10) | exact (proj1 S11) | exact Ws | exact Wi | apply when_flag; reflexivity]|]). apply Forall_nil.
  - unfold read_group. rewrite elem_kids. cbv zeta. assert (Kd : forall ls, kind_of group_kinds (node_of (elem tag ls)) = Some tag) by (intros ls; rewrite Tg; destruct f; reflexivity). rewrite Kd. cbn [bind].
    assert (Tl : forall t o, tagged t (lines_of t o)) by (intros t o; unfold lines_of; apply tagged_opt; intros; reflexivity).
    tagging group_tags ltac:(unfold group_tags, up_down_of; repeat (first [apply Forall2_nil | apply Forall2_cons]); try assumption; try apply Tl; kinds). unfold group_tags in *.
    maybe_part K2 S1. rewrite Fm. cbn [bind]. maybe_part K2 S2. maybe_part K2 S3. maybe_part K2 S4. flag_at_part K2. rewrite (parts_filter "c:ser" _ _ K2). parted. rewrite Rs. cbn [bind]. maybe_part K2 S5. maybe_part K2 S6. maybe_part K2 S7.
    maybe_part K2 S8. maybe_part K2 S9. flag_at_part K2. maybe_part K2 S10. maybe_part K2 S11. rewrite (parts_filter "c:axId" _ _ K2). parted. rewrite Ri. cbn [bind]. reflexivity.
Qed.

Definition tracks (k : kind) (before : list (list series_op)) (w : wstate) : Prop :=
  match group_of k with FScatter => w_numeric w = false | _ => w_gap w = gap_seen before /\ w_overlap w = overlap_seen k before /\ w_numeric w = number_categories (e_cache E) before end.
Lemma new_tracks k n : tracks k [] (at_index (state_new k) n).
Proof. destruct k; repeat split; reflexivity. Qed.
Lemma last_app {A B} (f : A -> option B) d a b : last_of f d (a ++ b) = last_of f (last_of f d a) b.
Proof. unfold last_of. apply fold_left_app. Qed.
Notation asked_group := (asked_group (e_num E) (e_parses E) (e_cache E)).
Lemma grouping_same k : lit (grouping k) = grouping_word k. Proof. destruct k; reflexivity. Qed.
Lemma line_formats l : Forall (chart_known (quotable E)) l -> Forall format_known (c_drop_format l) /\ Forall format_known (c_high_low_format l) /\ Forall format_known (c_up l) /\ Forall format_known (c_down l) /\
  Forall format_known (c_area l) /\ Forall format_known (c_plot l).
Proof. intros K. repeat split; (apply (format_from _ (chart_known (quotable E))); [intros o v A B; destruct o; try discriminate; injection B as <-; exact A|exact K]). Qed.
Definition the_parts (k : kind) (l : list chart_op) (ids : N * N) (primary : bool) (gap : N) (ov : option Z) (sers : list wx) : wx :=
  let f := group_of k in
  let bars := match f with FBar | FColumn => true | _ => false end in
  let round := match f with FPie | FDoughnut => true | _ => false end in
  let only b (s : list format_op) := if (b : bool) then Some s else None in
  full_group (group_tag f) (match f with FBar => Some (lit "bar") | FColumn => Some (lit "col") | _ => None end) (match f with FArea | FBar | FColumn | FLine => Some (grouping_word k) | _ => None end)
    (match k with KRadarFilled => Some (lit "filled") | KRadar | KRadarMarkers => Some (lit "marker") | _ => None end)
    (match f, k with FScatter, (KScatterSmooth | KScatterSmoothMarkers) => Some (lit "smoothMarker") | FScatter, _ => Some (lit "lineMarker") | _, _ => None end) round sers
    (if bars && negb (gap =? 150) then Some gap else None) (if bars then ov else None) (match f with FArea | FLine | FStock => only (c_drop l) (c_drop_format l) | _ => None end)
    (match f with FLine => only (c_high_low l) (c_high_low_format l) | FStock => only (primary && c_high_low l) (c_high_low_format l) | _ => None end)
    (match f with FLine | FStock => if c_up_down l then Some (c_up l, c_down l) else None | _ => None end) (match f with FLine => true | _ => false end) (if round then Some (c_turn l) else None)
    (match f with FDoughnut => Some (c_hole l) | _ => None end) (if round then [] else [fst ids; snd ids]).
Lemma group_is k l c ids primary w sers : charted k l c ->
  let r := match group_of k with FScatter => write_scatter E k w sers | _ => write_series E k w sers end in
  group_xml E c ids primary w sers = (the_parts k l ids primary (w_gap (snd r)) (w_overlap (snd r)) (fst r), snd r).
Proof.
  intros C r. unfold group_xml. rewrite (h_kind _ _ _ C). change (match group_of k with FScatter => write_scatter E k w sers | _ => write_series E k w sers end) with r. destruct r as [xs v]. cbn [fst snd]. f_equal.
  unfold drop_xml, high_low_xml, up_down_xml. rewrite (h_drop _ _ _ C), (h_drop_format _ _ _ C), (h_high_low _ _ _ C), (h_high_low_format _ _ _ C), (h_up_down _ _ _ C), (h_up _ _ _ C), (h_down _ _ _ C), (h_turn _ _ _ C), (h_hole _ _ _ C), grouping_same.
  unfold the_parts, full_group, lines_of, up_down_of. cbv zeta.
  destruct k; cbn [group_of group_tag]; unfold elem; apply f_equal; cbn [concat opt_xml option_map when app map fst snd andb negb]; unfold ids_xml; cbn [app];
    destruct (c_drop l), (c_high_low l), (c_up_down l), primary, (w_gap v =? 150), (w_overlap v); cbn [andb negb when opt_xml app]; rewrite ?app_nil_r; reflexivity.
Qed.
Lemma group_reads k l c cs sers ids primary w before : charted k l c -> Forall (chart_known (quotable E)) l -> Forall (series_ready (quotable E) (group_of k)) cs -> Forall2 (dressed k) cs sers -> tracks k before w ->
  let r := group_xml E c ids primary w sers in
  wx_ok (fst r) /\ read_group (node_of (fst r)) = Some (asked_group k l ids primary (w_index w) before cs) /\ tag_of (fst r) = lit (group_tag (group_of k)) /\ w_index (snd r) = w_index w + N.of_nat (length cs) /\ tracks k (before ++ cs) (snd r).
Proof.
  intros C K R D T. cbv zeta. rewrite (group_is k l c ids primary w sers C). cbv zeta. set (r := match group_of k with FScatter => _ | _ => _ end).
  assert (H : series_made k w cs r /\ tracks k (before ++ cs) (snd r)).
  { subst r. unfold tracks in *. assert (X : group_of k = FScatter \/ group_of k <> FScatter) by (destruct (group_of k); first [left; reflexivity | right; discriminate]). destruct X as [G|G].
    - rewrite G in R, T |- *. destruct (scatter_written k cs G R sers w D) as (M & _ & _ & Nm). split; [exact M|]. rewrite Nm. exact T.
    - assert (Y : (match group_of k with FScatter => write_scatter E k w sers | _ => write_series E k w sers end) = write_series E k w sers) by (destruct (group_of k); try reflexivity; destruct (G eq_refl)). rewrite Y.
      destruct (series_written k cs G R sers w D) as (M & Gp & Ov & Nm). split; [exact M|]. unfold gap_seen, overlap_seen, number_categories in *. rewrite !last_app.
      destruct (group_of k); try (destruct T as (<- & <- & <-); repeat split; assumption). destruct (G eq_refl). }
  destruct H as [(W & Tg & Rd & Ix) T2]. cbn [fst snd]. destruct (line_formats l K) as (K1 & K2 & K3 & K4 & _ & _).
  assert (F : wx_ok (the_parts k l ids primary (w_gap (snd r)) (w_overlap (snd r)) (fst r)) /\ read_group (node_of (the_parts k l ids primary (w_gap (snd r)) (w_overlap (snd r)) (fst r))) =
    Some (asked_group k l ids primary (w_index w) before cs)); [|split; [exact (proj1 F)|]; split; [exact (proj2 F)|]; split; [reflexivity|]; split; [exact Ix|exact T2]].
  set (pr := the_parts _ _ _ _ _ _ _).
  assert (Fm : exists a b, wx_ok pr /\ read_group (node_of pr) = Some a /\ a = b /\ b = asked_group k l ids primary (w_index w) before cs).
  { eexists _, _. subst pr. unfold the_parts. cbv zeta. split; [|split; [|split; [reflexivity|]]].
    1, 2: eapply full_reads; [destruct k; exact I || reflexivity|destruct k; exact I || reflexivity|destruct k; exact I || reflexivity|destruct k; exact I || reflexivity| | | | | |exact W|exact Tg|exact Rd].
    all: try (destruct k; reflexivity).
    all: try (destruct (group_of k), (c_drop l); first [exact I | exact K1]).
    all: try (destruct (group_of k), (c_high_low l), primary; first [exact I | exact K2]).
    all: try (destruct (group_of k), (c_up_down l); first [exact I | exact (conj K3 K4)]).
    unfold Chart_Spec4.asked_group. cbv zeta. unfold tracks in T2.
    destruct k; cbn [group_of group_tag] in *; try destruct T2 as (Gp & Ov & _); rewrite ?Gp, ?Ov; cbn [andb negb]; destruct (c_drop l), (c_high_low l), (c_up_down l), primary; reflexivity. }
  destruct Fm as (a & b & F1 & F2 & <- & <-). split; assumption.
Qed.
End Env.
