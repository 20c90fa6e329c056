(** What the groups of series, the plot area, the legend and the part of a chart say, and what was asked of them.
    Of the model only the names of the calls, of the kinds of charts and their arguments are used. *)
From Verif Require Import Base F64 Xml_Spec Xml_Read Fmt_Model SheetXml_Spec Doc_Spec CF_Spec Note_Spec Cache_Model Spark_Model Spark_Spec Dml_Model Dml_Spec Chart_Model Chart_Series Chart_Axis Chart_Whole Chart_Spec Chart_Spec2 Chart_Spec3.

(** ** Groups of series *)
Record group := { gr_kind : string; gr_dir : option str; gr_grouping : option str; gr_radar : option str; gr_scatter : option str; gr_vary : bool; gr_series : list ser; gr_gap : option N; gr_overlap : option Z;
  gr_drop : option shape; gr_high_low : option shape; gr_up_down : option (N * shape * shape); gr_markers : bool; gr_turn : option N; gr_hole : option N; gr_ids : list N }.
Definition group_tag (f : family) : string :=
  match f with FArea => "c:areaChart" | FBar | FColumn => "c:barChart" | FDoughnut => "c:doughnutChart" | FLine => "c:lineChart" | FPie => "c:pieChart" | FRadar => "c:radarChart" | FScatter => "c:scatterChart" | FStock => "c:stockChart" end.
Definition group_kinds : list string := ["c:areaChart"; "c:barChart"; "c:doughnutChart"; "c:lineChart"; "c:pieChart"; "c:radarChart"; "c:scatterChart"; "c:stockChart"]%string.
Definition is_group (n : node) : bool := existsb (fun k => is_elem k n) group_kinds.
Definition is_axis (n : node) : bool := existsb (fun k => is_elem k n) axis_kinds.
(** Bars lie or stand. *)
Definition family_in (k : string) (dir : option str) : option family :=
  match dir with
  | Some d => if String.eqb k "c:barChart" then if str_eqb d (lit "bar") then Some FBar else if str_eqb d (lit "col") then Some FColumn else None else None
  | None => find (fun f => String.eqb k (group_tag f)) [FArea; FDoughnut; FLine; FPie; FRadar; FScatter; FStock]
  end.
Definition read_shape (n : node) : option shape := shape_in (kids_of n).
Definition read_up_down (n : node) : option (N * shape * shape) :=
  let l := kids_of n in bind (needed "c:gapWidth" number_val l) (fun g => bind (needed "c:upBars" read_shape l) (fun u => bind (needed "c:downBars" read_shape l) (fun d => Some (g, u, d)))).
Definition int_val (n : node) : option Z := bind (value_of n) int_of.
Definition read_group (n : node) : option group :=
  let l := kids_of n in
  bind (kind_of group_kinds n) (fun k => bind (maybe "c:barDir" value_of l) (fun dir => bind (family_in k dir) (fun f => bind (maybe "c:grouping" value_of l) (fun gr => bind (maybe "c:radarStyle" value_of l) (fun rs =>
  bind (maybe "c:scatterStyle" value_of l) (fun ss => bind (flag_at "c:varyColors" l) (fun vc => bind (read_all (read_ser f) (filter (is_elem "c:ser") l)) (fun sers => bind (maybe "c:gapWidth" number_val l) (fun gap =>
  bind (maybe "c:overlap" int_val l) (fun ov => bind (maybe "c:dropLines" read_shape l) (fun dl => bind (maybe "c:hiLowLines" read_shape l) (fun hl => bind (maybe "c:upDownBars" read_up_down l) (fun ud =>
  bind (flag_at "c:marker" l) (fun mk => bind (maybe "c:firstSliceAng" number_val l) (fun tn => bind (maybe "c:holeSize" number_val l) (fun ho => bind (read_all number_val (filter (is_elem "c:axId") l)) (fun ids =>
  Some {| gr_kind := k; gr_dir := dir; gr_grouping := gr; gr_radar := rs; gr_scatter := ss; gr_vary := vc; gr_series := sers; gr_gap := gap; gr_overlap := ov; gr_drop := dl; gr_high_low := hl; gr_up_down := ud;
          gr_markers := mk; gr_turn := tn; gr_hole := ho; gr_ids := ids |}))))))))))))))))).

(** ** Data table, legend *)
Record dtable := { ta_horizontal : bool; ta_vertical : bool; ta_outline : bool; ta_keys : bool; ta_shape : shape; ta_text : option text }.
Definition read_dtable (n : node) : option dtable :=
  let l := kids_of n in
  bind (flag_at "c:showHorzBorder" l) (fun h => bind (flag_at "c:showVertBorder" l) (fun v => bind (flag_at "c:showOutline" l) (fun o => bind (flag_at "c:showKeys" l) (fun k => bind (shape_in l) (fun s => bind (maybe "c:txPr" read_text l) (fun t =>
  Some {| ta_horizontal := h; ta_vertical := v; ta_outline := o; ta_keys := k; ta_shape := s; ta_text := t |})))))).
Record legend := { lr_place : str; lr_deleted : list N; lr_layout : layout; lr_shape : shape; lr_overlay : bool; lr_text : option text }.
Definition read_entry (n : node) : option N := bind (needed "c:idx" number_val (kids_of n)) (fun i => bind (flag_at "c:delete" (kids_of n)) (fun d => if d then Some i else None)).
Definition read_legend (n : node) : option legend :=
  let l := kids_of n in
  bind (needed "c:legendPos" value_of l) (fun p => bind (read_all read_entry (filter (is_elem "c:legendEntry") l)) (fun d => bind (needed "c:layout" read_layout l) (fun y => bind (shape_in l) (fun s =>
  bind (flag_at "c:overlay" l) (fun o => bind (maybe "c:txPr" read_text l) (fun t => Some {| lr_place := p; lr_deleted := d; lr_layout := y; lr_shape := s; lr_overlay := o; lr_text := t |})))))).

(** ** The plot area and the chart *)
Record plot := { pl_layout : layout; pl_groups : list group; pl_axes : list axis; pl_table : option dtable; pl_shape : shape }.
Definition read_plot (n : node) : option plot :=
  let l := kids_of n in
  bind (needed "c:layout" read_layout l) (fun y => bind (read_all read_group (filter is_group l)) (fun g => bind (read_all read_axis (filter is_axis l)) (fun a => bind (maybe "c:dTable" read_dtable l) (fun t => bind (shape_in l) (fun s =>
  Some {| pl_layout := y; pl_groups := g; pl_axes := a; pl_table := t; pl_shape := s |}))))).
Definition read_na (n : node) : option bool := needed "c:ext" (fun x => needed "c16r3:dataDisplayOptions16" (fun o => flag_at "c16r3:dispNaAsBlank" (kids_of o)) (kids_of x)) (kids_of n).
Record drawn := { dr_lang : str; dr_style : option N; dr_protected : bool; dr_title : option title; dr_untitled : bool; dr_plot : plot; dr_legend : option legend; dr_visible : bool; dr_blanks : option str; dr_na : option bool;
  dr_shape : shape; dr_print : bool }.
Definition has_kid (k : string) (l : list node) : bool := existsb (is_elem k) l.
Definition read_chart (n : node) : option drawn :=
  if is_elem "c:chartSpace" n then
  let l := kids_of n in
  bind (needed "c:lang" value_of l) (fun g => bind (maybe "c:style" number_val l) (fun st => bind (shape_in l) (fun s => bind (kid "c:chart" l) (fun c => let l' := kids_of c in
  bind (maybe "c:title" read_title l') (fun t => bind (flag_at "c:autoTitleDeleted" l') (fun d => bind (needed "c:plotArea" read_plot l') (fun p => bind (maybe "c:legend" read_legend l') (fun lg =>
  bind (flag_at "c:plotVisOnly" l') (fun v => bind (maybe "c:dispBlanksAs" value_of l') (fun b => bind (maybe "c:extLst" read_na l') (fun na =>
  Some {| dr_lang := g; dr_style := st; dr_protected := has_kid "c:protection" l; dr_title := t; dr_untitled := d; dr_plot := p; dr_legend := lg; dr_visible := v; dr_blanks := b; dr_na := na; dr_shape := s;
          dr_print := has_kid "c:printSettings" l |})))))))))))
  else None.

(** ** The calls on a chart *)
Definition series_calls (k : kind) (l : list chart_op) : list (list series_op) := flat_map (fun o => match o with ChAdd s => [s] | ChPush s => [s ++ dressing k] | _ => [] end) l.
Definition title_calls (l : list chart_op) : list title_op := flat_map (fun o => match o with ChTitle t => [t] | _ => [] end) l.
Definition axis_calls (w : which) (l : list chart_op) : list axis_op := flat_map (fun o => match w, o with AxisX, ChX a | AxisY, ChY a | AxisX2, ChX2 a | AxisY2, ChY2 a => [a] | _, _ => [] end) l.
Definition legend_calls (l : list chart_op) : list legend_op := flat_map (fun o => match o with ChLegend g => [g] | _ => [] end) l.
Definition c_area := last_of (fun o => match o with ChArea l => Some l | _ => None end) [].
Definition c_plot := last_of (fun o => match o with ChPlot l => Some l | _ => None end) [].
Definition c_plot_layout := last_of (fun o => match o with ChPlotLayout l => Some l | _ => None end) [].
Definition c_style := last_of (fun o => match o with ChStyle n => if (1 <=? n) && (n <=? 48) then Some n else None | _ => None end) 2.
Definition c_turn := last_of (fun o => match o with ChRotation n => if n <=? 360 then Some n else None | _ => None end) 0.
Definition c_hole := last_of (fun o => match o with ChHole n => if n <=? 90 then Some n else None | _ => None end) 50.
Definition c_up_down := last_of (fun o => match o with ChUpDown b => Some b | ChUp _ | ChDown _ => Some true | _ => None end) false.
Definition c_up := last_of (fun o => match o with ChUp l => Some l | _ => None end) [].
Definition c_down := last_of (fun o => match o with ChDown l => Some l | _ => None end) [].
Definition c_high_low := last_of (fun o => match o with ChHighLow b => Some b | ChHighLowFormat _ => Some true | _ => None end) false.
Definition c_high_low_format := last_of (fun o => match o with ChHighLowFormat l => Some l | _ => None end) [].
Definition c_drop := last_of (fun o => match o with ChDrop b => Some b | ChDropFormat _ => Some true | _ => None end) false.
Definition c_drop_format := last_of (fun o => match o with ChDropFormat l => Some l | _ => None end) [].
Definition c_table := last_of (fun o => match o with ChTable l => Some (Some l) | _ => None end) None.
Definition c_empty := last_of (fun o => match o with ChEmpty n => Some (Some n) | _ => None end) None.
Definition c_na (l : list chart_op) : bool := existsb (fun o => match o with ChNa => true | _ => false end) l.
Definition c_hidden_data (l : list chart_op) : bool := existsb (fun o => match o with ChHiddenData => true | _ => false end) l.
Definition numbered_from {A} (first : N) (l : list A) : list (N * A) := combine (map (fun n => first + N.of_nat n) (seq 0 (length l))) l.
Definition grouping_word (k : kind) : str :=
  match k with
  | KBar | KColumn => lit "clustered"
  | KAreaStacked | KBarStacked | KColumnStacked | KLineStacked => lit "stacked"
  | KAreaPercent | KBarPercent | KColumnPercent | KLinePercent => lit "percentStacked"
  | _ => lit "standard"
  end.
(** The gap and the overlap of a group: those of the last series written so far which asks for one (also if that series is in the other group: refuted below). *)
Definition gap_seen := last_of (fun s => if series_gap s =? 150 then None else Some (series_gap s)) 150.
Definition overlap_seen (k : kind) := last_of (fun s => option_map Some (series_overlap s)) (match k with KBarStacked | KBarPercent | KColumnStacked | KColumnPercent => Some 100%Z | _ => None end).
Definition table_horizontal := last_of (fun o => match o with DtHorizontal b => Some b | _ => None end) true.
Definition table_vertical := last_of (fun o => match o with DtVertical b => Some b | _ => None end) true.
Definition table_outline := last_of (fun o => match o with DtOutline b => Some b | _ => None end) true.
Definition table_keys := last_of (fun o => match o with DtKeys b => Some b | _ => None end) false.
Definition table_font := last_of (fun o => match o with DtFont l => Some (Some l) | _ => None end) None.
Definition table_format := last_of (fun o => match o with DtFormat l => Some l | _ => None end) [].
Definition legend_place := last_of (fun o => match o with LgPosition n => Some n | _ => None end) 0.
Definition legend_off (l : list legend_op) : bool := existsb (fun o => match o with LgHidden => true | _ => false end) l.
Definition legend_overlay := last_of (fun o => match o with LgOverlay b => Some b | _ => None end) false.
Definition legend_format := last_of (fun o => match o with LgFormat l => Some l | _ => None end) [].
Definition legend_font := last_of (fun o => match o with LgFont l => Some (Some l) | _ => None end) None.
Definition legend_deletes := last_of (fun o => match o with LgDelete l => Some l | _ => None end) [].
Definition legend_layout := last_of (fun o => match o with LgLayout l => Some l | _ => None end) [].
Definition trend_deleted := last_of (fun o => match o with TrDelete b => Some b | _ => None end) false.
Definition has_trend (s : list series_op) : bool := match asked_trend_type (series_trend s) with TrNone => false | _ => true end.
(** Entries of the legend: one for each series in the order of the calls, then one for each trendline. *)
Definition entries_off (sers : list (list series_op)) : list N :=
  map fst (filter (fun p => series_deleted (snd p)) (numbered_from 0 sers)) ++
  map fst (filter (fun p => trend_deleted (series_trend (snd p))) (numbered_from (N.of_nat (length sers)) (filter has_trend sers))).
Section Numbers.
Variable num : f64 -> str.
Variable parses : str -> bool.
Variable data : crange -> cache.
Notation asked_ser := (asked_ser num parses data).
Notation asked_axis := (asked_axis num parses data).
(** [before]: the series of the chart that are written before those of the group; [first]: the number of the group's first series. *)
Definition asked_group (k : kind) (l : list chart_op) (ids : N * N) (primary : bool) (first : N) (before mine : list (list series_op)) : group :=
  let f := group_of k in
  let bars := match f with FBar | FColumn => true | _ => false end in
  let round := match f with FPie | FDoughnut => true | _ => false end in
  let lines b (s : list format_op) := if (b : bool) then Some (asked_shape s) else None in
  {| gr_kind := group_tag f; gr_dir := match f with FBar => Some (lit "bar") | FColumn => Some (lit "col") | _ => None end;
     gr_grouping := match f with FArea | FBar | FColumn | FLine => Some (grouping_word k) | _ => None end;
     gr_radar := match k with KRadarFilled => Some (lit "filled") | KRadar | KRadarMarkers => Some (lit "marker") | _ => None end;
     gr_scatter := match f, k with FScatter, (KScatterSmooth | KScatterSmoothMarkers) => Some (lit "smoothMarker") | FScatter, _ => Some (lit "lineMarker") | _, _ => None end;
     gr_vary := round; gr_series := map (fun p => asked_ser k (fst p) (snd p)) (numbered_from first mine);
     gr_gap := if bars && negb (gap_seen (before ++ mine) =? 150) then Some (gap_seen (before ++ mine)) else None; gr_overlap := if bars then overlap_seen k (before ++ mine) else None;
     gr_drop := match f with FArea | FLine | FStock => lines (c_drop l) (c_drop_format l) | _ => None end;
     gr_high_low := match f with FLine => lines (c_high_low l) (c_high_low_format l) | FStock => lines (primary && c_high_low l) (c_high_low_format l) | _ => None end;
     gr_up_down := match f with FLine | FStock => if c_up_down l then Some (150, asked_shape (c_up l), asked_shape (c_down l)) else None | _ => None end;
     gr_markers := match f with FLine => true | _ => false end; gr_turn := if round then Some (c_turn l) else None; gr_hole := match f with FDoughnut => Some (c_hole l) | _ => None end;
     gr_ids := if round then [] else [fst ids; snd ids] |}.
(** The series on the primary axes come before those on the secondary axes. *)
Definition front (sers : list (list series_op)) := filter (fun s => negb (on_secondary s)) sers.
Definition back (sers : list (list series_op)) := filter on_secondary sers.
Definition unless_empty {A B} (l : list A) (b : B) : list B := match l with [] => [] | _ => [b] end.
Definition asked_groups (k : kind) (l : list chart_op) (ids ids2 : N * N) (first : N) : list group :=
  let sers := series_calls k l in
  unless_empty (front sers) (asked_group k l ids true first [] (front sers)) ++
  unless_empty (back sers) (asked_group k l ids2 false (first + N.of_nat (length (front sers))) (front sers) (back sers)).
(** Whether the categories are numbers is what the last series with categories says. *)
Definition number_categories (sers : list (list series_op)) : bool :=
  last_of (fun s => if range_given (the_categories s) then Some (match c_type (data (the_categories s)) with TString => false | _ => true end) else None) false sers.
Definition usual_code (k : kind) : str := match k with KAreaPercent | KBarPercent | KColumnPercent | KLinePercent => lit "0%" | _ => lit "General" end.
Definition both (ids : N * N) : N * N := (snd ids, fst ids).
Definition written (sers : list (list series_op)) := front sers ++ back sers.
(** [f]: what the axes are drawn for; [date]: whether the categories are dates; [keep]: crossing axes are also given if the axis is hidden. *)
Definition asked_pair (f : family) (date keep numeric reversed : bool) (code : str) (ids : N * N) (xu : usual) (xl : list axis_op) (yu : usual) (yl : list axis_op) : list axis :=
  let '((u, l), (v, m)) := match f with FBar => ((yu, yl), (xu, xl)) | _ => ((xu, xl), (yu, yl)) end in
  let first := match f with
    | FScatter => asked_axis Values true (Some (code, true)) ids u l v m
    | _ => if date then asked_axis Dates (keep || negb (x_hidden u l)) (if numeric then Some (lit "dd/mm/yyyy", true) else None) ids u l v m
           else asked_axis Categories (keep || negb (x_hidden u l)) (if numeric then Some (lit "General", true) else None) ids u l v m
    end in
  let second := asked_axis Values true (Some (code, true)) (both ids) v m u l in
  match f with FPie | FDoughnut => [] | _ => if reversed then [second; first] else [first; second] end.
Definition crosses_kept (f : family) : bool := match f with FArea | FBar | FStock => false | _ => true end.
Definition is_dated (u : usual) (l : list axis_op) : bool := match x_type u l with AxDate => true | _ => false end.
Definition is_there {A} (o : option A) : bool := match o with Some _ => true | None => false end.
Definition asked_axes (k : kind) (l : list chart_op) (combined : option (kind * list chart_op)) (ids ids2 : N * N) : list axis :=
  let f := group_of k in let at_ w := usual_axis f w in let sers := series_calls k l in
  let numeric := match f with FScatter => false | _ => number_categories (written sers) end in
  let date := is_dated (at_ AxisX) (axis_calls AxisX l) in
  let g := match combined with Some (k2, _) => group_of k2 | None => f end in
  let others := match combined with Some (k2, l2) => series_calls k2 l2 | None => [] end in
  asked_pair f date (crosses_kept f) numeric false (usual_code k) ids (at_ AxisX) (axis_calls AxisX l) (at_ AxisY) (axis_calls AxisY l) ++
  (if existsb on_secondary sers || existsb on_secondary others then
     asked_pair g date (crosses_kept f) numeric (match g with FScatter => is_there combined | _ => true end) (usual_code k) ids2 (at_ AxisX2) (axis_calls AxisX2 l) (at_ AxisY2) (axis_calls AxisY2 l)
   else []).
Definition asked_dtable (l : list dtable_op) : dtable :=
  {| ta_horizontal := table_horizontal l; ta_vertical := table_vertical l; ta_outline := table_outline l; ta_keys := table_keys l; ta_shape := asked_shape (table_format l); ta_text := option_map (asked_text num false) (table_font l) |}.
(** The numbers of the axes: each chart of a workbook has its own. *)
Definition first_ids (id : N) : N * N := let i := (5000 + id) * 10000 + 1 in (i, i + 1).
Definition second_ids (id : N) (combined : bool) : N * N := let i := (5000 + id) * 10000 + 1 in if combined then (i + 10000000, i + 10000001) else (i + 2, i + 3).
Definition asked_plot (id : N) (k : kind) (l : list chart_op) (combined : option (kind * list chart_op)) : plot :=
  let ids := first_ids id in let ids2 := second_ids id (is_there combined) in
  {| pl_layout := asked_layout num true true (c_plot_layout l);
     pl_groups := asked_groups k l ids ids2 0 ++ match combined with Some (k2, l2) => asked_groups k2 l2 ids ids2 (N.of_nat (length (series_calls k l))) | None => [] end;
     pl_axes := asked_axes k l combined ids ids2; pl_table := option_map asked_dtable (c_table l); pl_shape := asked_shape (c_plot l) |}.
(** The legend of a pie or doughnut chart is written from left to right unless asked otherwise. *)
Definition legend_text (f : family) (o : option (list font_op)) : option text :=
  match f with
  | FPie | FDoughnut => let t := asked_text num false (match o with Some l => l | None => [] end) in
      Some {| te_turn := te_turn t; te_rtl := match te_rtl t with None => Some false | r => r end; te_letters := te_letters t |}
  | _ => option_map (asked_text num false) o
  end.
Definition asked_legend (k : kind) (l : list chart_op) : option legend :=
  let g := legend_calls l in
  if legend_off g then None else
    Some {| lr_place := word_at ["r"; "l"; "t"; "b"; "tr"]%string (legend_place g); lr_deleted := match legend_deletes g with [] => entries_off (series_calls k l) | d => d end;
            lr_layout := asked_layout num false true (legend_layout g); lr_shape := asked_shape (legend_format g); lr_overlay := legend_overlay g; lr_text := legend_text (group_of k) (legend_font g) |}.
Definition asked_chart (sheet protected : bool) (id : N) (k : kind) (l : list chart_op) (combined : option (kind * list chart_op)) : drawn :=
  {| dr_lang := lit "en-US"; dr_style := if c_style l =? 2 then None else Some (c_style l); dr_protected := protected;
     dr_title := if title_off (title_calls l) then None else asked_title num parses data false (title_calls l); dr_untitled := title_off (title_calls l); dr_plot := asked_plot id k l combined;
     dr_legend := asked_legend k l; dr_visible := negb (c_hidden_data l); dr_blanks := option_map (word_at ["gap"; "zero"; "span"]%string) (c_empty l); dr_na := if c_na l then Some true else None;
     dr_shape := asked_shape (c_area l); dr_print := negb sheet |}.
End Numbers.
Section Known.
Variable q : str -> Prop.
Definition legend_known (o : legend_op) : Prop := match o with LgPosition n => n < 5 | LgFormat l => Forall format_known l | LgFont l => Forall font_known l | _ => True end.
Definition dtable_known (o : dtable_op) : Prop := match o with DtFormat l => Forall format_known l | DtFont l => Forall font_known l | _ => True end.
Definition chart_known (o : chart_op) : Prop :=
  match o with
  | ChTitle t => title_known q t
  | ChX a | ChY a | ChX2 a | ChY2 a => axis_known q a
  | ChLegend g => legend_known g
  | ChArea l | ChPlot l | ChUp l | ChDown l | ChHighLowFormat l | ChDropFormat l => Forall format_known l
  | ChTable l => Forall dtable_known l
  | ChEmpty n => n < 3
  | _ => True
  end.
(** What a chart needs. *)
Definition chart_ready (k : kind) (l : list chart_op) : Prop :=
  Forall chart_known l /\ Forall (series_ready q (group_of k)) (series_calls k l) /\ settled (names_of (title_calls l)) /\ forall w, settled (names_of (axis_title_calls (axis_calls w l))).
End Known.
