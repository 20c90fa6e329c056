(** Model of the chart part, src/chart.rs: the chart, its groups of series, the plot area, the legend, the part. *)
From Verif Require Import Base F64 Xml_Model Xml_Tree Fmt_Model Ref_Model Rich_Model CF_Model Doc_Model Cache_Model Spark_Model Dml_Model Draw_Model Chart_Model Chart_Series Chart_Axis.

(** ** Legend *)
(** src/chart.rs:12732-13140; positions 13152-13179: right, left, top, bottom, top right *)
Record clegend := { lg_position : N; lg_hidden : bool; lg_overlay : bool; lg_format : dformat; lg_font : option cfont; lg_deleted : list N; lg_layout : clayout }.
Inductive legend_op := LgHidden | LgPosition (n : N) | LgOverlay (b : bool) | LgLayout (l : list layout_op) | LgFormat (l : list format_op) | LgFont (l : list font_op) | LgDelete (l : list N).
Definition legend_new : clegend := {| lg_position := 0; lg_hidden := false; lg_overlay := false; lg_format := format_new; lg_font := None; lg_deleted := []; lg_layout := layout_new |}.
Definition legend_step (g : clegend) (o : legend_op) : clegend :=
  {| lg_position := match o with LgPosition n => n | _ => lg_position g end;
     lg_hidden := match o with LgHidden => true | _ => lg_hidden g end;
     lg_overlay := match o with LgOverlay b => b | _ => lg_overlay g end;
     lg_format := match o with LgFormat l => chart_format l | _ => lg_format g end;
     lg_font := match o with LgFont l => Some (make_font l) | _ => lg_font g end;
     lg_deleted := match o with LgDelete l => l | _ => lg_deleted g end;
     lg_layout := match o with LgLayout l => with_layout (make_layout l) false true | _ => lg_layout g end |}.
(** ** Data table *)
(** src/chart.rs:17074-17206 *)
Record ctable := { dt_horizontal : bool; dt_vertical : bool; dt_outline : bool; dt_keys : bool; dt_font : option cfont; dt_format : dformat }.
Inductive dtable_op := DtHorizontal (b : bool) | DtVertical (b : bool) | DtOutline (b : bool) | DtKeys (b : bool) | DtFormat (l : list format_op) | DtFont (l : list font_op).
Definition dtable_step (t : ctable) (o : dtable_op) : ctable :=
  {| dt_horizontal := match o with DtHorizontal b => b | _ => dt_horizontal t end;
     dt_vertical := match o with DtVertical b => b | _ => dt_vertical t end;
     dt_outline := match o with DtOutline b => b | _ => dt_outline t end;
     dt_keys := match o with DtKeys b => b | _ => dt_keys t end;
     dt_font := match o with DtFont l => Some (make_font l) | _ => dt_font t end;
     dt_format := match o with DtFormat l => chart_format l | _ => dt_format t end |}.
Definition make_dtable (l : list dtable_op) : ctable :=
  fold_left dtable_step l {| dt_horizontal := true; dt_vertical := true; dt_outline := true; dt_keys := false; dt_font := None; dt_format := format_new |}.

(** ** The chart *)
Record chart := {
  ch_kind : kind; ch_series : list series; ch_title : ctitle; ch_x : caxis; ch_y : caxis; ch_x2 : caxis; ch_y2 : caxis; ch_legend : clegend; ch_area : dformat; ch_plot : dformat; ch_plot_layout : clayout;
  ch_style : N; ch_rotation : N; ch_hole : N; ch_up_down : bool; ch_up : dformat; ch_down : dformat; ch_high_low : bool; ch_high_low_format : dformat; ch_drop : bool; ch_drop_format : dformat;
  ch_table : option ctable; ch_empty : option N; ch_na : bool; ch_hidden_data : bool }.
(** src/chart.rs:2894-3132: the axes of a new chart *)
Definition first_axis (a : caxis) (t : axis_type) (position : N) (between horizontal grid automatic : bool) (tick : option N) (c : crossing) (hidden : bool) (labels : N) : caxis :=
  {| ax_type := t; ax_position := position; ax_labels := labels;
     ax_title := {| ti_range := no_range; ti_name := []; ti_hidden := false; ti_format := format_new; ti_font := font_new; ti_horizontal := horizontal; ti_plain := false; ti_layout := layout_new; ti_overlay := false |};
     ax_format := ax_format a; ax_font := ax_font a; ax_num_format := ax_num_format a; ax_reverse := ax_reverse a; ax_hidden := hidden; ax_automatic := automatic;
     ax_between := between; ax_max := ax_max a; ax_min := ax_min a; ax_major := ax_major a; ax_minor := ax_minor a; ax_major_grid := grid; ax_minor_grid := ax_minor_grid a; ax_major_line := ax_major_line a;
     ax_minor_line := ax_minor_line a; ax_log := ax_log a; ax_label_interval := ax_label_interval a; ax_tick_interval := ax_tick_interval a; ax_major_tick := tick; ax_minor_tick := ax_minor_tick a;
     ax_major_date := ax_major_date a; ax_minor_date := ax_minor_date a; ax_units := ax_units a; ax_units_shown := ax_units_shown a; ax_crossing := c; ax_align := ax_align a |}.
(** type, position, between ticks, title turned, major gridlines, automatic, major tick, crossing, hidden, labels *)
Definition first_x (f : family) : caxis :=
  match f with
  | FArea => first_axis axis_new AxCategory 1 false false false false None CrAutomatic false 0
  | FBar => first_axis axis_new AxValue 1 true false true false None CrAutomatic false 0
  | FColumn | FLine => first_axis axis_new AxCategory 1 true false false false None CrAutomatic false 0
  | FDoughnut | FPie => axis_new
  | FRadar => first_axis axis_new AxCategory 1 true false true false None CrAutomatic false 0
  | FScatter => first_axis axis_new AxValue 1 false false false false None CrAutomatic false 0
  | FStock => first_axis axis_new AxDate 1 true false false true None CrAutomatic false 0
  end.
Definition first_y (f : family) : caxis :=
  match f with
  | FArea | FLine | FStock => first_axis axis_new AxValue 2 true true true false None CrAutomatic false 0
  | FBar => first_axis axis_new AxCategory 2 true true false false None CrAutomatic false 0
  | FColumn => first_axis axis_new AxValue 2 true false true false None CrAutomatic false 0
  | FDoughnut | FPie => axis_new
  | FRadar => first_axis axis_new AxValue 2 true false true false (Some 3) CrAutomatic false 0
  | FScatter => first_axis axis_new AxValue 2 false true true false None CrAutomatic false 0
  end.
Definition first_x2 (f : family) : caxis :=
  match f with
  | FArea => first_axis axis_new AxCategory 1 false false false false None CrMax true 3
  | FBar => first_axis axis_new AxCategory 1 true false false false None CrAutomatic false 0
  | FColumn | FLine => first_axis axis_new AxCategory 1 true false false false None CrMax true 3
  | FDoughnut | FPie | FRadar => axis_new
  | FScatter => first_axis axis_new AxValue 1 false false false false None CrMax true 3
  | FStock => first_axis axis_new AxDate 1 true false false true None CrMax true 3
  end.
Definition first_y2 (f : family) : caxis :=
  match f with
  | FArea | FColumn | FLine | FStock => first_axis axis_new AxValue 2 true false false false None CrAutomatic false 0
  | FBar => first_axis axis_new AxValue 2 true false false false None CrMax true 3
  | FDoughnut | FPie | FRadar => axis_new
  | FScatter => first_axis axis_new AxValue 2 false false false false None CrAutomatic false 0
  end.
(** src/chart.rs:927-1019 *)
Definition chart_new (k : kind) : chart :=
  let f := group_of k in
  {| ch_kind := k; ch_series := []; ch_title := title_new; ch_x := first_x f; ch_y := first_y f; ch_x2 := first_x2 f; ch_y2 := first_y2 f; ch_legend := legend_new; ch_area := format_new; ch_plot := format_new;
     ch_plot_layout := layout_new; ch_style := 2; ch_rotation := 0; ch_hole := 50; ch_up_down := false; ch_up := format_new; ch_down := format_new; ch_high_low := false; ch_high_low_format := format_new;
     ch_drop := false; ch_drop_format := format_new; ch_table := None; ch_empty := None; ch_na := false; ch_hidden_data := false |}.
(** src/chart.rs:1170-1192, 1254-1276: what a series of this kind of chart is given *)
Definition hidden_line : dformat := chart_format [FoLine [LnWidth (fdiv (f_of_N 9) (f_of_N 4)); LnHidden true]].
Definition unmarked (k : kind) : bool := match k with KScatterStraight | KScatterSmooth | KRadar | KLine | KLineStacked | KLinePercent => true | _ => false end.
Definition dress (k : kind) (s : series) : series :=
  {| se_values := se_values s; se_categories := se_categories s; se_title := se_title s; se_format := match k with KScatter => hidden_line | _ => se_format s end;
     se_marker := if unmarked k then Some (make_marker [MkNone]) else se_marker s; se_label := se_label s; se_points := se_points s; se_custom := se_custom s; se_gap := se_gap s; se_overlap := se_overlap s;
     se_invert := se_invert s; se_inverted := se_inverted s; se_trend := se_trend s; se_xbars := se_xbars s; se_ybars := se_ybars s; se_delete := se_delete s; se_smooth := se_smooth s; se_secondary := se_secondary s |}.
Definition added (k : kind) (l : list series_op) : series := make_series (dress k series_new) l.
Definition pushed (k : kind) (l : list series_op) : series := dress k (make_series series_new l).
Inductive chart_op := ChAdd (l : list series_op) | ChPush (l : list series_op) | ChTitle (o : title_op) | ChX (o : axis_op) | ChY (o : axis_op) | ChX2 (o : axis_op) | ChY2 (o : axis_op) | ChLegend (o : legend_op)
| ChArea (l : list format_op) | ChPlot (l : list format_op) | ChPlotLayout (l : list layout_op) | ChStyle (n : N) | ChRotation (n : N) | ChHole (n : N) | ChUpDown (b : bool) | ChUp (l : list format_op) | ChDown (l : list format_op)
| ChHighLow (b : bool) | ChHighLowFormat (l : list format_op) | ChDrop (b : bool) | ChDropFormat (l : list format_op) | ChTable (l : list dtable_op) | ChEmpty (n : N) | ChNa | ChHiddenData.
(** src/chart.rs:1170-2780 *)
Definition chart_step (c : chart) (o : chart_op) : chart :=
  {| ch_kind := ch_kind c;
     ch_series := match o with ChAdd l => ch_series c ++ [added (ch_kind c) l] | ChPush l => ch_series c ++ [pushed (ch_kind c) l] | _ => ch_series c end;
     ch_title := match o with ChTitle t => title_step (ch_title c) t | _ => ch_title c end;
     ch_x := match o with ChX a => axis_step (ch_x c) a | _ => ch_x c end;
     ch_y := match o with ChY a => axis_step (ch_y c) a | _ => ch_y c end;
     ch_x2 := match o with ChX2 a => axis_step (ch_x2 c) a | _ => ch_x2 c end;
     ch_y2 := match o with ChY2 a => axis_step (ch_y2 c) a | _ => ch_y2 c end;
     ch_legend := match o with ChLegend g => legend_step (ch_legend c) g | _ => ch_legend c end;
     ch_area := match o with ChArea l => chart_format l | _ => ch_area c end;
     ch_plot := match o with ChPlot l => chart_format l | _ => ch_plot c end;
     ch_plot_layout := match o with ChPlotLayout l => with_layout (make_layout l) true true | _ => ch_plot_layout c end;
     ch_style := match o with ChStyle n => if (1 <=? n) && (n <=? 48) then n else ch_style c | _ => ch_style c end;
     ch_rotation := match o with ChRotation n => if n <=? 360 then n else ch_rotation c | _ => ch_rotation c end;
     ch_hole := match o with ChHole n => if n <=? 90 then n else ch_hole c | _ => ch_hole c end;
     ch_up_down := match o with ChUpDown b => b | ChUp _ | ChDown _ => true | _ => ch_up_down c end;
     ch_up := match o with ChUp l => chart_format l | _ => ch_up c end;
     ch_down := match o with ChDown l => chart_format l | _ => ch_down c end;
     ch_high_low := match o with ChHighLow b => b | ChHighLowFormat _ => true | _ => ch_high_low c end;
     ch_high_low_format := match o with ChHighLowFormat l => chart_format l | _ => ch_high_low_format c end;
     ch_drop := match o with ChDrop b => b | ChDropFormat _ => true | _ => ch_drop c end;
     ch_drop_format := match o with ChDropFormat l => chart_format l | _ => ch_drop_format c end;
     ch_table := match o with ChTable l => Some (make_dtable l) | _ => ch_table c end;
     ch_empty := match o with ChEmpty n => Some n | _ => ch_empty c end;
     ch_na := match o with ChNa => true | _ => ch_na c end;
     ch_hidden_data := match o with ChHiddenData => true | _ => ch_hidden_data c end |}.
Definition make_chart (k : kind) (l : list chart_op) : chart := fold_left chart_step l (chart_new k).
(** src/chart.rs:2690-2744 validate: of the chart that is inserted, not of the one combined with it. [range_fine] is ChartRange::validate (C69). *)
Definition trend_fine (t : trend) : bool := match t with TrPolynomial n => (2 <=? n) && (n <? 6) | TrMoving n => (2 <=? n) && (n <? 4) | _ => true end.
Definition series_fine (range_fine : crange -> bool) (f : family) (s : series) : bool :=
  range_given (se_values s) && (negb (is_family f FScatter) || range_given (se_categories s)) && range_fine (se_values s) && (negb (range_given (se_categories s)) || range_fine (se_categories s)) &&
  trend_fine (tr_type (se_trend s)).
Definition chart_fine (range_fine : crange -> bool) (c : chart) : bool :=
  negb (is_nil (ch_series c)) && forallb (series_fine range_fine (group_of (ch_kind c))) (ch_series c).

(** ** What writing changes *)
(** src/chart.rs: series_index, overlap, gap, category_has_num_format; they are fields of the chart and stay after a save *)
Record wstate := { w_index : N; w_overlap : option Z; w_gap : N; w_numeric : bool }.
Definition stacked_bars (k : kind) : bool := match k with KBarStacked | KBarPercent | KColumnStacked | KColumnPercent => true | _ => false end.
Definition state_new (k : kind) : wstate := {| w_index := 0; w_overlap := if stacked_bars k then Some 100%Z else None; w_gap := 150; w_numeric := false |}.
Definition at_index (w : wstate) (n : N) : wstate := {| w_index := n; w_overlap := w_overlap w; w_gap := w_gap w; w_numeric := w_numeric w |}.
Definition grouping (k : kind) : string :=
  match k with
  | KBar | KColumn => "clustered"
  | KAreaStacked | KBarStacked | KColumnStacked | KLineStacked => "stacked"
  | KAreaPercent | KBarPercent | KColumnPercent | KLinePercent => "percentStacked"
  | _ => "standard"
  end.
Definition default_format (k : kind) : str := match k with KAreaPercent | KBarPercent | KColumnPercent | KLinePercent => lit "0%" | _ => lit "General" end.
Section Env.
Variable E : env.
Definition after_series (w : wstate) (s : series) : wstate :=                                (* 3776-3783, 3839-3844, 3863 *)
  {| w_index := w_index w + 1; w_overlap := match se_overlap s with Some z => Some z | None => w_overlap w end; w_gap := if se_gap s =? 150 then w_gap w else se_gap s;
     w_numeric := if range_given (se_categories s) then match c_type (e_cache E (se_categories s)) with TString => false | _ => true end else w_numeric w |}.
(** src/chart.rs:3769-3867, 3870-3950 *)
Fixpoint write_series (k : kind) (w : wstate) (l : list series) : list wx * wstate :=
  match l with
  | [] => ([], w)
  | s :: r => let (xs, v) := write_series k (after_series w s) r in (series_xml E k (w_index w) s :: xs, v)
  end.
Fixpoint write_scatter (k : kind) (w : wstate) (l : list series) : list wx * wstate :=
  match l with
  | [] => ([], w)
  | s :: r => let (xs, v) := write_scatter k (at_index w (w_index w + 1)) r in (scatter_xml E k (w_index w) s :: xs, v)
  end.
(** src/chart.rs:5381-5450 *)
Definition lines_xml (tag : string) (f : dformat) : wx := elem tag [sp_pr f].
Definition up_down_xml (c : chart) : wx := elem "c:upDownBars" [[num_xml "c:gapWidth" 150]; [lines_xml "c:upBars" (ch_up c)]; [lines_xml "c:downBars" (ch_down c)]].
Definition drop_xml (c : chart) : list wx := when (ch_drop c) [lines_xml "c:dropLines" (ch_drop_format c)].
Definition high_low_xml (b : bool) (c : chart) : list wx := when (b && ch_high_low c) [lines_xml "c:hiLowLines" (ch_high_low_format c)].
(** src/chart.rs:4179-4194 *)
Definition ids_xml (ids : N * N) : list wx := [num_xml "c:axId" (fst ids); num_xml "c:axId" (snd ids)].
(** src/chart.rs:3135-3390: one group of series; 3741-3753, 6158-6168: the styles of scatter and radar charts *)
Definition group_xml (c : chart) (ids : N * N) (primary : bool) (w : wstate) (l : list series) : wx * wstate :=
  let k := ch_kind c in
  let '(sers, v) := match group_of k with FScatter => write_scatter k w l | _ => write_series k w l end in
  let group := [word_xml "c:grouping" (lit (grouping k))] in
  let bars dir := elem "c:barChart" [[word_xml "c:barDir" (lit dir)]; group; sers; when (negb (w_gap v =? 150)) [num_xml "c:gapWidth" (w_gap v)];
                                     opt_xml (w_overlap v) (fun z => word_xml "c:overlap" (int_text z)); ids_xml ids] in
  let slices := [num_xml "c:firstSliceAng" (ch_rotation c)] in
  (match group_of k with
   | FArea => elem "c:areaChart" [group; sers; drop_xml c; ids_xml ids]
   | FBar => bars "bar"%string
   | FColumn => bars "col"%string
   | FDoughnut => elem "c:doughnutChart" [[flag_xml "c:varyColors"]; sers; slices; [num_xml "c:holeSize" (ch_hole c)]]
   | FLine => elem "c:lineChart" [group; sers; drop_xml c; high_low_xml true c; when (ch_up_down c) [up_down_xml c]; [flag_xml "c:marker"]; ids_xml ids]
   | FPie => elem "c:pieChart" [[flag_xml "c:varyColors"]; sers; slices]
   | FRadar => elem "c:radarChart" [[word_xml "c:radarStyle" (if is_kind k KRadarFilled then lit "filled" else lit "marker")]; sers; ids_xml ids]
   | FScatter => elem "c:scatterChart" [[word_xml "c:scatterStyle" (if smooth_kind k then lit "smoothMarker" else lit "lineMarker")]; sers; ids_xml ids]
   | FStock => elem "c:stockChart" [sers; drop_xml c; high_low_xml primary c; when (ch_up_down c) [up_down_xml c]; ids_xml ids]
   end, v).
(** src/chart.rs:3756-3766, 3623-3674 *)
Definition write_group (c : chart) (ids : N * N) (primary : bool) (w : wstate) : list wx * wstate :=
  match filter (fun s => xorb (se_secondary s) primary) (ch_series c) with
  | [] => ([], w)
  | l => let (x, v) := group_xml c ids primary w l in ([x], v)
  end.
Definition write_type (c : chart) (ids ids2 : N * N) (w : wstate) : list wx * wstate :=
  let (g1, w1) := write_group c ids true w in let (g2, w2) := write_group c ids2 false w1 in (g1 ++ g2, w2).
(** src/chart.rs:2817-2830; beyond 423496 charts the sum does not fit a u32 *)
Definition axis_ids (id : N) : N * N := let i := (5000 + id) * 10000 + 1 in (i, i + 1).
Definition axis2_ids (id : N) (combined : bool) : N * N := let i := (5000 + id) * 10000 + 1 in if combined then (i + 10000000, i + 10000001) else (i + 2, i + 3).
(** src/chart.rs:2872-2887 *)
Definition has_secondary (c : chart) (comb : option chart) : bool :=
  existsb se_secondary (ch_series c) || match comb with Some d => existsb se_secondary (ch_series d) | None => false end.
(** has_crosses: 2895, 2934, 3108 *)
Definition has_crosses (f : family) : bool := match f with FArea | FBar | FStock => false | _ => true end.
(** src/chart.rs:3533-3563 *)
Definition primary_axes (c : chart) (w : wstate) (ids : N * N) : list wx :=
  let f := group_of (ch_kind c) in
  let (x, y) := match f with FBar => (ch_y c, ch_x c) | _ => (ch_x c, ch_y c) end in
  let d := default_format (ch_kind c) in
  match f with
  | FPie | FDoughnut => []
  | FScatter => [cat_val_ax E d x y ids; val_ax E d x y ids]
  | _ => [if is_date (ch_x c) then date_ax E (has_crosses f) (w_numeric w) x y ids else cat_ax E (has_crosses f) (w_numeric w) x y ids; val_ax E d x y ids]
  end.
(** src/chart.rs:3566-3609 *)
Definition secondary_axes (c : chart) (comb : option chart) (w : wstate) (ids : N * N) : list wx :=
  let f := group_of (ch_kind c) in let g := match comb with Some d => group_of (ch_kind d) | None => f end in
  let (x, y) := match g with FBar => (ch_y2 c, ch_x2 c) | _ => (ch_x2 c, ch_y2 c) end in
  let d := default_format (ch_kind c) in
  if has_secondary c comb then
    match g with
    | FPie | FDoughnut => []
    | FScatter => if some comb then [val_ax E d x y ids; cat_val_ax E d x y ids] else [cat_val_ax E d x y ids; val_ax E d x y ids]
    | _ => [val_ax E d x y ids; if is_date (ch_x c) then date_ax E (has_crosses f) (w_numeric w) x y ids else cat_ax E (has_crosses f) (w_numeric w) x y ids]
    end
  else [].
(** src/chart.rs:5453-5485 *)
Definition dtable_xml (t : ctable) : wx :=
  elem "c:dTable" [when (dt_horizontal t) [flag_xml "c:showHorzBorder"]; when (dt_vertical t) [flag_xml "c:showVertBorder"]; when (dt_outline t) [flag_xml "c:showOutline"]; when (dt_keys t) [flag_xml "c:showKeys"];
                   sp_pr (dt_format t); opt_xml (dt_font t) (fun f => tx_pr E f false)].
(** src/chart.rs:3512-3620: the plot area, and what is left of the states of the chart and of the combined chart *)
Definition plot_area (id : N) (c : chart) (comb : option chart) (w wc : wstate) : wx * (wstate * wstate) :=
  let ids := axis_ids id in let ids2 := axis2_ids id (some comb) in
  let (own, w1) := write_type c ids ids2 (at_index w 0) in
  let (other, wc1) := match comb with Some d => write_type d ids ids2 (at_index wc (N.of_nat (length (ch_series c)))) | None => ([], wc) end in
  (elem "c:plotArea" [[layout_xml E (ch_plot_layout c)]; own; other; primary_axes c w1 ids; secondary_axes c comb w1 ids2; opt_xml (ch_table c) dtable_xml; sp_pr (ch_plot c)], (w1, wc1)).
(** src/chart.rs:2837-2868 *)
Fixpoint indices_of {A} (p : A -> bool) (i : N) (l : list A) : list N :=
  match l with [] => [] | a :: r => (if p a then [i] else []) ++ indices_of p (i + 1) r end.
Definition deleted_entries (c : chart) : list N :=
  match lg_deleted (ch_legend c) with
  | [] => indices_of se_delete 0 (ch_series c) ++
          indices_of (fun s => tr_delete (se_trend s)) (N.of_nat (length (ch_series c))) (filter (fun s => trend_given (se_trend s)) (ch_series c))
  | l => l
  end.
(** src/chart.rs:13152-13179 *)
Definition legend_names : list string := ["r"; "l"; "t"; "b"; "tr"]%string.
(** src/chart.rs:4849-4925. Pie and doughnut charts give the legend a font; it stays. *)
Definition legend_xml (c : chart) : list wx :=
  let g := ch_legend c in
  let font := match group_of (ch_kind c), lg_font g with
    | FPie, None | FDoughnut, None => Some (make_font [CfRtl false])
    | FPie, Some f | FDoughnut, Some f => Some (match cf_rtl f with None => with_font f (cf_bold f) (cf_baseline f) (cf_default_bold f) (Some false) | Some _ => f end)
    | _, f => f end in
  when (negb (lg_hidden g))
    [elem "c:legend" [[word_xml "c:legendPos" (word_of legend_names (lg_position g))]; map (fun i => elem "c:legendEntry" [[num_xml "c:idx" i]; [flag_xml "c:delete"]]) (deleted_entries c);
                      [layout_xml E (lg_layout g)]; sp_pr (lg_format g); when (lg_overlay g) [flag_xml "c:overlay"]; opt_xml font (fun f => tx_pr E f false)]].
(** src/chart.rs:13189-13208: ChartEmptyCells *)
Definition empty_names : list string := ["gap"; "zero"; "span"]%string.
(** src/chart.rs:6387-6405 *)
Definition na_ext : wx :=
  elem "c:extLst" [[WElem (lit "c:ext") [(lit "uri", lit "{56B9EC1D-385E-4148-901F-78D8002777C0}"); (lit "xmlns:c16r3", lit "http://schemas.microsoft.com/office/drawing/2017/03/chart")]
                      [elem "c16r3:dataDisplayOptions16" [[flag_xml "c16r3:dispNaAsBlank"]]]]].
(** src/chart.rs:4940-4977 *)
Definition print_settings : wx :=
  elem "c:printSettings" [[WEmpty (lit "c:headerFooter") []];
    [WEmpty (lit "c:pageMargins") [(lit "b", lit "0.75"); (lit "l", lit "0.7"); (lit "r", lit "0.7"); (lit "t", lit "0.75"); (lit "header", lit "0.3"); (lit "footer", lit "0.3")]]; [WEmpty (lit "c:pageSetup") []]].
(** src/chart.rs:3397-3489 *)
Definition chart_part (chartsheet protected : bool) (id : N) (c : chart) (comb : option chart) (w wc : wstate) : wx * (wstate * wstate) :=
  let (plot, v) := plot_area id c comb w wc in
  (WElem (lit "c:chartSpace")
     [(lit "xmlns:c", lit "http://schemas.openxmlformats.org/drawingml/2006/chart"); (lit "xmlns:a", lit "http://schemas.openxmlformats.org/drawingml/2006/main");
      (lit "xmlns:r", lit "http://schemas.openxmlformats.org/officeDocument/2006/relationships")]
     (concat [[word_xml "c:lang" (lit "en-US")]; when (negb (ch_style c =? 2)) [num_xml "c:style" (ch_style c)]; when protected [WEmpty (lit "c:protection") []];
      [elem "c:chart" [when (negb (ti_hidden (ch_title c))) (title_xml E (ch_title c)); when (ti_hidden (ch_title c)) [flag_xml "c:autoTitleDeleted"]; [plot]; legend_xml c;
         when (negb (ch_hidden_data c)) [flag_xml "c:plotVisOnly"]; opt_xml (ch_empty c) (fun n => word_xml "c:dispBlanksAs" (word_of empty_names n)); when (ch_na c) [na_ext]]];
      sp_pr (ch_area c); when (negb chartsheet) [print_settings]]), v).
End Env.
