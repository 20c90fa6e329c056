(** What a series, an axis and the other parts of a chart say, and what was asked of them.
    Of the model only the names of the calls, of the kinds of charts and their arguments are used. *)
From Verif Require Import Base F64 Xml_Spec Xml_Read Fmt_Model SheetXml_Spec Doc_Spec CF_Spec Note_Spec Cache_Model Spark_Model Spark_Spec Dml_Model Dml_Spec Chart_Model Chart_Series Chart_Axis Chart_Whole Chart_Spec Chart_Spec2.

(** ** Series *)
Record ser := { sr_index : N; sr_order : N; sr_name : option words; sr_shape : shape; sr_marker : option marker; sr_invert : bool; sr_points : list point; sr_labels : option (list (N * custom) * label);
  sr_trend : option trendline; sr_bars : list bars; sr_categories : option source; sr_values : source; sr_inverted : option dcolor; sr_smooth : bool }.
Definition is_scatter (f : family) : bool := match f with FScatter => true | _ => false end.
Definition read_labels (f : family) (n : node) : option (list (N * custom) * label) :=
  bind (read_all (read_custom f) (filter (is_elem "c:dLbl") (kids_of n))) (fun c => bind (read_label f (kids_of n)) (fun l => Some (c, l))).
(** The colour of negative values is an extension. *)
Definition read_inverted (n : node) : option dcolor :=
  needed "c:ext" (fun x => needed "c14:invertSolidFillFmt" (fun i => needed "c14:spPr" (fun s => match fill_of (kids_of s) with Some (Some (Solid c 100000)) => Some c | _ => None end) (kids_of i)) (kids_of x)) (kids_of n).
Definition read_ser (f : family) (n : node) : option ser :=
  let l := kids_of n in
  let '(cat, val) := if is_scatter f then ("c:xVal", "c:yVal")%string else ("c:cat", "c:val")%string in
  bind (needed "c:idx" number_val l) (fun i => bind (needed "c:order" number_val l) (fun o => bind (maybe "c:tx" read_words l) (fun t => bind (shape_in l) (fun s => bind (maybe "c:marker" read_marker l) (fun m =>
  bind (flag_at "c:invertIfNegative" l) (fun iv => bind (read_all read_point (filter (is_elem "c:dPt") l)) (fun p => bind (maybe "c:dLbls" (read_labels f) l) (fun d => bind (maybe "c:trendline" read_trend l) (fun tr =>
  bind (read_all read_bars (filter (is_elem "c:errBars") l)) (fun b => bind (maybe cat read_source l) (fun c => bind (needed val read_source l) (fun v => bind (maybe "c:extLst" read_inverted l) (fun ic =>
  bind (flag_at "c:smooth" l) (fun sm =>
  Some {| sr_index := i; sr_order := o; sr_name := t; sr_shape := s; sr_marker := m; sr_invert := iv; sr_points := p; sr_labels := d; sr_trend := tr; sr_bars := b; sr_categories := c; sr_values := v;
          sr_inverted := ic; sr_smooth := sm |})))))))))))))).
(** The calls on a series. *)
Definition the_values := last_of (fun o => match o with SrValues c => Some c | _ => None end) no_range.
Definition the_categories := last_of (fun o => match o with SrCategories c => Some c | _ => None end) no_range.
Definition the_names (l : list series_op) : list carg := flat_map (fun o => match o with SrName a => [a] | _ => [] end) l.
Definition on_secondary := last_of (fun o => match o with SrSecondary b => Some b | _ => None end) false.
(** Marker-only scatter charts hide the line between the points until a format is given; line charts, radar charts and the scatter charts without markers in their name have none. *)
Definition usual_line (k : kind) : list format_op := match k with KScatter => [FoLine [LnWidth (fdiv (f_of_N 9) (f_of_N 4)); LnHidden true]] | _ => [] end.
Definition without_markers (k : kind) : bool := match k with KScatterStraight | KScatterSmooth | KRadar | KLine | KLineStacked | KLinePercent => true | _ => false end.
Definition series_format (k : kind) := last_of (fun o => match o with SrFormat l => Some l | _ => None end) (usual_line k).
(** [push_series] puts the same line and markers over those of a series made beforehand (refuted below). *)
Definition dressing (k : kind) : list series_op := match k with KScatter => [SrFormat (usual_line k)] | _ => if without_markers k then [SrMarker [MkNone]] else [] end.
(** A format without a line gets one of 2.25 points in a marker-only scatter chart (refuted below). *)
Definition format_shown (k : kind) (l : list format_op) : list format_op :=
  match k, the_line l with KScatter, None => l ++ [FoLine [LnWidth (fdiv (f_of_N 9) (f_of_N 4))]] | _, _ => l end.
Definition series_marker (k : kind) := last_of (fun o => match o with SrMarker l => Some (Some l) | _ => None end) (if without_markers k then Some [MkNone] else None).
Definition own_labels := last_of (fun o => match o with SrLabel l => Some (Some l) | _ => None end) None.
Definition point_labels := last_of (fun o => match o with SrCustom l => Some l | _ => None end) [].
(** Labels of points bring the labels of the series with them. *)
Definition series_labels (l : list series_op) : option (list label_op) :=
  match own_labels l with Some c => Some c | None => if existsb (fun o => match o with SrCustom _ => true | _ => false end) l then Some [] else None end.
Definition series_points := last_of (fun o => match o with SrPoints l => Some l | SrPointColors l => Some (map (fun c => [FoSolid [SoColor c]]) l) | _ => None end) [].
Definition series_trend := last_of (fun o => match o with SrTrend l => Some l | _ => None end) [].
Definition series_xbars := last_of (fun o => match o with SrXBars l => Some (Some l) | _ => None end) None.
Definition series_ybars := last_of (fun o => match o with SrYBars l => Some (Some l) | _ => None end) None.
Definition series_smooth := last_of (fun o => match o with SrSmooth b => Some (Some b) | _ => None end) None.
Definition series_invert (l : list series_op) : bool := existsb (fun o => match o with SrInvert => true | SrInvertColor c => match in_range c with Some _ => true | None => false end | _ => false end) l.
Definition series_inverted := last_of (fun o => match o with SrInvertColor c => in_range c | _ => None end) CDefault.
Definition series_gap := last_of (fun o => match o with SrGap n => if n <=? 500 then Some n else None | _ => None end) 150.
Definition series_overlap := last_of (fun o => match o with SrOverlap z => if ((-100 <=? z) && (z <=? 100))%Z then Some (Some z) else None | _ => None end) None.
Definition series_deleted := last_of (fun o => match o with SrDelete b => Some b | _ => None end) false.
(** As many points as the longer side of the values has cells. *)
Definition points_of (c : crange) : N := N.max (g_lr c - g_fr c + 1) (g_lc c - g_fc c + 1).
Section Numbers.
Variable num : f64 -> str.
Variable parses : str -> bool.
Variable data : crange -> cache.
Notation asked_bars := (asked_bars num parses data).
Notation source_asked := (source_asked parses data).
Definition given (c : crange) : option source := if range_given c then Some (source_asked AsFound c) else None.
Definition asked_ser (k : kind) (i : N) (l : list series_op) : ser :=
  let f := group_of k in let points := points_of (the_values l) in
  {| sr_index := i; sr_order := i; sr_name := asked_name_of parses data (the_names l); sr_shape := asked_shape (format_shown k (series_format k l));
     sr_marker := match series_marker k l with Some m => asked_marker m | None => None end; sr_invert := negb (is_scatter f) && series_invert l; sr_points := asked_points f points (series_points l);
     sr_labels := option_map (fun b => (asked_customs num parses data f points (point_labels l), series_label num f b)) (series_labels l); sr_trend := asked_trend num (series_trend l);
     sr_bars := match f with
       | FScatter => match series_xbars l with Some b => [asked_bars (Some (lit "x")) b] | None => [] end ++ match series_ybars l with Some b => [asked_bars (Some (lit "y")) b] | None => [] end
       | FBar => match series_xbars l with Some b => [asked_bars None b] | None => [] end
       | FColumn => match series_ybars l with Some b => [asked_bars None b] | None => [] end
       | _ => match series_ybars l with Some b => [asked_bars (Some (lit "y")) b] | None => [] end
       end;
     sr_categories := given (the_categories l); sr_values := source_asked AsNumbers (the_values l);
     sr_inverted := if is_scatter f then None else match series_inverted l with CDefault | CAutomatic => None | c => Some (seen_color c) end;
     sr_smooth := match f with FLine => match series_smooth l with Some b => b | None => false end
       | FScatter => match series_smooth l with Some b => b | None => match k with KScatterSmooth | KScatterSmoothMarkers => true | _ => false end end
       | _ => false end |}.
End Numbers.
Section Known.
Variable q : str -> Prop.
Definition series_known (o : series_op) : Prop :=
  match o with
  | SrValues c => range_known q c
  | SrCategories c => range_known q c
  | SrName a => arg_known q a
  | SrFormat l => Forall format_known l
  | SrMarker l => Forall marker_known l /\ not_both l
  | SrLabel l => Forall (label_known q) l
  | SrCustom l => Forall (fun c => Forall (label_known q) c /\ plain_words c) l
  | SrPoints l => Forall (Forall format_known) l
  | SrPointColors l => Forall known_color l
  | SrTrend l => Forall trend_known l
  | SrYBars l | SrXBars l => Forall (bars_known q) l
  | SrInvertColor c => known_color c
  | _ => True
  end.
(** What a series of a chart needs: values, and categories in a scatter chart. *)
Definition series_ready (f : family) (l : list series_op) : Prop :=
  Forall series_known l /\ settled (the_names l) /\ range_given (the_values l) = true /\ (is_scatter f = true -> range_given (the_categories l) = true).
End Known.

(** ** Axes *)
Record axis := { xs_kind : string; xs_id : N; xs_log : option N; xs_order : str; xs_max : option str; xs_min : option str; xs_hidden : bool; xs_place : str; xs_major_grid : option (option line); xs_minor_grid : option (option line);
  xs_title : option title; xs_format : option (str * bool); xs_major_tick : option str; xs_minor_tick : option str; xs_labels : str; xs_shape : shape; xs_text : option text; xs_cross : N; xs_crosses : option str;
  xs_crosses_at : option str; xs_auto : bool; xs_align : option str; xs_offset : option str; xs_label_skip : option N; xs_mark_skip : option N; xs_between : option str; xs_major : option str; xs_minor : option str;
  xs_major_time : option str; xs_minor_time : option str; xs_units : option (str * bool) }.
Definition axis_kinds : list string := ["c:catAx"; "c:dateAx"; "c:valAx"]%string.
Definition read_grid (n : node) : option (option line) :=
  bind (maybe "c:spPr" (fun s => needed "a:ln" read_line (kids_of s)) (kids_of n)) (fun o => Some o).
Definition read_scaling (n : node) : option (option N * str * option str * option str) :=
  let l := kids_of n in
  bind (maybe "c:logBase" number_val l) (fun b => bind (needed "c:orientation" value_of l) (fun o => bind (maybe "c:max" value_of l) (fun mx => bind (maybe "c:min" value_of l) (fun mn => Some (b, o, mx, mn))))).
Definition read_units (n : node) : option (str * bool) :=
  bind (needed "c:builtInUnit" value_of (kids_of n)) (fun u => bind (maybe "c:dispUnitsLbl" (fun _ => Some tt) (kids_of n)) (fun s => Some (u, match s with Some _ => true | None => false end))).
Definition kind_of (ks : list string) (n : node) : option string := find (fun k => is_elem k n) ks.
Definition read_axis (n : node) : option axis :=
  let l := kids_of n in
  bind (kind_of axis_kinds n) (fun k => bind (needed "c:axId" number_val l) (fun id => bind (needed "c:scaling" read_scaling l) (fun sc => bind (flag_at "c:delete" l) (fun h => bind (needed "c:axPos" value_of l) (fun p =>
  bind (maybe "c:majorGridlines" read_grid l) (fun g1 => bind (maybe "c:minorGridlines" read_grid l) (fun g2 => bind (maybe "c:title" read_title l) (fun t => bind (maybe "c:numFmt" read_format_code l) (fun nf =>
  bind (maybe "c:majorTickMark" value_of l) (fun m1 => bind (maybe "c:minorTickMark" value_of l) (fun m2 => bind (needed "c:tickLblPos" value_of l) (fun lp => bind (shape_in l) (fun s => bind (maybe "c:txPr" read_text l) (fun tx =>
  bind (needed "c:crossAx" number_val l) (fun cx => bind (maybe "c:crosses" value_of l) (fun cr => bind (maybe "c:crossesAt" value_of l) (fun ca => bind (flag_at "c:auto" l) (fun au => bind (maybe "c:lblAlgn" value_of l) (fun al =>
  bind (maybe "c:lblOffset" value_of l) (fun off => bind (maybe "c:tickLblSkip" number_val l) (fun s1 => bind (maybe "c:tickMarkSkip" number_val l) (fun s2 => bind (maybe "c:crossBetween" value_of l) (fun cb =>
  bind (maybe "c:majorUnit" value_of l) (fun u1 => bind (maybe "c:minorUnit" value_of l) (fun u2 => bind (maybe "c:majorTimeUnit" value_of l) (fun t1 => bind (maybe "c:minorTimeUnit" value_of l) (fun t2 =>
  bind (maybe "c:dispUnits" read_units l) (fun du =>
  let '(b, o, mx, mn) := sc in
  Some {| xs_kind := k; xs_id := id; xs_log := b; xs_order := o; xs_max := mx; xs_min := mn; xs_hidden := h; xs_place := p; xs_major_grid := g1; xs_minor_grid := g2; xs_title := t; xs_format := nf; xs_major_tick := m1;
          xs_minor_tick := m2; xs_labels := lp; xs_shape := s; xs_text := tx; xs_cross := cx; xs_crosses := cr; xs_crosses_at := ca; xs_auto := au; xs_align := al; xs_offset := off; xs_label_skip := s1; xs_mark_skip := s2;
          xs_between := cb; xs_major := u1; xs_minor := u2; xs_major_time := t1; xs_minor_time := t2; xs_units := du |})))))))))))))))))))))))))))).
(** What an axis is before anything is asked of it: what it shows, its side, whether it crosses between the categories, whether its title is turned, whether it has gridlines, ... *)
Record usual := { us_type : axis_type; us_side : N; us_between : bool; us_turned : bool; us_grid : bool; us_auto : bool; us_tick : option N; us_crossing : crossing; us_hidden : bool; us_labels : N }.
Inductive which := AxisX | AxisY | AxisX2 | AxisY2.
Definition bare : usual := {| us_type := AxValue; us_side := 1; us_between := true; us_turned := false; us_grid := false; us_auto := false; us_tick := None; us_crossing := CrAutomatic; us_hidden := false; us_labels := 0 |}.
Definition categories (between grid : bool) : usual :=
  {| us_type := AxCategory; us_side := 1; us_between := between; us_turned := false; us_grid := grid; us_auto := false; us_tick := None; us_crossing := CrAutomatic; us_hidden := false; us_labels := 0 |}.
Definition values (side : N) (between turned grid : bool) : usual :=
  {| us_type := AxValue; us_side := side; us_between := between; us_turned := turned; us_grid := grid; us_auto := false; us_tick := None; us_crossing := CrAutomatic; us_hidden := false; us_labels := 0 |}.
(** Hidden secondary axes: without labels, crossed at the maximum. *)
Definition behind (u : usual) : usual :=
  {| us_type := us_type u; us_side := us_side u; us_between := us_between u; us_turned := us_turned u; us_grid := us_grid u; us_auto := us_auto u; us_tick := us_tick u; us_crossing := CrMax; us_hidden := true; us_labels := 3 |}.
Definition dates : usual :=
  {| us_type := AxDate; us_side := 1; us_between := true; us_turned := false; us_grid := false; us_auto := true; us_tick := None; us_crossing := CrAutomatic; us_hidden := false; us_labels := 0 |}.
Definition usual_axis (f : family) (w : which) : usual :=
  match f, w with
  | (FPie | FDoughnut), _ => bare
  | FArea, AxisX => categories false false
  | (FColumn | FLine), AxisX => categories true false
  | FRadar, AxisX => categories true true
  | FStock, AxisX => dates
  | FScatter, AxisX => values 1 false false false
  | FBar, AxisX => values 1 true false true
  | FBar, AxisY => {| us_type := AxCategory; us_side := 2; us_between := true; us_turned := true; us_grid := false; us_auto := false; us_tick := None; us_crossing := CrAutomatic; us_hidden := false; us_labels := 0 |}
  | FColumn, AxisY => values 2 true false true
  | FRadar, AxisY => {| us_type := AxValue; us_side := 2; us_between := true; us_turned := false; us_grid := true; us_auto := false; us_tick := Some 3; us_crossing := CrAutomatic; us_hidden := false; us_labels := 0 |}
  | FScatter, AxisY => values 2 false true true
  | _, AxisY => values 2 true true true
  | FRadar, _ => bare
  | FArea, AxisX2 => behind (categories false false)
  | (FColumn | FLine), AxisX2 => behind (categories true false)
  | FStock, AxisX2 => behind dates
  | FScatter, AxisX2 => behind (values 1 false false false)
  | FBar, AxisX2 => categories true false
  | FBar, AxisY2 => behind (values 2 true false false)
  | FScatter, AxisY2 => values 2 false false false
  | _, AxisY2 => values 2 true false false
  end.
(** The calls on an axis. *)
Definition axis_title_calls (l : list axis_op) : list title_op := flat_map (fun o => match o with XName a => [TiName a] | XNameFont f => [TiFont f] | XNameLayout y => [TiLayout y] | _ => [] end) l.
Section Axis.
Variable u : usual.
Definition x_type := last_of (fun o => match o with XDate b => Some (if b then AxDate else AxCategory) | _ => None end) (us_type u).
Definition x_auto := last_of (fun o => match o with XDate b => Some (negb b) | XAutomatic b => Some b | _ => None end) (us_auto u).
Definition x_hidden := last_of (fun o => match o with XHidden b => Some b | _ => None end) (us_hidden u).
Definition x_between := last_of (fun o => match o with XBetween b => Some b | _ => None end) (us_between u).
Definition x_labels := last_of (fun o => match o with XLabels n => Some n | _ => None end) (us_labels u).
Definition x_major_tick := last_of (fun o => match o with XMajorTick n => Some (Some n) | _ => None end) (us_tick u).
Definition x_crossing := last_of (fun o => match o with XCrossing c => Some c | _ => None end) (us_crossing u).
(** Gridlines that are given a line are shown. *)
Definition x_major_grid := last_of (fun o => match o with XMajorGrid b => Some b | XMajorLine _ => Some true | _ => None end) (us_grid u).
End Axis.
Definition x_minor_grid := last_of (fun o => match o with XMinorGrid b => Some b | XMinorLine _ => Some true | _ => None end) false.
Definition x_major_line := last_of (fun o => match o with XMajorLine l => Some (Some l) | _ => None end) None.
Definition x_minor_line := last_of (fun o => match o with XMinorLine l => Some (Some l) | _ => None end) None.
Definition x_format := last_of (fun o => match o with XFormat l => Some l | _ => None end) [].
Definition x_font := last_of (fun o => match o with XFont l => Some (Some l) | _ => None end) None.
Definition x_code := last_of (fun o => match o with XNumFormat s => Some s | _ => None end) [].
Definition x_reversed (l : list axis_op) : bool := existsb (fun o => match o with XReverse => true | _ => false end) l.
Definition x_max := last_of (fun o => match o with XMax x => Some (Some x) | _ => None end) None.
Definition x_min := last_of (fun o => match o with XMin x => Some (Some x) | _ => None end) None.
(** Units below zero and bases below 2 are ignored. *)
Definition x_major := last_of (fun o => match o with XMajorUnit x => if flt x (f_of_N 0) then None else Some (Some x) | _ => None end) None.
Definition x_minor := last_of (fun o => match o with XMinorUnit x => if flt x (f_of_N 0) then None else Some (Some x) | _ => None end) None.
Definition x_log := last_of (fun o => match o with XLog n => if 2 <=? n then Some (Some n) else None | _ => None end) None.
Definition x_label_skip := last_of (fun o => match o with XLabelInterval n => Some n | _ => None end) 0.
Definition x_mark_skip := last_of (fun o => match o with XTickInterval n => Some n | _ => None end) 0.
Definition x_minor_tick := last_of (fun o => match o with XMinorTick n => Some (Some n) | _ => None end) None.
Definition x_major_date := last_of (fun o => match o with XMajorDate n => Some (Some n) | _ => None end) None.
Definition x_minor_date := last_of (fun o => match o with XMinorDate n => Some (Some n) | _ => None end) None.
Definition x_units := last_of (fun o => match o with XUnits n => Some n | _ => None end) 0.
Definition x_units_shown := last_of (fun o => match o with XUnits _ => Some true | XUnitsShown b => Some b | _ => None end) false.
Definition x_align := last_of (fun o => match o with XAlign n => Some n | _ => None end) 0.
Definition axis_known (q : str -> Prop) (o : axis_op) : Prop :=
  match o with
  | XName a => arg_known q a
  | XNameFont l | XFont l => Forall font_known l
  | XFormat l => Forall format_known l
  | XNumFormat s => attr_text s
  | XMajorLine l | XMinorLine l => Forall line_known l
  | XLabels n | XMajorTick n | XMinorTick n => n < 4
  | XMajorDate n | XMinorDate n | XAlign n => n < 3
  | XUnits n => n < 10
  | _ => True
  end.
Inductive role := Categories | Dates | Values.
Section Numbers2.
Variable num : f64 -> str.
Variable parses : str -> bool.
Variable data : crange -> cache.
Definition opposite (side : N) : N := match side with 0 => 1 | 1 => 0 | 2 => 3 | _ => 2 end.
Definition sides : list string := ["t"; "b"; "l"; "r"]%string.
Definition grid_seen (shown : bool) (l : option (list line_op)) : option (option line) := if shown then Some (option_map asked_line l) else None.
(** The font of an axis: it is not bold if it is italic, unless bold is asked for. *)
Definition axis_text (l : list font_op) : text :=
  let t := asked_text num false l in
  let e := te_letters t in
  {| te_turn := te_turn t; te_rtl := te_rtl t;
     te_letters := {| le_bold := match le_bold e with None => if le_italic e then Some false else None | b => b end; le_italic := le_italic e; le_underline := le_underline e; le_size := le_size e; le_color := le_color e;
                      le_name := le_name e; le_pitch := le_pitch e; le_charset := le_charset e |} |}.
Definition crosses_seen (r : role) (c : crossing) : option str * option str :=
  match c, r with
  | CrAutomatic, _ => (Some (lit "autoZero"), None)
  | CrMin, _ => (Some (lit "min"), None)
  | CrMax, _ => (Some (lit "max"), None)
  | CrCategory n, Values => (None, Some (dec n))
  | CrCategory n, _ => (Some (lit "autoZero"), None)
  | CrValue x, _ => (None, Some (num x))
  end.
Definition is_cat (t : axis_type) : bool := match t with AxCategory => true | _ => false end.
(** [u] and [l]: the axis and the calls on it; [v] and [m]: the axis it crosses.  [crossed]: where it crosses is written.  [code]: the number format if none is asked for. *)
Definition asked_axis (r : role) (crossed : bool) (code : option (str * bool)) (ids : N * N) (u : usual) (l : list axis_op) (v : usual) (m : list axis_op) : axis :=
  let scaled {A} (o : option A) : option A := if is_cat (x_type u l) then None else o in
  let valued {A} (o : option A) : option A := match r with Categories => None | Dates => o | Values => scaled o end in
  {| xs_kind := match r with Categories => "c:catAx" | Dates => "c:dateAx" | Values => "c:valAx" end%string; xs_id := fst ids;
     xs_log := scaled (x_log l); xs_order := if x_reversed l then lit "maxMin" else lit "minMax"; xs_max := scaled (option_map num (x_max l)); xs_min := scaled (option_map num (x_min l)); xs_hidden := x_hidden u l;
     xs_place := word_at sides (if x_reversed m || match x_crossing v m with CrMax => true | _ => false end then opposite (us_side u) else us_side u);
     xs_major_grid := grid_seen (x_major_grid u l) (x_major_line l); xs_minor_grid := grid_seen (x_minor_grid l) (x_minor_line l);
     xs_title := asked_title num parses data (us_turned u) (axis_title_calls l); xs_format := match x_code l with [] => code | c => Some (c, false) end;
     xs_major_tick := option_map (word_at ["none"; "in"; "out"; "cross"]%string) (x_major_tick u l); xs_minor_tick := option_map (word_at ["none"; "in"; "out"; "cross"]%string) (x_minor_tick l);
     xs_labels := word_at ["nextTo"; "high"; "low"; "none"]%string (x_labels u l); xs_shape := asked_shape (x_format l); xs_text := option_map axis_text (x_font l); xs_cross := snd ids;
     xs_crosses := if crossed then fst (crosses_seen r (x_crossing v m)) else None; xs_crosses_at := if crossed then snd (crosses_seen r (x_crossing v m)) else None;
     xs_auto := match r with Categories => negb (x_auto u l) | Dates => x_auto u l | Values => false end;
     xs_align := match r with Categories => Some (word_at ["ctr"; "l"; "r"]%string (x_align l)) | _ => None end; xs_offset := match r with Values => None | _ => Some (lit "100") end;
     xs_label_skip := match r with Values => None | _ => if 1 <? x_label_skip l then Some (x_label_skip l) else None end;
     xs_mark_skip := match r with Values => None | _ => if 1 <? x_mark_skip l then Some (x_mark_skip l) else None end;
     xs_between := match r with Values => Some (if x_between v m then lit "between" else lit "midCat") | _ => None end;
     xs_major := valued (option_map num (x_major l)); xs_minor := valued (option_map num (x_minor l));
     xs_major_time := match r with Dates => option_map (word_at ["days"; "months"; "years"]%string) (x_major_date l) | _ => None end;
     xs_minor_time := match r with Dates => option_map (word_at ["days"; "months"; "years"]%string) (x_minor_date l) | _ => None end;
     xs_units := match r with Values => if x_units l =? 0 then None else
       Some (word_at ["none"; "hundreds"; "thousands"; "tenThousands"; "hundredThousands"; "millions"; "tenMillions"; "hundredMillions"; "billions"; "trillions"]%string (x_units l), x_units_shown l) | _ => None end |}.
End Numbers2.
