(** Model of the series of charts (src/chart.rs): markers, data labels, points, trendlines, error bars. *)
From Verif Require Import Base F64 Xml_Model Xml_Tree Fmt_Model Ref_Model Rich_Model CF_Model Doc_Model Cache_Model Spark_Model Dml_Model Draw_Model Chart_Model.

(** ** The kinds of charts, src/chart.rs:8633-8740: [ChartType] in the order of its declaration. *)
Inductive family := FArea | FBar | FColumn | FDoughnut | FLine | FPie | FRadar | FScatter | FStock.
Inductive kind := KArea | KAreaStacked | KAreaPercent | KBar | KBarStacked | KBarPercent | KColumn | KColumnStacked | KColumnPercent | KDoughnut
| KLine | KLineStacked | KLinePercent | KPie | KRadar | KRadarMarkers | KRadarFilled | KScatter | KScatterStraight | KScatterStraightMarkers | KScatterSmooth | KScatterSmoothMarkers | KStock.
(** [chart_group_type] as the initialize functions set it, src/chart.rs:2894-3132 *)
Definition group_of (k : kind) : family :=
  match k with
  | KArea | KAreaStacked | KAreaPercent => FArea
  | KBar | KBarStacked | KBarPercent => FBar
  | KColumn | KColumnStacked | KColumnPercent => FColumn
  | KDoughnut => FDoughnut
  | KLine | KLineStacked | KLinePercent => FLine
  | KPie => FPie
  | KRadar | KRadarMarkers | KRadarFilled => FRadar
  | KScatter | KScatterStraight | KScatterStraightMarkers | KScatterSmooth | KScatterSmoothMarkers => FScatter
  | KStock => FStock
  end.
Definition kind_code (k : kind) : N :=
  match k with
  | KArea => 0 | KAreaStacked => 1 | KAreaPercent => 2 | KBar => 3 | KBarStacked => 4 | KBarPercent => 5 | KColumn => 6 | KColumnStacked => 7 | KColumnPercent => 8 | KDoughnut => 9
  | KLine => 10 | KLineStacked => 11 | KLinePercent => 12 | KPie => 13 | KRadar => 14 | KRadarMarkers => 15 | KRadarFilled => 16 | KScatter => 17 | KScatterStraight => 18
  | KScatterStraightMarkers => 19 | KScatterSmooth => 20 | KScatterSmoothMarkers => 21 | KStock => 22
  end.
Definition is_kind (a b : kind) : bool := kind_code a =? kind_code b.
Definition family_code (f : family) : N := match f with FArea => 0 | FBar => 1 | FColumn => 2 | FDoughnut => 3 | FLine => 4 | FPie => 5 | FRadar => 6 | FScatter => 7 | FStock => 8 end.
Definition is_family (a b : family) : bool := family_code a =? family_code b.

(** ** Markers *)
(** src/chart.rs:9136-9330 *)
Record cmarker := { mk_automatic : bool; mk_none : bool; mk_size : N; mk_type : option N; mk_format : dformat }.
Inductive marker_op := MkAutomatic | MkNone | MkType (n : N) | MkSize (n : N) | MkFormat (l : list format_op).
Definition size_ok (n : N) : bool := (2 <=? n) && (n <=? 72).
Definition marker_step (k : cmarker) (o : marker_op) : cmarker :=
  {| mk_automatic := match o with MkAutomatic => true | MkType _ => false | MkSize n => if size_ok n then false else mk_automatic k | _ => mk_automatic k end;
     mk_none := match o with MkNone => true | _ => mk_none k end;
     mk_size := match o with MkSize n => if size_ok n then n else mk_size k | _ => mk_size k end;
     mk_type := match o with MkType n => Some n | _ => mk_type k end;
     mk_format := match o with MkFormat l => chart_format l | _ => mk_format k end |}.
Definition marker_new : cmarker := {| mk_automatic := false; mk_none := false; mk_size := 0; mk_type := None; mk_format := format_new |}.
Definition make_marker (l : list marker_op) : cmarker := fold_left marker_step l marker_new.
(** src/chart.rs:9333-9391, in the order of the declaration *)
Definition marker_names : list string := ["square"; "diamond"; "triangle"; "x"; "star"; "dot"; "dash"; "circle"; "plus"]%string.
Definition word_of (l : list string) (n : N) : str := lit (nth (N.to_nat n) l EmptyString).
(** src/chart.rs:4987-5004, 5597-5607 *)
Definition marker_xml (k : cmarker) : wx :=
  elem "c:marker" [[WEmpty (lit "c:symbol") (match mk_type k with Some n => [(lit "val", word_of marker_names n)] | None => when (mk_none k) [(lit "val", lit "none")] end)];
                   when (negb (mk_size k =? 0)) [num_xml "c:size" (mk_size k)]; sp_pr (mk_format k)].

(** ** Data labels *)
(** src/chart.rs:9459-10289. 10308-10339: the positions. *)
Record clabel := {
  lb_format : dformat; lb_value : bool; lb_category : bool; lb_series : bool; lb_leader : bool; lb_key : bool; lb_percent : bool; lb_position : N; lb_separator : N;
  lb_title : ctitle; lb_hidden : bool; lb_font : option cfont; lb_num_format : str }.
Inductive label_op := LbValue | LbCategory | LbSeries | LbLeader | LbKey | LbPercent | LbPosition (n : N) | LbFormat (l : list format_op) | LbFont (l : list font_op) | LbNumFormat (s : str)
| LbSeparator (c : N) | LbCustom (a : carg) | LbHidden.
Definition separator_ok (c : N) : bool := existsb (N.eqb c) [59; 46; 32; 10].       (* 10017 *)
(** src/chart.rs:9926-9935 *)
Definition label_font (f : cfont) : cfont := with_font f (cf_bold f) (cf_baseline f || cf_italic f) (cf_default_bold f) (cf_rtl f).
(** src/chart.rs:10187-10195: the title of a label *)
Definition label_title (t : ctitle) (a : carg) : ctitle :=
  let n := title_step t (TiName a) in
  {| ti_range := ti_range n; ti_name := ti_name n; ti_hidden := ti_hidden n; ti_format := ti_format n; ti_font := ti_font n; ti_horizontal := ti_horizontal n; ti_plain := true;
     ti_layout := ti_layout n; ti_overlay := ti_overlay n |}.
Definition title_para (t : ctitle) (plain : bool) (f : cfont) : ctitle :=
  {| ti_range := ti_range t; ti_name := ti_name t; ti_hidden := ti_hidden t; ti_format := ti_format t; ti_font := f; ti_horizontal := ti_horizontal t; ti_plain := plain;
     ti_layout := ti_layout t; ti_overlay := ti_overlay t |}.
Definition label_step (l : clabel) (o : label_op) : clabel :=
  {| lb_format := match o with LbFormat f => chart_format f | _ => lb_format l end;
     lb_value := match o with LbValue | LbCustom _ => true | _ => lb_value l end;
     lb_category := match o with LbCategory => true | _ => lb_category l end;
     lb_series := match o with LbSeries => true | _ => lb_series l end;
     lb_leader := match o with LbLeader => true | _ => lb_leader l end;
     lb_key := match o with LbKey => true | _ => lb_key l end;
     lb_percent := match o with LbPercent => true | _ => lb_percent l end;
     lb_position := match o with LbPosition n => n | _ => lb_position l end;
     lb_separator := match o with LbSeparator c => if separator_ok c then c else lb_separator l | _ => lb_separator l end;
     lb_title := match o with LbCustom a => label_title (lb_title l) a | LbFormat _ => title_para (lb_title l) false (ti_font (lb_title l)) | _ => lb_title l end;
     lb_hidden := match o with LbHidden => true | _ => lb_hidden l end;
     lb_font := match o with LbFont f => Some (label_font (make_font f)) | _ => lb_font l end;
     lb_num_format := match o with LbNumFormat s => s | _ => lb_num_format l end |}.
Definition label_new : clabel :=
  {| lb_format := format_new; lb_value := false; lb_category := false; lb_series := false; lb_leader := false; lb_key := false; lb_percent := false; lb_position := 0; lb_separator := 44;
     lb_title := title_new; lb_hidden := false; lb_font := None; lb_num_format := [] |}.
Definition make_label (l : list label_op) : clabel := fold_left label_step l label_new.
(** src/chart.rs:10283-10288: the title only changes together with [show_value]. *)
Definition label_default (l : clabel) : bool :=
  negb (has_formatting (lb_format l) || lb_value l || lb_category l || lb_series l || lb_leader l || lb_key l || lb_percent l || negb (lb_position l =? 0) || negb (lb_separator l =? 44)
        || lb_hidden l || some (lb_font l) || negb (is_nil (lb_num_format l))).
(** src/chart.rs:10341-10356 *)
Definition position_names : list string := [""; "ctr"; "r"; "l"; "t"; "b"; "inBase"; "inEnd"; "outEnd"; "bestFit"]%string.
(** Set when the chart is made, src/chart.rs:2894-3132; 1013 (Default). *)
Definition default_position (f : family) : N :=
  match f with FArea | FRadar => 1 | FBar | FColumn => 8 | FDoughnut | FPie => 9 | FLine | FScatter | FStock => 2 end.
Definition num_fmt_xml (code : str) (linked : bool) : wx := WEmpty (lit "c:numFmt") [(lit "formatCode", code); (lit "sourceLinked", bit linked)].      (* 4668-4675 *)
(** src/chart.rs:5558-5573 *)
Definition leader_ext : wx :=
  elem "c:extLst" [[WElem (lit "c:ext") [(lit "uri", lit "{CE6537A1-D6FC-4f65-9D91-7224C49458BB}"); (lit "xmlns:c15", lit "http://schemas.microsoft.com/office/drawing/2012/chart")]
                      [flag_xml "c15:showLeaderLines"]]].
Section Env.
Variable E : env.
(** src/chart.rs:5099-5166 *)
Definition label_parts (f : family) (custom : bool) (l : clabel) : list (list wx) :=
  let round := match f with FPie | FDoughnut => true | _ => false end in
  [when (negb (is_nil (lb_num_format l))) [num_fmt_xml (lb_num_format l) false]; sp_pr (lb_format l); opt_xml (lb_font l) (fun t => tx_pr E t false);
   when (negb (lb_position l =? 0) && negb (lb_position l =? default_position f)) [word_xml "c:dLblPos" (word_of position_names (lb_position l))];
   when (lb_key l) [flag_xml "c:showLegendKey"];
   when (lb_value l || (negb custom && negb (lb_category l) && negb (lb_percent l))) [flag_xml "c:showVal"];
   when (lb_category l) [flag_xml "c:showCatName"]; when (lb_series l) [flag_xml "c:showSerName"]; when (lb_percent l) [flag_xml "c:showPercent"];
   when (negb (lb_separator l =? 44)) [WData (lit "c:separator") [lb_separator l; 32] []];
   when (lb_leader l && round) [flag_xml "c:showLeaderLines"]; when (lb_leader l && negb round) [leader_ext]].
(** src/chart.rs:5028-5096: one custom label *)
Definition custom_label (f : family) (i : N) (l : clabel) : wx :=
  let titled := named (lb_title l) || range_given (ti_range (lb_title l)) in
  let font := match lb_font l with Some t => Some (with_font t (cf_bold t) false (cf_default_bold t) (cf_rtl t)) | None => None end in
  let title := match font with
    | Some t => if titled then title_para (lb_title l) (ti_plain (lb_title l)) (let u := title_font t in with_font u (cf_bold u) false (cf_default_bold u) (cf_rtl u)) else lb_title l
    | None => lb_title l end in
  let shown := {| lb_format := lb_format l; lb_value := lb_value l; lb_category := lb_category l; lb_series := lb_series l; lb_leader := lb_leader l; lb_key := lb_key l; lb_percent := lb_percent l;
                  lb_position := lb_position l; lb_separator := lb_separator l; lb_title := title; lb_hidden := lb_hidden l; lb_font := if named (lb_title l) then None else font;
                  lb_num_format := lb_num_format l |} in
  elem "c:dLbl"
    ([num_xml "c:idx" i] ::
     (if lb_hidden l then [[flag_xml "c:delete"]; []; []; []] ++ repeat [] 12
      else [[];
            when (negb (has_formatting (lb_format l)) && match lb_font l with Some t => auto_or_default (cf_color t) | None => false end) [WEmpty (lit "c:spPr") []];
            when (negb (some (lb_font l)) || titled) [layout_xml E layout_new];
            (if named title then [tx_rich E title] else when (range_given (ti_range title)) [tx_formula E (ti_range title)])] ++ label_parts f true shown)).
(** src/chart.rs:5026-5097: labels beyond the points are not written *)
Fixpoint custom_labels (f : family) (i points : N) (l : list clabel) : list wx :=
  match l with
  | [] => []
  | b :: r => if points <=? i then [] else (if label_default b then [] else [custom_label f i b]) ++ custom_labels f (i + 1) points r
  end.
(** src/chart.rs:5007-5023 *)
Definition labels_xml (f : family) (points : N) (l : clabel) (custom : list clabel) : wx :=
  elem "c:dLbls" (custom_labels f 0 points custom :: label_parts f false l).

(** ** Points *)
(** src/chart.rs:3953-3981, 10487 (is_not_default: has a format) *)
Fixpoint points_xml (f : family) (i points : N) (l : list dformat) : list wx :=
  match l with
  | [] => []
  | p :: r => if points <=? i then [] else
      when (has_formatting p) [elem "c:dPt" [[num_xml "c:idx" i]; match f with FScatter | FLine => [elem "c:marker" [sp_pr p]] | _ => [] end; match f with FScatter | FLine => [] | _ => sp_pr p end]]
      ++ points_xml f (i + 1) points r
  end.

(** ** Trendlines *)
(** src/chart.rs:15693-16272 *)
Inductive trend := TrNone | TrExponential | TrLinear | TrLogarithmic | TrPolynomial (n : N) | TrPower | TrMoving (n : N).
Record ctrend := { tr_name : str; tr_type : trend; tr_format : dformat; tr_label_format : dformat; tr_label_font : option cfont; tr_forward : f64; tr_backward : f64;
  tr_equation : bool; tr_rsquared : bool; tr_intercept : option f64; tr_delete : bool }.
Inductive trend_op := TrType (t : trend) | TrFormat (l : list format_op) | TrLabelFormat (l : list format_op) | TrLabelFont (l : list font_op) | TrName (s : str) | TrForward (x : f64) | TrBackward (x : f64)
| TrEquation (b : bool) | TrRSquared (b : bool) | TrIntercept (x : f64) | TrDelete (b : bool).
Definition trend_step (t : ctrend) (o : trend_op) : ctrend :=
  {| tr_name := match o with TrName s => s | _ => tr_name t end;
     tr_type := match o with TrType k => k | _ => tr_type t end;
     tr_format := match o with TrFormat l => chart_format l | _ => tr_format t end;
     tr_label_format := match o with TrLabelFormat l => chart_format l | _ => tr_label_format t end;
     tr_label_font := match o with TrLabelFont l => Some (let f := make_font l in with_font f (cf_bold f) true (cf_default_bold f) (cf_rtl f)) | _ => tr_label_font t end;
     tr_forward := match o with TrForward x => x | _ => tr_forward t end;
     tr_backward := match o with TrBackward x => x | _ => tr_backward t end;
     tr_equation := match o with TrEquation b => b | _ => tr_equation t end;
     tr_rsquared := match o with TrRSquared b => b | _ => tr_rsquared t end;
     tr_intercept := match o with TrIntercept x => Some x | _ => tr_intercept t end;
     tr_delete := match o with TrDelete b => b | _ => tr_delete t end |}.
Definition trend_new : ctrend :=
  {| tr_name := []; tr_type := TrNone; tr_format := format_new; tr_label_format := format_new; tr_label_font := None; tr_forward := f_of_N 0; tr_backward := f_of_N 0; tr_equation := false;
     tr_rsquared := false; tr_intercept := None; tr_delete := false |}.
Definition make_trend (l : list trend_op) : ctrend := fold_left trend_step l trend_new.
Definition trend_word (t : trend) : string :=
  match t with TrNone => "none" | TrExponential => "exp" | TrLinear => "linear" | TrLogarithmic => "log" | TrPolynomial _ => "poly" | TrPower => "power" | TrMoving _ => "movingAvg" end.
(** src/chart.rs:5169-5296 *)
Definition trend_xml (t : ctrend) : wx :=
  let above (tag : string) x := when (flt (f_of_N 0) x) [word_xml tag (e_num E x)] in
  elem "c:trendline"
    [when (negb (is_nil (tr_name t))) [WData (lit "c:name") (tr_name t) []]; sp_pr (tr_format t); [word_xml "c:trendlineType" (lit (trend_word (tr_type t)))];
     match tr_type t with TrPolynomial n => [num_xml "c:order" n] | _ => [] end; match tr_type t with TrMoving n => [num_xml "c:period" n] | _ => [] end;
     above "c:forward"%string (tr_forward t); above "c:backward"%string (tr_backward t); opt_xml (tr_intercept t) (fun x => word_xml "c:intercept" (e_num E x));
     when (tr_rsquared t) [flag_xml "c:dispRSqr"]; when (tr_equation t) [flag_xml "c:dispEq"];
     when (tr_equation t) [elem "c:trendlineLbl" [[layout_xml E layout_new]; [num_fmt_xml (lit "General") false]; sp_pr (tr_label_format t); opt_xml (tr_label_font t) (fun f => tx_pr E f false)]]].

(** ** Error bars *)
(** src/chart.rs:16811-17007 *)
Inductive bars_type := BtFixed (x : f64) | BtPercentage (x : f64) | BtDeviation (x : f64) | BtError | BtCustom (plus minus : crange).
Record cbars := { eb_cap : bool; eb_type : bars_type; eb_direction : N; eb_format : dformat; eb_plus : crange; eb_minus : crange }.       (* direction: 0 both, 1 minus, 2 plus *)
Inductive bars_op := EbType (t : bars_type) | EbDirection (n : N) | EbCap (b : bool) | EbFormat (l : list format_op).
Definition bars_ok (t : bars_type) : bool :=
  match t with BtFixed x => negb (fle x (f_of_N 0)) | BtPercentage x | BtDeviation x => negb (flt x (f_of_N 0)) | _ => true end.
Definition bars_step (b : cbars) (o : bars_op) : cbars :=
  {| eb_cap := match o with EbCap c => c | _ => eb_cap b end;
     eb_type := match o with EbType t => if bars_ok t then t else eb_type b | _ => eb_type b end;
     eb_direction := match o with EbDirection n => n | _ => eb_direction b end;
     eb_format := match o with EbFormat l => chart_format l | _ => eb_format b end;
     eb_plus := match o with EbType (BtCustom p _) => p | _ => eb_plus b end;
     eb_minus := match o with EbType (BtCustom _ p) => p | _ => eb_minus b end |}.
Definition bars_new : cbars := {| eb_cap := true; eb_type := BtError; eb_direction := 0; eb_format := format_new; eb_plus := no_range; eb_minus := no_range |}.
Definition make_bars (l : list bars_op) : cbars := fold_left bars_step l bars_new.
Definition bars_word (t : bars_type) : string := match t with BtFixed _ => "fixedVal" | BtPercentage _ => "percentage" | BtDeviation _ => "stdDev" | BtError => "stdErr" | BtCustom _ _ => "cust" end.
Definition direction_names : list string := ["both"; "minus"; "plus"]%string.
(** src/chart.rs:5299-5378 *)
Definition bars_xml (axis : string) (b : cbars) : wx :=
  elem "c:errBars"
    [when (negb (String.eqb axis "")) [word_xml "c:errDir" (lit axis)]; [word_xml "c:errBarType" (word_of direction_names (eb_direction b))]; [word_xml "c:errValType" (lit (bars_word (eb_type b)))];
     when (negb (eb_cap b)) [flag_xml "c:noEndCap"];
     match eb_type b with BtCustom _ _ => [elem "c:plus" [[cache_ref E (eb_plus b) true]]] | _ => [] end;
     match eb_type b with BtCustom _ _ => [elem "c:minus" [[cache_ref E (eb_minus b) true]]] | _ => [] end;
     match eb_type b with BtFixed x | BtPercentage x | BtDeviation x => [word_xml "c:val" (e_num E x)] | _ => [] end;
     sp_pr (eb_format b)].

(** ** Series *)
(** src/chart.rs:6759-8268 *)
Record series := {
  se_values : crange; se_categories : crange; se_title : ctitle; se_format : dformat; se_marker : option cmarker; se_label : option clabel; se_points : list dformat; se_custom : list clabel;
  se_gap : N; se_overlap : option Z; se_invert : bool; se_inverted : Color; se_trend : ctrend; se_xbars : option cbars; se_ybars : option cbars; se_delete : bool; se_smooth : option bool; se_secondary : bool }.
(** A point is given by its format. *)
Inductive series_op := SrValues (c : crange) | SrCategories (c : crange) | SrSecondary (b : bool) | SrName (a : carg) | SrFormat (l : list format_op) | SrMarker (l : list marker_op) | SrLabel (l : list label_op)
| SrCustom (l : list (list label_op)) | SrPoints (l : list (list format_op)) | SrPointColors (l : list Color) | SrTrend (l : list trend_op) | SrYBars (l : list bars_op) | SrXBars (l : list bars_op)
| SrOverlap (z : Z) | SrGap (n : N) | SrSmooth (b : bool) | SrInvert | SrInvertColor (c : Color) | SrDelete (b : bool).
Definition overlap_ok (z : Z) : bool := ((-100 <=? z) && (z <=? 100))%Z.
Definition series_step (s : series) (o : series_op) : series :=
  {| se_values := match o with SrValues c => c | _ => se_values s end;
     se_categories := match o with SrCategories c => c | _ => se_categories s end;
     se_title := match o with SrName a => title_step (se_title s) (TiName a) | _ => se_title s end;
     se_format := match o with SrFormat l => chart_format l | _ => se_format s end;
     se_marker := match o with SrMarker l => Some (make_marker l) | _ => se_marker s end;
     se_label := match o with SrLabel l => Some (make_label l) | SrCustom _ => match se_label s with Some l => Some l | None => Some label_new end | _ => se_label s end;
     se_points := match o with SrPoints l => map chart_format l | SrPointColors l => map (fun c => chart_format [FoSolid [SoColor c]]) l | _ => se_points s end;
     se_custom := match o with SrCustom l => map make_label l | _ => se_custom s end;
     se_gap := match o with SrGap n => if n <=? 500 then n else se_gap s | _ => se_gap s end;
     se_overlap := match o with SrOverlap z => if overlap_ok z then Some z else se_overlap s | _ => se_overlap s end;
     se_invert := match o with SrInvert => true | SrInvertColor c => if color_valid c then true else se_invert s | _ => se_invert s end;
     se_inverted := match o with SrInvertColor c => if color_valid c then c else se_inverted s | _ => se_inverted s end;
     se_trend := match o with SrTrend l => make_trend l | _ => se_trend s end;
     se_xbars := match o with SrXBars l => Some (make_bars l) | _ => se_xbars s end;
     se_ybars := match o with SrYBars l => Some (make_bars l) | _ => se_ybars s end;
     se_delete := match o with SrDelete b => b | _ => se_delete s end;
     se_smooth := match o with SrSmooth b => Some b | _ => se_smooth s end;
     se_secondary := match o with SrSecondary b => b | _ => se_secondary s end |}.
Definition series_new : series :=
  {| se_values := no_range; se_categories := no_range; se_title := title_new; se_format := format_new; se_marker := None; se_label := None; se_points := []; se_custom := []; se_gap := 150;
     se_overlap := None; se_invert := false; se_inverted := CDefault; se_trend := trend_new; se_xbars := None; se_ybars := None; se_delete := false; se_smooth := None; se_secondary := false |}.
Definition make_series (first : series) (l : list series_op) : series := fold_left series_step l first.
(** src/chart.rs:4005-4029 *)
Definition c14 : str * str := (lit "xmlns:c14", lit "http://schemas.microsoft.com/office/drawing/2007/8/2/chart").
Definition inverted_ext (c : Color) : wx :=
  elem "c:extLst" [[WElem (lit "c:ext") [(lit "uri", lit "{6F2FDCE9-48DA-4B69-8628-5D25D57E5C99}"); c14]
                      [elem "c14:invertSolidFillFmt" [[WElem (lit "c14:spPr") [c14] [solid_xml c 0]]]]]].
Definition shown_marker (k : option cmarker) : list wx := match k with Some k => when (negb (mk_automatic k)) [marker_xml k] | None => [] end.
Definition trend_given (t : ctrend) : bool := match tr_type t with TrNone => false | _ => true end.
(** src/chart.rs:3784-3861 *)
Definition series_xml (k : kind) (index : N) (s : series) : wx :=
  let f := group_of k in let points := number_of_points (se_values s) in
  elem "c:ser"
    [[num_xml "c:idx" index]; [num_xml "c:order" index]; series_title E (se_title s); sp_pr (se_format s); shown_marker (se_marker s); when (se_invert s) [flag_xml "c:invertIfNegative"];
     points_xml f 0 points (se_points s); opt_xml (se_label s) (fun l => labels_xml f points l (se_custom s)); when (trend_given (se_trend s)) [trend_xml (se_trend s)];
     match f with
     | FBar => opt_xml (se_xbars s) (bars_xml "")
     | FColumn => opt_xml (se_ybars s) (bars_xml "")
     | _ => opt_xml (se_ybars s) (bars_xml "y")
     end;
     when (range_given (se_categories s)) [elem "c:cat" [[cache_ref E (se_categories s) false]]]; [elem "c:val" [[cache_ref E (se_values s) true]]];
     when (negb (auto_or_default (se_inverted s))) [inverted_ext (se_inverted s)];
     match f, se_smooth s with FLine, Some true => [flag_xml "c:smooth"] | _, _ => [] end].
(** src/chart.rs:3870-3950. 3893-3897: a line of 2.25 points unless there is one. *)
Definition scatter_format (k : kind) (f : dformat) : dformat :=
  match k, df_line f with
  | KScatter, None => {| df_no_fill := df_no_fill f; df_no_line := df_no_line f; df_line := Some (make_line None [LnWidth (fdiv (f_of_N 9) (f_of_N 4))]); df_solid := df_solid f; df_patt := df_patt f; df_grad := df_grad f |}
  | _, _ => f
  end.
Definition smooth_kind (k : kind) : bool := match k with KScatterSmooth | KScatterSmoothMarkers => true | _ => false end.
Definition scatter_xml (k : kind) (index : N) (s : series) : wx :=
  let f := group_of k in let points := number_of_points (se_values s) in
  elem "c:ser"
    [[num_xml "c:idx" index]; [num_xml "c:order" index]; series_title E (se_title s); shown_marker (se_marker s); sp_pr (scatter_format k (se_format s));
     points_xml f 0 points (se_points s); opt_xml (se_label s) (fun l => labels_xml f points l (se_custom s)); when (trend_given (se_trend s)) [trend_xml (se_trend s)];
     opt_xml (se_xbars s) (bars_xml "x") ++ opt_xml (se_ybars s) (bars_xml "y"); [elem "c:xVal" [[cache_ref E (se_categories s) false]]]; [elem "c:yVal" [[cache_ref E (se_values s) true]]];
     when (match se_smooth s with Some b => b | None => smooth_kind k end) [flag_xml "c:smooth"]].
End Env.
