(** Which calls keep a chart part within the schema: C82. Refers to the calls of the model, not to its functions. *)
From Verif Require Import Base Fmt_Model Dml_Model Chart_Model Chart_Series Chart_Axis Chart_Whole.

(** Series may have markers, ... *)
Definition may_mark (k : kind) : bool :=
  match k with KLine | KLineStacked | KLinePercent | KStock | KRadar | KRadarMarkers | KRadarFilled | KScatterStraight | KScatterSmooth => true | _ => false end.
(** ... a format (the markers of scatter charts are written before it), ... *)
Definition may_shape (k : kind) : bool := match k with KScatterStraight | KScatterSmooth => false | _ => true end.
(** ... other colours below zero, ... *)
Definition may_invert (k : kind) : bool := match k with KBar | KBarStacked | KBarPercent | KColumn | KColumnStacked | KColumnPercent => true | _ => false end.
(** ... trendlines and error bars. *)
Definition may_trend (k : kind) : bool := match k with KDoughnut | KPie | KRadar | KRadarMarkers | KRadarFilled => false | _ => true end.
Definition may_bars (k : kind) : bool := may_trend k.
Definition is_round (k : kind) : bool := match k with KDoughnut | KPie => true | _ => false end.
(** The labels of single points: without fonts; without leader lines in pie and doughnut charts. *)
Definition label_fits (k : kind) (o : label_op) : bool := match o with LbFont _ => false | LbLeader => negb (is_round k) | _ => true end.
Definition series_fits (k : kind) (o : series_op) : bool :=
  match o with
  | SrMarker _ => may_mark k
  | SrFormat _ => may_shape k
  | SrInvert | SrInvertColor _ => may_invert k
  | SrTrend _ => may_trend k
  | SrXBars _ | SrYBars _ => may_bars k
  | SrCustom ls => forallb (forallb (label_fits k)) ls
  | _ => true
  end.
(** The calls of a chart. A legend is not both laid over the chart and given a format; an axis of dates has no intervals of labels or ticks. *)
Definition overlays (o : chart_op) : bool := match o with ChLegend (LgOverlay true) => true | _ => false end.
Definition shapes_legend (o : chart_op) : bool := match o with ChLegend (LgFormat _) => true | _ => false end.
Definition dates (o : chart_op) : bool := match o with ChX (XDate true) => true | _ => false end.
Definition skips_some (a : axis_op) : bool := match a with XLabelInterval n | XTickInterval n => 1 <? n | _ => false end.
Definition skips_axis (o : chart_op) : bool := match o with ChX a | ChY a | ChX2 a | ChY2 a => skips_some a | _ => false end.
Definition call_fits (k : kind) (o : chart_op) : bool := match o with ChAdd s | ChPush s => forallb (series_fits k) s | _ => true end.
Definition adds_series (o : chart_op) : bool := match o with ChAdd _ | ChPush _ => true | _ => false end.
Definition calls_fit (k : kind) (l : list chart_op) : bool :=
  forallb (call_fits k) l && (negb (existsb overlays l) || negb (existsb shapes_legend l)) && (negb (match k with KStock => true | _ => existsb dates l end) || negb (existsb skips_axis l)).
