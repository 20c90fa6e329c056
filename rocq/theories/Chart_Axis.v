(** Model of the axes of charts, src/chart.rs:10544-12669 and 4201-4846. *)
From Verif Require Import Base F64 Xml_Model Xml_Tree Fmt_Model Ref_Model Rich_Model CF_Model Doc_Model Cache_Model Spark_Model Dml_Model Draw_Model Chart_Model Chart_Series.

Inductive axis_type := AxCategory | AxValue | AxDate.                                        (* 12360 *)
Inductive crossing := CrAutomatic | CrMin | CrMax | CrCategory (n : N) | CrValue (x : f64).  (* 17284 *)
(** Minimum, maximum and units are kept as the text of the number in the code; here as the number. [num_format_linked_to_source] is never set. *)
Record caxis := {
  ax_type : axis_type; ax_position : N; ax_labels : N; ax_title : ctitle; ax_format : dformat; ax_font : option cfont; ax_num_format : str; ax_reverse : bool; ax_hidden : bool; ax_automatic : bool;
  ax_between : bool; ax_max : option f64; ax_min : option f64; ax_major : option f64; ax_minor : option f64; ax_major_grid : bool; ax_minor_grid : bool; ax_major_line : option dline; ax_minor_line : option dline;
  ax_log : N; ax_label_interval : N; ax_tick_interval : N; ax_major_tick : option N; ax_minor_tick : option N; ax_major_date : option N; ax_minor_date : option N; ax_units : N; ax_units_shown : bool;
  ax_crossing : crossing; ax_align : N }.
(** src/chart.rs:10580-10614. Positions: 0 top, 1 bottom, 2 left, 3 right. *)
Definition axis_new : caxis :=
  {| ax_type := AxValue; ax_position := 1; ax_labels := 0; ax_title := title_new; ax_format := format_new; ax_font := None; ax_num_format := []; ax_reverse := false; ax_hidden := false; ax_automatic := false;
     ax_between := true; ax_max := None; ax_min := None; ax_major := None; ax_minor := None; ax_major_grid := false; ax_minor_grid := false; ax_major_line := None; ax_minor_line := None;
     ax_log := 0; ax_label_interval := 0; ax_tick_interval := 0; ax_major_tick := None; ax_minor_tick := None; ax_major_date := None; ax_minor_date := None; ax_units := 0; ax_units_shown := false;
     ax_crossing := CrAutomatic; ax_align := 0 |}.
Inductive axis_op := XName (a : carg) | XNameFont (l : list font_op) | XNameLayout (l : list layout_op) | XFormat (l : list format_op) | XFont (l : list font_op) | XNumFormat (s : str) | XDate (b : bool) | XAutomatic (b : bool)
| XCrossing (c : crossing) | XReverse | XMax (x : f64) | XMin (x : f64) | XMajorUnit (x : f64) | XMinorUnit (x : f64) | XUnits (n : N) | XUnitsShown (b : bool) | XMajorDate (n : N) | XMinorDate (n : N) | XAlign (n : N)
| XMajorGrid (b : bool) | XMinorGrid (b : bool) | XMajorLine (l : list line_op) | XMinorLine (l : list line_op) | XLabels (n : N) | XBetween (b : bool) | XLabelInterval (n : N) | XTickInterval (n : N)
| XMajorTick (n : N) | XMinorTick (n : N) | XLog (n : N) | XHidden (b : bool).
(** src/chart.rs:10870-10883 *)
Definition axis_font (f : cfont) : cfont :=
  with_font f (if cf_italic f && negb (some (cf_bold f)) then Some false else cf_bold f) (cf_baseline f || cf_italic f || is_latin f) (cf_default_bold f) (cf_rtl f).
(** src/chart.rs:10676-12357; set_max_date and set_min_date give the number of the date. *)
Definition axis_step (a : caxis) (o : axis_op) : caxis :=
  {| ax_type := match o with XDate b => if b then AxDate else AxCategory | _ => ax_type a end;
     ax_position := ax_position a;
     ax_labels := match o with XLabels n => n | _ => ax_labels a end;
     ax_title := match o with XName n => title_step (ax_title a) (TiName n) | XNameFont f => title_step (ax_title a) (TiFont f) | XNameLayout l => title_step (ax_title a) (TiLayout l) | _ => ax_title a end;
     ax_format := match o with XFormat l => chart_format l | _ => ax_format a end;
     ax_font := match o with XFont l => Some (axis_font (make_font l)) | _ => ax_font a end;
     ax_num_format := match o with XNumFormat s => s | _ => ax_num_format a end;
     ax_reverse := match o with XReverse => true | _ => ax_reverse a end;
     ax_hidden := match o with XHidden b => b | _ => ax_hidden a end;
     ax_automatic := match o with XDate b => negb b | XAutomatic b => b | _ => ax_automatic a end;
     ax_between := match o with XBetween b => b | _ => ax_between a end;
     ax_max := match o with XMax x => Some x | _ => ax_max a end;
     ax_min := match o with XMin x => Some x | _ => ax_min a end;
     ax_major := match o with XMajorUnit x => if flt x (f_of_N 0) then ax_major a else Some x | _ => ax_major a end;
     ax_minor := match o with XMinorUnit x => if flt x (f_of_N 0) then ax_minor a else Some x | _ => ax_minor a end;
     ax_major_grid := match o with XMajorGrid b => b | XMajorLine _ => true | _ => ax_major_grid a end;
     ax_minor_grid := match o with XMinorGrid b => b | XMinorLine _ => true | _ => ax_minor_grid a end;
     ax_major_line := match o with XMajorLine l => Some (make_line None l) | _ => ax_major_line a end;
     ax_minor_line := match o with XMinorLine l => Some (make_line None l) | _ => ax_minor_line a end;
     ax_log := match o with XLog n => if 2 <=? n then n else ax_log a | _ => ax_log a end;
     ax_label_interval := match o with XLabelInterval n => n | _ => ax_label_interval a end;
     ax_tick_interval := match o with XTickInterval n => n | _ => ax_tick_interval a end;
     ax_major_tick := match o with XMajorTick n => Some n | _ => ax_major_tick a end;
     ax_minor_tick := match o with XMinorTick n => Some n | _ => ax_minor_tick a end;
     ax_major_date := match o with XMajorDate n => Some n | _ => ax_major_date a end;
     ax_minor_date := match o with XMinorDate n => Some n | _ => ax_minor_date a end;
     ax_units := match o with XUnits n => n | _ => ax_units a end;
     ax_units_shown := match o with XUnits _ => true | XUnitsShown b => b | _ => ax_units_shown a end;
     ax_crossing := match o with XCrossing c => c | _ => ax_crossing a end;
     ax_align := match o with XAlign n => n | _ => ax_align a end |}.

(** ** Writing *)
Definition place_names : list string := ["t"; "b"; "l"; "r"]%string.                         (* 12385-12394 *)
Definition label_names : list string := ["nextTo"; "high"; "low"; "none"]%string.            (* 12451-12477 *)
Definition tick_names : list string := ["none"; "in"; "out"; "cross"]%string.                (* 12544-12568 *)
Definition date_names : list string := ["days"; "months"; "years"]%string.                   (* 12574-12594 *)
Definition unit_names : list string :=                                                       (* 12621-12669 *)
  ["none"; "hundreds"; "thousands"; "tenThousands"; "hundredThousands"; "millions"; "tenMillions"; "hundredMillions"; "billions"; "trillions"]%string.
Definition align_names : list string := ["ctr"; "l"; "r"]%string.                            (* 17338-17358 *)
Definition is_category (a : caxis) : bool := match ax_type a with AxCategory => true | _ => false end.
Definition is_date (a : caxis) : bool := match ax_type a with AxDate => true | _ => false end.
Section Env.
Variable E : env.
(** src/chart.rs:4593-4647 *)
Definition scaling_xml (a : caxis) : wx :=
  let scaled (tag : string) o := when (negb (is_category a)) (opt_xml o (fun x => word_xml tag (e_num E x))) in
  elem "c:scaling" [when (negb (is_category a) && (2 <=? ax_log a)) [num_xml "c:logBase" (ax_log a)]; [word_xml "c:orientation" (if ax_reverse a then lit "maxMin" else lit "minMax")];
                    scaled "c:max"%string (ax_max a); scaled "c:min"%string (ax_min a)].
(** src/chart.rs:4650-4665, 12374-12383 *)
Definition reverse_place (n : N) : N := match n with 0 => 1 | 1 => 0 | 2 => 3 | _ => 2 end.
Definition is_max (c : crossing) : bool := match c with CrMax => true | _ => false end.
Definition place_xml (a other : caxis) : wx :=
  word_xml "c:axPos" (word_of place_names (if ax_reverse other || is_max (ax_crossing other) then reverse_place (ax_position a) else ax_position a)).
(** src/chart.rs:4678-4711 *)
Definition grid_xml (tag : string) (shown : bool) (line : option dline) : list wx :=
  when shown [match line with Some l => elem tag [[elem "c:spPr" [[chart_ln l]]]] | None => WEmpty (lit tag) [] end].
(** src/chart.rs:4256-4269, 4355-4368 (categories and dates) and 4471-4478, 4562-4569 (values) *)
Definition crossing_text (c : crossing) : str :=
  match c with CrAutomatic => lit "autoZero" | CrMin => lit "min" | CrMax => lit "max" | CrCategory n => dec n | CrValue x => e_num E x end.
Definition crosses_xml (category : bool) (c : crossing) : list wx :=
  match c with
  | CrCategory _ => when category [word_xml "c:crosses" (lit "autoZero")]
  | CrValue _ => []
  | c => [word_xml "c:crosses" (crossing_text c)]
  end.
Definition crosses_at_xml (category : bool) (c : crossing) : list wx :=
  match c with
  | CrCategory n => when (negb category) [word_xml "c:crossesAt" (crossing_text c)]
  | CrValue _ => [word_xml "c:crossesAt" (crossing_text c)]
  | _ => []
  end.
(** The part that the four kinds of axes have in common: [id] is the axis' own number, [cross] that of the axis it crosses. *)
Definition axis_head (id cross : N) (a other : caxis) (num_format : list wx) (category crossed : bool) : list (list wx) :=
  [[num_xml "c:axId" id]; [scaling_xml a]; when (ax_hidden a) [flag_xml "c:delete"]; [place_xml a other]; grid_xml "c:majorGridlines" (ax_major_grid a) (ax_major_line a);
   grid_xml "c:minorGridlines" (ax_minor_grid a) (ax_minor_line a); title_xml E (ax_title a); num_format; opt_xml (ax_major_tick a) (fun n => word_xml "c:majorTickMark" (word_of tick_names n));
   opt_xml (ax_minor_tick a) (fun n => word_xml "c:minorTickMark" (word_of tick_names n)); [word_xml "c:tickLblPos" (word_of label_names (ax_labels a))]; sp_pr (ax_format a);
   opt_xml (ax_font a) (fun f => tx_pr E f false); [num_xml "c:crossAx" cross]; when crossed (crosses_xml category (ax_crossing other)); when crossed (crosses_at_xml category (ax_crossing other))].
Definition own_format (a : caxis) : bool := negb (is_nil (ax_num_format a)).
Definition skips (a : caxis) : list (list wx) :=
  [when (1 <? ax_label_interval a) [num_xml "c:tickLblSkip" (ax_label_interval a)]; when (1 <? ax_tick_interval a) [num_xml "c:tickMarkSkip" (ax_tick_interval a)]].
Definition unit_xml (tag : string) (o : option f64) : list wx := opt_xml o (fun x => word_xml tag (e_num E x)).
(** src/chart.rs:4201-4293. [crosses]: has_crosses; [numeric]: category_has_num_format *)
Definition cat_ax (crosses numeric : bool) (x y : caxis) (ids : N * N) : wx :=
  elem "c:catAx" (axis_head (fst ids) (snd ids) x y (if own_format x then [num_fmt_xml (ax_num_format x) false] else when numeric [num_fmt_xml (lit "General") true]) true (crosses || negb (ax_hidden x)) ++
    [when (negb (ax_automatic x)) [flag_xml "c:auto"]; [word_xml "c:lblAlgn" (word_of align_names (ax_align x))]; [word_xml "c:lblOffset" (lit "100")]] ++ skips x).
(** src/chart.rs:4300-4409 *)
Definition date_ax (crosses numeric : bool) (x y : caxis) (ids : N * N) : wx :=
  elem "c:dateAx" (axis_head (fst ids) (snd ids) x y (if own_format x then [num_fmt_xml (ax_num_format x) false] else when numeric [num_fmt_xml (lit "dd/mm/yyyy") true]) true (crosses || negb (ax_hidden x)) ++
    [when (ax_automatic x) [flag_xml "c:auto"]; [word_xml "c:lblOffset" (lit "100")]] ++ skips x ++
    [unit_xml "c:majorUnit" (ax_major x); opt_xml (ax_major_date x) (fun n => word_xml "c:majorTimeUnit" (word_of date_names n));
     unit_xml "c:minorUnit" (ax_minor x); opt_xml (ax_minor_date x) (fun n => word_xml "c:minorTimeUnit" (word_of date_names n))]).
(** src/chart.rs:4816-4846 *)
Definition units_xml (a : caxis) : list wx :=
  when (negb (ax_units a =? 0))
    [elem "c:dispUnits" [[word_xml "c:builtInUnit" (word_of unit_names (ax_units a))]; when (ax_units_shown a) [elem "c:dispUnitsLbl" [[layout_xml E layout_new]]]]].
Definition value_tail (a other : caxis) : list (list wx) :=
  [[word_xml "c:crossBetween" (if ax_between other then lit "between" else lit "midCat")]; when (negb (is_category a)) (unit_xml "c:majorUnit" (ax_major a));
   when (negb (is_category a)) (unit_xml "c:minorUnit" (ax_minor a)); units_xml a].
Definition value_format (default : str) (a : caxis) : list wx := [if own_format a then num_fmt_xml (ax_num_format a) false else num_fmt_xml default true].
(** src/chart.rs:4416-4499 *)
Definition val_ax (default : str) (x y : caxis) (ids : N * N) : wx :=
  elem "c:valAx" (axis_head (snd ids) (fst ids) y x (value_format default y) false true ++ value_tail y x).
(** src/chart.rs:4506-4590 *)
Definition cat_val_ax (default : str) (x y : caxis) (ids : N * N) : wx :=
  elem "c:valAx" (axis_head (fst ids) (snd ids) x y (value_format default x) false true ++ value_tail x y).
End Env.
