(** What the elements of a series say, and what was asked of it: markers, labels, points, trendlines, error bars.
    Of the model only the names of the calls, of the kinds of charts and their arguments are used. *)
From Verif Require Import Base F64 Xml_Spec Xml_Read Fmt_Model SheetXml_Spec Doc_Spec CF_Spec Note_Spec Cache_Model Spark_Model Spark_Spec Dml_Model Dml_Spec Chart_Model Chart_Series Chart_Spec.

(** ** Markers *)
Record marker := { ma_symbol : option str; ma_size : option N; ma_shape : shape }.
Definition read_marker (n : node) : option marker :=
  let l := kids_of n in
  bind (needed "c:symbol" (fun k => Some (value_of k)) l) (fun y => bind (maybe "c:size" number_val l) (fun z => bind (shape_in l) (fun s => Some {| ma_symbol := y; ma_size := z; ma_shape := s |}))).
Definition symbols : list string := ["square"; "diamond"; "triangle"; "x"; "star"; "dot"; "dash"; "circle"; "plus"]%string.
Definition asked_symbol := last_of (fun o => match o with MkType n => Some (Some (word_at symbols n)) | MkNone => Some (Some (lit "none")) | _ => None end) None.
(** Sizes are from 2 to 72 points; others are ignored. *)
Definition valid_size (n : N) : bool := (2 <=? n) && (n <=? 72).
Definition asked_marker_size := last_of (fun o => match o with MkSize n => if valid_size n then Some (Some n) else None | _ => None end) None.
Definition marker_format := last_of (fun o => match o with MkFormat l => Some l | _ => None end) [].
(** A marker whose type or size is given is not automatic any more. *)
Definition left_automatic := last_of (fun o => match o with MkAutomatic => Some true | MkType _ => Some false | MkSize n => if valid_size n then Some false else None | _ => None end) false.
Definition asked_marker (l : list marker_op) : option marker :=
  if left_automatic l then None else Some {| ma_symbol := asked_symbol l; ma_size := asked_marker_size l; ma_shape := asked_shape (marker_format l) |}.
Definition marker_known (o : marker_op) : Prop := match o with MkFormat l => Forall format_known l | MkType n => n < 9 | _ => True end.
(** The marker is not turned off after its type is given: that has no effect (refuted below). *)
Definition not_both (l : list marker_op) : Prop := forall p q n, l = p ++ MkNone :: q -> ~ In (MkType n) p.

(** ** Labels *)
(** Where the labels of a family of charts are if nothing is said: [c:dLblPos] is then not written. *)
Definition usual_position (f : family) : str :=
  match f with FArea | FRadar => lit "ctr" | FBar | FColumn => lit "outEnd" | FDoughnut | FPie => lit "bestFit" | FLine | FScatter | FStock => lit "r" end.
Definition is_round (f : family) : bool := match f with FPie | FDoughnut => true | _ => false end.
Record label := { la_format : option str; la_shape : shape; la_text : option text; la_position : str; la_key : bool; la_value : bool; la_category : bool; la_series : bool; la_percent : bool;
  la_separator : option str; la_leader : bool }.
Definition read_own_format (n : node) : option str :=
  bind (attr "sourceLinked" (attrs_of n)) (fun s => bind (bit_of s) (fun b => if b then None else attr "formatCode" (attrs_of n))).
(** Leader lines are an extension except in pie and doughnut charts. *)
Definition read_leader (f : family) (l : list node) : option bool :=
  bind (flag_at "c:showLeaderLines" l) (fun a => bind (maybe "c:extLst" (fun e => needed "c:ext" (fun x => flag_at "c15:showLeaderLines" (kids_of x)) (kids_of e)) l) (fun b =>
  Some (if is_round f then a else match b with Some b => b | None => false end))).
Definition read_label (f : family) (l : list node) : option label :=
  bind (maybe "c:numFmt" read_own_format l) (fun nf => bind (shape_in l) (fun s => bind (maybe "c:txPr" read_text l) (fun t => bind (maybe "c:dLblPos" value_of l) (fun p =>
  bind (flag_at "c:showLegendKey" l) (fun k => bind (flag_at "c:showVal" l) (fun v => bind (flag_at "c:showCatName" l) (fun c => bind (flag_at "c:showSerName" l) (fun sn => bind (flag_at "c:showPercent" l) (fun pc =>
  bind (maybe "c:separator" text_of l) (fun sep => bind (read_leader f l) (fun ll =>
  Some {| la_format := nf; la_shape := s; la_text := t; la_position := match p with Some p => p | None => usual_position f end; la_key := k; la_value := v; la_category := c; la_series := sn; la_percent := pc;
          la_separator := sep; la_leader := ll |}))))))))))).
Definition positions : list string := ["ctr"; "r"; "l"; "t"; "b"; "inBase"; "inEnd"; "outEnd"; "bestFit"]%string.
Section Calls.
Definition has (p : label_op -> bool) (l : list label_op) : bool := existsb p l.
Definition label_format := last_of (fun o => match o with LbFormat f => Some f | _ => None end) [].
Definition label_font_calls := last_of (fun o => match o with LbFont f => Some (Some f) | _ => None end) None.
Definition label_number := last_of (fun o => match o with LbNumFormat s => Some s | _ => None end) [].
Definition label_position := last_of (fun o => match o with LbPosition n => Some n | _ => None end) 0.
(** Separators: comma (the default), semicolon, full stop, space and newline. *)
Definition label_separator := last_of (fun o => match o with LbSeparator c => if (c =? 59) || (c =? 46) || (c =? 32) || (c =? 10) then Some c else None | _ => None end) 44.
Definition label_names (l : list label_op) : list carg := flat_map (fun o => match o with LbCustom a => [a] | _ => [] end) l.
Definition wants_value (l : list label_op) : bool := has (fun o => match o with LbValue | LbCustom _ => true | _ => false end) l.
Definition wants_category (l : list label_op) : bool := has (fun o => match o with LbCategory => true | _ => false end) l.
Definition wants_series (l : list label_op) : bool := has (fun o => match o with LbSeries => true | _ => false end) l.
Definition wants_leader (l : list label_op) : bool := has (fun o => match o with LbLeader => true | _ => false end) l.
Definition wants_key (l : list label_op) : bool := has (fun o => match o with LbKey => true | _ => false end) l.
Definition wants_percent (l : list label_op) : bool := has (fun o => match o with LbPercent => true | _ => false end) l.
Definition wants_hidden (l : list label_op) : bool := has (fun o => match o with LbHidden => true | _ => false end) l.
End Calls.
Section Numbers.
Variable num : f64 -> str.
Variable parses : str -> bool.
Variable data : crange -> cache.
(** [custom]: of one point; otherwise of a series, where the value is shown unless the category or the percentage is. [text]: the font. *)
Definition asked_label (f : family) (custom : bool) (t : option text) (l : list label_op) : label :=
  {| la_format := match label_number l with [] => None | s => Some s end; la_shape := asked_shape (label_format l); la_text := t;
     la_position := match label_position l with 0 => usual_position f | n => word_at positions (n - 1) end; la_key := wants_key l;
     la_value := wants_value l || (negb custom && negb (wants_category l) && negb (wants_percent l)); la_category := wants_category l; la_series := wants_series l; la_percent := wants_percent l;
     la_separator := if label_separator l =? 44 then None else Some [label_separator l; 32]; la_leader := wants_leader l |}.
Definition series_label (f : family) (l : list label_op) : label := asked_label f false (option_map (asked_text num false) (label_font_calls l)) l.
(** Labels of single points: taken away, or with their own words. *)
Inductive custom := Away | Shown (w : option words) (l : label).
Definition read_custom (f : family) (n : node) : option (N * custom) :=
  let l := kids_of n in
  bind (needed "c:idx" number_val l) (fun i => bind (flag_at "c:delete" l) (fun d =>
  if d then Some (i, Away) else bind (maybe "c:tx" read_words l) (fun w => bind (read_label f l) (fun b => Some (i, Shown w b))))).
(** Nothing is asked of this label. *)
Definition idle (l : list label_op) : bool :=
  no_calls (label_format l) && negb (wants_value l) && negb (wants_category l) && negb (wants_series l) && negb (wants_leader l) && negb (wants_key l) && negb (wants_percent l) &&
  (label_position l =? 0) && (label_separator l =? 44) && negb (wants_hidden l) && match label_font_calls l with None => true | _ => false end && no_calls (label_number l).
(** The font is that of the words if there are any, and of the label otherwise. *)
Definition asked_custom (f : family) (l : list label_op) : custom :=
  let t := option_map (asked_text num false) (label_font_calls l) in
  if wants_hidden l then Away else
  match the_name (label_names l) with
  | NoName => Shown None (asked_label f true t l)
  | ByText s => Shown (Some (Rich s (match t with Some t => t | None => asked_text num false [] end))) (asked_label f true None l)
  | ByRange c => Shown (Some (Cells (source_asked parses data AsText c))) (asked_label f true t l)
  end.
(** The labels of the points that exist. *)
Definition asked_customs (f : family) (points : N) (l : list (list label_op)) : list (N * custom) :=
  map (fun p => (fst p, asked_custom f (snd p))) (filter (fun p => (fst p <? points) && negb (idle (snd p))) (indexed l)).
Definition label_known (q : str -> Prop) (o : label_op) : Prop :=
  match o with LbFormat l => Forall format_known l | LbFont l => Forall font_known l | LbNumFormat s => attr_text s | LbCustom a => arg_known q a | LbPosition n => n < 10 | _ => True end.
(** Text does not run from right to left in the font of a label with its own words (refuted below). *)
Definition plain_words (l : list label_op) : Prop :=
  settled (label_names l) /\ match the_name (label_names l), label_font_calls l with ByText _, Some f => asked_rtl f = None | _, _ => True end.

(** ** Points *)
(** In line and scatter charts the points are markers. *)
Record point := { po_index : N; po_marker : shape; po_shape : shape }.
Definition read_point (n : node) : option point :=
  let l := kids_of n in
  bind (needed "c:idx" number_val l) (fun i => bind (maybe "c:marker" (fun m => shape_in (kids_of m)) l) (fun m => bind (shape_in l) (fun s =>
  Some {| po_index := i; po_marker := match m with Some m => m | None => no_shape end; po_shape := s |}))).
Definition asked_point (f : family) (p : N * list format_op) : point :=
  match f with
  | FScatter | FLine => {| po_index := fst p; po_marker := asked_shape (snd p); po_shape := no_shape |}
  | _ => {| po_index := fst p; po_marker := no_shape; po_shape := asked_shape (snd p) |}
  end.
Definition asked_points (f : family) (points : N) (l : list (list format_op)) : list point :=
  map (asked_point f) (filter (fun p => (fst p <? points) && negb (no_calls (snd p))) (indexed l)).

(** ** Trendlines *)
Record trendline := { td_name : option str; td_shape : shape; td_type : str; td_order : option N; td_period : option N; td_forward : option str; td_backward : option str; td_intercept : option str;
  td_rsquared : bool; td_equation : bool; td_label : option (str * bool * shape * option text) }.
Definition read_format_code (n : node) : option (str * bool) :=
  bind (attr "formatCode" (attrs_of n)) (fun c => bind (attr "sourceLinked" (attrs_of n)) (fun s => bind (bit_of s) (fun b => Some (c, b)))).
Definition read_trend_label (n : node) : option (str * bool * shape * option text) :=
  let l := kids_of n in
  bind (needed "c:numFmt" read_format_code l) (fun f => bind (shape_in l) (fun s => bind (maybe "c:txPr" read_text l) (fun t => Some (fst f, snd f, s, t)))).
Definition read_trend (n : node) : option trendline :=
  let l := kids_of n in
  bind (maybe "c:name" text_of l) (fun name => bind (shape_in l) (fun s => bind (needed "c:trendlineType" value_of l) (fun t => bind (maybe "c:order" number_val l) (fun o => bind (maybe "c:period" number_val l) (fun p =>
  bind (maybe "c:forward" value_of l) (fun fw => bind (maybe "c:backward" value_of l) (fun bw => bind (maybe "c:intercept" value_of l) (fun ic => bind (flag_at "c:dispRSqr" l) (fun r => bind (flag_at "c:dispEq" l) (fun e =>
  bind (maybe "c:trendlineLbl" read_trend_label l) (fun lb =>
  Some {| td_name := name; td_shape := s; td_type := t; td_order := o; td_period := p; td_forward := fw; td_backward := bw; td_intercept := ic; td_rsquared := r; td_equation := e; td_label := lb |}))))))))))).
Definition asked_trend_type := last_of (fun o => match o with TrType t => Some t | _ => None end) TrNone.
Definition trend_format := last_of (fun o => match o with TrFormat l => Some l | _ => None end) [].
Definition trend_label_format := last_of (fun o => match o with TrLabelFormat l => Some l | _ => None end) [].
Definition trend_label_font := last_of (fun o => match o with TrLabelFont l => Some (Some l) | _ => None end) None.
Definition trend_title := last_of (fun o => match o with TrName s => Some s | _ => None end) [].
Definition trend_forward := last_of (fun o => match o with TrForward x => Some x | _ => None end) (f_of_N 0).
Definition trend_backward := last_of (fun o => match o with TrBackward x => Some x | _ => None end) (f_of_N 0).
Definition trend_intercept := last_of (fun o => match o with TrIntercept x => Some (Some x) | _ => None end) None.
Definition trend_equation := last_of (fun o => match o with TrEquation b => Some b | _ => None end) false.
Definition trend_rsquared := last_of (fun o => match o with TrRSquared b => Some b | _ => None end) false.
Definition trend_deleted := last_of (fun o => match o with TrDelete b => Some b | _ => None end) false.
Definition above_zero (x : f64) : option str := if flt (f_of_N 0) x then Some (num x) else None.
Definition trend_name_of (t : trend) : str :=
  match t with TrNone => lit "none" | TrExponential => lit "exp" | TrLinear => lit "linear" | TrLogarithmic => lit "log" | TrPolynomial _ => lit "poly" | TrPower => lit "power" | TrMoving _ => lit "movingAvg" end.
Definition asked_trend (l : list trend_op) : option trendline :=
  match asked_trend_type l with
  | TrNone => None
  | t => Some {| td_name := match trend_title l with [] => None | s => Some s end; td_shape := asked_shape (trend_format l); td_type := trend_name_of t;
                 td_order := match t with TrPolynomial n => Some n | _ => None end; td_period := match t with TrMoving n => Some n | _ => None end;
                 td_forward := above_zero (trend_forward l); td_backward := above_zero (trend_backward l); td_intercept := option_map num (trend_intercept l); td_rsquared := trend_rsquared l;
                 td_equation := trend_equation l;
                 td_label := if trend_equation l then Some (lit "General", false, asked_shape (trend_label_format l), option_map (asked_text num false) (trend_label_font l)) else None |}
  end.
Definition trend_known (o : trend_op) : Prop :=
  match o with TrFormat l | TrLabelFormat l => Forall format_known l | TrLabelFont l => Forall font_known l | TrName s => doc_text s | _ => True end.

(** ** Error bars *)
Record bars := { ba_axis : option str; ba_sides : str; ba_kind : str; ba_uncapped : bool; ba_plus : option source; ba_minus : option source; ba_amount : option str; ba_shape : shape }.
Definition read_bars (n : node) : option bars :=
  let l := kids_of n in
  bind (maybe "c:errDir" value_of l) (fun d => bind (needed "c:errBarType" value_of l) (fun s => bind (needed "c:errValType" value_of l) (fun k => bind (flag_at "c:noEndCap" l) (fun u =>
  bind (maybe "c:plus" read_source l) (fun p => bind (maybe "c:minus" read_source l) (fun m => bind (maybe "c:val" value_of l) (fun v => bind (shape_in l) (fun sh =>
  Some {| ba_axis := d; ba_sides := s; ba_kind := k; ba_uncapped := u; ba_plus := p; ba_minus := m; ba_amount := v; ba_shape := sh |})))))))).
(** Fixed values are above 0, percentages and deviations not below; others are ignored. *)
Definition valid_bars (t : bars_type) : bool :=
  match t with BtFixed x => negb (fle x (f_of_N 0)) | BtPercentage x | BtDeviation x => negb (flt x (f_of_N 0)) | _ => true end.
Definition asked_bars_type := last_of (fun o => match o with EbType t => if valid_bars t then Some t else None | _ => None end) BtError.
Definition bars_direction := last_of (fun o => match o with EbDirection n => Some n | _ => None end) 0.
Definition bars_cap := last_of (fun o => match o with EbCap b => Some b | _ => None end) true.
Definition bars_format := last_of (fun o => match o with EbFormat l => Some l | _ => None end) [].
Definition asked_bars (axis : option str) (l : list bars_op) : bars :=
  let t := asked_bars_type l in
  {| ba_axis := axis; ba_sides := word_at ["both"; "minus"; "plus"]%string (bars_direction l);
     ba_kind := match t with BtFixed _ => lit "fixedVal" | BtPercentage _ => lit "percentage" | BtDeviation _ => lit "stdDev" | BtError => lit "stdErr" | BtCustom _ _ => lit "cust" end;
     ba_uncapped := negb (bars_cap l); ba_plus := match t with BtCustom p _ => Some (source_asked parses data AsNumbers p) | _ => None end;
     ba_minus := match t with BtCustom _ m => Some (source_asked parses data AsNumbers m) | _ => None end;
     ba_amount := match t with BtFixed x | BtPercentage x | BtDeviation x => Some (num x) | _ => None end; ba_shape := asked_shape (bars_format l) |}.
Definition bars_known (q : str -> Prop) (o : bars_op) : Prop :=
  match o with EbType (BtCustom p m) => range_known q p /\ range_known q m | EbFormat l => Forall format_known l | EbDirection n => n < 3 | _ => True end.
End Numbers.
