(** Sparklines: the builder (src/sparkline.rs:501-1419), the calls of a worksheet
    (src/worksheet.rs:9283-9479) and the elements written (19706-19851). *)
From Verif Require Import Base F64 Ref_Model Xml_Model Xml_Tree Fmt_Model Rich_Model View_Model.

(** src/chart.rs:8284-8292; the range text and the cache do not matter here. *)
Record crange := { g_sheet : str; g_fr : N; g_fc : N; g_lr : N; g_lc : N }.
Definition no_range : crange := {| g_sheet := []; g_fr := 0; g_fc := 0; g_lr := 0; g_lc := 0 |}.     (* 8294-8298 *)
Definition range_given (c : crange) : bool := match g_sheet c with [] => false | _ => true end.       (* 8483-8485 *)

(** src/sparkline.rs:1431-1450 *)
Inductive spark_kind := KLine | KColumn | KWinLose.
(** src/chart.rs:13188-13209 *)
Inductive empty_cells := EGaps | EZero | EConnected.
(** The special points, each with a colour and an option to show it. *)
Inductive spoint := PNegative | PMarkers | PFirst | PLast | PHigh | PLow.
Definition spoint_eq_dec (a b : spoint) : {a = b} + {a <> b}.
Proof. decide equality. Defined.
Definition spoint_eqb (a b : spoint) : bool :=
  match a, b with
  | PNegative, PNegative | PMarkers, PMarkers | PFirst, PFirst | PLast, PLast | PHigh, PHigh | PLow, PLow => true
  | _, _ => false
  end.
Definition pset {A} (f : spoint -> A) (p : spoint) (v : A) : spoint -> A := fun q => if spoint_eqb p q then v else f q.

(** src/sparkline.rs:502-531 *)
Record spark := {
  s_series : Color; s_axis_color : Color; s_colors : spoint -> Color; s_shows : spoint -> bool;
  s_data : crange; s_dates : crange; s_ranges : list (str * str);
  s_kind : spark_kind; s_axis : bool; s_hidden : bool; s_rtl : bool; s_empty : empty_cells;
  s_weight : option f64; s_cmin : option f64; s_cmax : option f64; s_gmax : bool; s_gmin : bool; s_row_order : bool }.
(** 536-567 *)
Definition start_color (p : spoint) : Color :=
  match p with
  | PNegative => CTheme 5 0 | PMarkers => CTheme 4 5 | PFirst => CTheme 4 3 | PLast => CTheme 4 3 | PHigh => CTheme 4 0 | PLow => CTheme 4 0
  end.
Definition black : Color := CNamed 0.
Definition spark_new : spark :=
  {| s_series := CTheme 4 5; s_axis_color := black; s_colors := start_color; s_shows := fun _ => false;
     s_data := no_range; s_dates := no_range; s_ranges := [];
     s_kind := KLine; s_axis := false; s_hidden := false; s_rtl := false; s_empty := EGaps;
     s_weight := None; s_cmin := None; s_cmax := None; s_gmax := false; s_gmin := false; s_row_order := true |}.
(** 1052-1379: low, high, last, first, markers, negative, series *)
Definition style_table : list (Color * Color * Color * Color * Color * Color * Color) := [
   (CTheme 4 0, CTheme 4 0, CTheme 4 3, CTheme 4 3, CTheme 4 5, CTheme 5 0, CTheme 4 5);
   (CTheme 5 0, CTheme 5 0, CTheme 5 3, CTheme 5 3, CTheme 5 5, CTheme 6 0, CTheme 5 5);
   (CTheme 6 0, CTheme 6 0, CTheme 6 3, CTheme 6 3, CTheme 6 5, CTheme 7 0, CTheme 6 5);
   (CTheme 7 0, CTheme 7 0, CTheme 7 3, CTheme 7 3, CTheme 7 5, CTheme 8 0, CTheme 7 5);
   (CTheme 8 0, CTheme 8 0, CTheme 8 3, CTheme 8 3, CTheme 8 5, CTheme 9 0, CTheme 8 5);
   (CTheme 9 0, CTheme 9 0, CTheme 9 3, CTheme 9 3, CTheme 9 5, CTheme 4 0, CTheme 9 5);
   (CTheme 5 4, CTheme 5 4, CTheme 5 4, CTheme 5 4, CTheme 5 4, CTheme 5 0, CTheme 4 4);
   (CTheme 6 4, CTheme 6 4, CTheme 6 4, CTheme 6 4, CTheme 6 4, CTheme 6 0, CTheme 5 4);
   (CTheme 7 4, CTheme 7 4, CTheme 7 4, CTheme 7 4, CTheme 7 4, CTheme 7 0, CTheme 6 4);
   (CTheme 8 4, CTheme 8 4, CTheme 8 4, CTheme 8 4, CTheme 8 4, CTheme 8 0, CTheme 7 4);
   (CTheme 9 4, CTheme 9 4, CTheme 9 4, CTheme 9 4, CTheme 9 4, CTheme 9 0, CTheme 8 4);
   (CTheme 4 4, CTheme 4 4, CTheme 4 4, CTheme 4 4, CTheme 4 4, CTheme 4 0, CTheme 9 4);
   (CTheme 4 4, CTheme 4 4, CTheme 4 4, CTheme 4 4, CTheme 4 4, CTheme 5 0, CTheme 4 0);
   (CTheme 5 4, CTheme 5 4, CTheme 5 4, CTheme 5 4, CTheme 5 4, CTheme 6 0, CTheme 5 0);
   (CTheme 6 4, CTheme 6 4, CTheme 6 4, CTheme 6 4, CTheme 6 4, CTheme 7 0, CTheme 6 0);
   (CTheme 7 4, CTheme 7 4, CTheme 7 4, CTheme 7 4, CTheme 7 4, CTheme 8 0, CTheme 7 0);
   (CTheme 8 4, CTheme 8 4, CTheme 8 4, CTheme 8 4, CTheme 8 4, CTheme 9 0, CTheme 8 0);
   (CTheme 9 4, CTheme 9 4, CTheme 9 4, CTheme 9 4, CTheme 9 4, CTheme 4 0, CTheme 9 0);
   (CTheme 4 5, CTheme 4 5, CTheme 4 4, CTheme 4 4, CTheme 4 1, CTheme 0 5, CTheme 4 3);
   (CTheme 5 5, CTheme 5 5, CTheme 5 4, CTheme 5 4, CTheme 5 1, CTheme 0 5, CTheme 5 3);
   (CTheme 6 5, CTheme 6 5, CTheme 6 4, CTheme 6 4, CTheme 6 1, CTheme 0 5, CTheme 6 3);
   (CTheme 7 5, CTheme 7 5, CTheme 7 4, CTheme 7 4, CTheme 7 1, CTheme 0 5, CTheme 7 3);
   (CTheme 8 5, CTheme 8 5, CTheme 8 4, CTheme 8 4, CTheme 8 1, CTheme 0 5, CTheme 8 3);
   (CTheme 9 5, CTheme 9 5, CTheme 9 4, CTheme 9 4, CTheme 9 1, CTheme 0 5, CTheme 9 3);
   (CTheme 1 3, CTheme 1 3, CTheme 1 3, CTheme 1 3, CTheme 1 3, CTheme 1 3, CTheme 1 1);
   (CTheme 0 3, CTheme 0 3, CTheme 0 3, CTheme 0 3, CTheme 0 3, CTheme 0 3, CTheme 1 2);
   (CRGB 0xD00000, CRGB 0xD00000, CRGB 0xD00000, CRGB 0xD00000, CRGB 0xD00000, CRGB 0xD00000, CRGB 0x323232);
   (CRGB 0x00070C0, CRGB 0x00070C0, CRGB 0x00070C0, CRGB 0x00070C0, CRGB 0x00070C0, CRGB 0x00070C0, CRGB 0x000000);
   (CRGB 0xD00000, CRGB 0xD00000, CRGB 0xD00000, CRGB 0xD00000, CRGB 0xD00000, CRGB 0xD00000, CRGB 0x376092);
   (CRGB 0x000000, CRGB 0x000000, CRGB 0x000000, CRGB 0x000000, CRGB 0x000000, CRGB 0x000000, CRGB 0x00070C0);
   (CRGB 0xFF5055, CRGB 0x56BE79, CRGB 0x359CEB, CRGB 0x5687C2, CRGB 0xD70077, CRGB 0xFFB620, CRGB 0x5F5F5F);
   (CRGB 0xFF5055, CRGB 0x56BE79, CRGB 0x359CEB, CRGB 0x777777, CRGB 0xD70077, CRGB 0xFFB620, CRGB 0x5687C2);
   (CRGB 0xFF5367, CRGB 0x60D276, CRGB 0xFFEB9C, CRGB 0xFFDC47, CRGB 0x8CADD6, CRGB 0xFFC7CE, CRGB 0xC6EFCE);
   (CRGB 0xFF0000, CRGB 0x00B050, CRGB 0xFFC000, CRGB 0xFFC000, CRGB 0x0070C0, CRGB 0xFF0000, CRGB 0x0B050);
   (CTheme 7 0, CTheme 6 0, CTheme 5 0, CTheme 4 0, CTheme 8 0, CTheme 9 0, CTheme 3 0);
   (CTheme 7 0, CTheme 6 0, CTheme 5 0, CTheme 4 0, CTheme 8 0, CTheme 9 0, CTheme 1 0)
  ].
Definition style_row (n : N) := if n =? 0 then None else nth_error style_table (N.to_nat (n - 1)).

(** The setters 591-1035.  For [set_high_point_color] and the like see [SPointColor];
    the range given to [set_range] and [set_date_range] is already a ChartRange. *)
Inductive spark_op :=
| SRange (c : crange) | SKind (k : spark_kind) | SShow (p : spoint) (b : bool) | SAxis (b : bool) | SHidden (b : bool)
| SEmpty (e : empty_cells) | SRtl (b : bool) | SSeriesColor (c : Color) | SPointColor (p : spoint) (c : Color)
| SWeight (x : f64) | SCustomMax (x : f64) | SCustomMin (x : f64) | SGroupMax (b : bool) | SGroupMin (b : bool)
| SDates (c : crange) | SColumnOrder (b : bool) | SStyle (n : N).
Definition spark_step (s : spark) (o : spark_op) : spark :=
  match s with
  | Build_spark se ac cs sh da dt rg k ax hi rt em w mn mx gx gn ro =>
    match o with
    | SRange c => Build_spark se ac cs sh c dt rg k ax hi rt em w mn mx gx gn ro
    | SKind k => Build_spark se ac cs sh da dt rg k ax hi rt em w mn mx gx gn ro
    | SShow p b => Build_spark se ac cs (pset sh p b) da dt rg k ax hi rt em w mn mx gx gn ro
    | SAxis b => Build_spark se ac cs sh da dt rg k b hi rt em w mn mx gx gn ro
    | SHidden b => Build_spark se ac cs sh da dt rg k ax b rt em w mn mx gx gn ro
    | SEmpty e => Build_spark se ac cs sh da dt rg k ax hi rt e w mn mx gx gn ro
    | SRtl b => Build_spark se ac cs sh da dt rg k ax hi b em w mn mx gx gn ro
    | SSeriesColor c => Build_spark (if color_valid c then c else se) ac cs sh da dt rg k ax hi rt em w mn mx gx gn ro
    | SPointColor p c =>
        if color_valid c then Build_spark se ac (pset cs p c) (pset sh p true) da dt rg k ax hi rt em w mn mx gx gn ro else s
    | SWeight x => Build_spark se ac cs sh da dt rg k ax hi rt em (Some x) mn mx gx gn ro
    | SCustomMax x => Build_spark se ac cs sh da dt rg k ax hi rt em w mn (Some x) false gn ro
    | SCustomMin x => Build_spark se ac cs sh da dt rg k ax hi rt em w (Some x) mx gx false ro
    | SGroupMax b => Build_spark se ac cs sh da dt rg k ax hi rt em w mn (if b then None else mx) b gn ro
    | SGroupMin b => Build_spark se ac cs sh da dt rg k ax hi rt em w (if b then None else mn) mx gx b ro
    | SDates c => Build_spark se ac cs sh da c rg k ax hi rt em w mn mx gx gn ro
    | SColumnOrder b => Build_spark se ac cs sh da dt rg k ax hi rt em w mn mx gx gn (negb b)
    | SStyle n =>
        match style_row n with
        | Some (lo, hg, la, fi, ma, ne, sr) =>
            Build_spark sr ac (pset (pset (pset (pset (pset (pset cs PLow lo) PHigh hg) PLast la) PFirst fi) PMarkers ma) PNegative ne) sh da dt rg k ax hi rt em w mn mx gx gn ro
        | None => s
        end
    end
  end.
Definition spark_of (ops : list spark_op) : spark := fold_left spark_step ops spark_new.
Definition with_ranges (s : spark) (c : crange) (l : list (str * str)) : spark :=
  match s with
  | Build_spark se ac cs sh _ dt _ k ax hi rt em w mn mx gx gn ro => Build_spark se ac cs sh c dt l k ax hi rt em w mn mx gx gn ro
  end.

Section Calls.
  Variable m : ovf.
  Variable u : unicode.
  (** src/chart.rs:8439-8447 *)
  Definition range_formula (c : crange) : option str := chart_range m u (g_sheet c) (g_fr c) (g_fc c) (g_lr c) (g_lc c).
  (** src/utility.rs:564-580: the text is only used in error messages, but making
      it can panic as making a formula can. *)
  Definition error_range (c : crange) : option unit :=
    q <- quote_sheet_name m u (g_sheet c) ;; a <- row_col_to_cell m (g_fr c) (g_fc c) ;; b <- row_col_to_cell m (g_lr c) (g_lc c) ;; Some tt.
  (** src/chart.rs:8526-8561; [Some true] = Ok *)
  Definition range_validate (c : crange) : option bool :=
    _ <- error_range c ;;
    Some (match validate_sheetname (g_sheet c) with Some _ => false | None => true end
          && negb (g_lr c <? g_fr c) && negb (g_lc c <? g_fc c)
          && negb ((ROW_MAX <=? g_fr c) || (ROW_MAX <=? g_lr c)) && negb ((COL_MAX <=? g_fc c) || (COL_MAX <=? g_lc c))).
  (** 8564-8566, only after [range_validate] *)
  Definition is_1d (c : crange) : bool := (g_lr c - g_fr c =? 0) || (g_lc c - g_fc c =? 0).
  (** 8505-8523; the u32 and u16 additions cannot overflow below the limits of the
      sheet that [range_validate] has checked, with at most 2^20 steps for rows and
      2^20 for columns: the column counter can overflow, see [incr]. *)
  Definition baseline (row_order : bool) (c : crange) : crange :=
    if row_order then {| g_sheet := g_sheet c; g_fr := g_fr c; g_fc := g_fc c; g_lr := g_fr c; g_lc := g_lc c |}
    else {| g_sheet := g_sheet c; g_fr := g_fr c; g_fc := g_fc c; g_lr := g_lr c; g_lc := g_fc c |}.
  Definition incr (row_order : bool) (c : crange) : option crange :=
    if row_order then r <- wrapN m 32 (Z.of_N (g_fr c) + 1) ;; Some {| g_sheet := g_sheet c; g_fr := r; g_fc := g_fc c; g_lr := r; g_lc := g_lc c |}
    else k <- wrapN m 16 (Z.of_N (g_fc c) + 1) ;; Some {| g_sheet := g_sheet c; g_fr := g_fr c; g_fc := k; g_lr := g_lr c; g_lc := k |}.
  (** src/sparkline.rs:1403-1417: the cells (row, col), (row + 1, col) ... or (row,
      col), (row, col + 1) ..., [n] of them. *)
  Fixpoint group_loop (row_order down : bool) (n : nat) (row col : N) (c : crange) (acc : list (str * str)) : option (crange * list (str * str)) :=
    match n with
    | O => Some (c, acc)
    | S n =>
        cell <- row_col_to_cell m row col ;; f <- range_formula c ;; c' <- incr row_order c ;;
        group_loop row_order down n (if down then row + 1 else row) (if down then col else col + 1) c' (acc ++ [(cell, f)])
    end.
  (** 1393-1418 *)
  Definition add_group_range (s : spark) (fr fc lr lc : N) : option spark :=
    let down := lc - fc =? 0 in
    r <- group_loop (s_row_order s) down (N.to_nat (if down then lr - fr + 1 else lc - fc + 1)) fr fc (baseline (s_row_order s) (s_data s)) (s_ranges s) ;;
    Some (with_ranges s (fst r) (snd r)).
  (** 1385-1390 *)
  Definition add_cell_range (s : spark) (row col : N) : option spark :=
    cell <- row_col_to_cell m row col ;; f <- range_formula (s_data s) ;; Some (with_ranges s (s_data s) (s_ranges s ++ [(cell, f)])).

  Definition in_dims (row col : N) : bool := negb ((ROW_MAX <=? row) || (COL_MAX <=? col)).     (* check_dimensions_only, 15970-15980 *)
  (** src/worksheet.rs:9283-9324, 9415-9479; the second part is whether the call
      failed.  [None] is a panic. *)
  Definition add_sparkline (l : list spark) (row col : N) (s : spark) : option (list spark * bool) :=
    if negb (in_dims row col) then Some (l, true)
    else if negb (range_given (s_data s)) then Some (l, true)
    else v <- range_validate (s_data s) ;;
         if negb v then Some (l, true)
         else if negb (is_1d (s_data s)) then _ <- error_range (s_data s) ;; Some (l, true)
         else s' <- add_cell_range s row col ;; Some (l ++ [s'], false).
  Definition add_sparkline_group (l : list spark) (fr fc lr lc : N) (s : spark) : option (list spark * bool) :=
    if negb (in_dims fr fc) || negb (in_dims lr lc) then Some (l, true)
    else if (lr <? fr) || (lc <? fc) then Some (l, true)
    else if negb (range_given (s_data s)) then Some (l, true)
    else v <- range_validate (s_data s) ;;
         if negb v then Some (l, true)
         else if is_1d (s_data s) then _ <- error_range (s_data s) ;; Some (l, true)
         else let num_cells := N.max (lr - fr + 1) (lc - fc + 1) in
              if negb (num_cells =? g_lr (s_data s) - g_fr (s_data s) + 1) && negb (num_cells =? g_lc (s_data s) - g_fc (s_data s) + 1)
              then _ <- error_range (s_data s) ;; Some (l, true)
              else s' <- add_group_range s fr fc lr lc ;; Some (l ++ [s'], false).
  Inductive spark_call := AddOne (row col : N) (ops : list spark_op) | AddGroup (fr fc lr lc : N) (ops : list spark_op).
  Definition spark_call_step (l : list spark) (a : spark_call) : option (list spark * bool) :=
    match a with
    | AddOne row col ops => add_sparkline l row col (spark_of ops)
    | AddGroup fr fc lr lc ops => add_sparkline_group l fr fc lr lc (spark_of ops)
    end.
  Fixpoint spark_run (l : list spark) (calls : list spark_call) : option (list spark * list bool) :=
    match calls with
    | [] => Some (l, [])
    | a :: calls =>
        r <- spark_call_step l a ;; q <- spark_run (fst r) calls ;; Some (fst q, snd r :: snd q)
    end.

  (** ** Writing *)
  Variable num_text : f64 -> str.
  Definition opt_attr (k : string) (o : option f64) : list (str * str) := match o with Some x => [(lit k, num_text x)] | None => [] end.
  Definition one (b : bool) (k : string) : list (str * str) := when b [(lit k, lit "1")].
  Definition axis_type (k : string) (custom : option f64) (group : bool) : list (str * str) :=
    match custom with Some _ => [(lit k, lit "custom")] | None => when group [(lit k, lit "group")] end.
  Definition kind_attr (k : spark_kind) : list (str * str) :=
    match k with KColumn => [(lit "type", lit "column")] | KWinLose => [(lit "type", lit "stacked")] | KLine => [] end.
  Definition empty_attr (e : empty_cells) : list (str * str) :=
    match e with EGaps => [(lit "displayEmptyCellsAs", lit "gap")] | EConnected => [(lit "displayEmptyCellsAs", lit "span")] | EZero => [] end.
  (** src/worksheet.rs:19725-19809 *)
  Definition group_attrs (s : spark) : list (str * str) :=
    opt_attr "manualMax" (s_cmax s) ++ opt_attr "manualMin" (s_cmin s)
    ++ kind_attr (s_kind s)
    ++ opt_attr "lineWeight" (s_weight s) ++ one (range_given (s_dates s)) "dateAxis"
    ++ empty_attr (s_empty s)
    ++ one (s_shows s PMarkers) "markers" ++ one (s_shows s PHigh) "high" ++ one (s_shows s PLow) "low" ++ one (s_shows s PFirst) "first"
    ++ one (s_shows s PLast) "last" ++ one (s_shows s PNegative) "negative" ++ one (s_axis s) "displayXAxis" ++ one (s_hidden s) "displayHidden"
    ++ axis_type "minAxisType" (s_cmin s) (s_gmin s) ++ axis_type "maxAxisType" (s_cmax s) (s_gmax s) ++ one (s_rtl s) "rightToLeft".
  Definition spark_color (k : string) (c : Color) : wx := WEmpty (lit k) (color_attributes c).              (* 19834-19836 *)
  (** 19839-19851 *)
  Definition spark_xml (r : str * str) : wx := WElem (lit "x14:sparkline") [] [WData (lit "xm:f") (snd r) []; WData (lit "xm:sqref") (fst r) []].
  (** 19724-19831 *)
  Definition group_xml (s : spark) : option wx :=
    dates <- (if range_given (s_dates s) then f <- range_formula (s_dates s) ;; Some [WData (lit "xm:f") f []] else Some []) ;;
    Some (WElem (lit "x14:sparklineGroup") (group_attrs s)
      ([spark_color "x14:colorSeries" (s_series s); spark_color "x14:colorNegative" (s_colors s PNegative); spark_color "x14:colorAxis" (s_axis_color s);
        spark_color "x14:colorMarkers" (s_colors s PMarkers); spark_color "x14:colorFirst" (s_colors s PFirst); spark_color "x14:colorLast" (s_colors s PLast);
        spark_color "x14:colorHigh" (s_colors s PHigh); spark_color "x14:colorLow" (s_colors s PLow)]
       ++ dates ++ [WElem (lit "x14:sparklines") [] (map spark_xml (s_ranges s))])).
  (** 19706-19721: the last added first *)
  Fixpoint groups_xml (l : list spark) : option (list wx) :=
    match l with [] => Some [] | s :: r => x <- group_xml s ;; rest <- groups_xml r ;; Some (x :: rest) end.
  (** 9320-9321, 9475-9476: the extension is written if there is a sparkline. *)
  Definition sparklines_xml (l : list spark) : option (option (list wx)) :=
    match l with [] => Some None | _ => x <- groups_xml (rev l) ;; Some (Some x) end.
End Calls.
