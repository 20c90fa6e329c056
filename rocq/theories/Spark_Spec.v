(** What the sparklines of a sheet are (MS-XLSX 2.6.4-2.6.6), and what a user asked for.
    Of the model only the names of the calls and their arguments are used. *)
From Verif Require Import Base F64 Xml_Spec Xml_Read Ref_Spec Fmt_Model SheetXml_Spec Doc_Spec View_Spec Setup_Spec DV_Spec CF_Spec Color_Spec Spark_Model.

(** ** Reading *)
Definition area := (str * (N * N * (N * N)))%type.       (* sheet, first row and column, last row and column *)
Definition read_area (s : str) : option area :=
  bind (parse_sheet_range s) (fun p => Some (fst p, (a1_row (fst (snd p)), a1_col (fst (snd p)), (a1_row (snd (snd p)), a1_col (snd (snd p)))))).
(** The end of the vertical axis: by its own data, by that of the group, or a number. *)
Inductive bound := OwnData | GroupData | Fixed (number : str).
Definition read_bound (kind manual : string) (l : list (str * str)) : option bound :=
  let k := attr_default kind (lit "individual") l in
  if str_eqb k (lit "individual") then Some OwnData
  else if str_eqb k (lit "group") then Some GroupData
  else if str_eqb k (lit "custom") then bind (attr manual l) (fun v => Some (Fixed v)) else None.
Record rgroup := {
  v_kind : str; v_empty : str; v_weight : option str; v_min : bound; v_max : bound;
  v_points : list bool;                     (* negative, markers, first, last, high, low *)
  v_axis : bool; v_hidden : bool; v_rtl : bool;
  v_series : rcolor; v_axis_color : rcolor; v_colors : list rcolor;   (* in the same order *)
  v_dates : option area; v_cells : list (N * N * area) }.
Definition kid_color (k : string) (l : list node) : option rcolor := bind (kid k l) (fun n => read_rcolor (attrs_of n)).
Definition read_cell (n : node) : option (N * N * area) :=
  if is_elem "x14:sparkline" n then
    bind (kid "xm:sqref" (kids_of n)) (fun q => bind (text_of q) (fun q => bind (cell_of q) (fun q =>
    bind (kid "xm:f" (kids_of n)) (fun f => bind (text_of f) (fun f => bind (read_area f) (fun a => Some (q, a)))))))
  else None.
Definition read_group (n : node) : option rgroup :=
  let l := attrs_of n in let kids := kids_of n in
  if is_elem "x14:sparklineGroup" n then
    bind (read_bound "minAxisType" "manualMin" l) (fun mn => bind (read_bound "maxAxisType" "manualMax" l) (fun mx =>
    bind (kid_color "x14:colorSeries" kids) (fun c0 => bind (kid_color "x14:colorAxis" kids) (fun c1 =>
    bind (read_all (fun k => kid_color k kids) ["x14:colorNegative"; "x14:colorMarkers"; "x14:colorFirst"; "x14:colorLast"; "x14:colorHigh"; "x14:colorLow"]%string) (fun cs =>
    bind (if flag_of "dateAxis" l then bind (kid "xm:f" kids) (fun f => bind (text_of f) (fun f => bind (read_area f) (fun a => Some (Some a))))
          else match kid "xm:f" kids with None => Some None | Some _ => None end) (fun d =>
    bind (kid "x14:sparklines" kids) (fun sl => bind (read_all read_cell (kids_of sl)) (fun cells =>
    Some {| v_kind := attr_default "type" (lit "line") l; v_empty := attr_default "displayEmptyCellsAs" (lit "zero") l; v_weight := attr "lineWeight" l;
            v_min := mn; v_max := mx; v_points := map (fun k => flag_of k l) ["negative"; "markers"; "first"; "last"; "high"; "low"]%string;
            v_axis := flag_of "displayXAxis" l; v_hidden := flag_of "displayHidden" l; v_rtl := flag_of "rightToLeft" l;
            v_series := c0; v_axis_color := c1; v_colors := cs; v_dates := d; v_cells := cells |}))))))))
  else None.
Definition sparkline_uri : str := lit "{05C60535-1F16-4fd2-B633-F4F36F0B64E0}".
(** The groups of a sheet: in the extension with the identifier of sparklines. *)
Definition read_sparklines (root : node) : option (list rgroup) :=
  match kid "extLst" (kids_of root) with
  | None => Some []
  | Some e => bind (kid "ext" (kids_of e)) (fun x =>
      bind (attr "uri" (attrs_of x)) (fun q => if str_eqb q sparkline_uri
        then bind (kid "x14:sparklineGroups" (kids_of x)) (fun g => read_all read_group (kids_of g)) else Some []))
  end.

(** ** What is asked for *)
Definition points : list spoint := [PNegative; PMarkers; PFirst; PLast; PHigh; PLow].
(** The 36 styles: six accents each for four kinds, then the special ones. *)
Definition next_accent (a : N) : N := if a =? 9 then 4 else a + 1.
Definition style_color (n : N) (p : option spoint) : option Color :=
  if (n =? 0) || (36 <? n) then None
  else Some (
    let among (base : N) := 4 + (n - base) in
    if n <=? 6 then let a := among 1 in
      match p with None | Some PMarkers => CTheme a 5 | Some PNegative => CTheme (next_accent a) 0 | Some (PFirst | PLast) => CTheme a 3 | Some (PHigh | PLow) => CTheme a 0 end
    else if n <=? 12 then let a := among 7 in
      match p with None => CTheme a 4 | Some PNegative => CTheme (next_accent a) 0 | Some _ => CTheme (next_accent a) 4 end
    else if n <=? 18 then let a := among 13 in
      match p with None => CTheme a 0 | Some PNegative => CTheme (next_accent a) 0 | Some _ => CTheme a 4 end
    else if n <=? 24 then let a := among 19 in
      match p with None => CTheme a 3 | Some PNegative => CTheme 0 5 | Some PMarkers => CTheme a 1 | Some (PFirst | PLast) => CTheme a 4 | Some (PHigh | PLow) => CTheme a 5 end
    else match n, p with
         | 25, None => CTheme 1 1 | 25, Some _ => CTheme 1 3
         | 26, None => CTheme 1 2 | 26, Some _ => CTheme 0 3
         | 27, None => CRGB 0x323232 | 29, None => CRGB 0x376092 | (27 | 29), Some _ => CRGB 0xD00000
         | 28, None => CRGB 0 | 28, Some _ => CRGB 0x70C0
         | 30, None => CRGB 0x70C0 | 30, Some _ => CRGB 0
         | 31, None => CRGB 0x5F5F5F | 31, Some PFirst => CRGB 0x5687C2
         | 32, None => CRGB 0x5687C2 | 32, Some PFirst => CRGB 0x777777
         | (31 | 32), Some PLow => CRGB 0xFF5055 | (31 | 32), Some PHigh => CRGB 0x56BE79 | (31 | 32), Some PLast => CRGB 0x359CEB
         | (31 | 32), Some PMarkers => CRGB 0xD70077 | (31 | 32), Some PNegative => CRGB 0xFFB620
         | 33, None => CRGB 0xC6EFCE | 33, Some PLow => CRGB 0xFF5367 | 33, Some PHigh => CRGB 0x60D276 | 33, Some PLast => CRGB 0xFFEB9C
         | 33, Some PFirst => CRGB 0xFFDC47 | 33, Some PMarkers => CRGB 0x8CADD6 | 33, Some PNegative => CRGB 0xFFC7CE
         | 34, None => CRGB 0x00B050 | 34, Some (PLow | PNegative) => CRGB 0xFF0000 | 34, Some PHigh => CRGB 0x00B050
         | 34, Some (PFirst | PLast) => CRGB 0xFFC000 | 34, Some PMarkers => CRGB 0x70C0
         | 35, None => CTheme 3 0
         | 36, None => CTheme 1 0
         | _, Some PLow => CTheme 7 0 | _, Some PHigh => CTheme 6 0 | _, Some PLast => CTheme 5 0 | _, Some PFirst => CTheme 4 0
         | _, Some PMarkers => CTheme 8 0 | _, Some PNegative => CTheme 9 0 | _, None => CDefault
         end).
Definition same_point (a b : spoint) : bool := match spoint_eq_dec a b with left _ => true | right _ => false end.
(** A colour that does not exist is not taken; a colour for a point also shows it. *)
Definition of_series_color o := match o with SSeriesColor c => allowed (real_color c) c | SStyle n => style_color n None | _ => None end.
Definition of_point_color p o := match o with SPointColor q c => allowed (same_point q p && real_color c) c | SStyle n => style_color n (Some p) | _ => None end.
Definition of_show p o := match o with SShow q b => allowed (same_point q p) b | SPointColor q c => allowed (same_point q p && real_color c) true | _ => None end.
Definition of_data o := match o with SRange c => Some c | _ => None end.
Definition of_dates o := match o with SDates c => Some c | _ => None end.
Definition of_kind o := match o with SKind k => Some k | _ => None end.
Definition of_axis o := match o with SAxis b => Some b | _ => None end.
Definition of_hidden o := match o with SHidden b => Some b | _ => None end.
Definition of_rtl o := match o with SRtl b => Some b | _ => None end.
Definition of_empty o := match o with SEmpty e => Some e | _ => None end.
Definition of_weight o := match o with SWeight x => Some (Some x) | _ => None end.
Definition of_order o := match o with SColumnOrder b => Some b | _ => None end.
(** Setting a number replaces the group option and the other way round; turning the
    group option off does not bring a number back. *)
Definition set_bound (num_text : f64 -> str) (b : bound) (custom : option f64) (group : option bool) : bound :=
  match custom, group with
  | Some x, _ => Fixed (num_text x)
  | None, Some true => GroupData
  | None, Some false => match b with GroupData => OwnData | b => b end
  | None, None => b
  end.
Definition max_of num_text (ops : list spark_op) : bound :=
  fold_left (fun b o => set_bound num_text b (match o with SCustomMax x => Some x | _ => None end) (match o with SGroupMax g => Some g | _ => None end)) ops OwnData.
Definition min_of num_text (ops : list spark_op) : bound :=
  fold_left (fun b o => set_bound num_text b (match o with SCustomMin x => Some x | _ => None end) (match o with SGroupMin g => Some g | _ => None end)) ops OwnData.

Definition default_color (p : spoint) : Color :=
  match p with PNegative => CTheme 5 0 | PMarkers => CTheme 4 5 | PFirst | PLast => CTheme 4 3 | PHigh | PLow => CTheme 4 0 end.
Definition nowhere : crange := {| g_sheet := []; g_fr := 0; g_fc := 0; g_lr := 0; g_lc := 0 |}.
Definition data_of (ops : list spark_op) : crange := last_given of_data nowhere ops.
Definition dates_of (ops : list spark_op) : crange := last_given of_dates nowhere ops.
Definition by_columns (ops : list spark_op) : bool := last_given of_order false ops.
Definition area_of (c : crange) : area := (g_sheet c, (g_fr c, g_fc c, (g_lr c, g_lc c))).
(** The rows, or the columns, of the data, from the first on. *)
Definition up_from (first last : N) : list N := map (fun k => first + N.of_nat k) (seq 0 (N.to_nat (last - first + 1))).
Definition slices (columns : bool) (c : crange) : list area :=
  if columns then map (fun k => (g_sheet c, (g_fr c, k, (g_lr c, k)))) (up_from (g_fc c) (g_lc c))
  else map (fun k => (g_sheet c, (k, g_fc c, (k, g_lc c)))) (up_from (g_fr c) (g_lr c)).
(** The cells of a range, row by row. *)
Definition cells_in (fr fc lr lc : N) : list (N * N) := flat_map (fun r => map (fun c => (r, c)) (up_from fc lc)) (up_from fr lr).
Definition ops_of (a : spark_call) : list spark_op := match a with AddOne _ _ ops | AddGroup _ _ _ _ ops => ops end.
Definition asked_cells (a : spark_call) : list (N * N * area) :=
  match a with
  | AddOne row col ops => [(row, col, area_of (data_of ops))]
  | AddGroup fr fc lr lc ops => combine (cells_in fr fc lr lc) (slices (by_columns ops) (data_of ops))
  end.
Definition kind_name (k : spark_kind) : str := lit (match k with KLine => "line" | KColumn => "column" | KWinLose => "stacked" end).
Definition empty_name (e : empty_cells) : str := lit (match e with EGaps => "gap" | EZero => "zero" | EConnected => "span" end).
Definition asked_group (num_text : f64 -> str) (a : spark_call) : rgroup :=
  let ops := ops_of a in
  {| v_kind := kind_name (last_given of_kind KLine ops); v_empty := empty_name (last_given of_empty EGaps ops);
     v_weight := option_map num_text (last_given of_weight None ops); v_min := min_of num_text ops; v_max := max_of num_text ops;
     v_points := map (fun p => last_given (of_show p) false ops) points;
     v_axis := last_given of_axis false ops; v_hidden := last_given of_hidden false ops; v_rtl := last_given of_rtl false ops;
     v_series := color_seen (last_given of_series_color (CTheme 4 5) ops); v_axis_color := RRgb 0;
     v_colors := map (fun p => color_seen (last_given (of_point_color p) (default_color p) ops)) points;
     v_dates := match g_sheet (dates_of ops) with [] => None | _ => Some (area_of (dates_of ops)) end;
     v_cells := asked_cells a |}.

(** When a call must succeed. *)
Definition sheet_name_ok (s : str) : bool :=
  match s with
  | [] => false
  | c :: _ => (N.of_nat (length s) <=? 31) && negb (existsb (fun c => existsb (N.eqb c) (lit "[]:*?/\")) s) && negb (c =? 39) && negb (last s 0 =? 39)
  end.
Definition real_area (c : crange) : bool :=
  sheet_name_ok (g_sheet c) && (g_fr c <=? g_lr c) && (g_fc c <=? g_lc c) && on_grid (g_fr c) (g_fc c) && on_grid (g_lr c) (g_lc c).
Definition line (c : crange) : bool := (g_fr c =? g_lr c) || (g_fc c =? g_lc c).
Definition taken (a : spark_call) : bool :=
  match a with
  | AddOne row col ops => on_grid row col && real_area (data_of ops) && line (data_of ops)
  | AddGroup fr fc lr lc ops =>
      let d := data_of ops in
      on_grid fr fc && on_grid lr lc && (fr <=? lr) && (fc <=? lc) && real_area d && negb (line d) &&
      (let n := N.max (lr - fr + 1) (lc - fc + 1) in (n =? g_lr d - g_fr d + 1) || (n =? g_lc d - g_fc d + 1))
  end.
(** A group has one cell for each row, or each column, of the data, in a line. *)
Definition fits (a : spark_call) : Prop :=
  match a with
  | AddOne _ _ _ => True
  | AddGroup fr fc lr lc ops => (fr = lr \/ fc = lc) /\ length (cells_in fr fc lr lc) = length (slices (by_columns ops) (data_of ops))
  end.
