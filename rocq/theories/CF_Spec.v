(** What conditional formats mean in the file (ECMA-376 part 1, 18.3.1.10, .11, .16,
    .18, .28, .31, .49; [MS-XLSX] 2.6.27-2.6.31 for the extended ones) and what a user
    asked for.  Of the model only the names of the calls and their arguments are used. *)
From Verif Require Import Base F64 Xml_Spec Xml_Read Ref_Spec SheetXml_Spec Doc_Spec View_Spec Setup_Spec Fmt_Model DV_Model DV_Spec CF_Model.

(** ** Reading the rules *)
Inductive seen_body :=
| SNone
| SScale (points : list (str * str)) (colors : list N)
| SBar (values : bool) (points : list (str * option str)) (color : N) (id : option str)
| SIcons (set : str) (values reverse : bool) (points : list (str * str * bool)).     (* type, value, strictly greater *)
Record seen := { e_type : str; e_style : option N; e_stop : bool; e_details : list (string * str); e_formulas : list str; e_body : seen_body }.
Definition all_named (k : string) (l : list node) : list node := filter (is_elem k) l.
(** The optional attributes that say more about a rule. *)
Definition detail_names : list string := ["operator"; "text"; "timePeriod"; "percent"; "bottom"; "rank"; "aboveAverage"; "equalAverage"; "stdDev"]%string.
Definition details (l : list (str * str)) : list (string * str) := flat_map (fun k => match attr k l with Some v => [(k, v)] | None => [] end) detail_names.
(** A colour AARRGGBB that is not transparent. *)
Definition rgb_of (s : str) : option N :=
  match s with
  | a :: b :: r => if (a =? 70) && (b =? 70) && Nat.eqb (length r) 6 then hex_number 0 r else None
  | _ => None
  end.
Definition read_color (n : node) : option N := bind (attr "rgb" (attrs_of n)) rgb_of.
Definition read_scale_point (n : node) : option (str * str) :=
  bind (attr "type" (attrs_of n)) (fun t => bind (attr "val" (attrs_of n)) (fun v => Some (t, v))).
Definition read_bar_point (n : node) : option (str * option str) := bind (attr "type" (attrs_of n)) (fun t => Some (t, attr "val" (attrs_of n))).
Definition read_icon_point (n : node) : option (str * str * bool) :=
  bind (read_scale_point n) (fun p => Some (p, negb (str_eqb (attr_default "gte" (lit "1") (attrs_of n)) (lit "1")))).
(** The name by which an extended rule is known to the rest of the sheet. *)
Definition read_id (l : list node) : option (option str) :=
  match kid "extLst" l with
  | None => Some None
  | Some e => bind (kid "ext" (kids_of e)) (fun x => bind (kid_text "x14:id" (kids_of x)) (fun t => Some (Some t)))
  end.
Definition read_body (l : list node) : option seen_body :=
  match kid "colorScale" l, kid "dataBar" l, kid "iconSet" l with
  | None, None, None => Some SNone
  | Some n, None, None =>
      bind (read_all read_scale_point (all_named "cfvo" (kids_of n))) (fun p => bind (read_all read_color (all_named "color" (kids_of n))) (fun c => Some (SScale p c)))
  | None, Some n, None =>
      bind (read_all read_bar_point (all_named "cfvo" (kids_of n))) (fun p => bind (bind (kid "color" (kids_of n)) read_color) (fun c => bind (read_id l) (fun i =>
      Some (SBar (on_default "showValue" (attrs_of n)) p c i))))
  | None, None, Some n =>
      bind (read_all read_icon_point (all_named "cfvo" (kids_of n))) (fun p =>
      Some (SIcons (attr_default "iconSet" (lit "3TrafficLights1") (attrs_of n)) (on_default "showValue" (attrs_of n)) (flag_of "reverse" (attrs_of n)) p))
  | _, _, _ => None
  end.
(** A rule with its priority *)
Definition read_rule (n : node) : option (N * seen) :=
  let l := attrs_of n in
  if is_elem "cfRule" n then
    bind (attr "type" l) (fun t => bind (bind (attr "priority" l) number_of) (fun p =>
    bind (match attr "dxfId" l with None => Some None | Some d => bind (number_of d) (fun d => Some (Some d)) end) (fun d =>
    bind (read_all text_of (all_named "formula" (kids_of n))) (fun f => bind (read_body (kids_of n)) (fun b =>
    Some (p, {| e_type := t; e_style := d; e_stop := flag_of "stopIfTrue" l; e_details := details l; e_formulas := f; e_body := b |}))))))
  else None.
Definition read_format (n : node) : option (str * list (N * seen)) :=
  bind (attr "sqref" (attrs_of n)) (fun t => bind (read_all read_rule (kids_of n)) (fun r => Some (t, r))).
Definition read_formats (root : node) : option (list (str * list (N * seen))) := read_all read_format (all_named "conditionalFormatting" (kids_of root)).

(** ** The extended rules *)
Inductive seen14_body :=
| XBar (points : list (str * option str)) (gradient : bool) (direction : str) (border : option N) (negative_fill : option N)
       (negative_border : option N) (axis : str) (axis_color : option N)               (* no negative fill: as the positive one *)
| XIcons (set : str) (values reverse : bool) (points : list (str * str * bool)) (pictures : option (list (str * N))).
Definition read_point14 (n : node) : option (str * option str) :=
  bind (attr "type" (attrs_of n)) (fun t => bind (opt_kid_text "xm:f" (kids_of n)) (fun v => Some (t, v))).
Definition opt_color (k : string) (l : list node) : option (option N) := match kid k l with None => Some None | Some n => bind (read_color n) (fun c => Some (Some c)) end.
Definition read_picture (n : node) : option (str * N) :=
  bind (attr "iconSet" (attrs_of n)) (fun s => bind (bind (attr "iconId" (attrs_of n)) number_of) (fun i => Some (s, i))).
Definition read_icon_point14 (n : node) : option (str * str * bool) :=
  bind (attr "type" (attrs_of n)) (fun t => bind (kid_text "xm:f" (kids_of n)) (fun v => Some (t, v, negb (on_default "gte" (attrs_of n))))).
Definition read_body14 (l : list node) : option seen14_body :=
  match kid "x14:dataBar" l, kid "x14:iconSet" l with
  | Some n, None =>
      let a := attrs_of n in let k := kids_of n in
      bind (read_all read_point14 (all_named "x14:cfvo" k)) (fun p => bind (opt_color "x14:borderColor" k) (fun b => bind (opt_color "x14:negativeFillColor" k) (fun nf =>
      bind (opt_color "x14:negativeBorderColor" k) (fun nb => bind (opt_color "x14:axisColor" k) (fun ac =>
      Some (XBar p (on_default "gradient" a) (attr_default "direction" (lit "context") a)
              (if flag_of "border" a then b else None)
              (if flag_of "negativeBarColorSameAsPositive" a then None else nf)
              (if flag_of "border" a then if on_default "negativeBarBorderColorSameAsPositive" a then b else nb else None)
              (attr_default "axisPosition" (lit "automatic") a) ac))))))
  | None, Some n =>
      let a := attrs_of n in let k := kids_of n in
      bind (read_all read_icon_point14 (all_named "x14:cfvo" k)) (fun p => bind (read_all read_picture (all_named "x14:cfIcon" k)) (fun c =>
      Some (XIcons (attr_default "iconSet" (lit "3TrafficLights1") a) (on_default "showValue" a) (flag_of "reverse" a) p (if flag_of "custom" a then Some c else None))))
  | _, _ => None
  end.
(** An extended rule: its name, its priority if it has one of its own, whether it stops *)
Definition seen14 := (option N * bool * seen14_body)%type.
Definition read_rule14 (n : node) : option (str * seen14) :=
  bind (attr "id" (attrs_of n)) (fun i =>
  bind (match attr "priority" (attrs_of n) with None => Some None | Some p => bind (number_of p) (fun p => Some (Some p)) end) (fun p =>
  bind (read_body14 (kids_of n)) (fun b => Some (i, (p, flag_of "stopIfTrue" (attrs_of n), b))))).
Definition read_format14 (n : node) : option (str * list (str * seen14)) :=
  bind (kid_text "xm:sqref" (kids_of n)) (fun t => bind (read_all read_rule14 (all_named "x14:cfRule" (kids_of n))) (fun l => Some (t, l))).
Definition read_formats14 (root : node) : option (list (str * list (str * seen14))) :=
  match kid "extLst" (kids_of root) with
  | None => Some []
  | Some e => match bind (kid "ext" (kids_of e)) (fun x => kid "x14:conditionalFormattings" (kids_of x)) with
              | None => Some []
              | Some f => read_all read_format14 (kids_of f)
              end
  end.

(** ** What is asked for *)
Definition named_rgb : list N := [0; 255; 8388608; 65535; 8421504; 32768; 65280; 16711935; 128; 16737792; 16761035; 8388736; 16711680; 12632256; 16777215; 16776960].
Definition rgb (c : Color) : N := match c with CRGB n => n | CNamed n => nth (N.to_nat n) named_rgb 0 | _ => 0 end.
(** Colours that have an RGB value; colours out of range are ignored by the calls. *)
Definition plain_color (c : Color) : Prop := match c with CRGB _ => True | CNamed n => n < 16 | _ => False end.
Definition in_range (c : Color) : option Color := match c with CRGB n => if n <? 16777216 then Some c else None | CTheme t s => if (t <? 10) && (s <? 6) then Some c else None | _ => Some c end.
(** Icon sets by their names in the file, which start with the number of icons. *)
Definition set_name (s : icon_set) : string :=
  match s with
  | ThreeArrows => "3Arrows" | ThreeArrowsGray => "3ArrowsGray" | ThreeFlags => "3Flags" | ThreeTrafficLights => "3TrafficLights1" | ThreeTrafficLightsWithRim => "3TrafficLights2"
  | ThreeSigns => "3Signs" | ThreeSymbolsCircled => "3Symbols" | ThreeSymbols => "3Symbols2" | ThreeStars => "3Stars" | ThreeTriangles => "3Triangles"
  | FourArrows => "4Arrows" | FourArrowsGray => "4ArrowsGray" | FourRedToBlack => "4RedToBlack" | FourHistograms => "4Rating" | FourTrafficLights => "4TrafficLights"
  | FiveArrows => "5Arrows" | FiveArrowsGray => "5ArrowsGray" | FiveHistograms => "5Rating" | FiveQuadrants => "5Quarters" | FiveBoxes => "5Boxes"
  end%string.
Definition set_size (s : icon_set) : N := match lit (set_name s) with c :: _ => c - 48 | [] => 0 end.
(** A text that is within quotes already *)
Definition quoted (s : str) : bool := match s with c :: _ :: _ => (c =? 34) && (last s 0 =? 34) | _ => false end.
Section Asked.
  Variable num_text : f64 -> str.
  Variable beyond : str -> bool.
  Variable formula_text : str -> str.
  Definition cf_shown (v : cf_value) : str :=
    match v with
    | CText s => if quoted s then s else 34 :: doubled s ++ [34]
    | CInt z => if (z <? 0)%Z then 45 :: dec (Z.to_N (- z)) else dec (Z.to_N z)
    | CNum x | CDate x => num_text x
    | CFormula s => formula_text s
    | CBool b => lit (if b then "TRUE" else "FALSE")
    end.
  Definition compared_with (r : dv_rule cf_value) : string * list str :=
    match r with
    | DEqualTo v => ("equal", [cf_shown v]) | DNotEqualTo v => ("notEqual", [cf_shown v])
    | DGreaterThan v => ("greaterThan", [cf_shown v]) | DGreaterThanOrEqualTo v => ("greaterThanOrEqual", [cf_shown v])
    | DLessThan v => ("lessThan", [cf_shown v]) | DLessThanOrEqualTo v => ("lessThanOrEqual", [cf_shown v])
    | DBetween v w => ("between", [cf_shown v; cf_shown w]) | DNotBetween v w => ("notBetween", [cf_shown v; cf_shown w])
    end%string.
  (** A point of a scale: not a text, percentages within 0 to 100 *)
  Definition sensible (t : ctype) (v : cf_value) : bool :=
    match v with CText _ => false | _ => match t with TyPercent | TyPercentile => negb (beyond (cf_shown v)) | _ => true end end.
  Definition point_name (t : ctype) : string :=
    match t with TyAutomatic => "" | TyLowest => "min" | TyNumber => "num" | TyPercent => "percent" | TyFormula => "formula" | TyPercentile => "percentile" | TyHighest => "max" end%string.
  Definition of_scale_point (t : ctype) (v : cf_value) : option point :=
    if sensible t v then match t with TyNumber | TyPercent | TyFormula | TyPercentile => Some (t, cf_shown v) | _ => None end else None.
  Definition of_min o := match o with OMin t v => of_scale_point t v | _ => None end.
  Definition of_mid o := match o with OMid t v => of_scale_point t v | _ => None end.
  Definition of_max o := match o with OMax t v => of_scale_point t v | _ => None end.
  Definition of_min_color o := match o with OMinColor c => in_range c | _ => None end.
  Definition of_mid_color o := match o with OMidColor c => in_range c | _ => None end.
  Definition of_max_color o := match o with OMaxColor c => in_range c | _ => None end.
  (** The ends of a data bar; use_classic_style gives up the automatic ones. *)
  Definition bar_low (ops : list cf_op) : point :=
    fold_left (fun p o => match o with
                          | OMin t v => if sensible t v then match t with TyHighest => p | _ => (t, cf_shown v) end else p
                          | OClassic => match fst p with TyAutomatic => (TyLowest, snd p) | _ => p end
                          | _ => p end) ops (TyAutomatic, dec 0).
  Definition bar_high (ops : list cf_op) : point :=
    fold_left (fun p o => match o with
                          | OMax t v => if sensible t v then match t with TyLowest => p | _ => (t, cf_shown v) end else p
                          | OClassic => match fst p with TyAutomatic => (TyHighest, snd p) | _ => p end
                          | _ => p end) ops (TyAutomatic, dec 0).
  Definition of_fill o := match o with OFill c => in_range c | _ => None end.
  Definition of_border o := match o with OFill c | OBorder c => in_range c | _ => None end.
  Definition of_neg_fill o := match o with ONegFill c => in_range c | _ => None end.
  Definition of_neg_border o := match o with ONegFill c | ONegBorder c => in_range c | _ => None end.
  Definition of_axis_color o := match o with OAxisColor c => in_range c | _ => None end.
  Definition of_border_off o := match o with OBorderOff b => Some b | _ => None end.
  Definition of_solid o := match o with OSolid b => Some b | _ => None end.
  Definition of_bar_only o := match o with OBarOnly b => Some b | _ => None end.
  Definition of_direction o := match o with ODirection d => Some d | _ => None end.
  Definition of_axis o := match o with OAxisPos p => Some p | _ => None end.
  Definition is_classic o := match o with OClassic => true | _ => false end.
  (** An icon: its threshold, whether a value must be greater, and its picture: none
      of its own, no icon, or one of a set. *)
  Definition of_icon_rule (o : icon_op) : option point :=
    match o with IRule t v => if sensible t v then match t with TyHighest => None | _ => Some (t, cf_shown v) end else None | _ => None end.
  Definition of_icon_greater (o : icon_op) := match o with IGreater b => Some b | _ => None end.
  Definition of_icon_type (o : icon_op) : option (option (icon_set * N)) := match o with IType s n => if n <? set_size s then Some (Some (s, n)) else None | _ => None end.
  Definition of_icon_none (o : icon_op) := match o with INone b => Some b | _ => None end.
  Definition touches_picture (o : icon_op) : bool := match o with IType s n => n <? set_size s | INone _ => true | _ => false end.
  Record want_icon := { w_point : point; w_greater : bool; w_picture : option (icon_set * N); w_none : bool; w_custom : bool }.
  Definition want_icon_of (ops : list icon_op) : want_icon :=
    {| w_point := last_given of_icon_rule (TyPercent, dec 0) ops; w_greater := last_given of_icon_greater false ops;
       w_picture := last_given of_icon_type None ops; w_none := last_given of_icon_none false ops; w_custom := existsb touches_picture ops |}.
  Definition percents (l : list N) : list want_icon :=
    map (fun n => {| w_point := (TyPercent, dec n); w_greater := false; w_picture := None; w_none := false; w_custom := false |}) l.
  Definition usual_icons (s : icon_set) : list want_icon :=
    percents (if set_size s =? 3 then [0; 33; 67] else if set_size s =? 4 then [0; 25; 50; 75] else [0; 20; 40; 60; 80]).
  (** The first icon has no threshold. *)
  Definition from_lowest (l : list want_icon) : list want_icon :=
    match l with
    | i :: r => {| w_point := (TyPercent, dec 0); w_greater := false; w_picture := w_picture i; w_none := w_none i; w_custom := w_custom i |} :: r
    | [] => []
    end.
  Definition of_icons o := match o with OIconType s => Some (usual_icons s) | OIcons l => Some (from_lowest (map want_icon_of l)) | _ => None end.
  Definition of_icon_set o := match o with OIconType s => Some s | _ => None end.
  Definition of_reverse o := match o with OReverse b => Some b | _ => None end.
  Definition of_icons_only o := match o with OIconsOnly b => Some b | _ => None end.
  Definition new_icons (s : icon_set) : bool := match s with ThreeStars | ThreeTriangles | FiveBoxes => true | _ => false end.
  Definition custom_call (o : cf_op) : bool := match o with OIcons l => existsb w_custom (map want_icon_of l) | _ => false end.
  Definition needs_extension (o : cf_op) : bool := match o with OIconType s => new_icons s | _ => custom_call o end.

  (** Only in the extension; in the extension too *)
  Definition extension_only (k : cf_class) (ops : list cf_op) : bool := match k with KIcons => existsb needs_extension ops | _ => false end.
  Definition extended (k : cf_class) (ops : list cf_op) : bool :=
    match k with KBar => negb (existsb is_classic ops) | KIcons => existsb needs_extension ops | _ => false end.
  Definition of_cell o := match o with OCell r => Some (Some r) | _ => None end.
  Definition of_inverted o := match o with OInvert => Some true | _ => None end.
  Definition of_expression o := match o with OFormula s => Some (formula_text s) | _ => None end.
  Definition of_average o := match o with OAverage r => Some r | _ => None end.
  Definition of_top o := match o with OTop r => Some r | _ => None end.
  Definition of_text o := match o with OText r => Some (Some r) | _ => None end.
  Definition of_date o := match o with ODate r => Some r | _ => None end.
  Definition of_stop o := match o with OStop b => Some b | _ => None end.
  Definition of_format o := match o with OFormat n => Some (Some n) | _ => None end.
  Definition of_multi_range o := match o with OMulti s => Some (map (fun c => if c =? 44 then 32 else c) (filter (fun c => negb (c =? 36)) s)) | _ => None end.
  (** Above or below, with the average, how many standard deviations *)
  Definition average_details (r : avg_rule) : list (string * str) :=
    match r with
    | AboveAverage => [] | BelowAverage => [("aboveAverage", lit "0")] | EqualOrAbove => [("equalAverage", lit "1")] | EqualOrBelow => [("aboveAverage", lit "0"); ("equalAverage", lit "1")]
    | OneAbove => [("stdDev", lit "1")] | OneBelow => [("aboveAverage", lit "0"); ("stdDev", lit "1")]
    | TwoAbove => [("stdDev", lit "2")] | TwoBelow => [("aboveAverage", lit "0"); ("stdDev", lit "2")]
    | ThreeAbove => [("stdDev", lit "3")] | ThreeBelow => [("aboveAverage", lit "0"); ("stdDev", lit "3")]
    end%string.
  (** When a date falls in a period, as a formula; @ stands for the cell. *)
  Definition period_formula (a : str) (r : date_rule) : str :=
    flat_map (fun c => if c =? 64 then a else [c])
      (lit match r with
           | Yesterday => "FLOOR(@,1)=TODAY()-1" | Today => "FLOOR(@,1)=TODAY()" | Tomorrow => "FLOOR(@,1)=TODAY()+1"
           | Last7Days => "AND(TODAY()-FLOOR(@,1)<=6,FLOOR(@,1)<=TODAY())"
           | LastWeek => "AND(TODAY()-ROUNDDOWN(@,0)>=(WEEKDAY(TODAY())),TODAY()-ROUNDDOWN(@,0)<(WEEKDAY(TODAY())+7))"
           | ThisWeek => "AND(TODAY()-ROUNDDOWN(@,0)<=WEEKDAY(TODAY())-1,ROUNDDOWN(@,0)-TODAY()<=7-WEEKDAY(TODAY()))"
           | NextWeek => "AND(ROUNDDOWN(@,0)-TODAY()>(7-WEEKDAY(TODAY())),ROUNDDOWN(@,0)-TODAY()<(15-WEEKDAY(TODAY())))"
           | LastMonth => "AND(MONTH(@)=MONTH(TODAY())-1,OR(YEAR(@)=YEAR(TODAY()),AND(MONTH(@)=1,YEAR(@)=YEAR(TODAY())-1)))"
           | ThisMonth => "AND(MONTH(@)=MONTH(TODAY()),YEAR(@)=YEAR(TODAY()))"
           | NextMonth => "AND(MONTH(@)=MONTH(TODAY())+1,OR(YEAR(@)=YEAR(TODAY()),AND(MONTH(@)=12,YEAR(@)=YEAR(TODAY())+1)))"
           end).
  (** The formula by which older programs evaluate a rule about a text.  A text within
      a formula has its quotes doubled, and lengths are in characters. *)
  Definition in_formula (s : str) : str := 34 :: doubled s ++ [34].
  Definition search_formula (a : str) (r : text_rule) : str :=
    match r with
    | Contains s => lit "NOT(ISERROR(SEARCH(" ++ in_formula s ++ lit "," ++ a ++ lit ")))"
    | DoesNotContain s => lit "ISERROR(SEARCH(" ++ in_formula s ++ lit "," ++ a ++ lit "))"
    | BeginsWith s => lit "LEFT(" ++ a ++ lit "," ++ dec (N.of_nat (length s)) ++ lit ")=" ++ in_formula s
    | EndsWith s => lit "RIGHT(" ++ a ++ lit "," ++ dec (N.of_nat (length s)) ++ lit ")=" ++ in_formula s
    end.
  Definition scale_seen (p : point) : str * str := (lit (point_name (fst p)), snd p).
  (** The ends of a bar for programs that do not know automatic ends *)
  Definition bar_seen (ext top : bool) (p : point) : str * option str :=
    match fst p with
    | TyAutomatic => (lit (if top then "max" else "min"), None)
    | TyLowest | TyHighest => (lit (point_name (fst p)), if ext then None else Some (snd p))
    | t => (lit (point_name t), Some (snd p))
    end.
  Definition icon_seen (i : want_icon) : str * str * bool :=
    (lit match fst (w_point i) with TyNumber => "num" | TyFormula => "formula" | TyPercentile => "percentile" | _ => "percent" end, snd (w_point i), w_greater i).
  Definition want_icons (ops : list cf_op) : list want_icon := last_given of_icons [] ops.
  Definition want_set (ops : list cf_op) : icon_set := last_given of_icon_set ThreeTrafficLights ops.
  (** The rule; [None]: it must be refused.  [a] is the first cell of the range, [id]
      the name of its extension. *)
  Definition asked_rule (k : cf_class) (ops : list cf_op) (a id : str) : option seen :=
    let stop := last_given of_stop false ops in
    let style := last_given of_format None ops in
    let plain type d f := Some {| e_type := lit type; e_style := style; e_stop := stop; e_details := d; e_formulas := f; e_body := SNone |} in
    let drawn type b := Some {| e_type := lit type; e_style := None; e_stop := stop; e_details := []; e_formulas := []; e_body := b |} in
    match k with
    | KCell => match last_given of_cell None ops with Some r => plain "cellIs"%string [("operator"%string, lit (fst (compared_with r)))] (snd (compared_with r)) | None => None end
    | KBlank => if last_given of_inverted false ops then plain "notContainsBlanks"%string [] [lit "LEN(TRIM(" ++ a ++ lit "))>0"] else plain "containsBlanks"%string [] [lit "LEN(TRIM(" ++ a ++ lit "))=0"]
    | KError => if last_given of_inverted false ops then plain "notContainsErrors"%string [] [lit "NOT(ISERROR(" ++ a ++ lit "))"] else plain "containsErrors"%string [] [lit "ISERROR(" ++ a ++ lit ")"]
    | KDuplicate => plain (if last_given of_inverted false ops then "uniqueValues" else "duplicateValues")%string [] []
    | KFormula => match last_given of_expression [] ops with [] => None | f => plain "expression"%string [] [f] end
    | KAverage => plain "aboveAverage"%string (average_details (last_given of_average AboveAverage ops)) []
    | KTop => match last_given of_top (Top 10) ops with
              | Top n => if (1 <=? n) && (n <=? 1000) then plain "top10"%string [("rank"%string, dec n)] [] else None
              | Bottom n => if (1 <=? n) && (n <=? 1000) then plain "top10"%string [("bottom"%string, lit "1"); ("rank"%string, dec n)] [] else None
              | TopPercent n => if (1 <=? n) && (n <=? 100) then plain "top10"%string [("percent"%string, lit "1"); ("rank"%string, dec n)] [] else None
              | BottomPercent n => if (1 <=? n) && (n <=? 100) then plain "top10"%string [("percent"%string, lit "1"); ("bottom"%string, lit "1"); ("rank"%string, dec n)] [] else None
              end
    | KText => match last_given of_text None ops with
               | None => None
               | Some r =>
                   let '(type, op, t) := match r with
                                         | Contains s => ("containsText", "containsText", s) | DoesNotContain s => ("notContainsText", "notContains", s)
                                         | BeginsWith s => ("beginsWith", "beginsWith", s) | EndsWith s => ("endsWith", "endsWith", s)
                                         end%string in
                   plain type [("operator"%string, lit op); ("text"%string, t)] [search_formula a r]
               end
    | KDate => let r := last_given of_date Yesterday ops in
               plain "timePeriod"%string
                 [("timePeriod"%string, lit match r with
                    | Yesterday => "yesterday" | Today => "today" | Tomorrow => "tomorrow" | Last7Days => "last7Days" | LastWeek => "lastWeek" | ThisWeek => "thisWeek"
                    | NextWeek => "nextWeek" | LastMonth => "lastMonth" | ThisMonth => "thisMonth" | NextMonth => "nextMonth" end)]
                 [period_formula a r]
    | KScale2 => drawn "colorScale"%string
                   (SScale [scale_seen (last_given of_min (TyLowest, dec 0) ops); scale_seen (last_given of_max (TyHighest, dec 0) ops)]
                           [rgb (last_given of_min_color (CRGB 16773020) ops); rgb (last_given of_max_color (CRGB 6536827) ops)])
    | KScale3 => drawn "colorScale"%string
                   (SScale [scale_seen (last_given of_min (TyLowest, dec 0) ops); scale_seen (last_given of_mid (TyPercentile, dec 50) ops); scale_seen (last_given of_max (TyHighest, dec 0) ops)]
                           [rgb (last_given of_min_color (CRGB 16279915) ops); rgb (last_given of_mid_color (CRGB 16771972) ops); rgb (last_given of_max_color (CRGB 6536827) ops)])
    | KBar => let ext := extended KBar ops in
              drawn "dataBar"%string (SBar (negb (last_given of_bar_only false ops)) [bar_seen ext false (bar_low ops); bar_seen ext true (bar_high ops)]
                                          (rgb (last_given of_fill (CRGB 6524614) ops)) (if ext then Some id else None))
    | KIcons => if N.of_nat (length (want_icons ops)) =? set_size (want_set ops)
                then drawn "iconSet"%string (SIcons (lit (set_name (want_set ops))) (negb (last_given of_icons_only false ops)) (last_given of_reverse false ops) (map icon_seen (want_icons ops)))
                else None
    end.

  (** The extended rule.  The negative fill is given apart unless it is to be that of
      positive values. *)
  Definition point14 (top : bool) (p : point) : str * option str :=
    match fst p with
    | TyAutomatic => (lit (if top then "autoMax" else "autoMin"), None)
    | TyLowest | TyHighest => (lit (point_name (fst p)), None)
    | t => (lit (point_name t), Some (snd p))
    end.
  Definition picture14 (s : icon_set) (k : N) (i : want_icon) : str * N :=
    if w_none i then (lit "NoIcons", 0) else match w_picture i with Some (t, n) => (lit (set_name t), n) | None => (lit (set_name s), k) end.
  Fixpoint pictures14 (s : icon_set) (k : N) (l : list want_icon) : list (str * N) := match l with [] => [] | i :: r => picture14 s k i :: pictures14 s (k + 1) r end.
  Definition asked14 (k : cf_class) (ops : list cf_op) : option seen14_body :=
    match k with
    | KBar =>
        let fill := last_given of_fill (CRGB 6524614) ops in let border := last_given of_border (CRGB 6524614) ops in
        let nfill := last_given of_neg_fill (CRGB 16711680) ops in let nborder := last_given of_neg_border (CRGB 16711680) ops in
        let off := last_given of_border_off false ops in
        Some (XBar [point14 false (bar_low ops); point14 true (bar_high ops)] (negb (last_given of_solid false ops))
                (lit match last_given of_direction DirContext ops with DirContext => "context" | DirLeftToRight => "leftToRight" | DirRightToLeft => "rightToLeft" end)
                (if off then None else Some (rgb border))
                (if color_eq_dec fill nfill then None else Some (rgb nfill))
                (if off then None else Some (rgb nborder))
                (lit match last_given of_axis AxisAutomatic ops with AxisAutomatic => "automatic" | AxisMidpoint => "middle" | AxisNone => "none" end)
                (match last_given of_axis AxisAutomatic ops with AxisNone => None | _ => Some (rgb (last_given of_axis_color (CRGB 0) ops)) end))
    | KIcons =>
        Some (XIcons (lit (set_name (want_set ops))) (negb (last_given of_icons_only false ops)) (last_given of_reverse false ops)
                (map (fun i => (lit (point_name (fst (w_point i))), snd (w_point i), w_greater i)) (want_icons ops))
                (if existsb custom_call ops then Some (pictures14 (want_set ops) 0 (want_icons ops)) else None))
    | _ => None
    end.

  (** ** Texts that XML can hold *)
  Definition cf_value_ok (v : cf_value) : Prop :=
    match v with CText s => doc_text s /\ s <> [] /\ s <> [34] | CFormula s => doc_text (formula_text s) | _ => True end.
  Definition point_ok (v : cf_value) : Prop := match v with CFormula s => attr_text (formula_text s) | _ => True end.
  Definition icon_op_ok (o : icon_op) : Prop := match o with IRule t v => point_ok v | _ => True end.
  Definition cf_op_ok (o : cf_op) : Prop :=
    match o with
    | OMulti s => attr_text s
    | OCell r => match r with
        | DEqualTo v | DNotEqualTo v | DLessThan v | DLessThanOrEqualTo v | DGreaterThan v | DGreaterThanOrEqualTo v => cf_value_ok v
        | DBetween v w | DNotBetween v w => cf_value_ok v /\ cf_value_ok w end
    | OFormula s => doc_text (formula_text s)
    | OText r => match r with Contains s | DoesNotContain s | BeginsWith s | EndsWith s => attr_text s end
    | OMin _ v | OMid _ v | OMax _ v => point_ok v
    | OMinColor c | OMidColor c | OMaxColor c | OFill c | OBorder c | ONegFill c | ONegBorder c | OAxisColor c => plain_color c
    | OIcons l => Forall (Forall icon_op_ok) l
    | _ => True
    end.
  (** A text that needs no care in a formula: no quotes, one byte a character *)
  Definition easy_text (s : str) : Prop := Forall (fun c => c <> 34 /\ c < 128) s.
  Definition easy (o : cf_op) : Prop := match o with OText (Contains s) | OText (DoesNotContain s) | OText (BeginsWith s) | OText (EndsWith s) => easy_text s | _ => True end.
End Asked.

(** A call of add_conditional_format: first and last cell, kind of rule and how it was
    built. *)
Definition cf_add := ((N * N * (N * N)) * (cf_class * list cf_op))%type.
(** The order of the ranges is that of their first rules; within them, of the calls. *)
Fixpoint firsts (seen_before : list str) (l : list str) : list str :=
  match l with [] => [] | t :: r => if existsb (str_eqb t) seen_before then firsts seen_before r else t :: firsts (t :: seen_before) r end.
Definition groups_of {A} (l : list (str * A)) : list (str * list A) :=
  map (fun t => (t, map snd (filter (fun p => str_eqb (fst p) t) l))) (firsts [] (map fst l)).
(** Rules are numbered through the sheet, and so are those with an extension. *)
Fixpoint number_rules {A} (ext : A -> bool) (n k : N) (l : list A) : list (N * N * A) :=
  match l with [] => [] | x :: r => (n, k, x) :: number_rules ext (n + 1) (if ext x then k + 1 else k) r end.
Fixpoint number_groups {A} (ext : A -> bool) (n k : N) (gs : list (str * list A)) : list (str * list (N * N * A)) :=
  match gs with
  | [] => []
  | (t, l) :: r => (t, number_rules ext n k l) :: number_groups ext (n + N.of_nat (length l)) (k + N.of_nat (length (filter ext l))) r
  end.

(** The first cell of a list of ranges *)
Fixpoint first_cell (s : str) : str := match s with [] => [] | c :: r => if (c =? 32) || (c =? 58) then [] else c :: first_cell r end.

Section Wanted.
  Variable num_text : f64 -> str.
  Variable beyond : str -> bool.
  Variable formula_text : str -> str.
  (** The text of the cells from one to another *)
  Variable range_text : N -> N -> N -> N -> option str.
  Notation rule := (cf_class * list cf_op)%type.
  Definition has_ext (r : rule) : bool := extended num_text beyond formula_text (fst r) (snd r).
  Definition only_ext (r : rule) : bool := extension_only num_text beyond formula_text (fst r) (snd r).
  (** A call takes effect unless its range is improper or its rule must be refused. *)
  Definition accepted (a : cf_add) : bool :=
    proper_range (fst a) && match asked_rule num_text beyond formula_text (fst (snd a)) (snd (snd a)) [] [] with Some _ => true | None => false end.
  (** The ranges it takes effect for: those of set_multi_range, else those of the call. *)
  Definition ranges (a : cf_add) : option str :=
    let '((fr, fc, (lr, lc)), (_, ops)) := a in
    match last_given of_multi_range [] ops with [] => range_text fr fc lr lc | t => Some t end.
  Definition placed (adds : list cf_add) : list (str * rule) :=
    flat_map (fun a => if accepted a then match ranges a with Some t => [(t, snd a)] | None => [] end else []) adds.
  Definition numbered (adds : list cf_add) : list (str * list (N * N * rule)) := number_groups has_ext 1 1 (groups_of (placed adds)).

  (** What the sheet should say; [name] names the extended rules. *)
  Variable name : N -> str.
  Definition wanted_rules (t : str) (l : list (N * N * rule)) : list (N * seen) :=
    flat_map (fun e : N * N * rule => let '(n, k, r) := e in
      if only_ext r then [] else match asked_rule num_text beyond formula_text (fst r) (snd r) (first_cell t) (name k) with Some s => [(n, s)] | None => [] end) l.
  Definition wanted_group (g : str * list (N * N * rule)) : list (str * list (N * seen)) :=
    if forallb (fun e => only_ext (snd e)) (snd g) then [] else [(fst g, wanted_rules (fst g) (snd g))].
  Definition wanted_formats (adds : list cf_add) : list (str * list (N * seen)) := flat_map wanted_group (numbered adds).

  (** And its extension: bars have their priority in the rule they extend. *)
  Definition wanted_rule14 (e : N * N * rule) : list (str * seen14) :=
    let '(n, k, r) := e in
    if has_ext r then
      match asked14 num_text beyond formula_text (fst r) (snd r) with
      | Some b => [(name k, (match fst r with KIcons => Some n | _ => None end, match fst r with KIcons => last_given of_stop false (snd r) | _ => false end, b))]
      | None => []
      end
    else [].
  Definition wanted_group14 (g : str * list (N * N * rule)) : list (str * list (str * seen14)) :=
    if existsb (fun e => has_ext (snd e)) (snd g) then [(fst g, flat_map wanted_rule14 (snd g))] else [].
  Definition wanted_formats14 (adds : list cf_add) : list (str * list (str * seen14)) := flat_map wanted_group14 (numbered adds).

  (** What the extension can say as it is written: not that the negative border has the
      colour of the bar when the border does not; of icons, only thresholds that count
      as reached, of four types, neither reversed, without values, nor stopping. *)
  Definition kept14 (r : rule) : Prop :=
    let ops := snd r in
    match fst r with
    | KBar => last_given of_neg_border (CRGB 16711680) ops = last_given of_fill (CRGB 6524614) ops -> rgb (last_given of_border (CRGB 6524614) ops) = rgb (last_given of_neg_border (CRGB 16711680) ops)
    | KIcons =>
        last_given of_reverse false ops = false /\ last_given of_icons_only false ops = false /\ last_given of_stop false ops = false /\
        Forall (fun w => w_greater w = false /\ match fst (w_point w) with TyNumber | TyPercent | TyFormula | TyPercentile => True | _ => False end) (want_icons num_text beyond formula_text ops)
    | _ => True
    end.
End Wanted.
(** An extended rule without its priority *)
Definition unranked (l : list (str * list (str * seen14))) : list (str * list (str * (bool * seen14_body))) :=
  map (fun g => (fst g, map (fun e => (fst e, (snd (fst (snd e)), snd (snd e)))) (snd g))) l.
