(** Model of conditional formats: src/conditional_format.rs (the thirteen kinds of
    rule and their builders) and src/worksheet.rs:9008-9077 (add_conditional_format),
    17917-18011 (the two passes of the writer). *)
From Verif Require Import Base F64 Ref_Model Xml_Model Xml_Tree Fmt_Model Rich_Model View_Model Cells_Model Url_Model Formula_Model Doc_Model StrMap DV_Model.

(** src/conditional_format.rs:7035-7062 *)
Inductive ctype := TyAutomatic | TyLowest | TyNumber | TyPercent | TyFormula | TyPercentile | TyHighest.
(** What converts to ConditionalFormatValue (6635-6683): texts, the integers, f64, a
    formula (by the text it was made from), a date (by its serial number), bool. *)
Inductive cf_value := CText (s : str) | CInt (z : Z) | CNum (x : f64) | CFormula (s : str) | CDate (serial : f64) | CBool (b : bool).
(** 6812-6824 *)
Inductive top_rule := Top (n : N) | Bottom (n : N) | TopPercent (n : N) | BottomPercent (n : N).
(** 6834-6873 *)
Inductive avg_rule := AboveAverage | BelowAverage | EqualOrAbove | EqualOrBelow | OneAbove | OneBelow | TwoAbove | TwoBelow | ThreeAbove | ThreeBelow.
(** 6884-6896 *)
Inductive text_rule := Contains (s : str) | DoesNotContain (s : str) | BeginsWith (s : str) | EndsWith (s : str).
(** 6917-6957 *)
Inductive date_rule := Yesterday | Today | Tomorrow | Last7Days | LastWeek | ThisWeek | NextWeek | LastMonth | ThisMonth | NextMonth.
(** 7124-7134, 7203-7214 *)
Inductive bar_direction := DirContext | DirLeftToRight | DirRightToLeft.
Inductive bar_axis := AxisAutomatic | AxisMidpoint | AxisNone.
(** 7224-7344 *)
Inductive icon_set :=
| ThreeArrows | ThreeArrowsGray | ThreeFlags | ThreeTrafficLights | ThreeTrafficLightsWithRim | ThreeSigns | ThreeSymbolsCircled | ThreeSymbols | ThreeStars | ThreeTriangles
| FourArrows | FourArrowsGray | FourRedToBlack | FourHistograms | FourTrafficLights
| FiveArrows | FiveArrowsGray | FiveHistograms | FiveQuadrants | FiveBoxes.

(** 6788-6801, 6898-6907, 6959-6974, 7346-7371: the Display texts *)
Definition cell_operator {T} (r : dv_rule T) : string :=
  match r with
  | DEqualTo _ => "equal" | DBetween _ _ => "between" | DLessThan _ => "lessThan" | DNotEqualTo _ => "notEqual" | DNotBetween _ _ => "notBetween"
  | DGreaterThan _ => "greaterThan" | DLessThanOrEqualTo _ => "lessThanOrEqual" | DGreaterThanOrEqualTo _ => "greaterThanOrEqual"
  end%string.
Definition text_operator (r : text_rule) : string :=
  match r with Contains _ => "containsText" | EndsWith _ => "endsWith" | BeginsWith _ => "beginsWith" | DoesNotContain _ => "notContains" end%string.
Definition date_period (r : date_rule) : string :=
  match r with
  | Today => "today" | Tomorrow => "tomorrow" | LastWeek => "lastWeek" | NextWeek => "nextWeek" | ThisWeek => "thisWeek" | Last7Days => "last7Days"
  | LastMonth => "lastMonth" | NextMonth => "nextMonth" | ThisMonth => "thisMonth" | Yesterday => "yesterday"
  end%string.
Definition icon_set_name (i : icon_set) : string :=
  match i with
  | FiveBoxes => "5Boxes" | ThreeFlags => "3Flags" | ThreeSigns => "3Signs" | ThreeStars => "3Stars" | FourArrows => "4Arrows" | FiveArrows => "5Arrows"
  | ThreeArrows => "3Arrows" | ThreeSymbols => "3Symbols2" | FiveQuadrants => "5Quarters" | ThreeTriangles => "3Triangles" | FourArrowsGray => "4ArrowsGray"
  | FourRedToBlack => "4RedToBlack" | FourHistograms => "4Rating" | FiveArrowsGray => "5ArrowsGray" | FiveHistograms => "5Rating" | ThreeArrowsGray => "3ArrowsGray"
  | FourTrafficLights => "4TrafficLights" | ThreeTrafficLights => "3TrafficLights1" | ThreeSymbolsCircled => "3Symbols" | ThreeTrafficLightsWithRim => "3TrafficLights2"
  end%string.
(** The three groups of every match on the icon set (5748-5790, 6060-6096, 6497-6533). *)
Definition icon_count (i : icon_set) : nat :=
  match i with
  | ThreeArrows | ThreeArrowsGray | ThreeFlags | ThreeTrafficLights | ThreeTrafficLightsWithRim | ThreeSigns | ThreeSymbolsCircled | ThreeSymbols | ThreeStars | ThreeTriangles => 3
  | FourArrows | FourArrowsGray | FourRedToBlack | FourHistograms | FourTrafficLights => 4
  | _ => 5
  end.
(** 6341-6349, 6355-6365 *)
Record icon := { ic_set : option icon_set; ic_index : N; ic_none : bool; ic_custom : bool; ic_greater : bool; ic_type : ctype; ic_value : str }.
Definition icon_new : icon := {| ic_set := None; ic_index := 0; ic_none := false; ic_custom := false; ic_greater := false; ic_type := TyPercent; ic_value := lit "0" |}.
Definition point := (ctype * str)%type.
Record scale := { sc_min : point; sc_mid : point; sc_max : point; sc_cmin : Color; sc_cmid : Color; sc_cmax : Color }.
(** 4420-4435 *)
Record bar := { ba_min : point; ba_max : point; ba_fill : Color; ba_border : Color; ba_nfill : Color; ba_nborder : Color; ba_axis : Color;
                ba_off : bool; ba_solid : bool; ba_only : bool; ba_dir : bar_direction; ba_pos : bar_axis }.
Record iconset := { is_set : icon_set; is_reversed : bool; is_only : bool; is_custom : bool; is_icons : list icon }.
Inductive body :=
| BCell (r : option (dv_rule str)) | BBlank (inverted : bool) | BError (inverted : bool) | BDuplicate (inverted : bool) | BFormula (s : str)
| BAverage (r : avg_rule) | BTop (r : top_rule) | BText (r : option text_rule) | BDate (r : date_rule)
| BScale2 (s : scale) | BScale3 (s : scale) | BBar (b : bar) | BIcons (i : iconset).
(** The fields all thirteen structs have; the format by the number it has in the
    workbook's list of differential formats (9055-9057, 17946-17950; C25 and C28). *)
Record cf := { cf_body : body; cf_multi : str; cf_stop : bool; cf_x14 : bool; cf_only : bool; cf_style : option N }.

Inductive cf_class := KCell | KBlank | KError | KDuplicate | KFormula | KAverage | KTop | KText | KDate | KScale2 | KScale3 | KBar | KIcons.
Definition zero_text : str := lit "0".
Definition scale2_new : scale :=
  {| sc_min := (TyLowest, zero_text); sc_mid := (TyPercentile, zero_text); sc_max := (TyHighest, zero_text);
     sc_cmin := CRGB 16773020; sc_cmid := CDefault; sc_cmax := CRGB 6536827 |}.                      (* 3452-3466; there is no midpoint *)
Definition scale3_new : scale :=
  {| sc_min := (TyLowest, zero_text); sc_mid := (TyPercentile, lit "50"); sc_max := (TyHighest, zero_text);
     sc_cmin := CRGB 16279915; sc_cmid := CRGB 16771972; sc_cmax := CRGB 6536827 |}.                 (* 3915-3932 *)
Definition bar_new : bar :=
  {| ba_min := (TyAutomatic, zero_text); ba_max := (TyAutomatic, zero_text); ba_fill := CRGB 6524614; ba_border := CRGB 6524614; ba_nfill := CRGB 16711680; ba_nborder := CRGB 16711680;
     ba_axis := CRGB 0; ba_off := false; ba_solid := false; ba_only := false; ba_dir := DirContext; ba_pos := AxisAutomatic |}. (* 4447-4470 *)
(** The thirteen [new]: 1210, 1561, 1762, 1964, 2159, 2438, 2680, 2933, 3200, 3452, 3915, 4447, 5722 *)
Definition body_new (k : cf_class) : body :=
  match k with
  | KCell => BCell None | KBlank => BBlank false | KError => BError false | KDuplicate => BDuplicate false | KFormula => BFormula []
  | KAverage => BAverage AboveAverage | KTop => BTop (Top 10) | KText => BText None | KDate => BDate Yesterday
  | KScale2 => BScale2 scale2_new | KScale3 => BScale3 scale3_new | KBar => BBar bar_new
  | KIcons => BIcons {| is_set := ThreeTrafficLights; is_reversed := false; is_only := false; is_custom := false; is_icons := [] |}
  end.
Definition cf_new (k : cf_class) : cf :=
  {| cf_body := body_new k; cf_multi := []; cf_stop := false; cf_x14 := match k with KBar => true | _ => false end; cf_only := false; cf_style := None |}.

(** The builder calls of a custom icon and of the rules.  Which calls a kind of rule
    has is settled by the types; a call it does not have does nothing here. *)
Inductive icon_op := IRule (t : ctype) (v : cf_value) | IType (s : icon_set) (index : N) | INone (b : bool) | IGreater (b : bool).
Inductive cf_op :=
| OMulti (s : str) | OStop (b : bool) | OFormat (dxf : N)
| OCell (r : dv_rule cf_value) | OInvert | OFormula (s : str) | OAverage (r : avg_rule) | OTop (r : top_rule) | OText (r : text_rule) | ODate (r : date_rule)
| OMin (t : ctype) (v : cf_value) | OMid (t : ctype) (v : cf_value) | OMax (t : ctype) (v : cf_value)
| OMinColor (c : Color) | OMidColor (c : Color) | OMaxColor (c : Color)
| OFill (c : Color) | OBorder (c : Color) | ONegFill (c : Color) | ONegBorder (c : Color) | OAxisColor (c : Color)
| OBorderOff (b : bool) | OSolid (b : bool) | OBarOnly (b : bool) | ODirection (d : bar_direction) | OAxisPos (p : bar_axis) | OClassic
| OIconType (s : icon_set) | OReverse (b : bool) | OIconsOnly (b : bool) | OIcons (l : list (list icon_op)).

(** src/color.rs:469-493 *)
Definition color_valid (c : Color) : bool :=
  match c with CRGB n => n <=? 16777215 | CTheme t s => (t <=? 9) && (s <=? 5) | _ => true end.
Definition if_valid (old c : Color) : Color := if color_valid c then c else old.

Definition set_body (c : cf) (b : body) : cf :=
  {| cf_body := b; cf_multi := cf_multi c; cf_stop := cf_stop c; cf_x14 := cf_x14 c; cf_only := cf_only c; cf_style := cf_style c |}.
Definition set_scale (s : scale) (p q r : point) (a b c : Color) : scale :=
  {| sc_min := p; sc_mid := q; sc_max := r; sc_cmin := a; sc_cmid := b; sc_cmax := c |}.
Definition bar_points (b : bar) (p q : point) : bar :=
  {| ba_min := p; ba_max := q; ba_fill := ba_fill b; ba_border := ba_border b; ba_nfill := ba_nfill b; ba_nborder := ba_nborder b; ba_axis := ba_axis b;
     ba_off := ba_off b; ba_solid := ba_solid b; ba_only := ba_only b; ba_dir := ba_dir b; ba_pos := ba_pos b |}.
Definition bar_colors (b : bar) (fill border nfill nborder axis : Color) : bar :=
  {| ba_min := ba_min b; ba_max := ba_max b; ba_fill := fill; ba_border := border; ba_nfill := nfill; ba_nborder := nborder; ba_axis := axis;
     ba_off := ba_off b; ba_solid := ba_solid b; ba_only := ba_only b; ba_dir := ba_dir b; ba_pos := ba_pos b |}.
Definition bar_flags (b : bar) (off solid only : bool) (d : bar_direction) (p : bar_axis) : bar :=
  {| ba_min := ba_min b; ba_max := ba_max b; ba_fill := ba_fill b; ba_border := ba_border b; ba_nfill := ba_nfill b; ba_nborder := ba_nborder b; ba_axis := ba_axis b;
     ba_off := off; ba_solid := solid; ba_only := only; ba_dir := d; ba_pos := p |}.

(** 7542-7556 *)
Fixpoint until (c : N) (s : str) : str := match s with [] => [] | d :: r => if d =? c then [] else d :: until c r end.
Definition range_to_anchor (range : str) : str := until 58 (until 32 range).
(** [text.len()]: the length in UTF-8 bytes *)
Definition utf8_len (c : N) : N := if c <? 128 then 1 else if c <? 2048 then 2 else if c <? 65536 then 3 else 4.
Definition byte_len (s : str) : N := fold_right (fun c n => utf8_len c + n) 0 s.

Section CF.
  Variable num_text : f64 -> str.          (* f64::to_string *)
  Variable beyond : str -> bool.           (* parses as an f64 that is not in 0.0..=100.0 *)
  (** 6635-6683 *)
  Definition is_text (v : cf_value) : bool := match v with CText _ => true | _ => false end.
  Definition cf_value_text (v : cf_value) : str :=
    match v with
    | CText s => s | CInt z => int_text z | CNum x | CDate x => num_text x | CFormula s => fst (formula_new s)
    | CBool b => if b then lit "TRUE" else lit "FALSE"
    end.
  (** 6615-6631 *)
  Definition starts_quote (s : str) : bool := match s with c :: _ => c =? 34 | [] => false end.
  Definition ends_quote (s : str) : bool := match rev s with c :: _ => c =? 34 | [] => false end.
  Definition quote_string (v : cf_value) : str :=
    let s := cf_value_text v in
    if negb (is_text v) || negb (given s) then s
    else if starts_quote s && ends_quote s then s
    else 34 :: replace_char 34 [34; 34] s ++ [34].
  (** 1329-1372 *)
  Definition map_rule {A B} (f : A -> B) (r : dv_rule A) : dv_rule B :=
    match r with
    | DEqualTo v => DEqualTo (f v) | DNotEqualTo v => DNotEqualTo (f v) | DGreaterThan v => DGreaterThan (f v) | DGreaterThanOrEqualTo v => DGreaterThanOrEqualTo (f v)
    | DLessThan v => DLessThan (f v) | DLessThanOrEqualTo v => DLessThanOrEqualTo (f v) | DBetween v w => DBetween (f v) (f w) | DNotBetween v w => DNotBetween (f v) (f w)
    end.
  Definition is_percent (t : ctype) : bool := match t with TyPercent | TyPercentile => true | _ => false end.
  Definition usable (t : ctype) (v : cf_value) : bool := negb (is_text v) && negb (is_percent t && beyond (cf_value_text v)).
  (** 3529-3612, 3995-4127 *)
  Definition scale_point (old : point) (t : ctype) (v : cf_value) : point :=
    if negb (usable t v) then old
    else match t with TyLowest | TyHighest | TyAutomatic => old | _ => (t, cf_value_text v) end.
  (** 4532-4562, 4579-4610 *)
  Definition bar_min (old : point) (t : ctype) (v : cf_value) : point :=
    if negb (usable t v) then old else match t with TyHighest => old | _ => (t, cf_value_text v) end.
  Definition bar_max (old : point) (t : ctype) (v : cf_value) : point :=
    if negb (usable t v) then old else match t with TyLowest => old | _ => (t, cf_value_text v) end.
  (** 6376-6570 *)
  Definition icon_step (i : icon) (o : icon_op) : icon :=
    match o with
    | IRule t v => if negb (usable t v) then i else
        match t with
        | TyHighest => i
        | _ => {| ic_set := ic_set i; ic_index := ic_index i; ic_none := ic_none i; ic_custom := ic_custom i; ic_greater := ic_greater i; ic_type := t; ic_value := cf_value_text v |}
        end
    | IType s n => if N.of_nat (icon_count s) <=? n then i else
        {| ic_set := Some s; ic_index := n; ic_none := ic_none i; ic_custom := true; ic_greater := ic_greater i; ic_type := ic_type i; ic_value := ic_value i |}
    | INone b => {| ic_set := ic_set i; ic_index := ic_index i; ic_none := b; ic_custom := true; ic_greater := ic_greater i; ic_type := ic_type i; ic_value := ic_value i |}
    | IGreater b => {| ic_set := ic_set i; ic_index := ic_index i; ic_none := ic_none i; ic_custom := ic_custom i; ic_greater := b; ic_type := ic_type i; ic_value := ic_value i |}
    end.
  Definition icon_build (ops : list icon_op) : icon := fold_left icon_step ops icon_new.
  (** 5748-5790: the percentages of the icons *)
  Definition percent_icon (n : N) : icon := icon_build [IRule TyPercent (CInt (Z.of_N n))].
  Definition default_icons (s : icon_set) : list icon :=
    map percent_icon match icon_count s with 3%nat => [0; 33; 67] | 4%nat => [0; 25; 50; 75] | _ => [0; 20; 40; 60; 80] end.
  (** 5792-5800 *)
  Definition only_extended (s : icon_set) : bool := match s with ThreeStars | ThreeTriangles | FiveBoxes => true | _ => false end.
  (** 6036-6040 *)
  Definition first_icon (i : icon) : icon :=
    {| ic_set := ic_set i; ic_index := ic_index i; ic_none := ic_none i; ic_custom := ic_custom i; ic_greater := false; ic_type := TyPercent; ic_value := lit "0" |}.
  Definition body_step (c : cf) (o : cf_op) : cf :=
    match cf_body c, o with
    | BCell _, OCell r => set_body c (BCell (Some (map_rule quote_string r)))                       (* 1324-1376 *)
    | BBlank _, OInvert => set_body c (BBlank true)                                                  (* 1577-1580 *)
    | BError _, OInvert => set_body c (BError true)                                                  (* 1778-1781 *)
    | BDuplicate _, OInvert => set_body c (BDuplicate true)                                          (* 1980-1983 *)
    | BFormula _, OFormula s => set_body c (BFormula (fst (formula_new s)))                          (* 2260-2263 *)
    | BAverage _, OAverage r => set_body c (BAverage r)                                              (* 2456-2459 *)
    | BTop _, OTop r => set_body c (BTop r)                                                          (* 2700-2703 *)
    | BText _, OText r => set_body c (BText (Some r))                                                (* 2954-2957 *)
    | BDate _, ODate r => set_body c (BDate r)                                                       (* 3219-3222 *)
    | BScale2 s, OMin t v => set_body c (BScale2 (set_scale s (scale_point (sc_min s) t v) (sc_mid s) (sc_max s) (sc_cmin s) (sc_cmid s) (sc_cmax s)))
    | BScale2 s, OMax t v => set_body c (BScale2 (set_scale s (sc_min s) (sc_mid s) (scale_point (sc_max s) t v) (sc_cmin s) (sc_cmid s) (sc_cmax s)))
    | BScale2 s, OMinColor k => set_body c (BScale2 (set_scale s (sc_min s) (sc_mid s) (sc_max s) (if_valid (sc_cmin s) k) (sc_cmid s) (sc_cmax s)))  (* 3670-3677 *)
    | BScale2 s, OMaxColor k => set_body c (BScale2 (set_scale s (sc_min s) (sc_mid s) (sc_max s) (sc_cmin s) (sc_cmid s) (if_valid (sc_cmax s) k)))  (* 3689-3696 *)
    | BScale3 s, OMin t v => set_body c (BScale3 (set_scale s (scale_point (sc_min s) t v) (sc_mid s) (sc_max s) (sc_cmin s) (sc_cmid s) (sc_cmax s)))
    | BScale3 s, OMid t v => set_body c (BScale3 (set_scale s (sc_min s) (scale_point (sc_mid s) t v) (sc_max s) (sc_cmin s) (sc_cmid s) (sc_cmax s)))
    | BScale3 s, OMax t v => set_body c (BScale3 (set_scale s (sc_min s) (sc_mid s) (scale_point (sc_max s) t v) (sc_cmin s) (sc_cmid s) (sc_cmax s)))
    | BScale3 s, OMinColor k => set_body c (BScale3 (set_scale s (sc_min s) (sc_mid s) (sc_max s) (if_valid (sc_cmin s) k) (sc_cmid s) (sc_cmax s)))
    | BScale3 s, OMidColor k => set_body c (BScale3 (set_scale s (sc_min s) (sc_mid s) (sc_max s) (sc_cmin s) (if_valid (sc_cmid s) k) (sc_cmax s)))
    | BScale3 s, OMaxColor k => set_body c (BScale3 (set_scale s (sc_min s) (sc_mid s) (sc_max s) (sc_cmin s) (sc_cmid s) (if_valid (sc_cmax s) k)))
    | BBar b, OMin t v => set_body c (BBar (bar_points b (bar_min (ba_min b) t v) (ba_max b)))
    | BBar b, OMax t v => set_body c (BBar (bar_points b (ba_min b) (bar_max (ba_max b) t v)))
    | BBar b, OFill k => set_body c (BBar (bar_colors b (if_valid (ba_fill b) k) (if_valid (ba_border b) k) (ba_nfill b) (ba_nborder b) (ba_axis b)))   (* 4664-4672 *)
    | BBar b, OBorder k => set_body c (BBar (bar_colors b (ba_fill b) (if_valid (ba_border b) k) (ba_nfill b) (ba_nborder b) (ba_axis b)))              (* 4726-4733 *)
    | BBar b, ONegFill k => set_body c (BBar (bar_colors b (ba_fill b) (ba_border b) (if_valid (ba_nfill b) k) (if_valid (ba_nborder b) k) (ba_axis b))) (* 4787-4795 *)
    | BBar b, ONegBorder k => set_body c (BBar (bar_colors b (ba_fill b) (ba_border b) (ba_nfill b) (if_valid (ba_nborder b) k) (ba_axis b)))           (* 4850-4860 *)
    | BBar b, OAxisColor k => set_body c (BBar (bar_colors b (ba_fill b) (ba_border b) (ba_nfill b) (ba_nborder b) (if_valid (ba_axis b) k)))           (* 5213-5220 *)
    | BBar b, OSolid x => set_body c (BBar (bar_flags b (ba_off b) x (ba_only b) (ba_dir b) (ba_pos b)))          (* 4913 *)
    | BBar b, OBorderOff x => set_body c (BBar (bar_flags b x (ba_solid b) (ba_only b) (ba_dir b) (ba_pos b)))    (* 4965 *)
    | BBar b, ODirection d => set_body c (BBar (bar_flags b (ba_off b) (ba_solid b) (ba_only b) d (ba_pos b)))    (* 5023 *)
    | BBar b, OBarOnly x => set_body c (BBar (bar_flags b (ba_off b) (ba_solid b) x (ba_dir b) (ba_pos b)))       (* 5080 *)
    | BBar b, OAxisPos p => set_body c (BBar (bar_flags b (ba_off b) (ba_solid b) (ba_only b) (ba_dir b) p))      (* 5152 *)
    | BBar b, OClassic =>                                                                                           (* 5231-5242 *)
        {| cf_body := BBar (bar_points b (match fst (ba_min b) with TyAutomatic => (TyLowest, snd (ba_min b)) | _ => ba_min b end)
                                         (match fst (ba_max b) with TyAutomatic => (TyHighest, snd (ba_max b)) | _ => ba_max b end));
           cf_multi := cf_multi c; cf_stop := cf_stop c; cf_x14 := false; cf_only := cf_only c; cf_style := cf_style c |}
    | BIcons i, OIconType s =>                                                                                      (* 5744-5804 *)
        {| cf_body := BIcons {| is_set := s; is_reversed := is_reversed i; is_only := is_only i; is_custom := is_custom i; is_icons := default_icons s |};
           cf_multi := cf_multi c; cf_stop := cf_stop c; cf_x14 := cf_x14 c || only_extended s; cf_only := cf_only c || only_extended s; cf_style := cf_style c |}
    | BIcons i, OReverse b => set_body c (BIcons {| is_set := is_set i; is_reversed := b; is_only := is_only i; is_custom := is_custom i; is_icons := is_icons i |})  (* 5862 *)
    | BIcons i, OIconsOnly b => set_body c (BIcons {| is_set := is_set i; is_reversed := is_reversed i; is_only := b; is_custom := is_custom i; is_icons := is_icons i |})  (* 5923 *)
    | BIcons i, OIcons l =>                                                                                         (* 6032-6052 *)
        let icons := map icon_build l in
        let icons := match icons with x :: r => first_icon x :: r | [] => [] end in
        let custom := existsb ic_custom icons in
        {| cf_body := BIcons {| is_set := is_set i; is_reversed := is_reversed i; is_only := is_only i; is_custom := is_custom i || custom; is_icons := icons |};
           cf_multi := cf_multi c; cf_stop := cf_stop c; cf_x14 := cf_x14 c || custom; cf_only := cf_only c || custom; cf_style := cf_style c |}
    | _, _ => c
    end.
  (** The kinds with a set_format *)
  Definition has_format (b : body) : bool := match b with BScale2 _ | BScale3 _ | BBar _ | BIcons _ => false | _ => true end.
  Definition cf_step (c : cf) (o : cf_op) : cf :=
    match o with
    | OMulti s => {| cf_body := cf_body c; cf_multi := replace_char 44 [32] (replace_char 36 [] s); cf_stop := cf_stop c; cf_x14 := cf_x14 c; cf_only := cf_only c; cf_style := cf_style c |} (* 7403-7406, 7490-7493 *)
    | OStop b => {| cf_body := cf_body c; cf_multi := cf_multi c; cf_stop := b; cf_x14 := cf_x14 c; cf_only := cf_only c; cf_style := cf_style c |} (* 7419, 7506 *)
    | OFormat n => {| cf_body := cf_body c; cf_multi := cf_multi c; cf_stop := cf_stop c; cf_x14 := cf_x14 c; cf_only := cf_only c; cf_style := if has_format (cf_body c) then Some n else cf_style c |}
    | _ => body_step c o
    end.
  Definition cf_build (k : cf_class) (ops : list cf_op) : cf := fold_left cf_step ops (cf_new k).

  (** The thirteen [validate]: 1398, 1604, 1805, 2007, 2285, 2483, 2725, 2979, 3246, 3701, 4236, 5247, 6057 *)
  Definition cf_valid (c : cf) : bool :=
    match cf_body c with
    | BCell r => match r with Some _ => true | None => false end
    | BText r => match r with Some _ => true | None => false end
    | BFormula s => given s
    | BTop (Top n) | BTop (Bottom n) => (1 <=? n) && (n <=? 1000)
    | BTop (TopPercent n) | BTop (BottomPercent n) => (1 <=? n) && (n <=? 100)
    | BIcons i => Nat.eqb (length (is_icons i)) (icon_count (is_set i))
    | _ => true
    end.

  (** src/worksheet.rs:1611-1616 *)
  Record cf_state := { fs_map : list (str * list cf); fs_order : list str; fs_classic : bool; fs_x14 : bool }.
  Definition cf_start : cf_state := {| fs_map := []; fs_order := []; fs_classic := false; fs_x14 := false |}.
  (** 9008-9077; [true]: an error was returned; [None]: panic (the arithmetic of
      cell_range). *)
  Definition add_conditional_format (m : ovf) (s : cf_state) (fr fc lr lc : N) (c : cf) : option (cf_state * bool) :=
    if negb (check_dimensions_only fr fc) || negb (check_dimensions_only lr lc) then Some (s, true)
    else if (lr <? fr) || (lc <? fc) then Some (s, true)
    else range <- cell_range m fr fc lr lc ;;
      let key := if given (cf_multi c) then cf_multi c else range in
      if negb (cf_valid c) then Some (s, true)
      else let x14 := fs_x14 s || cf_x14 c in
           let classic := fs_classic s || negb (cf_only c) in
           match sm_get key (fs_map s) with
           | Some rules => Some ({| fs_map := sm_ins key (rules ++ [c]) (fs_map s); fs_order := fs_order s; fs_classic := classic; fs_x14 := x14 |}, false)
           | None => Some ({| fs_map := sm_ins key [c] (fs_map s); fs_order := fs_order s ++ [key]; fs_classic := classic; fs_x14 := x14 |}, false)
           end.

  (** ** The rules as XML *)
  (** The attributes that every rule starts with: type, dxfId, priority, stopIfTrue. *)
  Definition rule_attrs (type : string) (dxf : option N) (priority : N) (stop : bool) : list (str * str) :=
    [(lit "type", lit type)] ++ match dxf with Some n => [(lit "dxfId", dec n)] | None => [] end ++ [(lit "priority", dec priority)] ++ yes stop "stopIfTrue".
  Definition cf_formula (s : str) : wx := WData (lit "formula") s [].
  (** 1441-1455 *)
  Definition cell_formulas (r : dv_rule str) : list wx :=
    match r with
    | DEqualTo v | DNotEqualTo v | DLessThan v | DLessThanOrEqualTo v | DGreaterThan v | DGreaterThanOrEqualTo v => [cf_formula v]
    | DBetween v w | DNotBetween v w => [cf_formula v; cf_formula w]
    end.
  (** 2512-2558 *)
  Definition avg_attrs (r : avg_rule) : list (str * str) :=
    match r with
    | AboveAverage => []
    | BelowAverage => [(lit "aboveAverage", lit "0")]
    | EqualOrAbove => [(lit "equalAverage", lit "1")]
    | EqualOrBelow => [(lit "aboveAverage", lit "0"); (lit "equalAverage", lit "1")]
    | OneAbove => [(lit "stdDev", lit "1")]
    | OneBelow => [(lit "aboveAverage", lit "0"); (lit "stdDev", lit "1")]
    | TwoAbove => [(lit "stdDev", lit "2")]
    | TwoBelow => [(lit "aboveAverage", lit "0"); (lit "stdDev", lit "2")]
    | ThreeAbove => [(lit "stdDev", lit "3")]
    | ThreeBelow => [(lit "aboveAverage", lit "0"); (lit "stdDev", lit "3")]
    end.
  (** 2773-2797 *)
  Definition top_attrs (r : top_rule) : list (str * str) :=
    match r with
    | Top n => [(lit "rank", dec n)] | Bottom n => [(lit "bottom", lit "1"); (lit "rank", dec n)]
    | TopPercent n => [(lit "percent", lit "1"); (lit "rank", dec n)] | BottomPercent n => [(lit "percent", lit "1"); (lit "bottom", lit "1"); (lit "rank", dec n)]
    end.
  (** 3006-3025 *)
  Definition text_type (r : text_rule) : string :=
    match r with Contains _ => "containsText" | DoesNotContain _ => "notContainsText" | BeginsWith _ => "beginsWith" | EndsWith _ => "endsWith" end%string.
  Definition rule_text (r : text_rule) : str := match r with Contains s | DoesNotContain s | BeginsWith s | EndsWith s => s end.
  Definition text_formula (anchor : str) (r : text_rule) : str :=
    match r with
    | Contains s => lit "NOT(ISERROR(SEARCH(" ++ 34 :: s ++ 34 :: lit "," ++ anchor ++ lit ")))"
    | DoesNotContain s => lit "ISERROR(SEARCH(" ++ 34 :: s ++ 34 :: lit "," ++ anchor ++ lit "))"
    | BeginsWith s => lit "LEFT(" ++ anchor ++ lit "," ++ dec (byte_len s) ++ lit ")=" ++ 34 :: s ++ [34]
    | EndsWith s => lit "RIGHT(" ++ anchor ++ lit "," ++ dec (byte_len s) ++ lit ")=" ++ 34 :: s ++ [34]
    end.
  (** 3263-3300: a text with the anchor in some places. *)
  Fixpoint joined_by (a : str) (l : list string) : str :=
    match l with [] => [] | [s] => lit s | s :: r => lit s ++ a ++ joined_by a r end.
  Definition date_formula (anchor : str) (r : date_rule) : str :=
    joined_by anchor
      match r with
      | Yesterday => ["FLOOR("; ",1)=TODAY()-1"]
      | Today => ["FLOOR("; ",1)=TODAY()"]
      | Tomorrow => ["FLOOR("; ",1)=TODAY()+1"]
      | Last7Days => ["AND(TODAY()-FLOOR("; ",1)<=6,FLOOR("; ",1)<=TODAY())"]
      | LastWeek => ["AND(TODAY()-ROUNDDOWN("; ",0)>=(WEEKDAY(TODAY())),TODAY()-ROUNDDOWN("; ",0)<(WEEKDAY(TODAY())+7))"]
      | ThisWeek => ["AND(TODAY()-ROUNDDOWN("; ",0)<=WEEKDAY(TODAY())-1,ROUNDDOWN("; ",0)-TODAY()<=7-WEEKDAY(TODAY()))"]
      | NextWeek => ["AND(ROUNDDOWN("; ",0)-TODAY()>(7-WEEKDAY(TODAY())),ROUNDDOWN("; ",0)-TODAY()<(15-WEEKDAY(TODAY())))"]
      | LastMonth => ["AND(MONTH("; ")=MONTH(TODAY())-1,OR(YEAR("; ")=YEAR(TODAY()),AND(MONTH("; ")=1,YEAR("; ")=YEAR(TODAY())-1)))"]
      | ThisMonth => ["AND(MONTH("; ")=MONTH(TODAY()),YEAR("; ")=YEAR(TODAY()))"]
      | NextMonth => ["AND(MONTH("; ")=MONTH(TODAY())+1,OR(YEAR("; ")=YEAR(TODAY()),AND(MONTH("; ")=12,YEAR("; ")=YEAR(TODAY())+1)))"]
      end%string.
  Definition ctype_name (t : ctype) : option string :=
    match t with
    | TyLowest => Some "min" | TyNumber => Some "num" | TyPercent => Some "percent" | TyFormula => Some "formula" | TyPercentile => Some "percentile" | TyHighest => Some "max"
    | TyAutomatic => None
    end%string.
  (** 3742-3777, 4279-4314 *)
  Definition scale_cfvo (p : point) : wx :=
    WEmpty (lit "cfvo") (match ctype_name (fst p) with Some k => [(lit "type", lit k)] | None => [] end ++ [(lit "val", snd p)]).
  Definition color_xml (tag : string) (c : Color) : wx := WEmpty (lit tag) [(lit "rgb", argb_hex_value c)].
  (** 5314-5362 *)
  Definition bar_cfvo (x14 is_max : bool) (p : point) : wx :=
    WEmpty (lit "cfvo")
      match fst p with
      | TyAutomatic => [(lit "type", lit (if is_max then "max" else "min"))]
      | TyLowest => (lit "type", lit "min") :: when (negb x14) [(lit "val", snd p)]
      | TyHighest => (lit "type", lit "max") :: when (negb x14) [(lit "val", snd p)]
      | TyNumber => [(lit "type", lit "num"); (lit "val", snd p)]
      | TyPercent => [(lit "type", lit "percent"); (lit "val", snd p)]
      | TyFormula => [(lit "type", lit "formula"); (lit "val", snd p)]
      | TyPercentile => [(lit "type", lit "percentile"); (lit "val", snd p)]
      end.
  (** 5372-5387 *)
  Definition extension_list (guid : str) : wx :=
    WElem (lit "extLst") []
      [WElem (lit "ext") [(lit "xmlns:x14", lit "http://schemas.microsoft.com/office/spreadsheetml/2009/9/main"); (lit "uri", lit "{B025F937-C7B1-47D3-B67F-A62EFF666E3E}")]
         [WData (lit "x14:id") guid []]].
  (** 6204-6231 *)
  Definition icon_cfvo (i : icon) : wx :=
    WEmpty (lit "cfvo")
      ([(lit "type", lit match ic_type i with TyNumber => "num" | TyFormula => "formula" | TyPercentile => "percentile" | _ => "percent" end); (lit "val", ic_value i)] ++
       when (ic_greater i) [(lit "gte", lit "0")]).
  Definition is_default_set (s : icon_set) : bool := match s with ThreeTrafficLights => true | _ => false end.
  (** The thirteen [rule]: 1409, 1609, 1810, 2012, 2295, 2488, 2749, 2990, 3251, 3706, 4241, 5252, 6102 *)
  Definition rule_xml (c : cf) (priority : N) (range guid : str) : list wx :=
    let anchor := range_to_anchor range in
    let attrs type := rule_attrs type (if has_format (cf_body c) then cf_style c else None) priority (cf_stop c) in
    match cf_body c with
    | BCell None => []
    | BCell (Some r) => [WElem (lit "cfRule") (attrs "cellIs"%string ++ [(lit "operator", lit (cell_operator r))]) (cell_formulas r)]
    | BBlank inv => [WElem (lit "cfRule") (attrs (if inv then "notContainsBlanks" else "containsBlanks")%string)
                       [cf_formula (lit "LEN(TRIM(" ++ anchor ++ lit (if inv then "))>0" else "))=0"))]]
    | BError inv => [WElem (lit "cfRule") (attrs (if inv then "notContainsErrors" else "containsErrors")%string)
                       [cf_formula (if inv then lit "NOT(ISERROR(" ++ anchor ++ lit "))" else lit "ISERROR(" ++ anchor ++ lit ")")]]
    | BDuplicate inv => [WEmpty (lit "cfRule") (attrs (if inv then "uniqueValues" else "duplicateValues")%string)]
    | BFormula s => [WElem (lit "cfRule") (attrs "expression"%string) [cf_formula s]]
    | BAverage r => [WEmpty (lit "cfRule") (attrs "aboveAverage"%string ++ avg_attrs r)]
    | BTop r => [WEmpty (lit "cfRule") (attrs "top10"%string ++ top_attrs r)]
    | BText None => []
    | BText (Some r) => [WElem (lit "cfRule") (attrs (text_type r) ++ [(lit "operator", lit (text_operator r)); (lit "text", rule_text r)]) [cf_formula (text_formula anchor r)]]
    | BDate r => [WElem (lit "cfRule") (attrs "timePeriod"%string ++ [(lit "timePeriod", lit (date_period r))]) [cf_formula (date_formula anchor r)]]
    | BScale2 s => [WElem (lit "cfRule") (attrs "colorScale"%string)
                      [WElem (lit "colorScale") [] [scale_cfvo (sc_min s); scale_cfvo (sc_max s); color_xml "color" (sc_cmin s); color_xml "color" (sc_cmax s)]]]
    | BScale3 s => [WElem (lit "cfRule") (attrs "colorScale"%string)
                      [WElem (lit "colorScale") [] [scale_cfvo (sc_min s); scale_cfvo (sc_mid s); scale_cfvo (sc_max s);
                                                     color_xml "color" (sc_cmin s); color_xml "color" (sc_cmid s); color_xml "color" (sc_cmax s)]]]
    | BBar b => [WElem (lit "cfRule") (attrs "dataBar"%string)
                   (WElem (lit "dataBar") (when (ba_only b) [(lit "showValue", lit "0")])
                      [bar_cfvo (cf_x14 c) false (ba_min b); bar_cfvo (cf_x14 c) true (ba_max b); color_xml "color" (ba_fill b)] ::
                    when (cf_x14 c) [extension_list guid])]
    | BIcons i => [WElem (lit "cfRule") (attrs "iconSet"%string)
                     [WElem (lit "iconSet") (when (negb (is_default_set (is_set i))) [(lit "iconSet", lit (icon_set_name (is_set i)))] ++
                                             when (is_only i) [(lit "showValue", lit "0")] ++ yes (is_reversed i) "reverse")
                        (map icon_cfvo (is_icons i))]]
    end.

  (** ** The extended rules *)
  Definition x14_value (t : string) (v : str) : wx := WElem (lit "x14:cfvo") [(lit "type", lit t)] [WData (lit "xm:f") v []].
  (** 5480-5530 *)
  Definition bar_x14_cfvo (is_max : bool) (p : point) : wx :=
    match fst p with
    | TyAutomatic => WEmpty (lit "x14:cfvo") [(lit "type", lit (if is_max then "autoMax" else "autoMin"))]
    | TyLowest => WEmpty (lit "x14:cfvo") [(lit "type", lit "min")]
    | TyHighest => WEmpty (lit "x14:cfvo") [(lit "type", lit "max")]
    | TyNumber => x14_value "num" (snd p) | TyPercent => x14_value "percent" (snd p) | TyFormula => x14_value "formula" (snd p) | TyPercentile => x14_value "percentile" (snd p)
    end.
  Definition color_eqb (a b : Color) : bool := if color_eq_dec a b then true else false.
  Definition axis_none (p : bar_axis) : bool := match p with AxisNone => true | _ => false end.
  (** 5434-5477 *)
  Definition bar_x14_attrs (b : bar) : list (str * str) :=
    [(lit "minLength", lit "0"); (lit "maxLength", lit "100")] ++ yes (negb (ba_off b)) "border" ++ when (ba_solid b) [(lit "gradient", lit "0")] ++
    match ba_dir b with DirLeftToRight => [(lit "direction", lit "leftToRight")] | DirRightToLeft => [(lit "direction", lit "rightToLeft")] | DirContext => [] end ++
    yes (color_eqb (ba_fill b) (ba_nfill b)) "negativeBarColorSameAsPositive" ++
    when (negb (ba_off b) && negb (color_eqb (ba_fill b) (ba_nborder b))) [(lit "negativeBarBorderColorSameAsPositive", lit "0")] ++
    match ba_pos b with AxisMidpoint => [(lit "axisPosition", lit "middle")] | AxisNone => [(lit "axisPosition", lit "none")] | AxisAutomatic => [] end.
  (** 5390-5431 *)
  Definition bar_x14 (b : bar) (guid : str) : wx :=
    WElem (lit "x14:cfRule") [(lit "type", lit "dataBar"); (lit "id", guid)]
      [WElem (lit "x14:dataBar") (bar_x14_attrs b)
         ([bar_x14_cfvo false (ba_min b); bar_x14_cfvo true (ba_max b)] ++
          when (negb (ba_off b)) [color_xml "x14:borderColor" (ba_border b)] ++
          when (negb (color_eqb (ba_fill b) (ba_nfill b))) [color_xml "x14:negativeFillColor" (ba_nfill b)] ++
          when (negb (ba_off b) && negb (color_eqb (ba_fill b) (ba_nborder b))) [color_xml "x14:negativeBorderColor" (ba_nborder b)] ++
          when (negb (axis_none (ba_pos b))) [color_xml "x14:axisColor" (ba_axis b)])].
  (** 6234-6267 *)
  Definition icon_x14_cfvo (i : icon) : list wx :=
    match ic_type i with
    | TyAutomatic | TyLowest | TyHighest => []
    | TyNumber => [x14_value "num" (ic_value i)] | TyPercent => [x14_value "percent" (ic_value i)]
    | TyFormula => [x14_value "formula" (ic_value i)] | TyPercentile => [x14_value "percentile" (ic_value i)]
    end.
  (** 6179-6194 *)
  Fixpoint custom_icons (s : icon_set) (index : N) (l : list icon) : list wx :=
    match l with
    | [] => []
    | i :: r =>
        WEmpty (lit "x14:cfIcon")
          (if ic_none i then [(lit "iconSet", lit "NoIcons"); (lit "iconId", lit "0")]
           else match ic_set i with
                | Some t => [(lit "iconSet", lit (icon_set_name t)); (lit "iconId", dec (ic_index i))]
                | None => [(lit "iconSet", lit (icon_set_name s)); (lit "iconId", dec index)]
                end) :: custom_icons s (index + 1) r
    end.
  (** 6150-6201 *)
  Definition icons_x14 (i : iconset) (priority : N) (guid : str) : wx :=
    WElem (lit "x14:cfRule") [(lit "type", lit "iconSet"); (lit "priority", dec priority); (lit "id", guid)]
      [WElem (lit "x14:iconSet") (when (negb (is_default_set (is_set i))) [(lit "iconSet", lit (icon_set_name (is_set i)))] ++ yes (is_custom i) "custom")
         (flat_map icon_x14_cfvo (is_icons i) ++ when (is_custom i) (custom_icons (is_set i) 0 (is_icons i)))].
  Definition x14_rule_xml (c : cf) (priority : N) (guid : str) : list wx :=
    match cf_body c with BBar b => [bar_x14 b guid] | BIcons i => [icons_x14 i priority guid] | _ => [] end.

  (** [format!("{:0wX}")] *)
  Definition hex_pad (w : nat) (n : N) : str := let d := hex_loop (S (N.size_nat n)) n [] in repeat 48 (w - length d)%nat ++ d.
  (** src/worksheet.rs:17938-17942, 17993-17997 *)
  Definition guid_text (sheet k : N) : str := lit "{DA7ABA51-AAAA-BBBB-" ++ hex_pad 4 (sheet + 1) ++ lit "-" ++ hex_pad 12 k ++ lit "}".
  (** 17934-17958; the numbers of the next identifier and priority follow *)
  Fixpoint classic_rules (sheet : N) (range : str) (guid priority : N) (l : list cf) : list wx * N * N :=
    match l with
    | [] => ([], guid, priority)
    | c :: r =>
        let g := if cf_x14 c then guid_text sheet guid else [] in
        let '(rest, guid', priority') := classic_rules sheet range (if cf_x14 c then guid + 1 else guid) (priority + 1) r in
        ((if negb (cf_only c) then rule_xml c priority range g else []) ++ rest, guid', priority')
    end.
  (** 17917-17964; [None]: the unwrap panics *)
  Fixpoint classic_xml (sheet : N) (guid priority : N) (s : list (str * list cf)) (order : list str) : option (list wx) :=
    match order with
    | [] => Some []
    | range :: r =>
        rules <- sm_get range s ;;
        let '(l, guid', priority') := classic_rules sheet range guid priority rules in
        rest <- classic_xml sheet guid' priority' s r ;;
        Some ((if forallb cf_only rules then l else [WElem (lit "conditionalFormatting") [(lit "sqref", range)] l]) ++ rest)
    end.
  (** 17990-18004 *)
  Fixpoint x14_rules (sheet : N) (guid priority : N) (l : list cf) : list wx * N * N :=
    match l with
    | [] => ([], guid, priority)
    | c :: r =>
        let '(rest, guid', priority') := x14_rules sheet (if cf_x14 c then guid + 1 else guid) (priority + 1) r in
        ((if cf_x14 c then x14_rule_xml c priority (guid_text sheet guid) else []) ++ rest, guid', priority')
    end.
  (** 17974-18008 *)
  Fixpoint x14_xml (sheet : N) (guid priority : N) (s : list (str * list cf)) : list wx :=
    match s with
    | [] => []
    | (range, rules) :: r =>
        if negb (existsb cf_x14 rules) then x14_xml sheet guid priority r
        else let '(l, guid', priority') := x14_rules sheet guid priority rules in
             WElem (lit "x14:conditionalFormatting") [(lit "xmlns:xm", lit "http://schemas.microsoft.com/office/excel/2006/main")]
               (l ++ [WData (lit "xm:sqref") range []]) :: x14_xml sheet guid' priority' r
    end.
  (** 17403-17405, 19675-19686: what the sheet is given to write *)
  Definition formats_xml (sheet : N) (s : cf_state) : option (list wx) :=
    if fs_classic s then classic_xml sheet 1 1 (fs_map s) (fs_order s) else Some [].
  Definition x14_formats_xml (sheet : N) (s : cf_state) : option (list wx) :=
    if fs_x14 s then Some (x14_xml sheet 1 1 (fs_map s)) else None.
End CF.
