(** The order in which the elements of a chart part may stand: the sequences of the schema dml-chart.xsd of ECMA-376 (and, for what is used of it,
    dml-main.xsd).  A reading of the standard; uses no writer function.  Elements that the sequences have but that are of no use here are left out. *)
From Verif Require Import Base Xml_Spec Xml_Read SheetXml_Spec.

(** One place in a sequence: an element that must be there, one that may, any number of some elements, at least one of them, at most one of them. *)
Inductive place := Must (t : string) | May (t : string) | Any (ts : list string) | Some_of (ts : list string) | Either (ts : list string) | One_of (ts : list string).
Definition is_named (t : string) (n : str) : bool := str_eqb n (lit t).
Definition is_among (ts : list string) (n : str) : bool := existsb (fun t => is_named t n) ts.
(** Do the names [ns], in this order, fill the places? *)
Fixpoint in_order (places : list place) : list str -> bool :=
  match places with
  | [] => fun ns => match ns with [] => true | _ => false end
  | p :: rest =>
      let one (good : str -> bool) ns := match ns with n :: r => good n && in_order rest r | [] => false end in
      let many ts := fix many (ns : list str) : bool := in_order rest ns || match ns with n :: r => is_among ts n && many r | [] => false end in
      match p with
      | Must t => one (is_named t)
      | May t => fun ns => in_order rest ns || one (is_named t) ns
      | One_of ts => one (is_among ts)
      | Either ts => fun ns => in_order rest ns || one (is_among ts) ns
      | Any ts => many ts
      | Some_of ts => fun ns => match ns with n :: r => is_among ts n && many ts r | [] => false end
      end
  end.
Definition elements (l : list node) : list str := flat_map (fun n => match n with Elem t _ _ => [t] | Txt _ => [] end) l.

Definition group_names : list string := ["c:areaChart"; "c:barChart"; "c:doughnutChart"; "c:lineChart"; "c:pieChart"; "c:radarChart"; "c:scatterChart"; "c:stockChart"]%string.
Definition axis_names : list string := ["c:catAx"; "c:valAx"; "c:dateAx"; "c:serAx"]%string.
Definition fill_names : list string := ["a:noFill"; "a:solidFill"; "a:gradFill"; "a:blipFill"; "a:pattFill"; "a:grpFill"]%string.
Definition axis_start : list place :=        (* EG_AxShared *)
  [Must "c:axId"; May "c:scaling"; May "c:delete"; Must "c:axPos"; May "c:majorGridlines"; May "c:minorGridlines"; May "c:title"; May "c:numFmt"; May "c:majorTickMark"; May "c:minorTickMark"; May "c:tickLblPos"; May "c:spPr";
   May "c:txPr"; Must "c:crossAx"; Either ["c:crosses"; "c:crossesAt"]]%string.
Definition ser_start : list place := [Must "c:idx"; Must "c:order"; May "c:tx"; May "c:spPr"]%string.        (* EG_SerShared *)
Definition label_end : list place :=         (* Group_DLbl, Group_DLbls *)
  [May "c:numFmt"; May "c:spPr"; May "c:txPr"; May "c:dLblPos"; May "c:showLegendKey"; May "c:showVal"; May "c:showCatName"; May "c:showSerName"; May "c:showPercent"; May "c:showBubbleSize"; May "c:separator"]%string.
Definition axis_pair : list place := [Must "c:axId"; Must "c:axId"]%string.

(** What may stand in an element [tag] of an element [parent]; an empty parent means any.  CT_LineSer, CT_AreaSer and the others are all called c:ser. *)
Definition schema : list (string * string * list place) :=
  [("", "c:chartSpace", [May "c:lang"; May "c:style"; May "c:protection"; Must "c:chart"; May "c:spPr"; May "c:txPr"; May "c:printSettings"; May "c:extLst"]);
   ("", "c:chart", [May "c:title"; May "c:autoTitleDeleted"; Must "c:plotArea"; May "c:legend"; May "c:plotVisOnly"; May "c:dispBlanksAs"; May "c:extLst"]);
   ("", "c:plotArea", [May "c:layout"; Some_of group_names; Any axis_names; May "c:dTable"; May "c:spPr"; May "c:extLst"]);
   ("", "c:legend", [May "c:legendPos"; Any ["c:legendEntry"]; May "c:layout"; May "c:overlay"; May "c:spPr"; May "c:txPr"]);
   ("", "c:legendEntry", [Must "c:idx"; One_of ["c:delete"; "c:txPr"]]);
   ("", "c:title", [May "c:tx"; May "c:layout"; May "c:overlay"; May "c:spPr"; May "c:txPr"]);
   ("c:ser", "c:tx", [One_of ["c:strRef"; "c:v"]]); ("", "c:tx", [One_of ["c:strRef"; "c:rich"]]);
   ("", "c:rich", [Must "a:bodyPr"; May "a:lstStyle"; Some_of ["a:p"]]); ("", "c:txPr", [Must "a:bodyPr"; May "a:lstStyle"; Some_of ["a:p"]]);
   ("", "a:p", [May "a:pPr"; Any ["a:r"; "a:br"; "a:fld"]; May "a:endParaRPr"]); ("", "a:pPr", [May "a:defRPr"]); ("", "a:r", [May "a:rPr"; Must "a:t"]);
   ("", "a:defRPr", [May "a:ln"; Either fill_names; May "a:latin"]); ("", "a:rPr", [May "a:ln"; Either fill_names; May "a:latin"]);
   ("", "c:spPr", [Either fill_names; May "a:ln"]); ("", "a:ln", [Either fill_names; May "a:prstDash"]);
   ("", "c:layout", [May "c:manualLayout"]); ("", "c:manualLayout", [May "c:layoutTarget"; May "c:xMode"; May "c:yMode"; May "c:wMode"; May "c:hMode"; May "c:x"; May "c:y"; May "c:w"; May "c:h"]);
   ("", "c:areaChart", May "c:grouping" :: May "c:varyColors" :: Any ["c:ser"] :: May "c:dLbls" :: May "c:dropLines" :: axis_pair);
   ("", "c:barChart", Must "c:barDir" :: May "c:grouping" :: May "c:varyColors" :: Any ["c:ser"] :: May "c:dLbls" :: May "c:gapWidth" :: May "c:overlap" :: May "c:serLines" :: axis_pair);
   ("", "c:doughnutChart", [May "c:varyColors"; Any ["c:ser"]; May "c:dLbls"; May "c:firstSliceAng"; May "c:holeSize"]);
   ("", "c:lineChart", Must "c:grouping" :: May "c:varyColors" :: Any ["c:ser"] :: May "c:dLbls" :: May "c:dropLines" :: May "c:hiLowLines" :: May "c:upDownBars" :: May "c:marker" :: May "c:smooth" :: axis_pair);
   ("", "c:pieChart", [May "c:varyColors"; Any ["c:ser"]; May "c:dLbls"; May "c:firstSliceAng"]);
   ("", "c:radarChart", Must "c:radarStyle" :: May "c:varyColors" :: Any ["c:ser"] :: May "c:dLbls" :: axis_pair);
   ("", "c:scatterChart", Must "c:scatterStyle" :: May "c:varyColors" :: Any ["c:ser"] :: May "c:dLbls" :: axis_pair);
   ("", "c:stockChart", Any ["c:ser"] :: May "c:dLbls" :: May "c:dropLines" :: May "c:hiLowLines" :: May "c:upDownBars" :: axis_pair);
   ("", "c:dropLines", [May "c:spPr"]); ("", "c:hiLowLines", [May "c:spPr"]); ("", "c:upDownBars", [May "c:gapWidth"; May "c:upBars"; May "c:downBars"]); ("", "c:upBars", [May "c:spPr"]); ("", "c:downBars", [May "c:spPr"]);
   ("c:areaChart", "c:ser", app ser_start [Any ["c:dPt"]; May "c:dLbls"; May "c:trendline"; May "c:errBars"; May "c:errBars"; May "c:cat"; May "c:val"; May "c:extLst"]);
   ("c:barChart", "c:ser", app ser_start [May "c:invertIfNegative"; Any ["c:dPt"]; May "c:dLbls"; May "c:trendline"; May "c:errBars"; May "c:cat"; May "c:val"; May "c:extLst"]);
   ("c:lineChart", "c:ser", app ser_start [May "c:marker"; Any ["c:dPt"]; May "c:dLbls"; May "c:trendline"; May "c:errBars"; May "c:cat"; May "c:val"; May "c:smooth"; May "c:extLst"]);
   ("c:stockChart", "c:ser", app ser_start [May "c:marker"; Any ["c:dPt"]; May "c:dLbls"; May "c:trendline"; May "c:errBars"; May "c:cat"; May "c:val"; May "c:smooth"; May "c:extLst"]);
   ("c:pieChart", "c:ser", app ser_start [May "c:explosion"; Any ["c:dPt"]; May "c:dLbls"; May "c:cat"; May "c:val"; May "c:extLst"]);
   ("c:doughnutChart", "c:ser", app ser_start [May "c:explosion"; Any ["c:dPt"]; May "c:dLbls"; May "c:cat"; May "c:val"; May "c:extLst"]);
   ("c:radarChart", "c:ser", app ser_start [May "c:marker"; Any ["c:dPt"]; May "c:dLbls"; May "c:cat"; May "c:val"; May "c:extLst"]);
   ("c:scatterChart", "c:ser", app ser_start [May "c:marker"; Any ["c:dPt"]; May "c:dLbls"; May "c:trendline"; May "c:errBars"; May "c:errBars"; May "c:xVal"; May "c:yVal"; May "c:smooth"; May "c:extLst"]);
   ("c:lineChart", "c:marker", []); ("", "c:marker", [May "c:symbol"; May "c:size"; May "c:spPr"]);
   ("", "c:dPt", [Must "c:idx"; May "c:invertIfNegative"; May "c:marker"; May "c:bubble3D"; May "c:explosion"; May "c:spPr"]);
   ("", "c:dLbls", Any ["c:dLbl"] :: app label_end [May "c:showLeaderLines"; May "c:leaderLines"; May "c:extLst"]);
   ("", "c:trendline", [May "c:name"; May "c:spPr"; Must "c:trendlineType"; May "c:order"; May "c:period"; May "c:forward"; May "c:backward"; May "c:intercept"; May "c:dispRSqr"; May "c:dispEq"; May "c:trendlineLbl"]);
   ("", "c:trendlineLbl", [May "c:layout"; May "c:tx"; May "c:numFmt"; May "c:spPr"; May "c:txPr"]);
   ("", "c:errBars", [May "c:errDir"; Must "c:errBarType"; Must "c:errValType"; May "c:noEndCap"; May "c:plus"; May "c:minus"; May "c:val"; May "c:spPr"]);
   ("", "c:cat", [One_of ["c:multiLvlStrRef"; "c:numRef"; "c:strRef"]]); ("", "c:xVal", [One_of ["c:multiLvlStrRef"; "c:numRef"; "c:strRef"]]); ("", "c:yVal", [One_of ["c:numRef"; "c:numLit"]]);
   ("c:ser", "c:val", [One_of ["c:numRef"; "c:numLit"]]); ("", "c:plus", [One_of ["c:numRef"; "c:numLit"]]); ("", "c:minus", [One_of ["c:numRef"; "c:numLit"]]);
   ("", "c:numRef", [Must "c:f"; May "c:numCache"]); ("", "c:strRef", [Must "c:f"; May "c:strCache"]); ("", "c:numCache", [May "c:formatCode"; May "c:ptCount"; Any ["c:pt"]]); ("", "c:strCache", [May "c:ptCount"; Any ["c:pt"]]);
   ("", "c:pt", [Must "c:v"]);
   ("", "c:scaling", [May "c:logBase"; May "c:orientation"; May "c:max"; May "c:min"]); ("", "c:majorGridlines", [May "c:spPr"]); ("", "c:minorGridlines", [May "c:spPr"]);
   ("", "c:catAx", app axis_start [May "c:auto"; May "c:lblAlgn"; May "c:lblOffset"; May "c:tickLblSkip"; May "c:tickMarkSkip"; May "c:noMultiLvlLbl"]);
   ("", "c:dateAx", app axis_start [May "c:auto"; May "c:lblOffset"; May "c:baseTimeUnit"; May "c:majorUnit"; May "c:majorTimeUnit"; May "c:minorUnit"; May "c:minorTimeUnit"]);
   ("", "c:valAx", app axis_start [May "c:crossBetween"; May "c:majorUnit"; May "c:minorUnit"; May "c:dispUnits"]);
   ("", "c:dispUnits", [One_of ["c:custUnit"; "c:builtInUnit"]; May "c:dispUnitsLbl"]); ("", "c:dispUnitsLbl", [May "c:layout"; May "c:tx"; May "c:spPr"; May "c:txPr"]);
   ("", "c:dTable", [May "c:showHorzBorder"; May "c:showVertBorder"; May "c:showOutline"; May "c:showKeys"; May "c:spPr"; May "c:txPr"]);
   ("", "c:printSettings", [May "c:headerFooter"; May "c:pageMargins"; May "c:pageSetup"]); ("", "c:extLst", [Any ["c:ext"]])]%string.
(** A label of its own is deleted or described. *)
Definition label_alone : list place := [Must "c:idx"; Must "c:delete"]%string.
Definition label_described : list place := (Must "c:idx" :: May "c:layout" :: May "c:tx" :: app label_end [May "c:extLst"])%string.
(** The sequences that an element may follow; None for elements of other schemas, into which we do not look. *)
Definition judged (tag : str) : bool := match tag with 99 :: 58 :: _ => negb (is_named "c:ext" tag) | _ => false end.     (* starts with c: *)
Definition content (parent tag : str) : option (list (list place)) :=
  if is_named "c:dLbl" tag then Some [label_alone; label_described]
  else match find (fun e => is_named (snd (fst e)) tag && (String.eqb (fst (fst e)) "" || is_named (fst (fst e)) parent)) schema with
       | Some e => Some [snd e]
       | None => if judged tag then Some [[]] else None
       end.
(** An element and all that is in it stand as the schema wants. *)
Fixpoint conforms (parent : str) (n : node) : bool :=
  match n with
  | Txt _ => true
  | Elem tag _ kids =>
      match content parent tag with
      | None => true
      | Some orders => existsb (fun o => in_order o (elements kids)) orders && forallb (conforms tag) kids
      end
  end.
