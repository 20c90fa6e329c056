(** The order in which elements may stand in the styles, workbook, comments and
    drawing parts: the sequences of the schemas sml.xsd, dml-spreadsheetDrawing.xsd
    and dml-main.xsd of ECMA-376.  A reading of the standard; uses no writer
    function.  Elements of the sequences that the library never uses may be left out.
    The places are those of Chart_Order. *)
From Verif Require Import Base Xml_Spec Xml_Read SheetXml_Spec Chart_Order.

(** What may stand in an element [tag] of an element [parent]; an empty parent means
    any.  An element in no line has no element in it; into the elements of [foreign]
    we do not look. *)
Definition table : Type := list (string * string * list place).
Definition foreign : list string := ["ext"; "a:ext"; "a:graphicData"]%string.
Definition sequence (t : table) (parent tag : str) : option (list place) :=
  match find (fun e => is_named (snd (fst e)) tag && (String.eqb (fst (fst e)) "" || is_named (fst (fst e)) parent)) t with
  | Some e => Some (snd e)
  | None => if is_among foreign tag then None else Some []
  end.
Fixpoint stands (t : table) (parent : str) (n : node) : bool :=
  match n with
  | Txt _ => true
  | Elem tag _ kids =>
      match sequence t parent tag with
      | None => true
      | Some places => in_order places (elements kids) && forallb (stands t tag) kids
      end
  end.
Definition in_schema_order (t : table) (tag : string) (root : node) : Prop := is_elem tag root = true /\ stands t [] root = true.

(** sml.xsd: CT_Stylesheet, CT_Workbook, CT_Comments, CT_Table and what is in them. *)
Definition sml : table :=
  [("", "styleSheet", [May "numFmts"; May "fonts"; May "fills"; May "borders"; May "cellStyleXfs"; May "cellXfs"; May "cellStyles"; May "dxfs"; May "tableStyles"; May "colors"; May "extLst"]);
   ("", "numFmts", [Some_of ["numFmt"]]); ("", "fonts", [Any ["font"]]); ("", "fills", [Any ["fill"]]); ("", "borders", [Any ["border"]]);
   ("", "cellStyleXfs", [Some_of ["xf"]]); ("", "cellXfs", [Some_of ["xf"]]); ("", "cellStyles", [Some_of ["cellStyle"]]); ("", "dxfs", [Any ["dxf"]]); ("", "tableStyles", [Any ["tableStyle"]]);
   ("", "font", [Any ["b"; "i"; "strike"; "condense"; "extend"; "outline"; "shadow"; "u"; "vertAlign"; "sz"; "color"; "name"; "family"; "charset"; "scheme"]]);
   ("", "fill", [One_of ["patternFill"; "gradientFill"]]); ("", "patternFill", [May "fgColor"; May "bgColor"]);
   ("", "border", [May "start"; May "end"; May "left"; May "right"; May "top"; May "bottom"; May "diagonal"; May "vertical"; May "horizontal"]);
   ("", "left", [May "color"]); ("", "right", [May "color"]); ("", "top", [May "color"]); ("", "bottom", [May "color"]); ("", "diagonal", [May "color"]); ("", "vertical", [May "color"]); ("", "horizontal", [May "color"]);
   ("", "xf", [May "alignment"; May "protection"; May "extLst"]); ("", "cellStyle", [May "extLst"]);
   ("", "dxf", [May "font"; May "numFmt"; May "fill"; May "alignment"; May "border"; May "protection"; May "extLst"]);
   ("", "extLst", [Any ["ext"]]);
   ("", "workbook", [May "fileVersion"; May "fileSharing"; May "workbookPr"; May "workbookProtection"; May "bookViews"; Must "sheets"; May "functionGroups"; May "externalReferences"; May "definedNames"; May "calcPr"; May "extLst"]);
   ("", "bookViews", [Some_of ["workbookView"]]); ("", "workbookView", [May "extLst"]); ("", "sheets", [Some_of ["sheet"]]); ("", "definedNames", [Any ["definedName"]]);
   ("", "comments", [Must "authors"; Must "commentList"; May "extLst"]); ("", "authors", [Any ["author"]]); ("", "commentList", [Any ["comment"]]);
   ("", "comment", [Must "text"; May "commentPr"]); ("", "text", [May "t"; Any ["r"]]); ("", "r", [May "rPr"; Must "t"]);
   ("", "rPr", [Any ["rFont"; "charset"; "family"; "b"; "i"; "strike"; "outline"; "shadow"; "condense"; "extend"; "color"; "sz"; "u"; "vertAlign"; "scheme"]]);
   ("", "table", [May "autoFilter"; May "sortState"; Must "tableColumns"; May "tableStyleInfo"; May "extLst"]); ("", "autoFilter", [Any ["filterColumn"]; May "sortState"; May "extLst"]);
   ("", "tableColumns", [Some_of ["tableColumn"]]); ("", "tableColumn", [May "calculatedColumnFormula"; May "totalsRowFormula"; May "xmlColumnPr"; May "extLst"])]%string.

(** dml-spreadsheetDrawing.xsd and dml-main.xsd.  The number of gradient stops, and
    whether a stop or pattern has its colour, are not judged (C77 reads them). *)
Definition color_names : list string := ["a:scrgbClr"; "a:srgbClr"; "a:hslClr"; "a:sysClr"; "a:schemeClr"; "a:prstClr"]%string.
Definition tones : list place := [Any ["a:tint"; "a:shade"; "a:alpha"; "a:lumMod"; "a:lumOff"]]%string.
Definition object_names : list string := ["xdr:sp"; "xdr:grpSp"; "xdr:graphicFrame"; "xdr:cxnSp"; "xdr:pic"; "xdr:contentPart"]%string.
Definition dml : table :=
  [("", "xdr:wsDr", [Any ["xdr:twoCellAnchor"; "xdr:oneCellAnchor"; "xdr:absoluteAnchor"]]);
   ("", "xdr:twoCellAnchor", [Must "xdr:from"; Must "xdr:to"; One_of object_names; Must "xdr:clientData"]);
   ("", "xdr:absoluteAnchor", [Must "xdr:pos"; Must "xdr:ext"; One_of object_names; Must "xdr:clientData"]);
   ("", "xdr:from", [Must "xdr:col"; Must "xdr:colOff"; Must "xdr:row"; Must "xdr:rowOff"]); ("", "xdr:to", [Must "xdr:col"; Must "xdr:colOff"; Must "xdr:row"; Must "xdr:rowOff"]);
   ("", "xdr:pic", [Must "xdr:nvPicPr"; Must "xdr:blipFill"; Must "xdr:spPr"; May "xdr:style"]); ("", "xdr:nvPicPr", [Must "xdr:cNvPr"; Must "xdr:cNvPicPr"]);
   ("", "xdr:cNvPr", [May "a:hlinkClick"; May "a:hlinkHover"; May "a:extLst"]); ("", "a:extLst", [Any ["a:ext"]]);
   ("", "xdr:cNvPicPr", [May "a:picLocks"; May "a:extLst"]); ("", "xdr:blipFill", [May "a:blip"; May "a:srcRect"; Either ["a:tile"; "a:stretch"]]); ("", "a:stretch", [May "a:fillRect"]);
   ("", "xdr:spPr", [May "a:xfrm"; Either ["a:custGeom"; "a:prstGeom"]; Either fill_names; May "a:ln"]); ("", "a:xfrm", [May "a:off"; May "a:ext"]); ("", "a:prstGeom", [May "a:avLst"]);
   ("", "xdr:graphicFrame", [Must "xdr:nvGraphicFramePr"; Must "xdr:xfrm"; Must "a:graphic"]); ("", "xdr:nvGraphicFramePr", [Must "xdr:cNvPr"; Must "xdr:cNvGraphicFramePr"]);
   ("", "xdr:cNvGraphicFramePr", [May "a:graphicFrameLocks"; May "a:extLst"]); ("", "xdr:xfrm", [May "a:off"; May "a:ext"]); ("", "a:graphic", [Must "a:graphicData"]);
   ("", "xdr:sp", [Must "xdr:nvSpPr"; Must "xdr:spPr"; May "xdr:style"; May "xdr:txBody"]); ("", "xdr:nvSpPr", [Must "xdr:cNvPr"; Must "xdr:cNvSpPr"]);
   ("", "xdr:style", [Must "a:lnRef"; Must "a:fillRef"; Must "a:effectRef"; Must "a:fontRef"]); ("", "a:lnRef", [Either color_names]); ("", "a:fillRef", [Either color_names]);
   ("", "a:effectRef", [Either color_names]); ("", "a:fontRef", [Either color_names]);
   ("", "xdr:txBody", [Must "a:bodyPr"; May "a:lstStyle"; Some_of ["a:p"]]); ("", "a:p", [May "a:pPr"; Any ["a:r"; "a:br"; "a:fld"]; May "a:endParaRPr"]);
   ("", "a:r", [May "a:rPr"; Must "a:t"]); ("", "a:fld", [May "a:rPr"; May "a:pPr"; May "a:t"]);
   ("", "a:rPr", [May "a:ln"; Either fill_names; May "a:latin"; May "a:ea"; May "a:cs"; May "a:sym"]); ("", "a:endParaRPr", [May "a:ln"; Either fill_names; May "a:latin"; May "a:ea"; May "a:cs"; May "a:sym"]);
   ("", "a:ln", [Either fill_names; May "a:prstDash"]); ("", "a:solidFill", [Either color_names]);
   ("", "a:pattFill", [May "a:fgClr"; May "a:bgClr"]); ("", "a:fgClr", [Either color_names]); ("", "a:bgClr", [Either color_names]);
   ("", "a:gradFill", [May "a:gsLst"; Either ["a:lin"; "a:path"]; May "a:tileRect"]); ("", "a:gsLst", [Any ["a:gs"]]); ("", "a:gs", [Either color_names]); ("", "a:path", [May "a:fillToRect"]);
   ("", "a:scrgbClr", tones); ("", "a:srgbClr", tones); ("", "a:sysClr", tones); ("", "a:schemeClr", tones)]%string.
