(** How a consumer of the package finds the content type of a part (OPC 10.1.2.4) and
    which content types belong to which relationship types (ECMA-376 part 1, 12.3, 14, 15;
    MS-XLSX 2.1; MS-OFFMACRO2 2.2).  Uses the XML reader only. *)
From Verif Require Import Base Xml_Spec Xml_Read SheetXml_Spec Doc_Spec Pkg_Spec.

(** The content type of the part with that name: its Override, else the Default of its extension. *)
Definition declares (element key : string) (value : str) (n : node) : bool :=
  is_elem element n && match attr key (attrs_of n) with Some x => str_eqb x value | None => false end.
Definition content_type (types : node) (part : str) : option str :=
  match find (declares "Override" "PartName" (lit "/" ++ part)) (kids_of types) with
  | Some n => attr "ContentType" (attrs_of n)
  | None => match find (declares "Default" "Extension" (extension part)) (kids_of types) with
            | Some n => attr "ContentType" (attrs_of n)
            | None => None
            end
  end.
(** No part name and no extension is declared twice. *)
Definition keys_declared (element key : string) (types : node) : list str :=
  flat_map (fun n => if is_elem element n then match attr key (attrs_of n) with Some x => [x] | None => [] end else []) (kids_of types).
Definition declared_once (types : node) : Prop :=
  NoDup (keys_declared "Override" "PartName" types) /\ NoDup (keys_declared "Default" "Extension" types).

(** A relationship as read from the text of a relationships part. *)
Record relation := { rn_id : str; rn_type : str; rn_target : str; rn_external : bool }.
Definition read_relation (n : node) : option relation :=
  if is_elem "Relationship" n then
    bind (attr "Id" (attrs_of n)) (fun id => bind (attr "Type" (attrs_of n)) (fun ty => bind (attr "Target" (attrs_of n)) (fun target =>
    match attr "TargetMode" (attrs_of n) with
    | None => Some {| rn_id := id; rn_type := ty; rn_target := target; rn_external := false |}
    | Some mode => if str_eqb mode (lit "External") then Some {| rn_id := id; rn_type := ty; rn_target := target; rn_external := true |}
                   else if str_eqb mode (lit "Internal") then Some {| rn_id := id; rn_type := ty; rn_target := target; rn_external := false |} else None
    end)))
  else None.
Definition read_relations (n : node) : option (list relation) :=
  if is_elem "Relationships" n then read_all read_relation (kids_of n) else None.

(** Relationship types and the content types of the parts they lead to. *)
Definition ODOC (t : string) : str := lit "http://schemas.openxmlformats.org/officeDocument/2006/relationships/" ++ lit t.
Definition MS (t : string) : str := lit "http://schemas.microsoft.com/office/" ++ lit t.
Definition relation_table : list (str * str) :=
  [(ODOC "officeDocument", lit "application/vnd.openxmlformats-officedocument.spreadsheetml.sheet.main+xml");
   (ODOC "officeDocument", lit "application/vnd.ms-excel.sheet.macroEnabled.main+xml");
   (lit "http://schemas.openxmlformats.org/package/2006/relationships/metadata/core-properties", lit "application/vnd.openxmlformats-package.core-properties+xml");
   (ODOC "extended-properties", lit "application/vnd.openxmlformats-officedocument.extended-properties+xml");
   (ODOC "custom-properties", lit "application/vnd.openxmlformats-officedocument.custom-properties+xml");
   (ODOC "worksheet", lit "application/vnd.openxmlformats-officedocument.spreadsheetml.worksheet+xml");
   (ODOC "chartsheet", lit "application/vnd.openxmlformats-officedocument.spreadsheetml.chartsheet+xml");
   (ODOC "theme", lit "application/vnd.openxmlformats-officedocument.theme+xml");
   (ODOC "styles", lit "application/vnd.openxmlformats-officedocument.spreadsheetml.styles+xml");
   (ODOC "sharedStrings", lit "application/vnd.openxmlformats-officedocument.spreadsheetml.sharedStrings+xml");
   (ODOC "sheetMetadata", lit "application/vnd.openxmlformats-officedocument.spreadsheetml.sheetMetadata+xml");
   (ODOC "drawing", lit "application/vnd.openxmlformats-officedocument.drawing+xml");
   (ODOC "vmlDrawing", lit "application/vnd.openxmlformats-officedocument.vmlDrawing");
   (ODOC "comments", lit "application/vnd.openxmlformats-officedocument.spreadsheetml.comments+xml");
   (ODOC "table", lit "application/vnd.openxmlformats-officedocument.spreadsheetml.table+xml");
   (ODOC "chart", lit "application/vnd.openxmlformats-officedocument.drawingml.chart+xml");
   (ODOC "image", lit "image/png"); (ODOC "image", lit "image/jpeg"); (ODOC "image", lit "image/gif"); (ODOC "image", lit "image/bmp");
   (MS "2006/relationships/vbaProject", lit "application/vnd.ms-office.vbaProject");
   (MS "2006/relationships/vbaProjectSignature", lit "application/vnd.ms-office.vbaProjectSignature");
   (MS "2022/10/relationships/richValueRel", lit "application/vnd.ms-excel.richvaluerel+xml");
   (MS "2017/06/relationships/rdRichValue", lit "application/vnd.ms-excel.rdrichvalue+xml");
   (MS "2017/06/relationships/rdRichValueStructure", lit "application/vnd.ms-excel.rdrichvaluestructure+xml");
   (MS "2017/06/relationships/rdRichValueTypes", lit "application/vnd.ms-excel.rdrichvaluetypes+xml");
   (MS "2022/11/relationships/FeaturePropertyBag", lit "application/vnd.ms-excel.featurepropertybag+xml")].

(** A relationship of [source] is a hyperlink or leads to a part with a content type of its kind. *)
Definition well_typed (types : node) (source : str) (r : relation) : Prop :=
  (rn_type r = ODOC "hyperlink" /\ (rn_external r = true \/ exists t, rn_target r = 35 :: t)) \/
  (rn_external r = false /\ exists ct, content_type types (resolve source (rn_target r)) = Some ct /\ In (rn_type r, ct) relation_table).
(** Hyperlink targets without tabs, carriage returns and characters that XML excludes. *)
Definition plain (s : str) : Prop := forallb (fun c => xml_char c && negb (c =? 9) && negb (c =? 13)) s = true.
