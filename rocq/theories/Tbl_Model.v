(** Worksheet tables: the builder (src/table.rs:111-1115, 1416-1905), the naming
    of the columns and the part xl/tables/tableN.xml (1191-1327). *)
From Verif Require Import Base Ref_Model Xml_Model Xml_Tree Fmt_Model Cells_Model Sheet_Model Formula_Model Url_Model Rich_Model.

(** src/table.rs:1981-2012 TableFunction *)
Inductive tfun := FNone | FAverage | FCount | FCountNumbers | FMax | FMin | FSum | FStdDev | FVar | FCustom (f : formula).
(** src/table.rs:2014-2030 Display *)
Definition tfun_name (f : tfun) : string :=
  match f with
  | FMax => "max" | FMin => "min" | FSum => "sum" | FVar => "var" | FNone => "None" | FCount => "count"
  | FStdDev => "stdDev" | FAverage => "average" | FCountNumbers => "countNums" | FCustom _ => "custom"
  end%string.
(** src/table.rs:2092-2275 TableStyle: the variants Light1 to Light21, Medium1 to
    Medium28 and Dark1 to Dark11, by their number; 2277-2345 Display. *)
Inductive tstyle := SNone | SLight (n : N) | SMedium (n : N) | SDark (n : N).
Definition tstyle_name (s : tstyle) : str :=
  match s with
  | SNone => lit "TableStyleNone"
  | SLight n => lit "TableStyleLight" ++ dec n
  | SMedium n => lit "TableStyleMedium" ++ dec n
  | SDark n => lit "TableStyleDark" ++ dec n
  end.

(** src/table.rs:1416-1437 *)
Record tcol := { k_name : str; k_fun : tfun; k_label : str; k_formula : option formula; k_format : option Format; k_header : option Format }.
Definition tcol_new : tcol := {| k_name := []; k_fun := FNone; k_label := []; k_formula := None; k_format := None; k_header := None |}.
(** src/table.rs:1513-1882: the setters; the argument of set_formula is an
    already constructed formula, whose text is changed by escape_table_functions. *)
Inductive tcol_op := CHeader (s : str) | CFun (f : tfun) | CLabel (s : str) | CFormula' (fm : formula) | CFormat (f : Format) | CHeaderFormat (f : Format).
Definition tcol_step (c : tcol) (o : tcol_op) : tcol :=
  match c with
  | Build_tcol n fn lb fm ft hf =>
    match o with
    | CHeader s => Build_tcol s fn lb fm ft hf
    | CFun f => Build_tcol n f lb fm ft hf
    | CLabel s => Build_tcol n fn s fm ft hf
    | CFormula' g => Build_tcol n fn lb (Some {| f_text := escape_table_functions (f_text g); f_result := f_result g; f_dynamic := f_dynamic g |}) ft hf
    | CFormat f => Build_tcol n fn lb fm (Some f) hf
    | CHeaderFormat f => Build_tcol n fn lb fm ft (Some f)
    end
  end.
Definition tcol_of (ops : list tcol_op) : tcol := fold_left tcol_step ops tcol_new.

(** src/table.rs:111-130, 197-216 *)
Record xtable := { x_columns : list tcol; x_name : str; x_style : tstyle; x_header : bool; x_total : bool; x_first : bool; x_last : bool;
                  x_rows : bool; x_cols : bool; x_filter : bool }.
Definition xtable_new : xtable :=
  {| x_columns := []; x_name := []; x_style := SMedium 9; x_header := true; x_total := false; x_first := false; x_last := false;
     x_rows := true; x_cols := false; x_filter := true |}.
(** src/table.rs:393-1115: the setters. *)
Inductive xtable_op :=
| THeader (b : bool) | TTotal (b : bool) | TRows (b : bool) | TCols (b : bool) | TFirst (b : bool) | TLast (b : bool)
| TFilter (b : bool) | TColumns (l : list tcol) | TName (s : str) | TStyle (s : tstyle).
Definition xtable_step (t : xtable) (o : xtable_op) : xtable :=
  match t with
  | Build_xtable cs nm st h tr fi la ro co fl =>
    match o with
    | THeader b => Build_xtable cs nm st b tr fi la ro co (if b then fl else false)
    | TTotal b => Build_xtable cs nm st h b fi la ro co fl
    | TRows b => Build_xtable cs nm st h tr fi la b co fl
    | TCols b => Build_xtable cs nm st h tr fi la ro b fl
    | TFirst b => Build_xtable cs nm st h tr b la ro co fl
    | TLast b => Build_xtable cs nm st h tr fi b ro co fl
    | TFilter b => Build_xtable cs nm st h tr fi la ro co b
    | TColumns l => Build_xtable l nm st h tr fi la ro co fl
    | TName s => Build_xtable cs s st h tr fi la ro co fl
    | TStyle s => Build_xtable cs nm s h tr fi la ro co fl
    end
  end.
Definition xtable_of (ops : list xtable_op) : xtable := fold_left xtable_step ops xtable_new.

(** src/table.rs:1885-1905: the total formula. *)
Definition escaped_name (s : str) : str :=
  replace_char 91 [39; 91] (replace_char 93 [39; 93] (replace_char 35 [39; 35] (replace_char 39 [39; 39] s))).
Definition new_formula (s : str) : formula :=
  let '(t, d) := formula_new s in {| f_text := t; f_result := []; f_dynamic := d |}.
Definition subtotal (code : N) (name : str) : formula :=
  new_formula (lit "SUBTOTAL(" ++ dec code ++ lit ",[" ++ escaped_name name ++ lit "])").
Definition total_formula (f : tfun) (name : str) : formula :=
  match f with
  | FNone => new_formula []
  | FMax => subtotal 104 name | FMin => subtotal 105 name | FSum => subtotal 109 name | FVar => subtotal 110 name
  | FCount => subtotal 103 name | FStdDev => subtotal 107 name | FAverage => subtotal 101 name | FCountNumbers => subtotal 102 name
  | FCustom fm => fm
  end.
(** The table as [add_table] uses it (src/worksheet.rs:8752-8900, Sheet_Model);
    a table made by the serializer (is_serde_table) is not covered. *)
Definition to_tcolumn (c : tcol) : tcolumn :=
  {| tc_name := k_name c; tc_total := match k_fun c with FNone => None | f => Some (total_formula f) end; tc_total_label := k_label c;
     tc_formula := k_formula c; tc_format := k_format c; tc_header_format := k_header c |}.
Definition to_tbl (t : xtable) (R : rng) : tbl :=
  {| t_columns := map to_tcolumn (x_columns t); t_name := x_name t; t_header := x_header t; t_total := x_total t; t_autofilter := x_filter t;
     t_serde := false; t_range := R |}.

Section Init.
  Variable lower : str -> str.
  Definition with_name (c : tcol) (s : str) : tcol :=
    {| k_name := s; k_fun := k_fun c; k_label := k_label c; k_formula := k_formula c; k_format := k_format c; k_header := k_header c |}.
  (** src/table.rs:1138-1166 *)
  Fixpoint init_columns (headers : list str) (cols : list tcol) (seen : list str) : option (list tcol) :=
    match headers with
    | [] => Some []
    | h :: headers =>
      let '(c, cols) := match cols with [] => (tcol_new, []) | c :: r => (c, r) end in
      let name := match k_name c with [] => h | n => n end in
      if existsb (str_eqb (lower name)) seen then None
      else match init_columns headers cols (lower name :: seen) with
           | None => None
           | Some rest => Some (with_name c name :: rest)
           end
    end.
End Init.
Definition with_columns (t : xtable) (l : list tcol) : xtable :=
  {| x_columns := l; x_name := x_name t; x_style := x_style t; x_header := x_header t; x_total := x_total t; x_first := x_first t; x_last := x_last t;
     x_rows := x_rows t; x_cols := x_cols t; x_filter := x_filter t |}.

Definition xbool (b : bool) : str := if b then lit "1" else lit "0".
Section Part.
  Variable m : ovf.
  (** The index of a column format among the differential formats of the
      workbook ([format.dxf_index], src/worksheet.rs:16546). *)
  Variable dxf : Format -> N.
  (** src/table.rs:1271-1311 *)
  Definition column_attrs (index : N) (c : tcol) : list (str * str) :=
    [(lit "id", dec index); (lit "name", k_name c)]
    ++ match k_label c with
       | _ :: _ => [(lit "totalsRowLabel", k_label c)]
       | [] => match k_fun c with FNone => [] | f => [(lit "totalsRowFunction", lit (tfun_name f))] end
       end
    ++ match k_format c with Some f => [(lit "dataDxfId", dec (dxf f))] | None => [] end.
  Definition column_formulas (c : tcol) : list wx :=
    match k_formula c with Some fm => [WData (lit "calculatedColumnFormula") (f_text fm) []] | None => [] end
    ++ match k_fun c with FCustom fm => [WData (lit "totalsRowFormula") (f_text fm) []] | _ => [] end.
  Definition column_xml (index : N) (c : tcol) : wx :=
    match k_formula c, k_fun c with
    | None, FCustom _ | Some _, _ => WElem (lit "tableColumn") (column_attrs index c) (column_formulas c)
    | None, _ => WEmpty (lit "tableColumn") (column_attrs index c)
    end.
  (** src/table.rs:1257-1268 *)
  Fixpoint columns_from (index : N) (l : list tcol) : list wx :=
    match l with [] => [] | c :: r => column_xml index c :: columns_from (index + 1) r end.
  Definition columns_xml (l : list tcol) : wx :=
    WElem (lit "tableColumns") [(lit "count", dec (N.of_nat (length l)))] (columns_from 1 l).
  (** src/table.rs:1314-1327 *)
  Definition style_info_xml (t : xtable) : wx :=
    WEmpty (lit "tableStyleInfo")
      (match x_style t with SNone => [] | s => [(lit "name", tstyle_name s)] end
       ++ [(lit "showFirstColumn", xbool (x_first t)); (lit "showLastColumn", xbool (x_last t));
           (lit "showRowStripes", xbool (x_rows t)); (lit "showColumnStripes", xbool (x_cols t))]).
  (** src/table.rs:1213-1254; [autofilter_range.last_row -= 1] underflows at row 0
      (add_table does not accept such a table). *)
  Definition table_attrs (index : N) (range : str) (t : xtable) : list (str * str) :=
    let name := match x_name t with [] => lit "Table" ++ dec index | n => n end in
    [(lit "xmlns", lit "http://schemas.openxmlformats.org/spreadsheetml/2006/main"); (lit "id", dec index); (lit "name", name);
     (lit "displayName", name); (lit "ref", range)]
    ++ (if x_header t then [] else [(lit "headerRowCount", lit "0")])
    ++ (if x_total t then [(lit "totalsRowCount", lit "1")] else [(lit "totalsRowShown", lit "0")]).
  Definition table_xml (index : N) (R : rng) (t : xtable) : option wx :=
    range <- cell_range m (r0 R) (c0 R) (r1 R) (c1 R) ;;
    filter <- (if x_filter t && x_header t
               then f <- cell_range m (r0 R) (c0 R) (if x_total t then r1 R - 1 else r1 R) (c1 R) ;;
                    Some [WEmpty (lit "autoFilter") [(lit "ref", f)]]
               else Some []) ;;
    Some (WElem (lit "table") (table_attrs index range t) (filter ++ [columns_xml (x_columns t); style_info_xml t])).
End Part.
