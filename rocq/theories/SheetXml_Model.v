(** Model of the text of <sheetData> and of the shared string part
    (src/worksheet.rs:17362-17380, 18425-18581, 18880-18944, 19004-19273;
    src/shared_strings.rs). *)
From Verif Require Import Base SMap F64 Fmt_Model Xml_Model Xml_Tree Sst_Model Ref_Model Cells_Model Rich_Model.

(** ** str::parse::<f64>: only whether it succeeds matters here (core::num::dec2flt:
    an optional sign, then digits with an optional point and an optional exponent,
    at least one digit before or after the point, or one of the words "inf",
    "infinity", "nan" in any case). *)
Fixpoint eat_digits (s : str) : N * str :=
  match s with c :: r => if is_ascii_digit c then let '(n, t) := eat_digits r in (n + 1, t) else (0, s) | [] => (0, []) end.
Definition eat_sign (s : str) : str := match s with c :: r => if (c =? 43) || (c =? 45) then r else s | [] => [] end.
Definition exponent_ok (s : str) : bool :=      (* the rest after the mantissa *)
  match s with
  | [] => true
  | c :: r => if (c =? 101) || (c =? 69)
              then let '(n, t) := eat_digits (eat_sign r) in (0 <? n) && match t with [] => true | _ => false end
              else false
  end.
Definition number_ok (s : str) : bool :=
  let '(a, r) := eat_digits s in
  let '(b, r) := match r with c :: r' => if c =? 46 then eat_digits r' else (0, r) | [] => (0, []) end in
  (0 <? a + b) && exponent_ok r.
Definition word_ok (s : str) : bool :=
  let l := map ascii_lower s in str_eqb l (lit "inf") || str_eqb l (lit "infinity") || str_eqb l (lit "nan").
Definition parse_f64_ok (s : str) : bool := let t := eat_sign s in number_ok t || word_ok t.

Section Writer.
  Variable num_text : f64 -> str.   (* Display of f64 (or ryu) *)
  Variable m : ovf.
  Variable image_id : N -> N.       (* global_embedded_image_indices *)

  (** src/worksheet.rs:18454-18461: the table of the first 26 letters, else
      column_number_to_name; rows are written 1-based. *)
  Definition col_name (col : N) : option str := if col <? 26 then Some [65 + col] else column_number_to_name m col.

  (** src/worksheet.rs:19004-19030 *)
  Definition write_number_cell (ref : str) (x : f64) (xf : N) : str :=
    if 0 <? xf
    then lit "<c r=""" ++ ref ++ lit """ s=""" ++ dec xf ++ lit """><v>" ++ num_text x ++ lit "</v></c>"
    else lit "<c r=""" ++ ref ++ lit """><v>" ++ num_text x ++ lit "</v></c>".
  (** 19033-19053 *)
  Definition write_string_cell (ref : str) (i xf : N) : str :=
    if 0 <? xf
    then lit "<c r=""" ++ ref ++ lit """ s=""" ++ dec xf ++ lit """ t=""s""><v>" ++ dec i ++ lit "</v></c>"
    else lit "<c r=""" ++ ref ++ lit """ t=""s""><v>" ++ dec i ++ lit "</v></c>".
  (** 19056-19086; [None] would be a panic of escape_xml_escapes. *)
  Definition write_inline_string_cell (ref string : str) (xf : N) : option str :=
    let preserve := if ws_edges string then lit " xml:space=""preserve""" else [] in
    e <- escape_xml_escapes string ;;
    let string := escape_xml_data e in
    Some (if 0 <? xf
          then lit "<c r=""" ++ ref ++ lit """ s=""" ++ dec xf ++ lit """ t=""inlineStr""><is><t" ++ preserve ++ lit ">" ++ string ++ lit "</t></is></c>"
          else lit "<c r=""" ++ ref ++ lit """ t=""inlineStr""><is><t" ++ preserve ++ lit ">" ++ string ++ lit "</t></is></c>").
  Definition style (xf : N) : str := if 0 <? xf then lit " s=""" ++ dec xf ++ lit """" else [].
  (** 19127-19143 (and 19182-19198): the result type attribute. *)
  Definition error_codes : list str :=
    map lit ["#DIV/0!"; "#N/A"; "#NAME?"; "#NULL!"; "#NUM!"; "#REF!"; "#VALUE!"; "#GETTING_DATA"]%string.
  Definition result_type (result : str) : str :=
    if negb (parse_f64_ok result) then
      if existsb (str_eqb result) error_codes then lit " t=""e"""
      else if str_eqb result (lit "TRUE") || str_eqb result (lit "FALSE") then lit " t=""b"""
      else lit " t=""str"""
    else [].
  (** 19146-19153: the escaped result, with the booleans replaced. *)
  Definition result_text (result : str) : str :=
    let r := escape_xml_data result in
    let r := if str_eqb r (lit "TRUE") then lit "1" else r in
    if str_eqb r (lit "FALSE") then lit "0" else r.
  (** 19113-19160 *)
  Definition write_formula_cell (ref formula : str) (xf : N) (result : str) : str :=
    lit "<c r=""" ++ ref ++ lit """" ++ style xf ++ result_type result ++ lit "><f>" ++ escape_xml_data formula ++
    lit "</f><v>" ++ result_text result ++ lit "</v></c>".
  (** 19164-19215 *)
  Definition write_array_formula_cell (ref formula : str) (xf : N) (result : str) (is_dynamic : bool) (range : str) : str :=
    lit "<c r=""" ++ ref ++ lit """" ++ style xf ++ (if is_dynamic then lit " cm=""1""" else []) ++ result_type result ++
    lit "><f t=""array"" ref=""" ++ range ++ lit """>" ++ escape_xml_data formula ++ lit "</f><v>" ++ result_text result ++ lit "</v></c>".
  (** 19218-19224 *)
  Definition write_blank_cell (ref : str) (xf : N) : str :=
    if 0 <? xf then lit "<c r=""" ++ ref ++ lit """ s=""" ++ dec xf ++ lit """/>" else [].
  (** 19227-19249 *)
  Definition write_boolean_cell (ref : str) (b : bool) (xf : N) : str :=
    let v := dec (if b then 1 else 0) in
    if 0 <? xf
    then lit "<c r=""" ++ ref ++ lit """ s=""" ++ dec xf ++ lit """ t=""b""><v>" ++ v ++ lit "</v></c>"
    else lit "<c r=""" ++ ref ++ lit """ t=""b""><v>" ++ v ++ lit "</v></c>".
  (** 19253-19273 *)
  Definition write_error_cell (ref : str) (vm xf : N) : str :=
    if 0 <? xf
    then lit "<c r=""" ++ ref ++ lit """ s=""" ++ dec xf ++ lit """ t=""e"" vm=""" ++ dec vm ++ lit """><v>#VALUE!</v></c>"
    else lit "<c r=""" ++ ref ++ lit """ t=""e"" vm=""" ++ dec vm ++ lit """><v>#VALUE!</v></c>".

  (** src/worksheet.rs:18463-18573: the element for one emitted cell (Cells_Model
      decides which cells are emitted and with which style index). *)
  Definition write_cell (row : N) (x : N * cell * N) : option str :=
    let '(col, c, xf) := x in
    name <- col_name col ;;
    r <- add32 m row 1 ;;
    let ref := name ++ dec r in
    match c with
    | CNumber x | CDateTime x => Some (write_number_cell ref x xf)
    | CString _ (Some i) | CRich _ _ (Some i) => Some (write_string_cell ref i xf)
    | CString _ None | CRich _ _ None => Some []
    | CInline s => write_inline_string_cell ref s xf
    | CFormula f r => Some (write_formula_cell ref f xf r)
    | CArray f r d g => Some (write_array_formula_cell ref f xf r d g)
    | CBlank => Some (write_blank_cell ref xf)
    | CBool b => Some (write_boolean_cell ref b xf)
    | CError n => Some (write_error_cell ref (image_id n) xf)
    end.
  Fixpoint concat_opt {A} (f : A -> option str) (l : list A) : option str :=
    match l with [] => Some [] | x :: r => a <- f x ;; b <- concat_opt f r ;; Some (a ++ b) end.

  (** src/worksheet.rs:18887-18937: the attributes of <row>; [g] maps a style index
      to the workbook's, [x14] is use_x14_extensions. *)
  Definition row_attributes (w : ws) (g : N -> N) (x14 : bool) (span : option (N * N)) (row : N) (ro : option rowopt) : list (str * str) :=
    let custom h := negb (feq h DEFAULT_ROW_HEIGHT) || (feq h DEFAULT_ROW_HEIGHT && negb (feq (default_row_height w) DEFAULT_ROW_HEIGHT)) in
    [(lit "r", dec (row + 1))] ++
    match span with Some (a, b) => [(lit "spans", dec a ++ lit ":" ++ dec b)] | None => [] end ++
    when x14 [(lit "x14ac:dyDescent", lit "0.25")] ++
    match ro with
    | Some o =>
        when (negb (r_xf o =? 0)) [(lit "s", dec (g (r_xf o))); (lit "customFormat", lit "1")] ++
        when (custom (r_height o)) [(lit "ht", num_text (r_height o))] ++
        when (r_hidden o) [(lit "hidden", lit "1")] ++
        when (custom (r_height o)) [(lit "customHeight", lit "1")] ++
        when (0 <? r_level o) [(lit "outlineLevel", dec (r_level o))] ++
        when (r_collapsed o) [(lit "collapsed", lit "1")]
    | None => when (negb (feq (default_row_height w) DEFAULT_ROW_HEIGHT))
                [(lit "ht", num_text (default_row_height w)); (lit "customHeight", lit "1")]
    end.

  (** src/worksheet.rs:18436-18576: the rows of the written table (as decided by
      [write_data_table] of Cells_Model), as text. *)
  Definition write_row (w : ws) (g : N -> N) (x14 : bool) (o : orow) : option str :=
    let attrs := row_attributes w g x14 (get (o_row o / 16) (calculate_spans w)) (o_row o) (o_opts o) in
    match o_cells o with
    | None => Some (xml_empty_tag (lit "row") attrs)
    | Some cs => body <- concat_opt (write_cell (o_row o)) cs ;;
                 Some (xml_start_tag (lit "row") attrs ++ body ++ xml_end_tag (lit "row"))
    end.
  Definition is_nil {A} (l : list A) : bool := match l with [] => true | _ => false end.
  (** src/worksheet.rs:17362-17380 around 18425-18581 for a sheet about to be
      written for the first time ([has_sheet_data] is false). *)
  Definition sheet_data_text (w : ws) (g : N -> N) (x14 : bool) : option str :=
    if is_nil (data w) && is_nil (notes w) && is_nil (changed_rows w)
    then body <- concat_opt (write_row w g x14) (write_data_table w g) ;; Some (lit "<sheetData/>" ++ body)
    else body <- concat_opt (write_row w g x14) (write_data_table w g) ;; Some (lit "<sheetData>" ++ body ++ lit "</sheetData>").
End Writer.

(** src/shared_strings.rs:39-84: the whole part; [entries] is the table in any
    iteration order. *)
Definition shared_strings_part (t : sst) (entries : list (str * N)) : option str :=
  body <- concat_opt write_si (written_order entries) ;;
  Some (xml_declaration ++
        xml_start_tag (lit "sst") [(lit "xmlns", lit "http://schemas.openxmlformats.org/spreadsheetml/2006/main");
                                   (lit "count", dec (count t)); (lit "uniqueCount", dec (unique_count t))] ++
        body ++ xml_end_tag (lit "sst")).
