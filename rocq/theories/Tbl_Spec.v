(** Reading a table part (ECMA-376 part 1, 18.5.1), and what the caller asked for. *)
From Verif Require Import Base Xml_Spec Xml_Read Xml_Tree Fmt_Model Cells_Model Sheet_Model SheetXml_Spec Doc_Spec View_Spec DV_Spec Tbl_Model.

(** ** Reading *)
Record rcolumn := { rc_id : N; rc_name : str; rc_label : option str; rc_function : option str; rc_dxf : option N;
                    rc_formula : option str; rc_total_formula : option str }.
Record rtable := {
  rt_id : N; rt_name : str; rt_display : str; rt_range : N * N * (N * N); rt_header_rows : N; rt_total_rows : N;
  rt_filter : option (N * N * (N * N)); rt_columns : list rcolumn; rt_style : option str;
  rt_first : bool; rt_last : bool; rt_row_stripes : bool; rt_column_stripes : bool }.
Definition number_or (d : N) (k : string) (l : list (str * str)) : option N := match attr k l with None => Some d | Some s => number_of s end.
Definition opt_number (k : string) (l : list (str * str)) : option (option N) :=
  match attr k l with None => Some None | Some s => match number_of s with Some n => Some (Some n) | None => None end end.
Definition opt_text (k : string) (kids : list node) : option (option str) :=
  match kid k kids with None => Some None | Some n => match text_of n with Some t => Some (Some t) | None => None end end.
Definition read_column (n : node) : option rcolumn :=
  match n with
  | Elem tag l kids =>
    if str_eqb tag (lit "tableColumn") then
      bind (attr "id" l) (fun i => bind (number_of i) (fun i => bind (attr "name" l) (fun nm => bind (opt_number "dataDxfId" l) (fun d =>
      bind (opt_text "calculatedColumnFormula" kids) (fun f => bind (opt_text "totalsRowFormula" kids) (fun tf =>
        Some {| rc_id := i; rc_name := nm; rc_label := attr "totalsRowLabel" l; rc_function := attr "totalsRowFunction" l; rc_dxf := d;
                rc_formula := f; rc_total_formula := tf |}))))))
    else None
  | Txt _ => None
  end.
Definition read_table (n : node) : option rtable :=
  match n with
  | Elem tag l kids =>
    if str_eqb tag (lit "table") then
      bind (attr "id" l) (fun i => bind (number_of i) (fun i => bind (attr "name" l) (fun nm => bind (attr "displayName" l) (fun dn =>
      bind (attr "ref" l) (fun r => bind (range_of r) (fun r => bind (number_or 1 "headerRowCount" l) (fun h => bind (number_or 0 "totalsRowCount" l) (fun t =>
      bind (match kid "autoFilter" kids with
            | None => Some None
            | Some (Elem _ fl _) => bind (attr "ref" fl) (fun r => bind (range_of r) (fun r => Some (Some r)))
            | Some (Txt _) => None end) (fun fr =>
      bind (kid "tableColumns" kids) (fun cs => match cs with
        | Elem _ cl ck =>
          bind (attr "count" cl) (fun k => bind (number_of k) (fun k => bind (read_all read_column ck) (fun cols =>
          if k =? N.of_nat (length cols) then
            bind (kid "tableStyleInfo" kids) (fun st => match st with
              | Elem _ sl _ =>
                Some {| rt_id := i; rt_name := nm; rt_display := dn; rt_range := r; rt_header_rows := h; rt_total_rows := t; rt_filter := fr;
                        rt_columns := cols; rt_style := attr "name" sl; rt_first := flag_of "showFirstColumn" sl; rt_last := flag_of "showLastColumn" sl;
                        rt_row_stripes := flag_of "showRowStripes" sl; rt_column_stripes := flag_of "showColumnStripes" sl |}
              | Txt _ => None end)
          else None)))
        | Txt _ => None end))))))))))
    else None
  | Txt _ => None
  end.

(** ** Asked for *)

(** What the setters of a table give. *)
Definition of_header o := match o with THeader b => Some b | _ => None end.
Definition of_total o := match o with TTotal b => Some b | _ => None end.
Definition of_rows o := match o with TRows b => Some b | _ => None end.
Definition of_cols o := match o with TCols b => Some b | _ => None end.
Definition of_first o := match o with TFirst b => Some b | _ => None end.
Definition of_last o := match o with TLast b => Some b | _ => None end.
Definition of_columns o := match o with TColumns l => Some l | _ => None end.
Definition of_name o := match o with TName s => Some s | _ => None end.
Definition of_style o := match o with TStyle s => Some s | _ => None end.
(** Turning the header off also turns the autofilter off. *)
Definition of_filter o := match o with TFilter b => Some b | THeader false => Some false | _ => None end.
Definition of_cname o := match o with CHeader s => Some s | _ => None end.
Definition of_fun o := match o with CFun f => Some f | _ => None end.
Definition of_label o := match o with CLabel s => Some s | _ => None end.
Definition of_formula o := match o with CFormula' f => Some (Some f) | _ => None end.
Definition of_format o := match o with CFormat f => Some (Some f) | _ => None end.

(** The name Excel knows a function by (18.18.82). *)
Definition function_code (f : tfun) : option string :=
  match f with
  | FNone => None | FSum => Some "sum" | FMin => Some "min" | FMax => Some "max" | FAverage => Some "average" | FCount => Some "count"
  | FCountNumbers => Some "countNums" | FStdDev => Some "stdDev" | FVar => Some "var" | FCustom _ => Some "custom"
  end%string.
(** A column as asked for, under the name [name] it has in the sheet. *)
Definition asked_column (dxf : Format -> N) (index : N) (name : str) (c : tcol) : rcolumn :=
  {| rc_id := index; rc_name := name;
     rc_label := match k_label c with [] => None | s => Some s end;
     rc_function := match k_label c with [] => match function_code (k_fun c) with Some s => Some (lit s) | None => None end | _ => None end;
     rc_dxf := match k_format c with Some f => Some (dxf f) | None => None end;
     rc_formula := match k_formula c with Some fm => Some (f_text fm) | None => None end;
     rc_total_formula := match k_fun c with FCustom fm => Some (f_text fm) | _ => None end |}.
Fixpoint asked_columns (dxf : Format -> N) (index : N) (names : list str) (given : list tcol) : list rcolumn :=
  match names with
  | [] => []
  | s :: r => asked_column dxf index s (hd tcol_new given) :: asked_columns dxf (index + 1) r (tl given)
  end.

(** The names of the columns: the given one, or the text already in the header
    cell, or Column1, Column2, ... *)
Definition cell_text_of (w : ws) (row col : N) : option str :=
  match table_get row col (data w) with Some (CString s _, _) | Some (CInline s, _) => Some s | _ => None end.
Definition fallback_name (w : ws) (fr fc : N) (header : bool) (i : nat) : str :=
  match (if header then cell_text_of w fr (fc + N.of_nat i) else None) with
  | Some s => s
  | None => lit "Column" ++ dec (N.of_nat i + 1)
  end.
Definition asked_name (w : ws) (fr fc : N) (header : bool) (given : list tcol) (i : nat) : str :=
  match k_name (nth i given tcol_new) with [] => fallback_name w fr fc header i | s => s end.

(** Text that an attribute can carry. *)
Definition fits (s : str) : Prop := forallb (fun c => xml_char c && negb (c =? 9) && negb (c =? 13)) s = true.
Definition column_fits (c : tcol) : Prop :=
  fits (k_name c) /\ fits (k_label c) /\ match k_formula c with Some fm => doc_text (f_text fm) | None => True end /\
  match k_fun c with FCustom fm => doc_text (f_text fm) | _ => True end.

(** ** Total formulas *)

(** A column specifier inside brackets: an apostrophe makes the next character
    an ordinary one (structured references). *)
Fixpoint specified (s : str) : option str :=
  match s with
  | [] => Some []
  | c :: r =>
    if c =? 39 then match r with d :: r' => match specified r' with Some t => Some (d :: t) | None => None end | [] => None end
    else if (c =? 91) || (c =? 93) || (c =? 35) then None
    else match specified r with Some t => Some (c :: t) | None => None end
  end.
(** The number of a SUBTOTAL function that leaves out hidden rows. *)
Definition subtotal_code (f : tfun) : option N :=
  match f with
  | FAverage => Some 101 | FCountNumbers => Some 102 | FCount => Some 103 | FMax => Some 104 | FMin => Some 105
  | FStdDev => Some 107 | FSum => Some 109 | FVar => Some 110 | FNone | FCustom _ => None
  end.
