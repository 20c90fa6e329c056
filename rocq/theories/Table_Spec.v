(** What a worksheet table promises about the cells of one of its columns. *)
From Verif Require Import Base SMap F64 Fmt_Model Cells_Model Cells_Spec Sheet_Model.

(** The cell [x] shows [v]. *)
Definition holds (x : option (cell * N)) (v : value) : Prop := exists k i, x = Some (k, i) /\ contents k = v.
(** The cell [x] is stored and has format [f]. *)
Definition has_format (formats : list Format) (x : option (cell * N)) (f : Format) : Prop :=
  exists k i, x = Some (k, i) /\ nth_error formats (N.to_nat i) = Some f.
(** Same contents (the format may differ). *)
Definition same_contents (x y : option (cell * N)) : Prop :=
  match x, y with Some (k, _), Some (k', _) => k' = k | None, None => True | _, _ => False end.

(** A formula cell: its text and its result (the default result of the sheet
    when the formula has none). *)
Definition formula_value (default : str) (fm : formula) : value :=
  let res := match f_result fm with [] => default | r => r end in
  if f_dynamic fm then VArray (f_text fm) res [] else VFormula (f_text fm) res.

(** The columns of a table with header row [top] (if [header]), total row
    [bottom] (if [total]) and data rows in between: what the cells of one column
    are [after] the table is added, given what they were [before]. *)
Record column_cells (header serde total : bool) (top bottom : N) (default : str) (formats : list Format)
    (c : tcolumn) (before after : N -> option (cell * N)) : Prop := {
  (* the header shows the column name, in the header format *)
  cc_header : header = true -> serde = false -> tc_name c <> [] -> holds (after top) (VText (tc_name c));
  cc_header_format : header = true -> serde = false -> forall f, tc_header_format c = Some f -> f <> format_default -> has_format formats (after top) f;
  (* the data rows show the column formula, if there is one *)
  cc_data : forall fm r, tc_formula c = Some fm ->
    (if header then top < r else top <= r) -> (if total then r < bottom else r <= bottom) -> holds (after r) (formula_value default fm);
  (* the total row shows the label or else the total formula *)
  cc_label : total = true -> tc_total_label c <> [] -> holds (after bottom) (VText (tc_total_label c));
  cc_total : total = true -> tc_total_label c = [] -> forall mk, tc_total c = Some mk -> holds (after bottom) (formula_value default (mk (tc_name c)));
  (* every other cell keeps its contents *)
  cc_rest : forall r,
    ~ (header = true /\ serde = false /\ r = top) ->
    ~ (tc_formula c <> None /\ (if header then top < r else top <= r) /\ (if total then r < bottom else r <= bottom)) ->
    ~ (total = true /\ (tc_total_label c <> [] \/ tc_total c <> None) /\ r = bottom) -> same_contents (before r) (after r);
  (* the cells of the data rows have the format of the column, if it is given *)
  cc_format : forall f r, tc_format c = Some f ->
    (if header then top < r else top <= r) -> (if total then r < bottom else r <= bottom) -> after r <> None -> has_format formats (after r) f }.

(** The cells of a column that adding the table fills in: its header, its data
    cells if it has a formula, and its total cell if it has a label or a total
    function. *)
Definition filled_in (header serde total : bool) (top bottom : N) (c : tcolumn) (r : N) : Prop :=
  (header = true /\ serde = false /\ tc_name c <> [] /\ r = top) \/
  (tc_formula c <> None /\ (if header then top < r else top <= r) /\ (if total then r < bottom else r <= bottom)) \/
  (total = true /\ (tc_total_label c <> [] \/ tc_total c <> None) /\ r = bottom).
