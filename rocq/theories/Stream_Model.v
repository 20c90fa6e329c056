(** Model of the text of <sheetData> of a worksheet in constant-memory mode: what is
    appended to the sheet's temporary file while the rows are flushed, and the part
    of the file around it (src/worksheet.rs:17362-17380, 18586-18828, 18946-18998,
    19088-19110; src/packager.rs:439-483). *)
From Verif Require Import Base SMap F64 Fmt_Model Xml_Model Xml_Tree Sst_Model Ref_Model Cells_Model Rich_Model SheetXml_Model.

Section Writer.
  Variable num_text : f64 -> str.   (* Display of f64 (or ryu) *)
  Variable m : ovf.

  (** src/worksheet.rs:19088-19110 *)
  Definition write_inline_rich_string_cell (ref string : str) (xf : N) : str :=
    if 0 <? xf
    then lit "<c r=""" ++ ref ++ lit """ s=""" ++ dec xf ++ lit """ t=""inlineStr""><is>" ++ string ++ lit "</is></c>"
    else lit "<c r=""" ++ ref ++ lit """ t=""inlineStr""><is>" ++ string ++ lit "</is></c>".

  (** src/worksheet.rs:18684-18815: the element of one cell (Cells_Model's
      [emit_cell_constant] decides which are written, and with which style). The
      functions called are those of standard mode except for rich strings. [None] is a
      panic: an embedded image indexes a list (1833) that is empty until the workbook is
      saved (src/workbook.rs:2281). SIMPLIFICATION: an image in a row still held at the
      save would find it filled; no call of [op] makes one. *)
  Definition write_streamed_cell (row : N) (x : N * cell * N) : option str :=
    let '(col, c, xf) := x in
    match c with
    | CRich s _ _ =>
        name <- col_name m col ;;
        r <- add32 m row 1 ;;
        Some (write_inline_rich_string_cell (name ++ dec r) s xf)
    | CError _ => None
    | _ => write_cell num_text m (fun i => i) row x
    end.

  (** src/worksheet.rs:18954-18991; [default] is user_default_row_height, [x14]
      use_x14_extensions, both as they are when the row is flushed. *)
  Definition streamed_attributes (default : f64) (x14 : bool) (row : N) (ro : option rowopt) : list (str * str) :=
    let custom h := negb (feq h DEFAULT_ROW_HEIGHT) || (feq h DEFAULT_ROW_HEIGHT && negb (feq default DEFAULT_ROW_HEIGHT)) in
    [(lit "r", dec (row + 1))] ++
    when x14 [(lit "x14ac:dyDescent", lit "0.25")] ++
    match ro with
    | Some o =>
        when (negb (r_xf o =? 0)) [(lit "s", dec (r_xf o)); (lit "customFormat", lit "1")] ++
        when (custom (r_height o)) [(lit "ht", num_text (r_height o))] ++
        when (r_hidden o) [(lit "hidden", lit "1")] ++
        when (custom (r_height o)) [(lit "customHeight", lit "1")]
    | None => when (negb (feq default DEFAULT_ROW_HEIGHT)) [(lit "ht", num_text default); (lit "customHeight", lit "1")]
    end.

  (** A row as it is flushed: the settings of the sheet at that moment, and the row. *)
  Definition entry : Type := (f64 * bool) * orow.
  (** src/worksheet.rs:18662-18817, 18993-18997 *)
  Definition write_entry (e : entry) : option str :=
    let o := snd e in
    let attrs := streamed_attributes (fst (fst e)) (snd (fst e)) (o_row o) (o_opts o) in
    match o_cells o with
    | None => Some (xml_empty_tag (lit "row") attrs)
    | Some cs => body <- concat_opt (write_streamed_cell (o_row o)) cs ;;
                 Some (xml_start_tag (lit "row") attrs ++ body ++ xml_end_tag (lit "row"))
    end.
End Writer.

(** The rows added to the file between two states of the sheet, with the settings of
    the first: no call both flushes rows and changes one of these settings. *)
Definition appended (w w' : ws) (x14 : bool) : list entry :=
  map (fun o => ((default_row_height w, x14), o)) (skipn (length (flushed w)) (flushed w')).
(** The calls made on a sheet, each with use_x14_extensions as it is then (set by the
    calls of other parts of the model: sparklines and some conditional formats). *)
Fixpoint stream_log (w : ws) (calls : list (op * bool)) : list entry :=
  match calls with
  | [] => []
  | (o, x14) :: rest => let w' := fst (step w o) in appended w w' x14 ++ stream_log w' rest
  end.
Definition after_calls (w : ws) (calls : list (op * bool)) : ws := run w (map fst calls).
(** The whole temporary file when the sheet is saved (src/packager.rs:458). *)
Definition file_log (w : ws) (calls : list (op * bool)) (x14 : bool) : list entry :=
  let w' := after_calls w calls in stream_log w calls ++ appended w' (flush_last_row w') x14.
(** The first save of a new sheet: the start of the file is assembled (17362-17372)
    before the last rows are flushed, then the temporary file is copied, then the end
    (17376-17380) is written. *)
Definition streamed_text (num_text : f64 -> str) (m : ovf) (w : ws) (calls : list (op * bool)) (x14 : bool) : option str :=
  let w' := after_calls w calls in
  body <- concat_opt (write_entry num_text m) (file_log w calls x14) ;;
  if is_nil (data w') && is_nil (notes w') && is_nil (changed_rows w')
  then Some (lit "<sheetData/>" ++ body)
  else Some (lit "<sheetData>" ++ body ++ lit "</sheetData>").
