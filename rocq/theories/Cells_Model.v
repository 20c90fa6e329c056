(** Model of the worksheet cell store: writing, formatting and clearing cells,
    row/column options, the used range, constant-memory streaming and the
    emission of <sheetData> (src/worksheet.rs). *)
From Verif Require Import Base SMap F64 Fmt_Model Sst_Model Ref_Model.

Definition ROW_MAX : N := 1048576.   (* src/worksheet.rs:1411 *)
Definition COL_MAX : N := 16384.     (* src/worksheet.rs:1410 *)
Definition MAX_STRING_LEN : N := 32767. (* src/worksheet.rs:1419 *)

(** src/worksheet.rs:20492-20550 [CellType]; every variant carries an
    [xf_index], which is factored out: a stored cell is a pair (contents, xf). *)
Inductive cell :=
| CBlank
| CError (image : N)
| CString (s : str) (id : option N)
| CNumber (x : f64)
| CBool (b : bool)
| CFormula (formula result : str)
| CDateTime (x : f64)
| CRich (s raw : str) (id : option N)
| CInline (s : str)
| CArray (formula result : str) (dynamic : bool) (range : str).

Definition table := smap (smap (cell * N)).

(** src/worksheet.rs:20471-20489. *)
Record rowopt := { r_height : f64; r_xf : N; r_level : N; r_hidden : bool; r_collapsed : bool;
                   r_format : option Format }.
Record colopt := { c_width : f64; c_xf : N; c_level : N; c_hidden : bool; c_collapsed : bool;
                   c_autofit : bool; c_format : option Format }.

(** A written <row> element: row number, its row options, and the cells inside
    (None: the empty tag <row .../>) with the style index written for each. *)
Record orow := { o_row : N; o_opts : option rowopt; o_cells : option (list (N * cell * N)) }.

(** The fields of [Worksheet] (src/worksheet.rs:1491-1642) used here. [xfs] is
    the format registry the sheet uses (local, or the workbook's in constant
    memory mode); [sst] is the shared string table; [flushed] is what has been
    written to the temporary file ([file_writer]). *)
Record ws := {
  data : table; write_ahead : table;
  first_row : N; first_col : N; last_row : N; last_col : N;       (* dimensions *)
  current_row : N; constant_memory : bool; inline_strings : bool; writing_ahead : bool;
  global_sst : bool; strings_table : sst; local_sst : bool;
  changed_rows : smap rowopt; changed_cols : smap colopt;
  xfs : list Format;
  notes : smap (smap unit);
  flushed : list orow;
  nan_text : str; inf_text : str; neg_inf_text : str; default_result : str;
  default_row_height : f64;
  max_row_level : N; max_col_level : N }.

Inductive error := RowColumnLimit | RowColumnOrder | MaxStringLength | MaxGroupLevel.

Definition DEFAULT_ROW_HEIGHT : f64 := f_of_N 15.        (* src/worksheet.rs:1418 *)
Definition DEFAULT_COL_WIDTH : f64 := f_dec 843 2.       (* src/worksheet.rs:1417: 8.43 *)

(** Field updates. *)
Definition upd_data w t := {| data := t; write_ahead := write_ahead w; first_row := first_row w; first_col := first_col w; last_row := last_row w; last_col := last_col w; current_row := current_row w; constant_memory := constant_memory w; inline_strings := inline_strings w; writing_ahead := writing_ahead w; global_sst := global_sst w; strings_table := strings_table w; local_sst := local_sst w; changed_rows := changed_rows w; changed_cols := changed_cols w; xfs := xfs w; notes := notes w; flushed := flushed w; nan_text := nan_text w; inf_text := inf_text w; neg_inf_text := neg_inf_text w; default_result := default_result w; default_row_height := default_row_height w; max_row_level := max_row_level w; max_col_level := max_col_level w |}.
Definition upd_wahead w t := {| data := data w; write_ahead := t; first_row := first_row w; first_col := first_col w; last_row := last_row w; last_col := last_col w; current_row := current_row w; constant_memory := constant_memory w; inline_strings := inline_strings w; writing_ahead := writing_ahead w; global_sst := global_sst w; strings_table := strings_table w; local_sst := local_sst w; changed_rows := changed_rows w; changed_cols := changed_cols w; xfs := xfs w; notes := notes w; flushed := flushed w; nan_text := nan_text w; inf_text := inf_text w; neg_inf_text := neg_inf_text w; default_result := default_result w; default_row_height := default_row_height w; max_row_level := max_row_level w; max_col_level := max_col_level w |}.
Definition upd_dims w a b c d := {| data := data w; write_ahead := write_ahead w; first_row := a; first_col := b; last_row := c; last_col := d; current_row := current_row w; constant_memory := constant_memory w; inline_strings := inline_strings w; writing_ahead := writing_ahead w; global_sst := global_sst w; strings_table := strings_table w; local_sst := local_sst w; changed_rows := changed_rows w; changed_cols := changed_cols w; xfs := xfs w; notes := notes w; flushed := flushed w; nan_text := nan_text w; inf_text := inf_text w; neg_inf_text := neg_inf_text w; default_result := default_result w; default_row_height := default_row_height w; max_row_level := max_row_level w; max_col_level := max_col_level w |}.
Definition upd_cur w r := {| data := data w; write_ahead := write_ahead w; first_row := first_row w; first_col := first_col w; last_row := last_row w; last_col := last_col w; current_row := r; constant_memory := constant_memory w; inline_strings := inline_strings w; writing_ahead := writing_ahead w; global_sst := global_sst w; strings_table := strings_table w; local_sst := local_sst w; changed_rows := changed_rows w; changed_cols := changed_cols w; xfs := xfs w; notes := notes w; flushed := flushed w; nan_text := nan_text w; inf_text := inf_text w; neg_inf_text := neg_inf_text w; default_result := default_result w; default_row_height := default_row_height w; max_row_level := max_row_level w; max_col_level := max_col_level w |}.
Definition upd_ahead w b := {| data := data w; write_ahead := write_ahead w; first_row := first_row w; first_col := first_col w; last_row := last_row w; last_col := last_col w; current_row := current_row w; constant_memory := constant_memory w; inline_strings := inline_strings w; writing_ahead := b; global_sst := global_sst w; strings_table := strings_table w; local_sst := local_sst w; changed_rows := changed_rows w; changed_cols := changed_cols w; xfs := xfs w; notes := notes w; flushed := flushed w; nan_text := nan_text w; inf_text := inf_text w; neg_inf_text := neg_inf_text w; default_result := default_result w; default_row_height := default_row_height w; max_row_level := max_row_level w; max_col_level := max_col_level w |}.
Definition upd_sst w t l := {| data := data w; write_ahead := write_ahead w; first_row := first_row w; first_col := first_col w; last_row := last_row w; last_col := last_col w; current_row := current_row w; constant_memory := constant_memory w; inline_strings := inline_strings w; writing_ahead := writing_ahead w; global_sst := global_sst w; strings_table := t; local_sst := l; changed_rows := changed_rows w; changed_cols := changed_cols w; xfs := xfs w; notes := notes w; flushed := flushed w; nan_text := nan_text w; inf_text := inf_text w; neg_inf_text := neg_inf_text w; default_result := default_result w; default_row_height := default_row_height w; max_row_level := max_row_level w; max_col_level := max_col_level w |}.
Definition upd_rows w m l := {| data := data w; write_ahead := write_ahead w; first_row := first_row w; first_col := first_col w; last_row := last_row w; last_col := last_col w; current_row := current_row w; constant_memory := constant_memory w; inline_strings := inline_strings w; writing_ahead := writing_ahead w; global_sst := global_sst w; strings_table := strings_table w; local_sst := local_sst w; changed_rows := m; changed_cols := changed_cols w; xfs := xfs w; notes := notes w; flushed := flushed w; nan_text := nan_text w; inf_text := inf_text w; neg_inf_text := neg_inf_text w; default_result := default_result w; default_row_height := default_row_height w; max_row_level := l; max_col_level := max_col_level w |}.
Definition upd_cols w m l := {| data := data w; write_ahead := write_ahead w; first_row := first_row w; first_col := first_col w; last_row := last_row w; last_col := last_col w; current_row := current_row w; constant_memory := constant_memory w; inline_strings := inline_strings w; writing_ahead := writing_ahead w; global_sst := global_sst w; strings_table := strings_table w; local_sst := local_sst w; changed_rows := changed_rows w; changed_cols := m; xfs := xfs w; notes := notes w; flushed := flushed w; nan_text := nan_text w; inf_text := inf_text w; neg_inf_text := neg_inf_text w; default_result := default_result w; default_row_height := default_row_height w; max_row_level := max_row_level w; max_col_level := l |}.
Definition upd_xfs w l := {| data := data w; write_ahead := write_ahead w; first_row := first_row w; first_col := first_col w; last_row := last_row w; last_col := last_col w; current_row := current_row w; constant_memory := constant_memory w; inline_strings := inline_strings w; writing_ahead := writing_ahead w; global_sst := global_sst w; strings_table := strings_table w; local_sst := local_sst w; changed_rows := changed_rows w; changed_cols := changed_cols w; xfs := l; notes := notes w; flushed := flushed w; nan_text := nan_text w; inf_text := inf_text w; neg_inf_text := neg_inf_text w; default_result := default_result w; default_row_height := default_row_height w; max_row_level := max_row_level w; max_col_level := max_col_level w |}.
Definition upd_notes w n := {| data := data w; write_ahead := write_ahead w; first_row := first_row w; first_col := first_col w; last_row := last_row w; last_col := last_col w; current_row := current_row w; constant_memory := constant_memory w; inline_strings := inline_strings w; writing_ahead := writing_ahead w; global_sst := global_sst w; strings_table := strings_table w; local_sst := local_sst w; changed_rows := changed_rows w; changed_cols := changed_cols w; xfs := xfs w; notes := n; flushed := flushed w; nan_text := nan_text w; inf_text := inf_text w; neg_inf_text := neg_inf_text w; default_result := default_result w; default_row_height := default_row_height w; max_row_level := max_row_level w; max_col_level := max_col_level w |}.
Definition upd_flushed w o := {| data := data w; write_ahead := write_ahead w; first_row := first_row w; first_col := first_col w; last_row := last_row w; last_col := last_col w; current_row := current_row w; constant_memory := constant_memory w; inline_strings := inline_strings w; writing_ahead := writing_ahead w; global_sst := global_sst w; strings_table := strings_table w; local_sst := local_sst w; changed_rows := changed_rows w; changed_cols := changed_cols w; xfs := xfs w; notes := notes w; flushed := o; nan_text := nan_text w; inf_text := inf_text w; neg_inf_text := neg_inf_text w; default_result := default_result w; default_row_height := default_row_height w; max_row_level := max_row_level w; max_col_level := max_col_level w |}.
Definition upd_texts w a b c d e := {| data := data w; write_ahead := write_ahead w; first_row := first_row w; first_col := first_col w; last_row := last_row w; last_col := last_col w; current_row := current_row w; constant_memory := constant_memory w; inline_strings := inline_strings w; writing_ahead := writing_ahead w; global_sst := global_sst w; strings_table := strings_table w; local_sst := local_sst w; changed_rows := changed_rows w; changed_cols := changed_cols w; xfs := xfs w; notes := notes w; flushed := flushed w; nan_text := a; inf_text := b; neg_inf_text := c; default_result := d; default_row_height := e; max_row_level := max_row_level w; max_col_level := max_col_level w |}.

(** A new worksheet: src/worksheet.rs:1744-1890 (standard), and the
    constant-/low-memory constructors of src/workbook.rs:560-740: the registry
    and the string table are those of the workbook at that moment. *)
Definition ws_new (cmem inl gsst : bool) (registry : list Format) (t : sst) : ws :=
  {| data := []; write_ahead := []; first_row := ROW_MAX; first_col := COL_MAX; last_row := 0; last_col := 0;
     current_row := 0; constant_memory := cmem; inline_strings := inl; writing_ahead := false;
     global_sst := gsst; strings_table := t; local_sst := false; changed_rows := []; changed_cols := [];
     xfs := registry; notes := []; flushed := []; nan_text := lit "NAN"; inf_text := lit "INF";
     neg_inf_text := lit "-INF"; default_result := lit "0"; default_row_height := DEFAULT_ROW_HEIGHT;
     max_row_level := 0; max_col_level := 0 |}.
Definition ws_standard : ws := ws_new false false false [format_default] sst_new.

(** src/worksheet.rs:15940-15965; the boolean is the function's result. *)
Definition check_dimensions (w : ws) (row col : N) : ws * bool :=
  if ROW_MAX <=? row then (w, false)
  else if COL_MAX <=? col then (w, false)
  else
    let fr := N.min (first_row w) row in
    let fc := N.min (first_col w) col in
    if negb (constant_memory w) || (current_row w <=? row)
    then (upd_dims w fr fc (N.max (last_row w) row) (N.max (last_col w) col), true)
    else (upd_dims w fr fc (last_row w) (last_col w), true).
(** src/worksheet.rs:15970-15980 *)
Definition check_dimensions_only (row col : N) : bool := (row <? ROW_MAX) && (col <? COL_MAX).
(** src/worksheet.rs:14708-14723 *)
Definition get_min_row (w : ws) : N := if first_row w =? ROW_MAX then 0 else first_row w.
Definition get_min_col (w : ws) : N := if first_col w =? COL_MAX then 0 else first_col w.

(** src/worksheet.rs:15986-16031, sequential (see Reg_Model for the shared
    registry under concurrency). *)
Definition reg (w : ws) (f : Format) : ws * N :=
  let '(l, i) := format_xf_index (xfs w) f in (upd_xfs w l, i).

(** src/worksheet.rs:16053-16074 *)
Definition row_col_format (w : ws) (row col : N) : ws * N :=
  match get col (changed_cols w) with
  | Some co => match c_format co with
    | Some cf => match get row (changed_rows w) with
      | Some ro => match r_format ro with
        | Some rf => reg w (format_merge rf cf)
        | None => (w, 0) end
      | None => (w, 0) end
    | None => (w, 0) end
  | None => (w, 0)
  end.
Definition cell_xf (w : ws) (row col : N) (f : option Format) : ws * N :=
  match f with Some f => reg w f | None => row_col_format w row col end.

(** src/worksheet.rs:15538-15557 *)
Definition table_insert (row col : N) (c : cell * N) (t : table) : table :=
  match get row t with
  | Some cs => ins row (ins col c cs) t
  | None => ins row [(col, c)] t
  end.
Definition table_get (row col : N) (t : table) : option (cell * N) :=
  match get row t with Some cs => get col cs | None => None end.

(** src/worksheet.rs:16124-16154 without the final local-to-global mapping. *)
Definition effective_xf (w : ws) (xf : N) (ro : option rowopt) (col : N) : N :=
  let xf := if xf =? 0 then match ro with Some r => r_xf r | None => 0 end else xf in
  if xf =? 0 then match get col (changed_cols w) with Some c => c_xf c | None => 0 end else xf.

(** The <c> element written for a stored cell in a streamed row
    (src/worksheet.rs:18691-18815; src/worksheet.rs:19218-19224 for blanks):
    contents and style index, or nothing. *)
Definition emit_cell_constant (w : ws) (ro : option rowopt) (p : N * (cell * N)) : list (N * cell * N) :=
  let '(col, (c, xf)) := p in
  let e := effective_xf w xf ro col in
  match c with
  | CBlank => if 0 <? e then [(col, c, e)] else []
  | CString _ None => []
  | _ => [(col, c, e)]
  end.

(** src/worksheet.rs:18652-18828 *)
Definition flush_data_row (w : ws) (next_row : N) : ws :=
  let ro := get (current_row w) (changed_rows w) in
  let out :=
    match get (current_row w) (data w) with
    | Some cs => [{| o_row := current_row w; o_opts := ro; o_cells := Some (flat_map (emit_cell_constant w ro) cs) |}]
    | None => match ro with
              | Some _ => [{| o_row := current_row w; o_opts := ro; o_cells := None |}]
              | None => [] end
    end in
  let w := upd_flushed w (flushed w ++ out) in
  let new_data := match get next_row (write_ahead w) with Some cs => [(next_row, cs)] | None => [] end in
  let w := upd_data w new_data in
  let w := upd_wahead w (del next_row (write_ahead w)) in
  upd_cur w next_row.

(** [sort_unstable] followed by [dedup] on row numbers. *)
Fixpoint insert_nodup (x : N) (l : list N) : list N :=
  match l with
  | [] => [x]
  | y :: r => if x <? y then x :: l else if x =? y then l else y :: insert_nodup x r
  end.
Definition sort_dedup (l : list N) : list N := fold_right insert_nodup [] l.

(** src/worksheet.rs:18622-18647; [changed_rows] keys in current+1..next. *)
Definition flush_to_row (w : ws) (next_row : N) : ws :=
  let rows1 := filter (fun r => r <? next_row) (keys (write_ahead w)) in
  let rows2 := filter (fun r => (current_row w <? r) && (r <? next_row)) (keys (changed_rows w)) in
  flush_data_row (fold_left flush_data_row (sort_dedup (rows1 ++ rows2)) w) next_row.

(** src/worksheet.rs:18586-18618 *)
Definition flush_last_row (w : ws) : ws :=
  let max_changed := fold_right N.max 0 (keys (changed_rows w)) in
  let changed := if current_row w <? max_changed
                 then filter (fun r => (current_row w <=? r) && (r <=? max_changed)) (keys (changed_rows w))
                 else [] in
  let remaining := sort_dedup (keys (write_ahead w) ++ changed ++ [current_row w]) in
  let remaining := if mem (current_row w) (data w) then remaining ++ [1 + last remaining 0] else remaining in
  fold_left flush_data_row remaining w.

(** src/worksheet.rs:15504-15535 *)
Definition insert_cell (w : ws) (row col : N) (c : cell * N) : ws :=
  if constant_memory w then
    if row <? current_row w then w
    else if (current_row w <? row) && writing_ahead w
    then upd_wahead w (table_insert row col c (write_ahead w))
    else
      let w := if current_row w <? row then flush_to_row w row else w in
      upd_data w (table_insert row col c (data w))
  else upd_data w (table_insert row col c (data w)).

(** src/worksheet.rs:15289-15315 *)
Definition store_blank (w : ws) (row col : N) (f : Format) : ws * option error :=
  let '(w, okd) := check_dimensions w row col in
  if negb okd then (w, Some RowColumnLimit)
  else let '(w, i) := reg w f in
       let '(w, i) := if i =? 0 then row_col_format w row col else (w, i) in
       (insert_cell w row col (CBlank, i), None).

(** src/worksheet.rs:15038-15099 *)
Definition store_string (w : ws) (row col : N) (s : str) (f : option Format) : ws * option error :=
  match s with
  | [] => match f with Some f => store_blank w row col f | None => (w, None) end
  | _ =>
    let '(w, okd) := check_dimensions w row col in
    if negb okd then (w, Some RowColumnLimit)
    else if MAX_STRING_LEN <? char_count s then (w, Some MaxStringLength)
    else
      let '(w, i) := cell_xf w row col f in
      let '(w, c) :=
        if inline_strings w then (w, CInline s)
        else if global_sst w then
          let '(t, id) := shared_string_index (strings_table w) s in
          (upd_sst w t true, CString s (Some id))
        else (upd_sst w (strings_table w) true, CString s None) in
      (insert_cell w row col (c, i), None)
  end.

(** src/worksheet.rs:15102-15159; [s] is the <r>...</r> mark-up. *)
Definition store_rich_string (w : ws) (row col : N) (s raw : str) (f : option Format) : ws * option error :=
  match s with
  | [] => match f with Some f => store_blank w row col f | None => (w, None) end
  | _ =>
    let '(w, okd) := check_dimensions w row col in
    if negb okd then (w, Some RowColumnLimit)
    else if MAX_STRING_LEN <? char_count s then (w, Some MaxStringLength)
    else
      let '(w, i) := cell_xf w row col f in
      let '(w, id) := if global_sst w
                      then let '(t, id) := shared_string_index (strings_table w) s in
                           (upd_sst w t (local_sst w), Some id)
                      else (w, None) in
      let w := insert_cell w row col (CRich s raw id, i) in
      (if inline_strings w then w else upd_sst w (strings_table w) true, None)
  end.

(** src/worksheet.rs:14992-15035 *)
Definition store_number_type (w : ws) (row col : N) (x : f64) (f : option Format) (is_datetime : bool)
  : ws * option error :=
  let '(w, okd) := check_dimensions w row col in
  if negb okd then (w, Some RowColumnLimit)
  else if is_nan x then store_string w row col (nan_text w) f
  else if is_inf x then
    if feq x (S754_infinity false) then store_string w row col (inf_text w) f
    else store_string w row col (neg_inf_text w) f
  else
    let '(w, i) := cell_xf w row col f in
    (insert_cell w row col (if is_datetime then CDateTime x else CNumber x, i), None).

(** src/worksheet.rs:15318-15342 *)
Definition store_boolean (w : ws) (row col : N) (b : bool) (f : option Format) : ws * option error :=
  let '(w, okd) := check_dimensions w row col in
  if negb okd then (w, Some RowColumnLimit)
  else let '(w, i) := cell_xf w row col f in (insert_cell w row col (CBool b, i), None).

(** A prepared formula: src/formula.rs [Formula] fields formula_string, result,
    has_dynamic_function. *)
Record formula := { f_text : str; f_result : str; f_dynamic : bool }.
Definition formula_result (w : ws) (fm : formula) : str :=
  match f_result fm with [] => default_result w | r => r end.

(** Integer ranges [a..=b]. *)
Definition range_incl (a b : N) : list N := map (fun i => a + N.of_nat i) (seq 0 (N.to_nat (b + 1 - a))).

(** [write_number(row, col, 0)] / [write_number_with_format] on a list of cells;
    an error ends the loop (the [?] operator). *)
Fixpoint write_zeros (w : ws) (cells : list (N * N)) (f : option Format) : ws * option error :=
  match cells with
  | [] => (w, None)
  | (r, c) :: rest =>
    match store_number_type w r c fzero f false with
    | (w, None) => write_zeros w rest f
    | (w, Some e) => (w, Some e)
    end
  end.

(** src/worksheet.rs:15206-15286; the range text is that of [utility::cell_range]
    (Ref_Model). *)
Definition store_array_formula (w : ws) (fr fc lr lc : N) (fm : formula) (f : option Format)
    (is_dynamic : bool) (range : str) : ws * option error :=
  let '(w, ok1) := check_dimensions w fr fc in
  if negb ok1 then (w, Some RowColumnLimit)
  else let '(w, ok2) := check_dimensions w lr lc in
  if negb ok2 then (w, Some RowColumnLimit)
  else if (lr <? fr) || (lc <? fc) then (w, Some RowColumnOrder)
  else
    let '(w, i) := cell_xf w fr fc f in
    let dyn := is_dynamic || f_dynamic fm in
    let w := insert_cell w fr fc (CArray (f_text fm) (formula_result w fm) dyn range, i) in
    match write_zeros w (map (fun c => (fr, c)) (range_incl (fc + 1) lc)) f with
    | (w, Some e) => (w, Some e)
    | (w, None) =>
      let w := if constant_memory w then upd_ahead w true else w in
      match write_zeros w (flat_map (fun r => map (fun c => (r, c)) (range_incl fc lc)) (range_incl (fr + 1) lr)) f with
      | (w, Some e) => (w, Some e)
      | (w, None) => (if constant_memory w then upd_ahead w false else w, None)
      end
    end.

(** src/worksheet.rs:15162-15202; a dynamic function ignores the format. *)
Definition store_formula (w : ws) (row col : N) (fm : formula) (f : option Format) (range : str) : ws * option error :=
  if f_dynamic fm then store_array_formula w row col row col fm None true range
  else
    let '(w, okd) := check_dimensions w row col in
    if negb okd then (w, Some RowColumnLimit)
    else let '(w, i) := cell_xf w row col f in
         (insert_cell w row col (CFormula (f_text fm) (formula_result w fm), i), None).

(** src/worksheet.rs:15561-15607 *)
Definition insert_cell_format (w : ws) (row col xf : N) : ws :=
  match get row (data w) with
  | Some cs => match get col cs with
               | Some (c, _) => upd_data w (ins row (ins col (c, xf) cs) (data w))
               | None => upd_data w (ins row (ins col (CBlank, xf) cs) (data w))
               end
  | None => if 0 <? xf then upd_data w (ins row [(col, (CBlank, xf))] (data w)) else w
  end.
(** src/worksheet.rs:15611-15634 *)
Definition update_cell_format (w : ws) (row col xf : N) : ws :=
  match get row (data w) with
  | Some cs => match get col cs with
               | Some (c, _) => upd_data w (ins row (ins col (c, xf) cs) (data w))
               | None => w end
  | None => w
  end.
(** src/worksheet.rs:10230-10250 *)
Definition set_cell_format (w : ws) (row col : N) (f : Format) : ws * option error :=
  let '(w, okd) := check_dimensions w row col in
  if negb okd then (w, Some RowColumnLimit)
  else let '(w, i) := reg w f in (insert_cell_format w row col i, None).
(** src/worksheet.rs:10333-10364 *)
Definition range_cells (fr fc lr lc : N) : list (N * N) :=
  flat_map (fun r => map (fun c => (r, c)) (range_incl fc lc)) (range_incl fr lr).
Definition set_range_format (w : ws) (fr fc lr lc : N) (f : Format) : ws * option error :=
  if negb (check_dimensions_only fr fc) || negb (check_dimensions_only lr lc) then (w, Some RowColumnLimit)
  else if (lr <? fr) || (lc <? fc) then (w, Some RowColumnOrder)
  else let '(w, i) := reg w f in
       (fold_left (fun w p => insert_cell_format w (fst p) (snd p) i) (range_cells fr fc lr lc) w, None).
(** src/worksheet.rs:10560-10569, 15638-15644 *)
Definition clear_cell (w : ws) (row col : N) : ws :=
  if check_dimensions_only row col then
    match get row (data w) with
    | Some cs => upd_data w (ins row (del col cs) (data w))
    | None => w end
  else w.
(** src/worksheet.rs:10638-10647, 15647-15649 *)
Definition clear_cell_format (w : ws) (row col : N) : ws :=
  if check_dimensions_only row col then update_cell_format w row col 0 else w.
(** src/worksheet.rs:10069-10103 *)
Definition set_formula_result (w : ws) (row col : N) (result : str) : ws :=
  let r := if constant_memory w then current_row w else row in
  match get r (data w) with
  | Some cs => match get col cs with
    | Some (CFormula t _, xf) => upd_data w (ins r (ins col (CFormula t result, xf) cs) (data w))
    | Some (CArray t _ d g, xf) => upd_data w (ins r (ins col (CArray t result d g, xf) cs) (data w))
    | _ => w end
  | None => w
  end.

(** ** Row and column options *)
Definition new_row h := {| r_height := h; r_xf := 0; r_level := 0; r_hidden := false; r_collapsed := false; r_format := None |}.
Definition new_col := {| c_width := DEFAULT_COL_WIDTH; c_xf := 0; c_level := 0; c_hidden := false; c_collapsed := false; c_autofit := false; c_format := None |}.

(** src/worksheet.rs:7606-7632 *)
Definition set_row_hidden (w : ws) (row : N) : ws * option error :=
  let '(w, okd) := check_dimensions w row (get_min_col w) in
  if negb okd then (w, Some RowColumnLimit)
  else
    let o := match get row (changed_rows w) with
             | Some o => {| r_height := r_height o; r_xf := r_xf o; r_level := r_level o; r_hidden := true; r_collapsed := r_collapsed o; r_format := r_format o |}
             | None => {| r_height := default_row_height w; r_xf := 0; r_level := 0; r_hidden := true; r_collapsed := false; r_format := None |} end in
    (upd_rows w (ins row o (changed_rows w)) (max_row_level w), None).
(** src/worksheet.rs:7649-7664 *)
Definition set_row_unhidden (w : ws) (row : N) : ws * option error :=
  let '(w, okd) := check_dimensions w row (get_min_col w) in
  if negb okd then (w, Some RowColumnLimit)
  else match get row (changed_rows w) with
       | Some o => (upd_rows w (ins row {| r_height := r_height o; r_xf := r_xf o; r_level := r_level o; r_hidden := false; r_collapsed := r_collapsed o; r_format := r_format o |} (changed_rows w)) (max_row_level w), None)
       | None => (w, None) end.
(** src/worksheet.rs:6417-6455 *)
Definition set_row_height (w : ws) (row : N) (h : f64) : ws * option error :=
  if feq h fzero then set_row_hidden w row
  else
    let '(w, okd) := check_dimensions w row (get_min_col w) in
    if negb okd then (w, Some RowColumnLimit)
    else
      let o := match get row (changed_rows w) with
               | Some o => {| r_height := h; r_xf := r_xf o; r_level := r_level o; r_hidden := r_hidden o; r_collapsed := r_collapsed o; r_format := r_format o |}
               | None => new_row h end in
      (upd_rows w (ins row o (changed_rows w)) (max_row_level w), None).
(** src/worksheet.rs:6576-6609; an existing entry keeps its old [format]. *)
Definition set_row_format (w : ws) (row : N) (f : Format) : ws * option error :=
  let '(w, okd) := check_dimensions w row (get_min_col w) in
  if negb okd then (w, Some RowColumnLimit)
  else
    let '(w, i) := reg w f in
    let o := match get row (changed_rows w) with
             | Some o => {| r_height := r_height o; r_xf := i; r_level := r_level o; r_hidden := r_hidden o; r_collapsed := r_collapsed o; r_format := r_format o |}
             | None => {| r_height := default_row_height w; r_xf := i; r_level := 0; r_hidden := false; r_collapsed := false; r_format := Some f |} end in
    (upd_rows w (ins row o (changed_rows w)) (max_row_level w), None).
(** src/worksheet.rs:8120-8144 *)
Definition set_column_hidden (w : ws) (col : N) : ws * option error :=
  if COL_MAX <=? col then (w, Some RowColumnLimit)
  else
    let o := match get col (changed_cols w) with Some o => o | None => new_col end in
    (upd_cols w (ins col {| c_width := c_width o; c_xf := c_xf o; c_level := c_level o; c_hidden := true; c_collapsed := c_collapsed o; c_autofit := c_autofit o; c_format := c_format o |} (changed_cols w)) (max_col_level w), None).
(** src/worksheet.rs:15900-15936 *)
Definition store_column_width (w : ws) (col : N) (width : f64) (autofit : bool) : ws :=
  let width := if fgt width (f_of_N 255) then f_of_N 255 else width in
  let upd o wd a := {| c_width := wd; c_xf := c_xf o; c_level := c_level o; c_hidden := c_hidden o; c_collapsed := c_collapsed o; c_autofit := a; c_format := c_format o |} in
  let o := match get col (changed_cols w) with
           | Some o => if autofit && negb (c_autofit o)
                       then if fgt width (c_width o) then upd o width true else o
                       else upd o width autofit
           | None => {| c_width := width; c_xf := 0; c_level := 0; c_hidden := false; c_collapsed := false; c_autofit := autofit; c_format := None |} end in
  upd_cols w (ins col o (changed_cols w)) (max_col_level w).
(** src/worksheet.rs:15873-15896 *)
Definition set_column_width_internal (w : ws) (col : N) (width : f64) (autofit : bool) : ws * option error :=
  if feq width fzero then set_column_hidden w col
  else if COL_MAX <=? col then (w, Some RowColumnLimit)
  else (store_column_width w col width autofit, None).
(** src/worksheet.rs:8039-8073; an existing entry keeps its old [format]. *)
Definition set_column_format (w : ws) (col : N) (f : Format) : ws * option error :=
  let '(w, okd) := check_dimensions w (get_min_row w) col in
  if negb okd then (w, Some RowColumnLimit)
  else
    let '(w, i) := reg w f in
    let o := match get col (changed_cols w) with
             | Some o => {| c_width := c_width o; c_xf := i; c_level := c_level o; c_hidden := c_hidden o; c_collapsed := c_collapsed o; c_autofit := c_autofit o; c_format := c_format o |}
             | None => {| c_width := DEFAULT_COL_WIDTH; c_xf := i; c_level := 0; c_hidden := false; c_collapsed := false; c_autofit := false; c_format := Some f |} end in
    (upd_cols w (ins col o (changed_cols w)) (max_col_level w), None).
(** src/worksheet.rs:5745-5787 (the note itself is modelled in Notes_Model). *)
Definition insert_note (w : ws) (row col text_len : N) : ws * option error :=
  let '(w, okd) := check_dimensions w row col in
  if negb okd then (w, Some RowColumnLimit)
  else if MAX_STRING_LEN - 54 <? text_len then (w, Some MaxStringLength)
  else
    let cs := match get row (notes w) with Some cs => ins col tt cs | None => [(col, tt)] end in
    (upd_notes w (ins row cs (notes w)), None).

(** ** The API calls of this part, as data *)
Inductive op :=
| WriteNumber (row col : N) (x : f64) (f : option Format)
| WriteDateTime (row col : N) (x : f64) (f : option Format)
| WriteString (row col : N) (s : str) (f : option Format)
| WriteRich (row col : N) (s raw : str) (f : option Format)
| WriteBool (row col : N) (b : bool) (f : option Format)
| WriteBlank (row col : N) (f : Format)
| WriteFormula (row col : N) (fm : formula) (f : option Format) (range : str)
| WriteArray (fr fc lr lc : N) (fm : formula) (f : option Format) (dynamic : bool) (range : str)
| SetCellFormat (row col : N) (f : Format)
| SetRangeFormat (fr fc lr lc : N) (f : Format)
| ClearCell (row col : N)
| ClearCellFormat (row col : N)
| SetFormulaResult (row col : N) (result : str)
| SetRowHeight (row : N) (h : f64)
| SetRowFormat (row : N) (f : Format)
| SetRowHidden (row : N)
| SetRowUnhidden (row : N)
| SetColumnWidth (col : N) (width : f64) (autofit : bool)
| SetColumnFormat (col : N) (f : Format)
| SetColumnHidden (col : N)
| InsertNote (row col text_len : N)
| SetNanValue (s : str)
| SetInfinityValue (s : str)
| SetNegInfinityValue (s : str)
| SetFormulaResultDefault (s : str)
| SetDefaultRowHeight (h : f64).

Definition step (w : ws) (o : op) : ws * option error :=
  match o with
  | WriteNumber r c x f => store_number_type w r c x f false
  | WriteDateTime r c x f => store_number_type w r c x f true
  | WriteString r c s f => store_string w r c s f
  | WriteRich r c s raw f => store_rich_string w r c s raw f
  | WriteBool r c b f => store_boolean w r c b f
  | WriteBlank r c f => store_blank w r c f
  | WriteFormula r c fm f rg => store_formula w r c fm f rg
  | WriteArray fr fc lr lc fm f d rg => store_array_formula w fr fc lr lc fm f d rg
  | SetCellFormat r c f => set_cell_format w r c f
  | SetRangeFormat fr fc lr lc f => set_range_format w fr fc lr lc f
  | ClearCell r c => (clear_cell w r c, None)
  | ClearCellFormat r c => (clear_cell_format w r c, None)
  | SetFormulaResult r c s => (set_formula_result w r c s, None)
  | SetRowHeight r h => set_row_height w r h
  | SetRowFormat r f => set_row_format w r f
  | SetRowHidden r => set_row_hidden w r
  | SetRowUnhidden r => set_row_unhidden w r
  | SetColumnWidth c x a => set_column_width_internal w c x a
  | SetColumnFormat c f => set_column_format w c f
  | SetColumnHidden c => set_column_hidden w c
  | InsertNote r c n => insert_note w r c n
  (* src/worksheet.rs:14437-14486, 10146-10149, 7717-7725 *)
  | SetNanValue s => (upd_texts w s (inf_text w) (neg_inf_text w) (default_result w) (default_row_height w), None)
  | SetInfinityValue s => (upd_texts w (nan_text w) s (neg_inf_text w) (default_result w) (default_row_height w), None)
  | SetNegInfinityValue s => (upd_texts w (nan_text w) (inf_text w) s (default_result w) (default_row_height w), None)
  | SetFormulaResultDefault s => (upd_texts w (nan_text w) (inf_text w) (neg_inf_text w) s (default_row_height w), None)
  | SetDefaultRowHeight h => (if fle h fzero then w else upd_texts w (nan_text w) (inf_text w) (neg_inf_text w) (default_result w) h, None)
  end.
(** The history of a worksheet: errors are returned to the caller, which goes on. *)
Definition run (w : ws) (ops : list op) : ws := fold_left (fun w o => fst (step w o)) ops w.

(** ** Saving *)

(** src/worksheet.rs:18396-18421: ids for the strings of a sheet without its own
    access to the workbook's table, in row/column order. *)
Fixpoint assign_cells (t : sst) (cs : smap (cell * N)) : sst * smap (cell * N) :=
  match cs with
  | [] => (t, [])
  | (k, (c, xf)) :: r =>
    let '(t, c) := match c with
                   | CString s None => let '(t, i) := shared_string_index t s in (t, CString s (Some i))
                   | CRich s raw None => let '(t, i) := shared_string_index t s in (t, CRich s raw (Some i))
                   | _ => (t, c) end in
    let '(t, r) := assign_cells t r in (t, (k, (c, xf)) :: r)
  end.
Fixpoint assign_rows (t : sst) (d : table) : sst * table :=
  match d with
  | [] => (t, [])
  | (k, cs) :: r => let '(t, cs) := assign_cells t cs in
                    let '(t, r) := assign_rows t r in (t, (k, cs) :: r)
  end.
Definition update_string_table_ids (w : ws) (t : sst) : ws * sst :=
  if local_sst w then let '(t, d) := assign_rows t (data w) in (upd_data w d, t) else (w, t).

(** The sheet as it is when its XML is written (src/workbook.rs:2180-2192 calls
    this before the packager runs). *)
Definition saved (w : ws) (t : sst) : ws := fst (update_string_table_ids w t).

(** The <c> element for a stored cell in standard mode
    (src/worksheet.rs:18463-18573); [g] is the local-to-global style map
    (16034-16040).  Inline strings use their raw local index (18498-18508). *)
Definition emit_cell (w : ws) (g : N -> N) (ro : option rowopt) (p : N * (cell * N)) : list (N * cell * N) :=
  let '(col, (c, xf)) := p in
  let e := effective_xf w xf ro col in
  let e := if e =? 0 then 0 else g e in
  match c with
  | CBlank => if 0 <? e then [(col, c, e)] else []
  | CString _ None | CRich _ _ None => []
  | CInline _ => [(col, c, xf)]
  | _ => [(col, c, e)]
  end.
(** src/worksheet.rs:18436-18576: one row. *)
Definition emit_row (w : ws) (g : N -> N) (row : N) : list orow :=
  let ro := get row (changed_rows w) in
  match get row (data w) with
  | Some cs => [{| o_row := row; o_opts := ro; o_cells := Some (flat_map (emit_cell w g ro) cs) |}]
  | None => if match ro with Some _ => true | None => mem row (notes w) end
            then [{| o_row := row; o_opts := ro; o_cells := None |}] else []
  end.
Definition write_data_table (w : ws) (g : N -> N) : list orow :=
  flat_map (emit_row w g) (range_incl (first_row w) (last_row w)).

(** The rows of <sheetData> of a standard worksheet in the saved file. *)
Definition sheet_rows (w : ws) (t : sst) (g : N -> N) : list orow := write_data_table (saved w t) g.
(** The rows of <sheetData> of a constant-memory worksheet: the temporary file
    after src/worksheet.rs:18586-18618. *)
Definition streamed_rows (w : ws) : list orow := flushed (flush_last_row w).

(** src/worksheet.rs:17668-17697: the corners of the written reference
    ([cell_range] of Ref_Model prints them); None stands for the literal "A1". *)
Definition dimension_ref (w : ws) : option (N * N * N * N) :=
  if (first_row w =? 0) && (first_col w =? 0) && (last_row w =? 0) && (last_col w =? COL_MAX - 1) then None
  else if negb (first_row w =? ROW_MAX) || negb (first_col w =? COL_MAX) || negb (last_row w =? 0) || negb (last_col w =? 0)
  then Some (first_row w, first_col w, last_row w, last_col w)
  else None.

(** src/worksheet.rs:18833-18877: spans by block of 16 rows, as (min, max) of
    the 1-based columns.  [span_min = COL_MAX] means "none yet". *)
Definition span_cols (s : N * N) (cols : list N) : N * N :=
  fold_left (fun s c => if fst s =? COL_MAX then (c, c) else (N.min (fst s) c, N.max (snd s) c)) cols s.
Definition span_row (w : ws) (st : smap (N * N) * (N * N)) (row : N) : smap (N * N) * (N * N) :=
  let '(spans, s) := st in
  let s := match get row (data w) with Some cs => span_cols s (keys cs) | None => s end in
  let s := match get row (notes w) with Some cs => span_cols s (keys cs) | None => s end in
  if ((row + 1) mod 16 =? 0) || (row =? last_row w) then
    if fst s =? COL_MAX then (spans, s)
    else (ins (row / 16) (fst s + 1, snd s + 1) spans, (COL_MAX, snd s + 1))
  else (spans, s).
Definition calculate_spans (w : ws) : smap (N * N) :=
  fst (fold_left (span_row w) (range_incl (first_row w) (last_row w)) ([], (COL_MAX, 0))).
