(** Model of the worksheet calls that build on the cell store: merged ranges,
    tables, the autofilter range, outline groups, page breaks, and the emission
    of the <cols> element (src/worksheet.rs, src/table.rs). *)
From Verif Require Import Base SMap SortLib F64 Fmt_Model Sst_Model Ref_Model Cells_Model.

(** src/worksheet.rs:20421-20441 [CellRange] *)
Record rng := { r0 : N; c0 : N; r1 : N; c1 : N }.

(** The cells of a range in the order of the nested loops of 5016-5029 and
    8858-8871 (rows outside, columns inside) are [range_cells] (Cells_Model). *)

(** [merged_ranges]/[merged_cells] and [table_ranges]/[table_cells]
    (src/worksheet.rs:1551-1554): the accepted ranges and the HashMap from cell
    to the index of the range that claimed it. *)
Record claims := { ranges : list rng; owner : list (N * N * N) }.
Definition no_claims : claims := {| ranges := []; owner := [] |}.
Fixpoint owner_of (r c : N) (l : list (N * N * N)) : option N :=
  match l with
  | [] => None
  | (r', c', i) :: rest => if (r' =? r) && (c' =? c) then Some i else owner_of r c rest
  end.
Inductive claimed := CPanic | COverlap (l : list (N * N * N)) | CDone (l : list (N * N * N)).
(** The loop 5016-5029 / 8858-8871.  When a cell already has an owner,
    [ranges.get(index).unwrap()] panics if there is no such range; cells
    inserted before that stay in the map. *)
Fixpoint claim_cells (ranges : list rng) (new_index : N) (cells : list (N * N)) (l : list (N * N * N)) : claimed :=
  match cells with
  | [] => CDone l
  | (r, c) :: rest =>
    match owner_of r c l with
    | Some i => match nth_error ranges (N.to_nat i) with Some _ => COverlap l | None => CPanic end
    | None => claim_cells ranges new_index rest ((r, c, new_index) :: l)
    end
  end.

(** src/table.rs:1416-1423.  [tc_total] is the pair of 8819-8825: [None] for
    TableFunction::None, otherwise [column.total_function()] as a function of
    the column name (src/table.rs:1885-1905). *)
Record tcolumn := { tc_name : str; tc_total : option (str -> formula); tc_total_label : str;
                    tc_formula : option formula; tc_format : option Format; tc_header_format : option Format }.
Definition tcolumn_new : tcolumn :=   (* src/table.rs:1428-1437 *)
  {| tc_name := []; tc_total := None; tc_total_label := []; tc_formula := None; tc_format := None; tc_header_format := None |}.
(** src/table.rs: the fields of [Table] used by add_table. *)
Record tbl := { t_columns : list tcolumn; t_name : str; t_header : bool; t_total : bool; t_autofilter : bool;
                t_serde : bool; t_range : rng }.

(** src/worksheet.rs:1491-1642: further fields. [filter_cells] is
    [cells_with_autofilter] with [true] for FilterType::Table. *)
Record sheet := {
  cells : ws; merges : claims; tclaims : claims; tables : list tbl;
  filter_cells : list (N * N * (bool * rng)); autofilter_range : option rng;
  hbreaks : list N; vbreaks : list N }.
Definition with_cells s w := {| cells := w; merges := merges s; tclaims := tclaims s; tables := tables s; filter_cells := filter_cells s; autofilter_range := autofilter_range s; hbreaks := hbreaks s; vbreaks := vbreaks s |}.
Definition with_merges s m := {| cells := cells s; merges := m; tclaims := tclaims s; tables := tables s; filter_cells := filter_cells s; autofilter_range := autofilter_range s; hbreaks := hbreaks s; vbreaks := vbreaks s |}.
Definition with_tables s m t f := {| cells := cells s; merges := merges s; tclaims := m; tables := t; filter_cells := f; autofilter_range := autofilter_range s; hbreaks := hbreaks s; vbreaks := vbreaks s |}.
Definition with_filter s f a := {| cells := cells s; merges := merges s; tclaims := tclaims s; tables := tables s; filter_cells := f; autofilter_range := a; hbreaks := hbreaks s; vbreaks := vbreaks s |}.
Definition with_breaks s h v := {| cells := cells s; merges := merges s; tclaims := tclaims s; tables := tables s; filter_cells := filter_cells s; autofilter_range := autofilter_range s; hbreaks := h; vbreaks := v |}.
Definition sheet_new (w : ws) : sheet :=
  {| cells := w; merges := no_claims; tclaims := no_claims; tables := []; filter_cells := []; autofilter_range := None;
     hbreaks := []; vbreaks := [] |}.

Inductive serror := SE (e : error) | SMergeSingle | SMergeOverlap | STableOverlap | STableRows | STableColumnName
                  | SFilterOverlap | STooManyBreaks.
(** Result of an API call: [None] is a panic; otherwise the new state and the
    error returned, if any. *)
Definition outcome : Type := option (sheet * option serror).

Definition set_writing_ahead (w : ws) (b : bool) : ws :=          (* src/worksheet.rs:14701-14705 *)
  if constant_memory w then upd_ahead w b else w.

(** A sequence of writes ended by the first error (the [?] operator). *)
Fixpoint write_all (w : ws) (ops : list op) : ws * option error :=
  match ops with
  | [] => (w, None)
  | o :: rest => match step w o with (w, None) => write_all w rest | (w, Some e) => (w, Some e) end
  end.

(** src/worksheet.rs:4965-5035 *)
Definition merge_range (s : sheet) (fr fc lr lc : N) (text : str) (f : Format) : outcome :=
  let '(w, ok1) := check_dimensions (cells s) fr fc in
  if negb ok1 then Some (with_cells s w, Some (SE RowColumnLimit))
  else let '(w, ok2) := check_dimensions w lr lc in
  if negb ok2 then Some (with_cells s w, Some (SE RowColumnLimit))
  else if (lr <? fr) || (lc <? fc) then Some (with_cells s w, Some (SE RowColumnOrder))
  else if (fr =? lr) && (fc =? lc) then Some (with_cells s w, Some SMergeSingle)
  else
    match write_all w (WriteString fr fc text (Some f) :: map (fun c => WriteBlank fr c f) (range_incl (fc + 1) lc)) with
    | (w, Some e) => Some (with_cells s w, Some (SE e))
    | (w, None) =>
      match write_all (set_writing_ahead w true)
              (map (fun p => WriteBlank (fst p) (snd p) f) (range_cells (fr + 1) fc lr lc)) with
      | (w, Some e) => Some (with_cells s w, Some (SE e))
      | (w, None) =>
        let s := with_cells s (set_writing_ahead w false) in
        let range := {| r0 := fr; c0 := fc; r1 := lr; c1 := lc |} in
        match claim_cells (ranges (merges s)) (N.of_nat (length (ranges (merges s))))
                (range_cells fr fc lr lc) (owner (merges s)) with
        | CPanic => None
        | COverlap l => Some (with_merges s {| ranges := ranges (merges s); owner := l |}, Some SMergeOverlap)
        | CDone l => Some (with_merges s {| ranges := ranges (merges s) ++ [range]; owner := l |}, None)
        end
      end
    end.

(** src/worksheet.rs:16952-16980 *)
Definition default_header (w : ws) (fr fc : N) (show_header : bool) (col : N) : str :=
  let d := lit "Column" ++ dec (col - fc + 1) in
  if negb show_header then d
  else match table_get fr col (data w) with
       | Some (CString s _, _) => s
       | Some (CInline s, _) => s
       | _ => d
       end.

Section Table.
(** [str::to_lowercase] *)
Variable lower : str -> str.

(** src/table.rs:1138-1166: truncate or extend the columns to the width of the
    range, fill in names, and reject a repeated name (ignoring case). *)
Fixpoint name_columns (headers : list str) (cols : list tcolumn) (seen : list str) : option (list tcolumn) :=
  match headers with
  | [] => Some []
  | h :: headers =>
    let '(c, cols) := match cols with [] => (tcolumn_new, []) | c :: r => (c, r) end in
    let name := match tc_name c with [] => h | n => n end in
    if existsb (str_eqb (lower name)) seen then None
    else
      match name_columns headers cols (lower name :: seen) with
      | None => None
      | Some rest =>
        Some ({| tc_name := name; tc_total := tc_total c; tc_total_label := tc_total_label c; tc_formula := tc_formula c;
                 tc_format := tc_format c; tc_header_format := tc_header_format c |} :: rest)
      end
  end.

(** The cell writes for one column: 8790-8849.  The registration of the dxf
    format (8836) has no effect on the cells and is left out; the range text of
    a dynamic formula (Cells_Model.store_array_formula) is left empty. *)
Definition table_column (w : ws) (t : tbl) (first_data last_data : N) (col : N) (c : tcolumn) : ws * option error :=
  let '(w, e) := if t_header t && negb (t_serde t)
                 then store_string w (r0 (t_range t)) col (tc_name c) (tc_header_format c) else (w, None) in
  match e with Some e => (w, Some e) | None =>
  let w := set_writing_ahead w true in
  let col_format := match tc_format c with Some f => f | None => format_default end in
  let '(w, e) :=
    if t_total t then
      match tc_total_label c with
      | _ :: _ => store_string w (r1 (t_range t)) col (tc_total_label c) (Some col_format)
      | [] => match tc_total c with
              | Some mk => store_formula w (r1 (t_range t)) col (mk (tc_name c)) (Some col_format) []
              | None => (w, None) end
      end
    else (w, None) in
  match e with Some e => (w, Some e) | None =>
  let '(w, e) := match tc_formula c with
                 | Some fm => write_all w (map (fun r => WriteFormula r col fm (Some col_format) []) (range_incl first_data last_data))
                 | None => (w, None) end in
  match e with Some e => (w, Some e) | None =>
  let w := match tc_format c with
           | Some f =>
             let '(w, i) := reg w f in
             let w := fold_left (fun w r => update_cell_format w r col i) (range_incl first_data last_data) w in
             if t_total t && match tc_total c with Some _ => true | None => false end
             then update_cell_format w (r1 (t_range t)) col i else w
           | None => w end in
  (set_writing_ahead w false, None)
  end end end.
Fixpoint table_columns (w : ws) (t : tbl) (first_data last_data : N) (col : N) (cs : list tcolumn) : ws * option error :=
  match cs with
  | [] => (w, None)
  | c :: rest =>
    match table_column w t first_data last_data col c with
    | (w, Some e) => (w, Some e)
    | (w, None) => table_columns w t first_data last_data (col + 1) rest
    end
  end.

Fixpoint filter_at (r c : N) (l : list (N * N * (bool * rng))) : option (bool * rng) :=
  match l with
  | [] => None
  | (r', c', x) :: rest => if (r' =? r) && (c' =? c) then Some x else filter_at r c rest
  end.
(** The loops 8447-8464 and 8875-8892; [kind] is [true] for a table. *)
Fixpoint claim_filter (row : N) (cols : list N) (kind : bool) (range : rng) (l : list (N * N * (bool * rng)))
  : list (N * N * (bool * rng)) * bool :=
  match cols with
  | [] => (l, true)
  | c :: rest =>
    match filter_at row c l with
    | Some (k, _) => if Bool.eqb k kind then claim_filter row rest kind range ((row, c, (kind, range)) :: l) else (l, false)
    | None => claim_filter row rest kind range ((row, c, (kind, range)) :: l)
    end
  end.

(** src/worksheet.rs:8752-8900.  [last_data_row] (src/table.rs:1178-1184)
    underflows for a table with a total row in row 0: a panic in a debug build;
    the model panics there in both build modes. *)
Definition add_table (s : sheet) (fr fc lr lc : N) (t : tbl) : outcome :=
  if negb (check_dimensions_only fr fc) || negb (check_dimensions_only lr lc) then Some (s, Some (SE RowColumnLimit))
  else if (lr <? fr) || (lc <? fc) then Some (s, Some (SE RowColumnOrder))
  else if (fr =? lr) && t_header t then Some (s, Some STableRows)
  else
    let range := {| r0 := fr; c0 := fc; r1 := lr; c1 := lc |} in
    match name_columns (map (default_header (cells s) fr fc (t_header t)) (range_incl fc lc)) (t_columns t) [] with
    | None => Some (s, Some STableColumnName)
    | Some cols =>
      let t := {| t_columns := cols; t_name := t_name t; t_header := t_header t; t_total := t_total t;
                  t_autofilter := t_autofilter t; t_serde := t_serde t; t_range := range |} in
      let first_data := if t_header t then fr + 1 else fr in
      if t_total t && (lr =? 0) then None
      else
        let last_data := if t_total t then lr - 1 else lr in
        match table_columns (cells s) t first_data last_data fc cols with
        | (w, Some e) => Some (with_cells s w, Some (SE e))
        | (w, None) =>
          let s := with_cells s w in
          match claim_cells (ranges (tclaims s)) (N.of_nat (length (ranges (tclaims s))))
                  (range_cells fr fc lr lc) (owner (tclaims s)) with
          | CPanic => None
          | COverlap l => Some (with_tables s {| ranges := ranges (tclaims s); owner := l |} (tables s) (filter_cells s), Some STableOverlap)
          | CDone l =>
            let '(fcells, okf) := if t_autofilter t then claim_filter fr (range_incl fc lc) true range (filter_cells s)
                                  else (filter_cells s, true) in
            if okf
            then Some (with_tables s {| ranges := ranges (tclaims s) ++ [range]; owner := l |} (tables s ++ [t]) fcells, None)
            else Some (with_tables s {| ranges := ranges (tclaims s); owner := l |} (tables s) fcells, Some SFilterOverlap)
          end
        end
    end.
End Table.

(** src/worksheet.rs:8414-8469 *)
Definition autofilter (s : sheet) (fr fc lr lc : N) : outcome :=
  if negb (check_dimensions_only fr fc) || negb (check_dimensions_only lr lc) then Some (s, Some (SE RowColumnLimit))
  else if (lr <? fr) || (lc <? fc) then Some (s, Some (SE RowColumnOrder))
  else
    let range := {| r0 := fr; c0 := fc; r1 := lr; c1 := lc |} in
    let '(l, okf) := claim_filter fr (range_incl fc lc) false range (filter_cells s) in
    Some (with_filter s l (Some range), if okf then None else Some SFilterOverlap).

(** ** Outline groups *)

(** src/worksheet.rs:17150-17188 *)
Definition set_grouped_row (w : ws) (row : N) (collapsed : bool) : ws * option error :=
  match get row (changed_rows w) with
  | Some o =>
    let next := r_level o + 1 in
    if 7 <? next then (w, Some MaxGroupLevel)
    else (upd_rows w (ins row {| r_height := r_height o; r_xf := r_xf o; r_level := next;
                                 r_hidden := r_hidden o || collapsed; r_collapsed := r_collapsed o; r_format := r_format o |}
                          (changed_rows w)) (N.max next (max_row_level w)), None)
  | None => (upd_rows w (ins row {| r_height := default_row_height w; r_xf := 0; r_level := 1; r_hidden := collapsed;
                                    r_collapsed := false; r_format := None |} (changed_rows w)) (max_row_level w), None)
  end.
Fixpoint grouped_rows (w : ws) (rows : list N) (collapsed : bool) : ws * option error :=
  match rows with
  | [] => (w, None)
  | r :: rest => match set_grouped_row w r collapsed with (w, None) => grouped_rows w rest collapsed | (w, Some e) => (w, Some e) end
  end.
(** src/worksheet.rs:17121-17146 *)
Definition set_grouped_rows (w : ws) (fr lr : N) (collapsed : bool) : ws * option error :=
  let min_col := get_min_col w in
  let '(w, ok1) := check_dimensions w fr min_col in
  if negb ok1 then (w, Some RowColumnLimit)
  else let '(w, ok2) := check_dimensions w lr min_col in
  if negb ok2 then (w, Some RowColumnLimit)
  else if lr <? fr then (w, Some RowColumnOrder)
  else grouped_rows w (range_incl fr lr) collapsed.
(** src/worksheet.rs:17191-17215 *)
Definition set_collapsed_row (w : ws) (row : N) : ws * option error :=
  let '(w, ok1) := check_dimensions w row (get_min_col w) in
  if negb ok1 then (w, Some RowColumnLimit)
  else
    let o := match get row (changed_rows w) with
             | Some o => {| r_height := r_height o; r_xf := r_xf o; r_level := r_level o; r_hidden := r_hidden o; r_collapsed := true; r_format := r_format o |}
             | None => {| r_height := default_row_height w; r_xf := 0; r_level := 0; r_hidden := false; r_collapsed := true; r_format := None |} end in
    (upd_rows w (ins row o (changed_rows w)) (max_row_level w), None).
(** src/worksheet.rs:6986-6995.  [last_row + 1] is taken without overflow. *)
Definition group_rows (w : ws) (fr lr : N) (collapsed : bool) : ws * option error :=
  if collapsed then
    match set_collapsed_row w (lr + 1) with
    | (w, Some e) => (w, Some e)
    | (w, None) => set_grouped_rows w fr lr true
    end
  else set_grouped_rows w fr lr false.

(** src/worksheet.rs:17248-17287 *)
Definition set_grouped_column (w : ws) (col : N) (collapsed : bool) : ws * option error :=
  match get col (changed_cols w) with
  | Some o =>
    let next := c_level o + 1 in
    if 7 <? next then (w, Some MaxGroupLevel)
    else (upd_cols w (ins col {| c_width := c_width o; c_xf := c_xf o; c_level := next;
                                 c_hidden := c_hidden o || collapsed; c_collapsed := c_collapsed o;
                                 c_autofit := c_autofit o; c_format := c_format o |}
                          (changed_cols w)) (N.max next (max_col_level w)), None)
  | None => (upd_cols w (ins col {| c_width := DEFAULT_COL_WIDTH; c_xf := 0; c_level := 1; c_hidden := collapsed;
                                    c_collapsed := false; c_autofit := false; c_format := None |} (changed_cols w)) (max_col_level w), None)
  end.
Fixpoint grouped_columns (w : ws) (cols : list N) (collapsed : bool) : ws * option error :=
  match cols with
  | [] => (w, None)
  | c :: rest => match set_grouped_column w c collapsed with (w, None) => grouped_columns w rest collapsed | (w, Some e) => (w, Some e) end
  end.
(** src/worksheet.rs:17219-17244 *)
Definition set_grouped_columns (w : ws) (fc lc : N) (collapsed : bool) : ws * option error :=
  let min_row := get_min_row w in
  let '(w, ok1) := check_dimensions w min_row fc in
  if negb ok1 then (w, Some RowColumnLimit)
  else let '(w, ok2) := check_dimensions w min_row lc in
  if negb ok2 then (w, Some RowColumnLimit)
  else if lc <? fc then (w, Some RowColumnOrder)
  else grouped_columns w (range_incl fc lc) collapsed.
(** src/worksheet.rs:17290-17315 *)
Definition set_collapsed_column (w : ws) (col : N) : ws * option error :=
  let '(w, ok1) := check_dimensions w (get_min_row w) col in
  if negb ok1 then (w, Some RowColumnLimit)
  else
    let o := match get col (changed_cols w) with
             | Some o => {| c_width := c_width o; c_xf := c_xf o; c_level := c_level o; c_hidden := c_hidden o; c_collapsed := true; c_autofit := c_autofit o; c_format := c_format o |}
             | None => {| c_width := DEFAULT_COL_WIDTH; c_xf := 0; c_level := 0; c_hidden := false; c_collapsed := true; c_autofit := false; c_format := None |} end in
    (upd_cols w (ins col o (changed_cols w)) (max_col_level w), None).
(** src/worksheet.rs:7360-7369 *)
Definition group_columns (w : ws) (fc lc : N) (collapsed : bool) : ws * option error :=
  if collapsed then
    match set_collapsed_column w (lc + 1) with
    | (w, Some e) => (w, Some e)
    | (w, None) => set_grouped_columns w fc lc true
    end
  else set_grouped_columns w fc lc false.

(** The attributes outlineLevelRow / outlineLevelCol of <sheetFormatPr>
    (17865-17871): absent when the recorded maximum is 0. *)
Definition outline_level_row (w : ws) : option N := if 0 <? max_row_level w then Some (max_row_level w) else None.
Definition outline_level_col (w : ws) : option N := if 0 <? max_col_level w then Some (max_col_level w) else None.

(** ** Page breaks *)

(** src/worksheet.rs:14947-14967; [set] is the iteration order of the HashSet
    built from the argument; [None] is the panic of [breaks[0]] on an empty
    list. *)
Definition process_pagebreaks (set : list N) : option (result (list N) serror) :=
  match sort_by (fun x => x) set with
  | [] => None
  | b :: rest =>
    let breaks := if b =? 0 then rest else b :: rest in
    Some (if 1023 <? N.of_nat (length breaks) then Err STooManyBreaks else Ok breaks)
  end.
(** src/worksheet.rs:12821-12838 (limit ROW_MAX) and 12858-12878 (limit
    COL_MAX): the stored list, or an error.  [breaks.last().unwrap()] panics on
    an empty list.  The second component is what the call leaves stored. *)
Definition page_breaks (limit : N) (breaks set old : list N) : option (list N * option serror) :=
  match breaks with
  | [] => Some (old, None)
  | _ =>
    match process_pagebreaks set with
    | None => None
    | Some (Err e) => Some (old, Some e)
    | Some (Ok bs) =>
      match rev bs with
      | [] => None
      | m :: _ => if limit <=? m then Some (old, Some (SE RowColumnLimit)) else Some (bs, None)
      end
    end
  end.

(** ** The <cols> element *)

(** Derived [PartialEq] of ColOptions (20480): [width] is compared as f64. *)
Definition colopt_eqb (a b : colopt) : bool :=
  feq (c_width a) (c_width b) && (c_xf a =? c_xf b) && (c_level a =? c_level b) && Bool.eqb (c_hidden a) (c_hidden b)
  && Bool.eqb (c_collapsed a) (c_collapsed b) && Bool.eqb (c_autofit a) (c_autofit b)
  && match c_format a, c_format b with
     | Some x, Some y => format_eqb x y | None, None => true | _, _ => false end.

(** One <col> element: the arguments of write_col_element. *)
Fixpoint coalesce (first last : N) (prev : colopt) (rest : list (N * colopt)) : list (N * N * colopt) :=
  match rest with
  | [] => [(first, last, prev)]
  | (c, o) :: rest =>
    if (c =? last + 1) && colopt_eqb o prev then coalesce first c prev rest
    else (first, last, prev) :: coalesce c c o rest
  end.
(** src/worksheet.rs:19276-19319; [iter] is the iteration order of the HashMap
    [changed_cols]. *)
Definition write_cols (iter : list (N * colopt)) : list (N * N * colopt) :=
  match sort_by fst iter with
  | [] => []
  | (c, o) :: rest => coalesce c c o rest
  end.

(** [f64::round] (half away from zero) and [f64::floor], on finite values
    through the integers. *)
Definition sf_floor (s : bool) (m : positive) (e : Z) : Z :=
  let v := if s then Zneg m else Zpos m in
  if (0 <=? e)%Z then (v * 2 ^ e)%Z else (v / 2 ^ (- e))%Z.
Definition ffloor (x : f64) : f64 :=
  match x with
  | S754_finite s m e => if (0 <=? e)%Z then x else
      let z := sf_floor s m e in if (z =? 0)%Z then S754_zero s else f_of_Z z
  | _ => x end.
Definition fround (x : f64) : f64 :=
  match x with
  | S754_finite s m e => if (0 <=? e)%Z then x else
      let z := ((Zpos m + 2 ^ (- e - 1)) / 2 ^ (- e))%Z in
      if (z =? 0)%Z then S754_zero s else f_of_Z (if s then (- z) else z)%Z
  | _ => x end.

(** The attributes of a <col> element (19322-19384). [cd_style] is 0 when the
    attribute is absent; [g] maps a local format index to the global one. *)
Record coldef := { cd_min : N; cd_max : N; cd_width : f64; cd_style : N; cd_bestfit : bool; cd_hidden : bool;
                   cd_custom : bool; cd_level : N; cd_collapsed : bool }.
Definition col_width_out (width : f64) (hidden : bool) : f64 :=
  let width := if feq width DEFAULT_COL_WIDTH && hidden then fzero else width in
  if fgt width fzero then
    if flt width (f_of_N 1)
    then fdiv (ffloor (fmul (fdiv (fround (fmul width (fadd (f_of_N 7) (f_of_N 5)))) (f_of_N 7)) (f_of_N 256))) (f_of_N 256)
    else fdiv (ffloor (fmul (fdiv (fadd (fround (fmul width (f_of_N 7))) (f_of_N 5)) (f_of_N 7)) (f_of_N 256))) (f_of_N 256)
  else width.
Definition col_element (g : N -> N) (d : N * N * colopt) : coldef :=
  let '(first, last, o) := d in
  {| cd_min := first + 1; cd_max := last + 1; cd_width := col_width_out (c_width o) (c_hidden o);
     cd_style := if 0 <? c_xf o then g (c_xf o) else 0;
     cd_bestfit := c_autofit o; cd_hidden := c_hidden o;
     cd_custom := negb (feq (c_width o) DEFAULT_COL_WIDTH) || c_hidden o;
     cd_level := c_level o; cd_collapsed := c_collapsed o |}.
Definition cols_xml (g : N -> N) (iter : list (N * colopt)) : list coldef := map (col_element g) (write_cols iter).

(** ** The API calls of this part, as data *)
Inductive sop :=
| SCell (o : op)
| SMerge (fr fc lr lc : N) (text : str) (f : Format)
| STable (fr fc lr lc : N) (t : tbl)
| SAutofilter (fr fc lr lc : N)
| SGroupRows (fr lr : N) (collapsed : bool)
| SGroupColumns (fc lc : N) (collapsed : bool)
| SPageBreaks (breaks set : list N)
| SVPageBreaks (breaks set : list N).

Definition lift (s : sheet) (x : ws * option error) : outcome :=
  Some (with_cells s (fst x), option_map SE (snd x)).
Definition sstep (lower : str -> str) (s : sheet) (o : sop) : outcome :=
  match o with
  | SCell o => lift s (step (cells s) o)
  | SMerge fr fc lr lc text f => merge_range s fr fc lr lc text f
  | STable fr fc lr lc t => add_table lower s fr fc lr lc t
  | SAutofilter fr fc lr lc => autofilter s fr fc lr lc
  | SGroupRows fr lr c => lift s (group_rows (cells s) fr lr c)
  | SGroupColumns fc lc c => lift s (group_columns (cells s) fc lc c)
  | SPageBreaks b set => option_map (fun x => (with_breaks s (fst x) (vbreaks s), snd x)) (page_breaks ROW_MAX b set (hbreaks s))
  | SVPageBreaks b set => option_map (fun x => (with_breaks s (hbreaks s) (fst x), snd x)) (page_breaks COL_MAX b set (vbreaks s))
  end.
(** A history of calls: errors are returned to the caller, which goes on; a
    panic ends the program ([None]). *)
Fixpoint srun (lower : str -> str) (s : sheet) (ops : list sop) : option sheet :=
  match ops with
  | [] => Some s
  | o :: rest => match sstep lower s o with None => None | Some (s, _) => srun lower s rest end
  end.
