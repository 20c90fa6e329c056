(** Model of autofilter conditions (src/filter.rs), their API on a worksheet
    (src/worksheet.rs 8414-8639), the hiding of rows at save time (14727-14943)
    and the [<autoFilter>] element (18298-18392).  Unicode lower-casing and the
    decimal text of a number are parameters. *)
From Verif Require Import Base SMap F64 Fmt_Model Cells_Model Date_Parse Book_Model.

(** src/filter.rs [FilterCriteria] *)
Inductive criteria := EqualTo | NotEqualTo | GreaterThan | GreaterThanOrEqualTo | LessThan | LessThanOrEqualTo
 | BeginsWith | DoesNotBeginWith | EndsWith | DoesNotEndWith | Contains | DoesNotContain.
(** src/filter.rs [FilterData], [FilterDataType] *)
Record fdata := { d_is_number : bool; d_string : str; d_number : f64; d_criteria : criteria }.
(** src/filter.rs [FilterCondition] *)
Record fcond := { is_list_filter : bool; apply_logical_or : bool; should_match_blanks : bool;
                  list_values : list fdata; custom1 : option fdata; custom2 : option fdata }.

(** A value given to a filter: [IntoFilterData] for &str and f64 (i32 converts to f64). *)
Inductive fvalue := FText (s : str) | FNumber (x : f64).

Section Oracles.
Variable lower : str -> str.
Variable num_text : f64 -> str.

(** src/filter.rs new_string_and_criteria, new_number_and_criteria *)
Definition new_filter_data (v : fvalue) (c : criteria) : fdata :=
  match v with
  | FText s => {| d_is_number := false; d_string := s; d_number := fzero; d_criteria := c |}
  | FNumber x => {| d_is_number := true; d_string := num_text x; d_number := x; d_criteria := c |}
  end.

(** src/filter.rs FilterCondition::new *)
Definition fcond_new : fcond :=
  {| is_list_filter := true; apply_logical_or := true; should_match_blanks := false; list_values := []; custom1 := None; custom2 := None |}.
Definition add_list_filter (c : fcond) (v : fvalue) : fcond :=
  {| is_list_filter := true; apply_logical_or := apply_logical_or c; should_match_blanks := should_match_blanks c;
     list_values := list_values c ++ [new_filter_data v EqualTo]; custom1 := custom1 c; custom2 := custom2 c |}.
Definition add_list_blanks_filter (c : fcond) : fcond :=
  {| is_list_filter := true; apply_logical_or := apply_logical_or c; should_match_blanks := true;
     list_values := list_values c; custom1 := custom1 c; custom2 := custom2 c |}.
Definition add_custom_filter (c : fcond) (k : criteria) (v : fvalue) : fcond :=
  match custom1 c, custom2 c with
  | None, _ => {| is_list_filter := false; apply_logical_or := apply_logical_or c; should_match_blanks := should_match_blanks c;
                  list_values := list_values c; custom1 := Some (new_filter_data v k); custom2 := custom2 c |}
  | Some _, None => {| is_list_filter := false; apply_logical_or := false; should_match_blanks := should_match_blanks c;
                  list_values := list_values c; custom1 := custom1 c; custom2 := Some (new_filter_data v k) |}
  | Some _, Some _ => {| is_list_filter := false; apply_logical_or := apply_logical_or c; should_match_blanks := should_match_blanks c;
                  list_values := list_values c; custom1 := custom1 c; custom2 := custom2 c |}
  end.
Definition add_custom_boolean_or (c : fcond) : fcond :=
  {| is_list_filter := false; apply_logical_or := true; should_match_blanks := should_match_blanks c;
     list_values := list_values c; custom1 := custom1 c; custom2 := custom2 c |}.

(** src/worksheet.rs 14764-14820 *)
Definition row_matches_list_filter (w : ws) (row col : N) (c : fcond) : bool :=
  match table_get row col (data w) with
  | Some (k, _) =>
      match k with
      | CString s _ | CRich _ s _ =>
          let cell_string := trim (lower s) in
          if existsb (fun f => str_eqb cell_string (trim (lower (d_string f)))) (list_values c) then true
          else should_match_blanks c && (match cell_string with [] => true | _ => false end)
      | CNumber x => existsb (fun f => d_is_number f && feq x (d_number f)) (list_values c)
      | CBlank => should_match_blanks c
      | _ => false
      end
  | None => should_match_blanks c
  end.

(** src/worksheet.rs 14860-14943.  [<] on strings is the code point order. *)
Definition row_matches_custom_filter (w : ws) (row col : N) (f : fdata) : bool :=
  match table_get row col (data w) with
  | Some (k, _) =>
      match k with
      | CString s _ | CRich _ s _ =>
          let cell_string := trim (lower s) in
          let filter_string := trim (lower (d_string f)) in
          match d_criteria f with
          | EqualTo => str_eqb cell_string filter_string
          | NotEqualTo => negb (str_eqb cell_string filter_string)
          | LessThan => negb (str_leb filter_string cell_string)
          | GreaterThan => negb (str_leb cell_string filter_string)
          | LessThanOrEqualTo => str_leb cell_string filter_string
          | GreaterThanOrEqualTo => str_leb filter_string cell_string
          | EndsWith => ends_with filter_string cell_string
          | DoesNotEndWith => negb (ends_with filter_string cell_string)
          | BeginsWith => starts_with filter_string cell_string
          | DoesNotBeginWith => negb (starts_with filter_string cell_string)
          | Contains => str_contains filter_string cell_string
          | DoesNotContain => negb (str_contains filter_string cell_string)
          end
      | CNumber x =>
          if d_is_number f then
            match d_criteria f with
            | EqualTo => feq x (d_number f)
            | LessThan => flt x (d_number f)
            | NotEqualTo => negb (feq x (d_number f))
            | GreaterThan => fgt x (d_number f)
            | LessThanOrEqualTo => fle x (d_number f)
            | GreaterThanOrEqualTo => fge x (d_number f)
            | _ => false
            end
          else false
      | CBlank => false
      | _ => match d_criteria f with NotEqualTo => str_eqb (d_string f) (lit " ") | _ => false end
      end
  | None => false
  end.

(** src/worksheet.rs 14825-14851 *)
Definition row_matches_custom_filters (w : ws) (row col : N) (c : fcond) : bool :=
  let condition1 := match custom1 c with Some d => row_matches_custom_filter w row col d | None => false end in
  match custom2 c with
  | Some d => let condition2 := row_matches_custom_filter w row col d in
              if apply_logical_or c then condition1 || condition2 else condition1 && condition2
  | None => condition1
  end.

(** The filter fields of [Worksheet]: [autofilter_defined_name] (when in use, its
    range), [autofilter_area] (the range its text shows), [filter_conditions],
    [filter_automatic_off]. *)
Definition range4 : Type := N * N * N * N.
Record fsheet := { f_ws : ws; f_name : option range4; f_area : option range4; f_conds : smap fcond; f_off : bool }.
Definition fsheet_new (w : ws) : fsheet := {| f_ws := w; f_name := None; f_area := None; f_conds := []; f_off := false |}.
Definition with_ws s w := {| f_ws := w; f_name := f_name s; f_area := f_area s; f_conds := f_conds s; f_off := f_off s |}.

(** src/worksheet.rs 14727-14753; [None] is a panic of the [unwrap] of set_row_hidden. *)
Definition hide_row (w : ws) (row : N) : option ws :=
  match set_row_hidden w row with (w', None) => Some w' | (_, Some _) => None end.
Fixpoint hide_rows (col : N) (c : fcond) (rows : list N) (w : ws) : option ws :=
  match rows with
  | [] => Some w
  | row :: r =>
      let matches := if is_list_filter c then row_matches_list_filter w row col c else row_matches_custom_filters w row col c in
      w' <- (if negb matches then hide_row w row else Some w) ;; hide_rows col c r w'
  end.
Fixpoint hide_columns (rows : list N) (conds : list (N * fcond)) (w : ws) : option ws :=
  match conds with [] => Some w | (col, c) :: r => w' <- hide_rows col c rows w ;; hide_columns rows r w' end.
Definition hide_autofilter_rows (s : fsheet) : option fsheet :=
  match f_conds s with
  | [] => Some s
  | _ => if f_off s then Some s
         else match f_name s with
              | Some (fr, fc, lr, lc) => w <- hide_columns (range_incl (fr + 1) lr) (f_conds s) (f_ws s) ;; Some (with_ws s w)
              | None => w <- hide_columns (range_incl 1 0) (f_conds s) (f_ws s) ;; Some (with_ws s w)
              end
  end.

Inductive ferror := FLimit | FOrder | FOverlap | FParameter.
(** [overlap]: whether the first row of the range meets a table's drop-down cell. *)
Inductive fop :=
| FCell (o : op)
| FAutofilter (fr fc lr lc : N) (overlap : bool)
| FFilterColumn (col : N) (c : fcond)
| FAutomaticOff
| FSave.

(** src/worksheet.rs 8414-8469, 8575-8618, 8635-8638, and (FSave) the call at
    src/workbook.rs 2146.  The other effects of saving are not on these fields. *)
Definition fstep (s : fsheet) (o : fop) : option (fsheet * option ferror) :=
  match o with
  | FCell o => Some (with_ws s (fst (step (f_ws s) o)), None)
  | FAutofilter fr fc lr lc overlap =>
      if negb (check_dimensions_only fr fc) || negb (check_dimensions_only lr lc) then Some (s, Some FLimit)
      else if (lr <? fr) || (lc <? fc) then Some (s, Some FOrder)
      else if overlap then Some ({| f_ws := f_ws s; f_name := Some (fr, fc, lr, lc); f_area := f_area s; f_conds := []; f_off := f_off s |}, Some FOverlap)
      else Some ({| f_ws := f_ws s; f_name := Some (fr, fc, lr, lc); f_area := Some (fr, fc, lr, lc); f_conds := []; f_off := f_off s |}, None)
  | FFilterColumn col c =>
      if COL_MAX <=? col then Some (s, Some FLimit)
      else match f_name s with
           | None => Some (s, Some FParameter)
           | Some (fr, fc, lr, lc) =>
               if (col <? fc) || (lc <? col) then Some (s, Some FParameter)
               else match list_values c, custom1 c, should_match_blanks c with
                    | [], None, false => Some (s, Some FParameter)
                    | _, _, _ => Some ({| f_ws := f_ws s; f_name := f_name s; f_area := f_area s; f_conds := ins col c (f_conds s); f_off := f_off s |}, None)
                    end
           end
  | FAutomaticOff => Some ({| f_ws := f_ws s; f_name := f_name s; f_area := f_area s; f_conds := f_conds s; f_off := true |}, None)
  | FSave => s' <- hide_autofilter_rows s ;; Some (s', None)
  end.
Fixpoint frun (s : fsheet) (ops : list fop) : option fsheet :=
  match ops with [] => Some s | o :: r => x <- fstep s o ;; frun (fst x) r end.

(** src/filter.rs [FilterCriteria::operator], [FilterData::value] *)
Definition operator (c : criteria) : str :=
  match c with
  | EqualTo => [] | LessThan => lit "lessThan" | NotEqualTo => lit "notEqual" | GreaterThan => lit "greaterThan"
  | LessThanOrEqualTo => lit "lessThanOrEqual" | GreaterThanOrEqualTo => lit "greaterThanOrEqual"
  | EndsWith => [] | Contains => [] | BeginsWith => []
  | DoesNotEndWith => lit "notEqual" | DoesNotContain => lit "notEqual" | DoesNotBeginWith => lit "notEqual"
  end.
Definition value (d : fdata) : str :=
  match d_criteria d with
  | EndsWith | DoesNotEndWith => 42 :: d_string d
  | Contains | DoesNotContain => 42 :: d_string d ++ [42]
  | BeginsWith | DoesNotBeginWith => d_string d ++ [42]
  | _ => d_string d
  end.

(** src/worksheet.rs 18333-18392: [<filters blank>] with its [<filter val>]s, and
    [<customFilters and>] with its [<customFilter operator val>]s. *)
Inductive filter_el := EFilters (blank : bool) (vals : list str)
                     | ECustom (conj : bool) (filters : list (option str * str)).
Definition custom_el (d : fdata) : option str * str :=
  (match operator (d_criteria d) with [] => None | o => Some o end, value d).
Definition opt_list {A} (o : option A) : list A := match o with Some a => [a] | None => [] end.
Definition write_filter_column (c : fcond) : filter_el :=
  if is_list_filter c then EFilters (should_match_blanks c) (map d_string (list_values c))
  else ECustom (negb (apply_logical_or c)) (map custom_el (opt_list (custom1 c) ++ opt_list (custom2 c))).
(** src/worksheet.rs 17393-17395, 18298-18315: [ref] and the [<filterColumn>]s;
    the outer [None] is a panic ([col - col_offset] in u16). *)
Fixpoint write_columns (m : ovf) (offset : N) (conds : list (N * fcond)) : option (list (N * filter_el)) :=
  match conds with
  | [] => Some []
  | (col, c) :: r => id <- sub16 m col offset ;; rest <- write_columns m offset r ;; Some ((id, write_filter_column c) :: rest)
  end.
Definition write_auto_filter (m : ovf) (s : fsheet) : option (option (range4 * list (N * filter_el))) :=
  match f_area s with
  | None => Some None
  | Some a => l <- write_columns m (match f_name s with Some (_, fc, _, _) => fc | None => 0 end) (f_conds s) ;; Some (Some (a, l))
  end.
End Oracles.
