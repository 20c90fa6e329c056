(** Workbook level: the list of sheets, their names and view flags, defined names,
    and the part of [save] that checks and writes them. *)
From Verif Require Import Base Ref_Model.

(** src/worksheet.rs:20807-20813: kinds of defined name. *)
Inductive dtype := DGlobal | DLocal | DAutofilter | DPrintArea | DPrintTitles.

(** src/worksheet.rs:20577-20589 struct DefinedName. *)
Record dname := {
  d_in_use : bool; d_name : str; d_sort : str; d_range : str; d_sheet : str;
  d_index : N; d_type : dtype;
  d_fr : N; d_fc : N; d_lr : N; d_lc : N }.

(** src/worksheet.rs:20592-20606 DefinedName::new. *)
Definition dname_new : dname :=
  {| d_in_use := false; d_name := []; d_sort := []; d_range := []; d_sheet := [];
     d_index := 0; d_type := DGlobal; d_fr := ROW_MAX; d_fc := COL_MAX; d_lr := 0; d_lc := 0 |}.

(** src/worksheet.rs:20632-20639 DefinedName::name: the name written to the file. *)
Definition d_written_name (d : dname) : str :=
  match d_type d with
  | DPrintArea => lit "_xlnm.Print_Area"
  | DAutofilter => lit "_xlnm._FilterDatabase"
  | DPrintTitles => lit "_xlnm.Print_Titles"
  | _ => d_name d
  end.

(** src/worksheet.rs:20616-20630 DefinedName::app_name. *)
Definition d_app_name (d : dname) : str :=
  match d_type d with
  | DLocal => d_sheet d ++ 33 :: d_name d
  | DPrintArea => d_sheet d ++ lit "!Print_Area"
  | DAutofilter => []
  | DPrintTitles => d_sheet d ++ lit "!Print_Titles"
  | DGlobal => if has_char 33 (d_range d) then d_name d else []
  end.

(** [str::replace('\'', "")] *)
Definition drop_quotes (s : str) : str := filter (fun c => negb (c =? 39)) s.

(** Unicode functions used at workbook level, as parameters of the model:
    str::to_lowercase (a whole-string function: final sigma depends on context)
    and char::is_alphabetic. *)
Record bunicode := { bu : unicode; bu_lower : str -> str; bu_alpha : char -> bool }.

(** src/worksheet.rs:20643-20653 DefinedName::set_sort_name. *)
Definition sort_name_of (o : bunicode) (d : dname) : str :=
  let s := match d_type d with
           | DPrintArea => lit "Print_Area{}"
           | DAutofilter => lit "_FilterDatabase{}"
           | DPrintTitles => lit "Print_Titles"
           | _ => d_name d
           end in
  bu_lower o (drop_quotes s).

(** src/worksheet.rs:20655-20719 DefinedName::set_range; [None] is the panic of
    column_number_to_name.  (Row numbers are below ROW_MAX: [+ 1] cannot overflow
    in u32.) *)
Definition range_of (m : ovf) (d : dname) : option str :=
  match d_type d with
  | DAutofilter | DPrintArea =>
      range <- (if (d_fc d =? 0) && (d_lc d =? COL_MAX - 1)
                then Some (36 :: dec (d_fr d + 1) ++ 58 :: 36 :: dec (d_lr d + 1))
                else if (d_fr d =? 0) && (d_lr d =? ROW_MAX - 1)
                then c1 <- column_number_to_name m (d_fc d) ;;
                     c2 <- column_number_to_name m (d_lc d) ;;
                     Some (36 :: c1 ++ 58 :: 36 :: c2)
                else cell_range_absolute m (d_fr d) (d_fc d) (d_lr d) (d_lc d)) ;;
      Some (d_sheet d ++ 33 :: range)
  | DPrintTitles =>
      range <- (if negb (d_fc d =? COL_MAX) || negb (d_lc d =? 0)
                then c1 <- column_number_to_name m (d_fc d) ;;
                     c2 <- column_number_to_name m (d_lc d) ;;
                     Some (d_sheet d ++ 33 :: 36 :: c1 ++ 58 :: 36 :: c2)
                else Some []) ;;
      Some (if negb (d_fr d =? ROW_MAX) || negb (d_lr d =? 0)
            then let row_range := d_sheet d ++ 33 :: 36 :: dec (d_fr d + 1) ++ 58 :: 36 :: dec (d_lr d + 1) in
                 match range with [] => row_range | _ => range ++ 44 :: row_range end
            else range)
  | _ => Some (d_range d)
  end.

Definition with_sheet (d : dname) (s : str) : dname :=
  {| d_in_use := d_in_use d; d_name := d_name d; d_sort := d_sort d; d_range := d_range d; d_sheet := s;
     d_index := d_index d; d_type := d_type d; d_fr := d_fr d; d_fc := d_fc d; d_lr := d_lr d; d_lc := d_lc d |}.
Definition with_text (d : dname) (range sort : str) : dname :=
  {| d_in_use := d_in_use d; d_name := d_name d; d_sort := sort; d_range := range; d_sheet := d_sheet d;
     d_index := d_index d; d_type := d_type d; d_fr := d_fr d; d_fc := d_fc d; d_lr := d_lr d; d_lc := d_lc d |}.
Definition with_index (d : dname) (i : N) : dname :=
  {| d_in_use := d_in_use d; d_name := d_name d; d_sort := d_sort d; d_range := d_range d; d_sheet := d_sheet d;
     d_index := i; d_type := d_type d; d_fr := d_fr d; d_fc := d_fc d; d_lr := d_lr d; d_lc := d_lc d |}.
Definition with_area (d : dname) (t : dtype) (fr fc lr lc : N) : dname :=
  {| d_in_use := true; d_name := d_name d; d_sort := d_sort d; d_range := d_range d; d_sheet := d_sheet d;
     d_index := d_index d; d_type := t; d_fr := fr; d_fc := fc; d_lr := lr; d_lc := lc |}.

(** src/worksheet.rs:20608-20612 DefinedName::initialize. *)
Definition d_initialize (m : ovf) (o : bunicode) (d : dname) (quoted : str) : option dname :=
  let d := with_sheet d quoted in
  r <- range_of m d ;;
  Some (with_text d r (sort_name_of o d)).

(** src/worksheet.rs:20816-20820 enum Visible. *)
Inductive visible := VDefault | VHidden | VVeryHidden.

(** The workbook-level view of a Worksheet (src/worksheet.rs:1440-1650, fields
    name, is_chartsheet, charts (only whether it is empty), active, selected,
    visible, first_sheet and the three defined names). *)
Record bsheet := {
  b_name : str; b_chartsheet : bool; b_has_chart : bool;
  b_active : bool; b_selected : bool; b_visible : visible; b_first : bool;
  b_autofilter : dname; b_print : dname; b_titles : dname }.

(** src/worksheet.rs:1721 Worksheet::new and 1941 new_chartsheet. *)
Definition bsheet_new (chartsheet : bool) : bsheet :=
  {| b_name := []; b_chartsheet := chartsheet; b_has_chart := false;
     b_active := false; b_selected := false; b_visible := VDefault; b_first := false;
     b_autofilter := dname_new; b_print := dname_new; b_titles := dname_new |}.

Definition b_set_name (s : bsheet) n := {| b_name := n; b_chartsheet := b_chartsheet s; b_has_chart := b_has_chart s;
  b_active := b_active s; b_selected := b_selected s; b_visible := b_visible s; b_first := b_first s;
  b_autofilter := b_autofilter s; b_print := b_print s; b_titles := b_titles s |}.
Definition b_set_flags (s : bsheet) ac se vi fi := {| b_name := b_name s; b_chartsheet := b_chartsheet s;
  b_has_chart := b_has_chart s; b_active := ac; b_selected := se; b_visible := vi; b_first := fi;
  b_autofilter := b_autofilter s; b_print := b_print s; b_titles := b_titles s |}.
Definition b_set_chart (s : bsheet) := {| b_name := b_name s; b_chartsheet := b_chartsheet s; b_has_chart := true;
  b_active := b_active s; b_selected := b_selected s; b_visible := b_visible s; b_first := b_first s;
  b_autofilter := b_autofilter s; b_print := b_print s; b_titles := b_titles s |}.
Definition b_set_dnames (s : bsheet) a p t := {| b_name := b_name s; b_chartsheet := b_chartsheet s;
  b_has_chart := b_has_chart s; b_active := b_active s; b_selected := b_selected s; b_visible := b_visible s;
  b_first := b_first s; b_autofilter := a; b_print := p; b_titles := t |}.

(** src/worksheet.rs:12299-12309 set_active. *)
Definition set_active (s : bsheet) (e : bool) : bsheet :=
  if e then b_set_flags s true true VDefault (b_first s)
  else b_set_flags s false (b_selected s) (b_visible s) (b_first s).
(** src/worksheet.rs:12360-12369 set_selected. *)
Definition set_selected (s : bsheet) (e : bool) : bsheet :=
  b_set_flags s (b_active s) e (if e then VDefault else b_visible s) (b_first s).
(** src/worksheet.rs:12420-12434 set_hidden. *)
Definition set_hidden (s : bsheet) (e : bool) : bsheet :=
  if e then b_set_flags s false false VHidden (b_first s)
  else b_set_flags s (b_active s) (b_selected s) VDefault (b_first s).
(** src/worksheet.rs:12448-12462 set_very_hidden. *)
Definition set_very_hidden (s : bsheet) (e : bool) : bsheet :=
  if e then b_set_flags s false false VVeryHidden (b_first s)
  else b_set_flags s (b_active s) (b_selected s) VDefault (b_first s).
(** src/worksheet.rs:12479-12487 set_first_tab (it tests [selected]). *)
Definition set_first_tab (s : bsheet) (e : bool) : bsheet :=
  b_set_flags s (b_active s) (b_selected s) (if b_selected s then VDefault else b_visible s) e.

(** check_dimensions_only (src/worksheet.rs:15970-15982). *)
Definition in_limits (r c : N) : bool := (r <? ROW_MAX) && (c <? COL_MAX).

(** Sheet operations that matter at workbook level. [SAutofilter]'s last
    argument says whether the range overlaps a table autofilter (the claims on
    cells are modelled in Sheet_Model.v): the error is returned after the defined
    name was stored, src/worksheet.rs:8434-8464. *)
Inductive sop :=
| SName (n : str) | SActive (e : bool) | SSelected (e : bool) | SHidden (e : bool)
| SVeryHidden (e : bool) | SFirstTab (e : bool) | SInsertChart
| SAutofilter (fr fc lr lc : N) (overlaps_table : bool)
| SPrintArea (fr fc lr lc : N) | SRepeatRows (fr lr : N) | SRepeatCols (fc lc : N).

(** One sheet operation: new state, and whether it returned Ok.
    set_name 2022-2031, autofilter 8414-8469, set_print_area 14041-14077,
    set_repeat_rows 14130-14153, set_repeat_columns 14208-14231. *)
Definition sheet_op (s : bsheet) (o : sop) : bsheet * bool :=
  match o with
  | SName n => match validate_sheetname n with Some _ => (s, false) | None => (b_set_name s n, true) end
  | SActive e => (set_active s e, true)
  | SSelected e => (set_selected s e, true)
  | SHidden e => (set_hidden s e, true)
  | SVeryHidden e => (set_very_hidden s e, true)
  | SFirstTab e => (set_first_tab s e, true)
  | SInsertChart => (b_set_chart s, true)
  | SAutofilter fr fc lr lc ov =>
      if negb (in_limits fr fc) || negb (in_limits lr lc) then (s, false)
      else if (lr <? fr) || (lc <? fc) then (s, false)
      else (b_set_dnames s (with_area (b_autofilter s) DAutofilter fr fc lr lc) (b_print s) (b_titles s), negb ov)
  | SPrintArea fr fc lr lc =>
      if negb (in_limits fr fc) || negb (in_limits lr lc) then (s, false)
      else if (lr <? fr) || (lc <? fc) then (s, false)
      else if (fr =? 0) && (fc =? 0) && (lr =? ROW_MAX - 1) && (lc =? COL_MAX - 1) then (s, true)
      else (b_set_dnames s (b_autofilter s) (with_area (b_print s) DPrintArea fr fc lr lc) (b_titles s), true)
  | SRepeatRows fr lr =>
      if negb (in_limits fr 0) || negb (in_limits lr 0) then (s, false)
      else if lr <? fr then (s, false)
      else (b_set_dnames s (b_autofilter s) (b_print s)
              (with_area (b_titles s) DPrintTitles fr (d_fc (b_titles s)) lr (d_lc (b_titles s))), true)
  | SRepeatCols fc lc =>
      if negb (in_limits 0 fc) || negb (in_limits 0 lc) then (s, false)
      else if lc <? fc then (s, false)
      else (b_set_dnames s (b_autofilter s) (b_print s)
              (with_area (b_titles s) DPrintTitles (d_fr (b_titles s)) fc (d_lr (b_titles s)) lc), true)
  end.
Definition sheet_ops (s : bsheet) (l : list sop) : bsheet := fold_left (fun s o => fst (sheet_op s o)) l s.

(** src/workbook.rs:323-: the fields of Workbook used here. *)
Record book := {
  k_sheets : list bsheet; k_nws : N; k_ncs : N; k_user : list dname;
  k_first : N; k_active : N; k_names : list dname }.
Definition book_new : book :=
  {| k_sheets := []; k_nws := 0; k_ncs := 0; k_user := []; k_first := 0; k_active := 0; k_names := [] |}.

Definition k_with_sheets (b : book) l := {| k_sheets := l; k_nws := k_nws b; k_ncs := k_ncs b;
  k_user := k_user b; k_first := k_first b; k_active := k_active b; k_names := k_names b |}.

(** src/workbook.rs:496-507 add_worksheet (the constant-memory and low-memory
    variants 559-656 name and count identically); [set_name(..).unwrap()] panics
    if the generated name is invalid. *)
Definition add_worksheet (m : ovf) (b : book) : option book :=
  n <- add16 m (k_nws b) 1 ;;
  let name := lit "Sheet" ++ dec n in
  match validate_sheetname name with
  | Some _ => None
  | None => Some {| k_sheets := k_sheets b ++ [b_set_name (bsheet_new false) name]; k_nws := n; k_ncs := k_ncs b;
                    k_user := k_user b; k_first := k_first b; k_active := k_active b; k_names := k_names b |}
  end.

(** src/workbook.rs:882-893 add_chartsheet. *)
Definition add_chartsheet (m : ovf) (b : book) : option book :=
  n <- add16 m (k_ncs b) 1 ;;
  let name := lit "Chart" ++ dec n in
  match validate_sheetname name with
  | Some _ => None
  | None => Some {| k_sheets := k_sheets b ++ [b_set_name (bsheet_new true) name]; k_nws := k_nws b; k_ncs := n;
                    k_user := k_user b; k_first := k_first b; k_active := k_active b; k_names := k_names b |}
  end.

(** src/workbook.rs:1216-1223 push_worksheet. *)
Definition push_worksheet (b : book) (s : bsheet) : option book :=
  match b_name s with
  | [] => let name := lit "Sheet" ++ dec (N.of_nat (length (k_sheets b)) + 1) in
          match validate_sheetname name with
          | Some _ => None
          | None => Some (k_with_sheets b (k_sheets b ++ [b_set_name s name]))
          end
  | _ => Some (k_with_sheets b (k_sheets b ++ [s]))
  end.

(** [name.find('!')] and the two slices. *)
Fixpoint split_bang (s : str) : option (str * str) :=
  match s with
  | [] => None
  | c :: r => if c =? 33 then Some ([], r)
              else match split_bang r with Some (a, b) => Some (c :: a, b) | None => None end
  end.

(** src/utility.rs:1115-1123 formula_to_string. *)
Definition formula_to_string (f : str) : str :=
  match f with c :: r => if c =? 61 then r else f | [] => [] end.

(** src/workbook.rs:1532-1584 define_name: [None] = panic (empty name),
    [Some (b, false)] = Err. *)
Definition define_name (o : bunicode) (b : book) (name formula : str) : option (book * bool) :=
  let '(sheet, nm, ty) := match split_bang name with
                          | Some (sh, n) => (sh, n, DLocal) | None => ([], name, DGlobal) end in
  match nm with
  | [] => None
  | c :: _ =>
      if negb (bu_alpha o c) && negb (c =? 95) && negb (c =? 92) then Some (b, false)
      else if existsb (fun c => existsb (N.eqb c) [32; 44; 47; 42; 91; 93; 58; 34; 39]) nm then Some (b, false)
      else
        let d := {| d_in_use := false; d_name := nm; d_sort := []; d_range := formula_to_string formula;
                    d_sheet := sheet; d_index := 0; d_type := ty;
                    d_fr := ROW_MAX; d_fc := COL_MAX; d_lr := 0; d_lc := 0 |} in
        let d := with_text d (d_range d) (sort_name_of o d) in
        Some ({| k_sheets := k_sheets b; k_nws := k_nws b; k_ncs := k_ncs b; k_user := k_user b ++ [d];
                 k_first := k_first b; k_active := k_active b; k_names := k_names b |}, true)
  end.

(** src/workbook.rs:2206-2219 set_active_worksheets.  The indices are cast to
    u16.  [active_index]/[first] of the loop: the last flagged sheet wins. *)
Fixpoint last_flagged (f : bsheet -> bool) (l : list bsheet) (i : N) (acc : N) : N :=
  match l with [] => acc | s :: r => last_flagged f r (i + 1) (if f s then i else acc) end.
Fixpoint update_nth {A} (l : list A) (i : nat) (f : A -> A) : list A :=
  match l, i with
  | [], _ => []
  | x :: r, O => f x :: r
  | x :: r, S i => x :: update_nth r i f
  end.
Definition as_u16 (n : N) : N := n mod 65536.
Definition set_active_worksheets (b : book) : book :=
  let active := last_flagged b_active (k_sheets b) 0 0 in
  let first := if existsb b_first (k_sheets b) then as_u16 (last_flagged b_first (k_sheets b) 0 0) else k_first b in
  {| k_sheets := update_nth (k_sheets b) (N.to_nat active) (fun s => set_active s true);
     k_nws := k_nws b; k_ncs := k_ncs b; k_user := k_user b;
     k_first := first; k_active := as_u16 active; k_names := k_names b |}.

(** src/workbook.rs:2069-2077: case-insensitive duplicate check; [Some] is the
    first duplicated (lower-cased) name. *)
Fixpoint dup_name (lower : str -> str) (seen : list str) (l : list bsheet) : option str :=
  match l with
  | [] => None
  | s :: r => let n := lower (b_name s) in
              if existsb (str_eqb n) seen then Some n else dup_name lower (n :: seen) r
  end.

(** src/workbook.rs:2080-2087. *)
Definition chartless (l : list bsheet) : bool :=
  existsb (fun s => b_chartsheet s && negb (b_has_chart s)) l.

(** [sheet_names.insert(name, index as u16)] then [get]: the last insertion for
    a key is the one found. *)
Fixpoint find_sheet (l : list bsheet) (i : N) (n : str) (acc : option N) : option N :=
  match l with
  | [] => acc
  | s :: r => find_sheet r (i + 1) n (if str_eqb (b_name s) n then Some (as_u16 i) else acc)
  end.

(** src/workbook.rs:2801-2821: the defined names one worksheet contributes. *)
Definition sheet_dnames (m : ovf) (o : bunicode) (s : bsheet) : option (list dname) :=
  q <- quote_sheet_name m (bu o) (b_name s) ;;
  a <- (if d_in_use (b_autofilter s) then d <- d_initialize m o (b_autofilter s) q ;; Some [d] else Some []) ;;
  p <- (if d_in_use (b_print s) then d <- d_initialize m o (b_print s) q ;; Some [d] else Some []) ;;
  t <- (if d_in_use (b_titles s) then d <- d_initialize m o (b_titles s) q ;; Some [d] else Some []) ;;
  Some (a ++ p ++ t).
Fixpoint all_sheet_dnames (m : ovf) (o : bunicode) (l : list bsheet) : option (list dname) :=
  match l with
  | [] => Some []
  | s :: r => a <- sheet_dnames m o s ;; b <- all_sheet_dnames m o r ;; Some (a ++ b)
  end.

(** src/workbook.rs:2833-2848: resolve the sheet index of every name.
    [None] = panic, [Some None] = "Unknown worksheet name" error. *)
Definition resolve_one (sheets : list bsheet) (d : dname) : option (option dname) :=
  n <- unquote_sheetname (d_sheet d) ;;
  match n with
  | [] => Some (Some d)
  | _ => match find_sheet sheets 0 n None with
         | Some i => Some (Some (with_index d i))
         | None => Some None
         end
  end.
Fixpoint resolve (sheets : list bsheet) (l : list dname) : option (option (list dname)) :=
  match l with
  | [] => Some (Some [])
  | d :: r => x <- resolve_one sheets d ;;
              match x with
              | None => Some None
              | Some d' => y <- resolve sheets r ;;
                           match y with None => Some None | Some r' => Some (Some (d' :: r')) end
              end
  end.

(** [Ord] for String: byte-wise order of UTF-8, i.e. code point order. *)
Fixpoint str_leb (a b : str) : bool :=
  match a, b with
  | [], _ => true
  | _ :: _, [] => false
  | x :: a', y :: b' => if x =? y then str_leb a' b' else x <? y
  end.
(** src/workbook.rs:2851: sort_by_key (stable) on the pair (sort_name, range). *)
Definition dname_leb (a b : dname) : bool :=
  if str_eqb (d_sort a) (d_sort b) then str_leb (d_range a) (d_range b) else str_leb (d_sort a) (d_sort b).
Fixpoint insert_dname (x : dname) (l : list dname) : list dname :=
  match l with [] => [x] | y :: r => if dname_leb x y then x :: l else y :: insert_dname x r end.
Fixpoint sort_dnames (l : list dname) : list dname :=
  match l with [] => [] | x :: r => insert_dname x (sort_dnames r) end.

(** What workbook.xml and app.xml record: src/workbook.rs:2963-2983
    (workbookView), 2986-3018 (sheets), 3021-3047 (definedNames), 2853-2859 and
    src/packager.rs:745-777 (app.xml titles: worksheets, then chartsheets, very
    hidden ones left out, then defined names). *)
Record sheet_entry := { se_name : str; se_id : N; se_state : visible; se_rid : N }.
Record name_entry := { ne_name : str; ne_local : option N; ne_hidden : bool; ne_range : str }.
Record book_file := {
  bf_first : option N; bf_active : option N;
  bf_sheets : list sheet_entry; bf_names : list name_entry;
  bf_app_sheets : list str; bf_app_charts : list str; bf_app_names : list str;
  bf_tabs : list bool      (* sheetView tabSelected="1" per sheet, worksheet.rs:17721-17723 *)
}.
Fixpoint entries (l : list bsheet) (i : N) : list sheet_entry :=
  match l with
  | [] => []
  | s :: r => {| se_name := b_name s; se_id := as_u16 (i + 1); se_state := b_visible s; se_rid := as_u16 (i + 1) |}
              :: entries r (i + 1)
  end.
Definition name_entry_of (d : dname) : name_entry :=
  {| ne_name := d_written_name d;
     ne_local := match d_type d with DGlobal => None | _ => Some (d_index d) end;
     ne_hidden := match d_type d with DAutofilter => true | _ => false end;
     ne_range := d_range d |}.
Definition nonempty (s : str) : bool := match s with [] => false | _ => true end.

(** [worksheet.visible != Visible::VeryHidden] *)
Definition listed (s : bsheet) : bool := match b_visible s with VVeryHidden => false | _ => true end.

Definition write_book (m : ovf) (b : book) : option book_file :=
  first <- (if 0 <? k_first b then f <- add16 m (k_first b) 1 ;; Some (Some f) else Some None) ;;
  Some {| bf_first := first;
          bf_active := if 0 <? k_active b then Some (k_active b) else None;
          bf_sheets := entries (k_sheets b) 0;
          bf_names := map name_entry_of (k_names b);
          bf_app_sheets := map b_name (filter (fun s => negb (b_chartsheet s) && listed s) (k_sheets b));
          bf_app_charts := map b_name (filter (fun s => b_chartsheet s && listed s) (k_sheets b));
          bf_app_names := filter nonempty (map d_app_name (k_names b));
          bf_tabs := map b_selected (k_sheets b) |}.

Inductive save_error := ESheetnameReused (n : str) | EChartless | EUnknownSheet.
Inductive save_result := SaveOk (f : book_file) | SaveErr (e : save_error).

(** src/workbook.rs:2036-2202 save_internal, restricted to the steps above (the
    steps in between concern formats, drawings, tables, strings and zip output
    and are modelled elsewhere or not at all; their errors are not represented). *)
Definition save_book (m : ovf) (o : bunicode) (b : book) : option (book * save_result) :=
  b <- (match k_sheets b with [] => add_worksheet m b | _ => Some b end) ;;
  let b := set_active_worksheets b in
  match dup_name (bu_lower o) [] (k_sheets b) with
  | Some n => Some (b, SaveErr (ESheetnameReused n))
  | None =>
      if chartless (k_sheets b) then Some (b, SaveErr EChartless)
      else
        own <- all_sheet_dnames m o (k_sheets b) ;;
        r <- resolve (k_sheets b) (k_user b ++ own) ;;
        match r with
        | None => Some (b, SaveErr EUnknownSheet)
        | Some l =>
            let b := {| k_sheets := k_sheets b; k_nws := k_nws b; k_ncs := k_ncs b; k_user := k_user b;
                        k_first := k_first b; k_active := k_active b; k_names := sort_dnames l |} in
            f <- write_book m b ;; Some (b, SaveOk f)
        end
  end.

(** User histories.  [OVec]: through worksheets_mut (1116) the user can reorder,
    remove and add sheets freely; worksheet_from_index/name (966, 1050) and the
    references returned by add_* give [OSheet]. *)
Inductive vitem := VKeep (i : nat) | VNew (chartsheet : bool) (ops : list sop).
Inductive bop :=
| OAdd | OAddChart | OPush (chartsheet : bool) (ops : list sop) | OSheet (i : nat) (o : sop)
| OVec (l : list vitem) | ODefine (name formula : str) | OSave.
Definition vec_item (sheets : list bsheet) (v : vitem) : list bsheet :=
  match v with
  | VKeep i => match nth_error sheets i with Some s => [s] | None => [] end
  | VNew c ops => [sheet_ops (bsheet_new c) ops]
  end.
Definition book_op (m : ovf) (o : bunicode) (b : book) (op : bop) : option book :=
  match op with
  | OAdd => add_worksheet m b
  | OAddChart => add_chartsheet m b
  | OPush c ops => push_worksheet b (sheet_ops (bsheet_new c) ops)
  | OSheet i so => Some (k_with_sheets b (update_nth (k_sheets b) i (fun s => fst (sheet_op s so))))
  | OVec l => Some (k_with_sheets b (flat_map (vec_item (k_sheets b)) l))
  | ODefine n f => r <- define_name o b n f ;; Some (fst r)
  | OSave => r <- save_book m o b ;; Some (fst r)
  end.
Fixpoint book_run (m : ovf) (o : bunicode) (b : book) (l : list bop) : option book :=
  match l with [] => Some b | op :: r => b' <- book_op m o b op ;; book_run m o b' r end.
