(** Model of chart data caches: src/worksheet.rs [get_cache_data], src/workbook.rs
    [prepare_chart_cache_data] and the cache writers of src/chart.rs.  The decimal
    text of a number and [str::parse::<f64>] are parameters. *)
From Verif Require Import Base SMap F64 Fmt_Model Cells_Model.

(** src/chart.rs:8612-8617 *)
Inductive cache_type := TNone | TString | TNumber | TDate.
(** src/chart.rs:8593-8604 *)
Record cache := { c_type : cache_type; c_data : list str }.
Definition cache_new : cache := {| c_type := TNone; c_data := [] |}.

Section Text.
Variable num_text : f64 -> str.

(** The loop body, src/worksheet.rs:16915-16937: the new cache type and the
    pushed string. *)
Definition cache_cell (t : cache_type) (c : option (cell * N)) : cache_type * str :=
  match c with
  | Some (CString s _, _) => (TString, s)
  | Some (CNumber x, _) => (match t with TString => TString | _ => TNumber end, num_text x)
  | Some (CDateTime x, _) => (match t with TString => TString | _ => TDate end, num_text x)
  | Some _ => (t, [])
  | None => (t, [])
  end.
Fixpoint cache_cols (cs : smap (cell * N)) (cols : list N) (k : cache) : cache :=
  match cols with
  | [] => k
  | c :: r => let '(t, s) := cache_cell (c_type k) (get c cs) in
              cache_cols cs r {| c_type := t; c_data := c_data k ++ [s] |}
  end.
Fixpoint cache_rows (w : ws) (cols rows : list N) (k : cache) : cache :=
  match rows with
  | [] => k
  | r :: rs => cache_rows w cols rs
      match get r (data w) with
      | Some cs => cache_cols cs cols k
      | None => {| c_type := c_type k; c_data := c_data k ++ [[]] |}
      end
  end.
(** src/worksheet.rs:16901-16946 *)
Definition get_cache_data (w : ws) (fr fc lr lc : N) : cache :=
  cache_rows w (range_incl fc lc) (range_incl fr lr) cache_new.

(** src/chart.rs:8284-8292; [range_string] does not matter here. *)
Record chart_range := { cr_sheet : str; cr_fr : N; cr_fc : N; cr_lr : N; cr_lc : N; cr_cache : cache }.
Definition range_key (c : chart_range) : str * N * N * N * N := (cr_sheet c, cr_fr c, cr_fc c, cr_lr c, cr_lc c).
Definition has_data (c : chart_range) : bool := match cr_sheet c with [] => false | _ => true end.    (* 8483 *)
Definition key_eqb (a b : str * N * N * N * N) : bool :=
  let '(n, r1, c1, r2, c2) := a in let '(m, s1, d1, s2, d2) := b in
  str_eqb n m && (r1 =? s1) && (c1 =? d1) && (r2 =? s2) && (c2 =? d2).

(** The caches as an association list; [HashMap::insert] of an existing key
    replaces the value.  src/workbook.rs:2497-2504 *)
Definition caches := list ((str * N * N * N * N) * cache).
Definition insert_to_chart_cache (m : caches) (c : chart_range) : caches :=
  if has_data c then
    if existsb (fun p => key_eqb (fst p) (range_key c)) m
    then map (fun p => if key_eqb (fst p) (range_key c) then (fst p, cache_new) else p) m
    else m ++ [(range_key c, cache_new)]
  else m.
(** [worksheet_from_name]: the first sheet with that name, src/workbook.rs:1050-1061 *)
Fixpoint sheet_named (n : str) (sheets : list (str * ws)) : option ws :=
  match sheets with
  | [] => None
  | (m, w) :: r => if str_eqb n m then Some w else sheet_named n r
  end.
(** src/workbook.rs:2404-2415 *)
Fixpoint fill_caches (sheets : list (str * ws)) (m : caches) : option caches :=
  match m with
  | [] => Some []
  | ((n, fr, fc, lr, lc), _) :: r =>
      match sheet_named n sheets with
      | Some w => match fill_caches sheets r with
                  | Some r' => Some (((n, fr, fc, lr, lc), get_cache_data w fr fc lr lc) :: r')
                  | None => None end
      | None => None
      end
  end.
Fixpoint find_cache (m : caches) (k : str * N * N * N * N) : option cache :=
  match m with
  | [] => None
  | (q, c) :: r => if key_eqb q k then Some c else find_cache r k
  end.
(** src/workbook.rs:2507-2514, 2477-2481 *)
Definition update_range_cache (m : caches) (c : chart_range) : chart_range :=
  match find_cache m (range_key c) with
  | Some k => {| cr_sheet := cr_sheet c; cr_fr := cr_fr c; cr_fc := cr_fc c; cr_lr := cr_lr c; cr_lc := cr_lc c; cr_cache := k |}
  | None => c
  end.
(** src/workbook.rs:2381-2493 for the ranges of all charts, in the order in which
    they are visited (titles, series, data labels, error bars; a chart and its
    combined chart).  Which ranges a chart has is not modelled. *)
Definition prepare_chart_cache_data (sheets : list (str * ws)) (ranges : list chart_range) : option (list chart_range) :=
  match fill_caches sheets (fold_left insert_to_chart_cache ranges []) with
  | Some m => Some (map (update_range_cache m) ranges)
  | None => None
  end.

(** ** Writing: src/chart.rs:4069-4150 *)
Variable parses : str -> bool.     (* str.parse::<f64>().is_ok() *)
Inductive xcache := XNum (format_code : str) (count : N) (pts : list (N * str)) | XStr (count : N) (pts : list (N * str)).
Fixpoint num_pts (i : N) (l : list str) : list (N * str) :=
  match l with
  | [] => []
  | [] :: r => num_pts (N.succ i) r
  | v :: r => (i, if parses v then v else lit "0") :: num_pts (N.succ i) r
  end.
Fixpoint str_pts (i : N) (l : list str) : list (N * str) :=
  match l with [] => [] | v :: r => (i, v) :: str_pts (N.succ i) r end.
Definition write_cache_ref (k : cache) (is_num_only : bool) : option xcache :=
  match c_data k with
  | [] => None
  | _ => Some (match c_type k, is_num_only with
               | TString, false => XStr (N.of_nat (length (c_data k))) (str_pts 0 (c_data k))
               | TDate, _ => XNum (lit "dd/mm/yyyy") (N.of_nat (length (c_data k))) (num_pts 0 (c_data k))
               | _, _ => XNum (lit "General") (N.of_nat (length (c_data k))) (num_pts 0 (c_data k))
               end)
  end.
End Text.
