(** What a history of accepted calls says about the settings of a row and of a column.
    Nothing here refers to the stored options of the worksheet. *)
From Verif Require Import Base F64 Fmt_Model Cells_Model Sheet_Model Note_Spec.

(** The calls of a history that returned no error. *)
Fixpoint ok_calls (lower : str -> str) (s : sheet) (ops : list sop) : list sop :=
  match ops with
  | [] => []
  | o :: rest => match sstep lower s o with
                 | Some (s', None) => o :: ok_calls lower s' rest
                 | Some (s', Some _) => ok_calls lower s' rest
                 | None => []
                 end
  end.
Definition within (a x b : N) : bool := (a <=? x) && (x <=? b).

(** ** Columns *)
(** The call configures the column in some way. *)
Definition about_col (c : N) (o : sop) : bool :=
  match o with
  | SCell (SetColumnWidth k _ _) | SCell (SetColumnFormat k _) | SCell (SetColumnHidden k) => k =? c
  | SGroupColumns fc lc collapsed => within fc c lc || (collapsed && (c =? lc + 1))
  | _ => false end.
(** Columns are hidden by set_column_hidden, by a width of 0 and by a collapsed group; no call shows them again. *)
Definition hides_col (c : N) (o : sop) : bool :=
  match o with
  | SCell (SetColumnHidden k) => k =? c
  | SCell (SetColumnWidth k u _) => (k =? c) && feq u fzero
  | SGroupColumns fc lc collapsed => collapsed && within fc c lc
  | _ => false end.
Definition told_col_hidden (c : N) (h : list sop) : bool := existsb (hides_col c) h.
(** The column after a collapsed group carries its mark. *)
Definition told_col_collapsed (c : N) (h : list sop) : bool :=
  existsb (fun o => match o with SGroupColumns _ lc collapsed => collapsed && (c =? lc + 1) | _ => false end) h.
Definition told_col_level (c : N) (h : list sop) : N :=
  fold_left (fun n o => match o with SGroupColumns fc lc _ => if within fc c lc then n + 1 else n | _ => n end) h 0.
Definition told_col_format (c : N) : list sop -> option Format :=
  last_of (fun o => match o with SCell (SetColumnFormat k f) => if k =? c then Some (Some f) else None | _ => None end) None.
(** The width (8.43 by default, at most 255) and whether it is an automatic one: the
    last width given, except that an automatic width does not narrow a column that
    was configured before without an automatic width. *)
Definition width_call (c : N) (o : sop) : option (f64 * bool) :=
  match o with
  | SCell (SetColumnWidth k u fit) => if (k =? c) && negb (feq u fzero) then Some (if fgt u (f_of_N 255) then f_of_N 255 else u, fit) else None
  | _ => None end.
Definition next_width (c : N) (s : bool * f64 * bool) (o : sop) : bool * f64 * bool :=
  let '(known, width, fit) := s in
  match width_call c o with
  | Some (u, automatic) => if automatic && known && negb fit && negb (fgt u width) then (true, width, false) else (true, u, automatic)
  | None => (known || about_col c o, width, fit)
  end.
Definition told_width (c : N) (h : list sop) : bool * f64 * bool := fold_left (next_width c) h (false, f_dec 843 2, false).

(** ** Rows *)
Definition about_row (r : N) (o : sop) : bool :=
  match o with
  | SCell (SetRowHeight k _) | SCell (SetRowFormat k _) | SCell (SetRowHidden k) => k =? r
  | SGroupRows fr lr collapsed => within fr r lr || (collapsed && (r =? lr + 1))
  | _ => false end.
(** Rows are hidden by set_row_hidden, by a height of 0 and by a collapsed group, and shown again by set_row_unhidden. *)
Definition told_row_hidden (r : N) : list sop -> bool :=
  last_of (fun o => match o with
    | SCell (SetRowHidden k) => if k =? r then Some true else None
    | SCell (SetRowHeight k u) => if (k =? r) && feq u fzero then Some true else None
    | SCell (SetRowUnhidden k) => if k =? r then Some false else None
    | SGroupRows fr lr collapsed => if collapsed && within fr r lr then Some true else None
    | _ => None end) false.
Definition told_row_collapsed (r : N) (h : list sop) : bool :=
  existsb (fun o => match o with SGroupRows _ lr collapsed => collapsed && (r =? lr + 1) | _ => false end) h.
Definition told_row_level (r : N) (h : list sop) : N :=
  fold_left (fun n o => match o with SGroupRows fr lr _ => if within fr r lr then n + 1 else n | _ => n end) h 0.
Definition told_row_format (r : N) : list sop -> option Format :=
  last_of (fun o => match o with SCell (SetRowFormat k f) => if k =? r then Some (Some f) else None | _ => None end) None.
(** The default height of the sheet (15 points at first). *)
Definition told_default : list sop -> f64 :=
  last_of (fun o => match o with SCell (SetDefaultRowHeight h) => if fle h fzero then None else Some h | _ => None end) (f_of_N 15).
(** The height: the one given, else the default height at the time the row was first configured. *)
Definition next_height (r : N) (s : option f64 * f64) (o : sop) : option f64 * f64 :=
  let '(own, default) := s in
  match o with
  | SCell (SetDefaultRowHeight h) => (own, if fle h fzero then default else h)
  | SCell (SetRowHeight k h) => (if (k =? r) && negb (feq h fzero) then Some h else match own with Some u => Some u | None => if about_row r o then Some default else None end, default)
  | _ => (match own with Some u => Some u | None => if about_row r o then Some default else None end, default)
  end.
(** The height of a configured row, [None] for a row no call configured. *)
Definition told_height (r : N) (h : list sop) : option f64 := fst (fold_left (next_height r) h (None, f_of_N 15)).
