(** The numbering of the differential formats (dxf) that conditional formats and
    table columns refer to. *)
From Verif Require Import Base Fmt_Model.

(** The registry of a worksheet (src/worksheet.rs:16091-16106) and that of the
    workbook (src/workbook.rs:2538-2548) are the same: a vector of formats and a
    HashMap from formats to their place in it.  The place is searched for in
    the vector here, since the map holds exactly that. *)
Fixpoint place (l : list Format) (f : Format) : option N :=
  match l with
  | [] => None
  | g :: r => if format_eqb g f then Some 0 else match place r f with Some i => Some (i + 1) | None => None end
  end.
Definition dxf_register (l : list Format) (f : Format) : list Format * N :=
  match place l f with Some i => (l, i) | None => (l ++ [f], N.of_nat (length l)) end.

(** A worksheet: the formats it registered, the index kept in each conditional
    format ([format.dxf_index], 9055-9057) and in each table column that has a
    format (8835-8836), in the order they were added. *)
Record dsheet := { d_formats : list Format; d_rules : list N; d_columns : list N }.
Definition dsheet_new : dsheet := {| d_formats := []; d_rules := []; d_columns := [] |}.
Record dbook := { d_sheets : list dsheet; d_global : list Format }.
Definition dbook_new : dbook := {| d_sheets := []; d_global := [] |}.

Definition use_rule (s : dsheet) (f : Format) : dsheet :=
  let '(l, i) := dxf_register (d_formats s) f in {| d_formats := l; d_rules := d_rules s ++ [i]; d_columns := d_columns s |}.
Definition use_column (s : dsheet) (f : Format) : dsheet :=
  let '(l, i) := dxf_register (d_formats s) f in {| d_formats := l; d_rules := d_rules s; d_columns := d_columns s ++ [i] |}.

(** src/workbook.rs:2118-2126: the formats of one sheet in the workbook registry. *)
Fixpoint globalise (g : list Format) (l : list Format) : list Format * list N :=
  match l with
  | [] => (g, [])
  | f :: r => let '(g, i) := dxf_register g f in let '(g, is) := globalise g r in (g, i :: is)
  end.
Fixpoint globalise_all (g : list Format) (l : list dsheet) : list Format * list (list N) :=
  match l with
  | [] => (g, [])
  | s :: r => let '(g, is) := globalise g (d_formats s) in let '(g, rest) := globalise_all g r in (g, is :: rest)
  end.
(** [global_dxf_indices[i as usize]]; [None]: the panic of an index out of range. *)
Fixpoint look_all (is : list N) (l : list N) : option (list N) :=
  match l with
  | [] => Some []
  | i :: r => match nth_error is (N.to_nat i), look_all is r with Some j, Some r => Some (j :: r) | _, _ => None end
  end.
(** src/worksheet.rs:16543-16548: the columns keep the index they are given. *)
Fixpoint remap_all (maps : list (list N)) (l : list dsheet) : option (list dsheet) :=
  match maps, l with
  | is :: maps, s :: r =>
    match look_all is (d_columns s), remap_all maps r with
    | Some cs, Some r => Some ({| d_formats := d_formats s; d_rules := d_rules s; d_columns := cs |} :: r)
    | _, _ => None
    end
  | _, _ => Some []
  end.
(** The numbers that the sheet parts (17947-17953) and the table parts
    (src/table.rs:1280-1282) carry. *)
Fixpoint rule_ids (maps : list (list N)) (l : list dsheet) : option (list (list N)) :=
  match maps, l with
  | is :: maps, s :: r => match look_all is (d_rules s), rule_ids maps r with Some x, Some r => Some (x :: r) | _, _ => None end
  | _, _ => Some []
  end.
(** A file: the list of formats in the styles part, and the numbers referring to it. *)
Record dfile := { f_dxfs : list Format; f_rules : list (list N); f_columns : list (list N) }.
(** src/workbook.rs:2101-2143, 2183 *)
Definition dsave (b : dbook) : option (dbook * dfile) :=
  let '(g, maps) := globalise_all (d_global b) (d_sheets b) in
  match remap_all maps (d_sheets b), rule_ids maps (d_sheets b) with
  | Some sheets, Some ids =>
    Some ({| d_sheets := sheets; d_global := g |}, {| f_dxfs := g; f_rules := ids; f_columns := map d_columns sheets |})
  | _, _ => None
  end.

(** The calls of a program; sheets are named by their place. *)
Inductive dop := DSheet | DRule (k : nat) (f : Format) | DColumn (k : nat) (f : Format) | DSave.
Definition on_sheet (k : nat) (g : dsheet -> dsheet) (l : list dsheet) : list dsheet :=
  match nth_error l k with Some s => firstn k l ++ g s :: skipn (S k) l | None => l end.
Definition dstep (b : dbook) (o : dop) : option dbook :=
  match o with
  | DSheet => Some {| d_sheets := d_sheets b ++ [dsheet_new]; d_global := d_global b |}
  | DRule k f => Some {| d_sheets := on_sheet k (fun s => use_rule s f) (d_sheets b); d_global := d_global b |}
  | DColumn k f => Some {| d_sheets := on_sheet k (fun s => use_column s f) (d_sheets b); d_global := d_global b |}
  | DSave => match dsave b with Some (b, _) => Some b | None => None end
  end.
Fixpoint drun (b : dbook) (ops : list dop) : option dbook :=
  match ops with [] => Some b | o :: r => match dstep b o with Some b => drun b r | None => None end end.
