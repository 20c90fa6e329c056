(** Specification side of the cell-store properties: what an API call promises
    about the contents of a cell, independently of how cells are stored. *)
From Verif Require Import Base F64 Fmt_Model Cells_Model.

(** What a user sees in a cell. *)
Inductive value :=
| VBlank
| VNumber (x : f64)
| VDateTime (x : f64)
| VText (s : str)
| VRich (markup : str)
| VBool (b : bool)
| VFormula (text result : str)
| VArray (text result : str) (range : str)
| VImage (n : N).

(** The contents of a stored or emitted cell, forgetting how strings are stored
    (shared or inline). *)
Definition contents (c : cell) : value :=
  match c with
  | CBlank => VBlank | CError n => VImage n | CString s _ => VText s | CNumber x => VNumber x
  | CBool b => VBool b | CFormula t r => VFormula t r | CDateTime x => VDateTime x
  | CRich s _ _ => VRich s | CInline s => VText s | CArray t r _ g => VArray t r g
  end.

Definition in_rect (fr fc lr lc r c : N) : bool := (fr <=? r) && (r <=? lr) && (fc <=? c) && (c <=? lc).
Definition here (row col r c : N) : bool := (row =? r) && (col =? c).

(** The text promised for a non-finite number: [None] if it is finite. *)
Definition special_text (w : ws) (x : f64) : option str :=
  match x with
  | S754_nan => Some (nan_text w)
  | S754_infinity false => Some (inf_text w)
  | S754_infinity true => Some (neg_inf_text w)
  | _ => None
  end.

(** Writing text: the empty string is a blank cell when formatted, and no
    write at all when not. *)
Definition text_value (s : str) (f : option Format) : option value :=
  match s, f with [], None => None | [], Some _ => Some VBlank | _, _ => Some (VText s) end.

Definition number_value (w : ws) (mk : f64 -> value) (x : f64) (f : option Format) : option value :=
  match special_text w x with Some s => text_value s f | None => Some (mk x) end.

Definition result_text (w : ws) (fm : formula) : str :=
  match f_result fm with [] => default_result w | r => r end.

(** [writes w o r c]: the value the call [o], if it succeeds, puts into cell
    (r, c); [None] if it puts nothing there. *)
Definition writes (w : ws) (o : op) (r c : N) : option value :=
  match o with
  | WriteNumber row col x f => if here row col r c then number_value w VNumber x f else None
  | WriteDateTime row col x f => if here row col r c then number_value w VDateTime x f else None
  | WriteString row col s f => if here row col r c then text_value s f else None
  | WriteRich row col s _ f =>
    if here row col r c then match s, f with [], None => None | [], _ => Some VBlank | _, _ => Some (VRich s) end else None
  | WriteBool row col b _ => if here row col r c then Some (VBool b) else None
  | WriteBlank row col _ => if here row col r c then Some VBlank else None
  | WriteFormula row col fm _ g =>
    if here row col r c then
      Some (if f_dynamic fm then VArray (f_text fm) (result_text w fm) g else VFormula (f_text fm) (result_text w fm))
    else None
  | WriteArray fr fc lr lc fm _ _ g =>
    if in_rect fr fc lr lc r c then
      Some (if here fr fc r c then VArray (f_text fm) (result_text w fm) g else VNumber fzero)
    else None
  | _ => None
  end.

(** Calls that may change the contents of (r, c). *)
Definition alters (o : op) (r c : N) : bool :=
  match o with
  | WriteNumber row col _ _ | WriteDateTime row col _ _ | WriteString row col _ _
  | WriteRich row col _ _ _ | WriteBool row col _ _ | WriteBlank row col _
  | WriteFormula row col _ _ _ | ClearCell row col | SetFormulaResult row col _ => here row col r c
  | WriteArray fr fc lr lc _ _ _ _ => in_rect fr fc lr lc r c
  | _ => false
  end.

(** Calls that mention (r, c) at all: contents or cell format. *)
Definition touches (o : op) (r c : N) : bool :=
  match o with
  | SetCellFormat row col _ | ClearCellFormat row col => here row col r c
  | SetRangeFormat fr fc lr lc _ => in_rect fr fc lr lc r c
  | _ => alters o r c
  end.

(** The format explicitly given for cell (r, c) by the call [o]. A dynamic
    array formula written with write_formula_with_format is excluded. *)
Definition gives_format (o : op) (r c : N) : option Format :=
  match o with
  | WriteNumber row col _ f | WriteDateTime row col _ f | WriteString row col _ f
  | WriteRich row col _ _ f | WriteBool row col _ f => if here row col r c then f else None
  | WriteFormula row col fm f _ => if here row col r c && negb (f_dynamic fm) then f else None
  | WriteBlank row col f | SetCellFormat row col f => if here row col r c then Some f else None
  | WriteArray fr fc lr lc _ f _ _ => if in_rect fr fc lr lc r c then f else None
  | SetRangeFormat fr fc lr lc f => if in_rect fr fc lr lc r c then Some f else None
  | _ => None
  end.

(** ** What the file shows *)

(** All the contents and style indices found for (r, c) in a list of rows. *)
Definition cell_at (c : N) (x : N * cell * N) : list (value * N) :=
  let '(col, k, xf) := x in if col =? c then [(contents k, xf)] else [].
Definition row_at (r c : N) (o : orow) : list (value * N) :=
  if o_row o =? r then match o_cells o with Some cs => flat_map (cell_at c) cs | None => [] end else [].
Definition shown (rows : list orow) (r c : N) : list (value * N) := flat_map (row_at r c) rows.

(** ** Histories *)

(** No later successful call changes the contents of (r, c). *)
Fixpoint undisturbed (w : ws) (ops : list op) (r c : N) : Prop :=
  match ops with
  | [] => True
  | o :: rest => (alters o r c = false \/ snd (step w o) <> None) /\ undisturbed (fst (step w o)) rest r c
  end.
(** No later successful call mentions (r, c). *)
Fixpoint untouched (w : ws) (ops : list op) (r c : N) : Prop :=
  match ops with
  | [] => True
  | o :: rest => (touches o r c = false \/ snd (step w o) <> None) /\ untouched (fst (step w o)) rest r c
  end.

(** The format a call sets for row [r] / column [c]. *)
Definition sets_row_format (r : N) (o : op) : option Format :=
  match o with SetRowFormat row f => if row =? r then Some f else None | _ => None end.
Definition sets_col_format (c : N) (o : op) : option Format :=
  match o with SetColumnFormat col f => if col =? c then Some f else None | _ => None end.
