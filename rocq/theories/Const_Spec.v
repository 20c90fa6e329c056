(** Row-ordered histories, stated on the calls alone. *)
From Verif Require Import Base F64 Fmt_Model Cells_Model Cells_Spec.

(** The first cell a writing call stores to. *)
Definition write_cell (o : op) : option (N * N) :=
  match o with
  | WriteNumber r c _ _ | WriteDateTime r c _ _ | WriteString r c _ _ | WriteRich r c _ _ _ | WriteBool r c _ _
  | WriteBlank r c _ | WriteFormula r c _ _ _ => Some (r, c)
  | WriteArray fr fc _ _ _ _ _ _ => Some (fr, fc)
  | _ => None
  end.
(** The row of the last successful write. *)
Definition advance (w : ws) (cur : N) (o : op) : N :=
  match write_cell o with
  | Some (r, c) => match snd (step w o), writes w o r c with None, Some _ => r | _, _ => cur end
  | None => cur
  end.
(** The calls row order allows when [cur] is the row of the last write: writing
    and row options in this row or later ones, changes to written cells in this
    row only, column formats only while still in the first row. *)
Definition allowed (cur : N) (o : op) : Prop :=
  match o with
  | SetRowHeight r _ | SetRowFormat r _ | SetRowHidden r | SetRowUnhidden r => cur <= r
  | SetCellFormat r _ _ | ClearCell r _ | ClearCellFormat r _ | SetFormulaResult r _ _ => r = cur
  | SetColumnFormat _ _ => cur = 0
  | SetRangeFormat _ _ _ _ _ => False
  | _ => match write_cell o with Some (r, _) => cur <= r | None => True end
  end.
(** [w] is the standard worksheet the calls are made on. *)
Fixpoint row_ordered (w : ws) (cur : N) (ops : list op) : Prop :=
  match ops with
  | [] => True
  | o :: rest => allowed cur o /\ row_ordered (fst (step w o)) (advance w cur o) rest
  end.
