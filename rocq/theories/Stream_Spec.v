(** What the rows of a constant-memory sheet say when they are read, and what the
    calls made on it may contain. No writer function. *)
From Verif Require Import Base F64 Fmt_Model Cells_Model SheetXml_Spec.

(** The options of a row found in the file: hidden, its format and its height. The
    outline is not there: a row is always at level 0 and never collapsed. [default]
    is the default row height when the row was flushed. *)
Definition streamed_row_says (num_text : f64 -> str) (default : f64) (ro : option rowopt) (f : frow) : Prop :=
  let other h := negb (feq h DEFAULT_ROW_HEIGHT) || negb (feq default DEFAULT_ROW_HEIGHT) in
  fr_level f = 0 /\ fr_collapsed f = false /\
  match ro with
  | Some o => fr_hidden f = r_hidden o /\ fr_style f = (if r_xf o =? 0 then None else Some (r_xf o)) /\
              fr_height f = (if other (r_height o) then Some (num_text (r_height o)) else None)
  | None => fr_hidden f = false /\ fr_style f = None /\
            fr_height f = (if negb (feq default DEFAULT_ROW_HEIGHT) then Some (num_text default) else None)
  end.
