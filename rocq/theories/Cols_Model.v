(** The text of <cols>. *)
From Verif Require Import Base F64 Fmt_Model Xml_Tree Rich_Model Cells_Model Sheet_Model.
Open Scope N_scope.

Section Cols.
  Variable num_text : f64 -> str.          (* f64::to_string, not modelled *)
  Variable g : N -> N.                     (* src/worksheet.rs:16034-16040: local to global format index *)
  (** src/worksheet.rs:19322-19384 *)
  Definition col_attributes (d : N * N * colopt) : list (str * str) :=
    let '(first, last, o) := d in
    [(lit "min", dec (first + 1)); (lit "max", dec (last + 1)); (lit "width", num_text (col_width_out (c_width o) (c_hidden o)))] ++
    when (0 <? c_xf o) [(lit "style", dec (g (c_xf o)))] ++
    when (c_autofit o) [(lit "bestFit", lit "1")] ++
    when (c_hidden o) [(lit "hidden", lit "1")] ++
    when (negb (feq (c_width o) DEFAULT_COL_WIDTH) || c_hidden o) [(lit "customWidth", lit "1")] ++
    when (0 <? c_level o) [(lit "outlineLevel", dec (c_level o))] ++
    when (c_collapsed o) [(lit "collapsed", lit "1")].
  Definition col_wx (d : N * N * colopt) : wx := WEmpty (lit "col") (col_attributes d).
  (** src/worksheet.rs:19276-19319; [iter] is the iteration order of the HashMap. *)
  Definition cols_wx (iter : list (N * colopt)) : option wx :=
    match iter with [] => None | _ => Some (WElem (lit "cols") [] (map col_wx (write_cols iter))) end.
End Cols.
