(** Reading <cols>: what a consumer finds about a column.  No writer function. *)
From Verif Require Import Base F64 Xml_Spec Xml_Read SheetXml_Spec Sheet_Model.
Open Scope N_scope.

(** A <col> element: columns [min]..[max] (1-based); the width as the text found. *)
Record fcol := { k_min : N; k_max : N; k_width : str; k_custom : bool; k_style : option N; k_fit : bool; k_hidden : bool; k_level : N; k_collapsed : bool }.
Definition number_attr (k : string) (l : list (str * str)) : option N := bind (attr k l) number_of.
Definition read_col (n : node) : option fcol :=
  match n with
  | Elem k l [] =>
      if str_eqb k (lit "col") then
        bind (number_attr "min" l) (fun a => bind (number_attr "max" l) (fun b => bind (attr "width" l) (fun w =>
        bind (match attr "style" l with None => Some None | Some s => bind (number_of s) (fun i => Some (Some i)) end) (fun st =>
        bind (match attr "outlineLevel" l with None => Some 0 | Some s => number_of s end) (fun lv =>
          Some {| k_min := a; k_max := b; k_width := w; k_custom := flag_of "customWidth" l; k_style := st; k_fit := flag_of "bestFit" l;
                  k_hidden := flag_of "hidden" l; k_level := lv; k_collapsed := flag_of "collapsed" l |})))))
      else None
  | _ => None end.
(** The text of the element, or nothing if it is absent. *)
Definition read_cols (text : str) : option (list fcol) :=
  match text with
  | [] => Some []
  | _ => match read_xml text with
         | Some [Elem k [] kids] => if str_eqb k (lit "cols") then read_all read_col kids else None
         | _ => None end
  end.
(** The elements that say something about column [c] (0-based). *)
Definition about (c : N) (f : fcol) : bool := (k_min f <=? c + 1) && (c + 1 <=? k_max f).
Definition found (c : N) (l : list fcol) : list fcol := filter (about c) l.

(** The width in the file for a width given in characters: that many digits of 7
    pixels, rounded to whole pixels, and 5 pixels of padding, as a multiple of 1/256
    of a digit (below one character the padding shrinks with it); a hidden column of
    default width is written with width 0. *)
Definition file_units (pixels : f64) : f64 := fdiv (ffloor (fmul (fdiv pixels (f_of_N 7)) (f_of_N 256))) (f_of_N 256).
Definition file_width (chars : f64) (hidden : bool) : f64 :=
  if hidden && feq chars (f_dec 843 2) then fzero
  else if negb (fgt chars fzero) then chars
  else if flt chars (f_of_N 1) then file_units (fround (fmul chars (f_of_N 12)))
  else file_units (fadd (fround (fmul chars (f_of_N 7))) (f_of_N 5)).
