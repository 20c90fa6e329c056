(** Specification of range borders: which side of which cell comes from where. *)
From Verif Require Import Base Fmt_Model.

(** The four sides of a cell: line style and colour. *)
Inductive side := Top | Bottom | Left | Right.
Definition line (f : Format) (s : side) : N * Color :=
  match s with
  | Top => (top_style (borders f), top_color (borders f))
  | Bottom => (bottom_style (borders f), bottom_color (borders f))
  | Left => (left_style (borders f), left_color (borders f))
  | Right => (right_style (borders f), right_color (borders f))
  end.
(** Side [s] of cell (r, c) lies on the outline of the rectangle. *)
Definition on_edge (fr fc lr lc r c : N) (s : side) : Prop :=
  match s with Top => r = fr | Bottom => r = lr | Left => c = fc | Right => c = lc end.
(** All the properties of a format other than the four lines. *)
Definition same_otherwise (f g : Format) : Prop :=
  num_format f = num_format g /\ num_format_index f = num_format_index g /\ font f = font g /\
  alignment f = alignment g /\ fill f = fill g /\ hidden f = hidden g /\ locked f = locked g /\
  checkbox f = checkbox g /\ quote_prefix f = quote_prefix g /\
  diagonal_style (borders f) = diagonal_style (borders g) /\
  diagonal_color (borders f) = diagonal_color (borders g) /\ diagonal_type (borders f) = diagonal_type (borders g).
(** [out] is the format promised for cell (r, c): [cell], with exactly the
    sides on the outline replaced by those of [border]. *)
Definition outlined (fr fc lr lc : N) (cell border : Format) (r c : N) (out : Format) : Prop :=
  (forall s, on_edge fr fc lr lc r c s -> line out s = line border s) /\
  (forall s, ~ on_edge fr fc lr lc r c s -> line out s = line cell s) /\
  same_otherwise out cell.
