(** Specification vocabulary for merged ranges, tables, outlines, page breaks
    and column definitions. *)
From Verif Require Import Base SMap F64 Fmt_Model Cells_Model Sheet_Model.

(** Cell (r, c) lies in a rectangle. *)
Definition in_rng (R : rng) (r c : N) : Prop := r0 R <= r <= r1 R /\ c0 R <= c <= c1 R.
(** No cell lies in two different ranges of the list. *)
Definition pairwise_disjoint (l : list rng) : Prop :=
  forall i j A B r c, i <> j -> nth_error l i = Some A -> nth_error l j = Some B -> ~ (in_rng A r c /\ in_rng B r c).
Definition within_limits (R : rng) : Prop := r0 R <= r1 R < 1048576 /\ c0 R <= c1 R < 16384.
Definition more_than_one_cell (R : rng) : Prop := exists r c r' c', in_rng R r c /\ in_rng R r' c' /\ (r, c) <> (r', c').

(** Outline level of a row / column. *)
Definition row_level (w : ws) (r : N) : N := match get r (changed_rows w) with Some o => r_level o | None => 0 end.
Definition col_level (w : ws) (c : N) : N := match get c (changed_cols w) with Some o => c_level o | None => 0 end.
(** How many group_rows / group_columns calls of a history cover a row / column. *)
Fixpoint row_groups (r : N) (ops : list sop) : N :=
  match ops with
  | [] => 0
  | SGroupRows fr lr _ :: rest => (if (fr <=? r) && (r <=? lr) then 1 else 0) + row_groups r rest
  | _ :: rest => row_groups r rest
  end.
Fixpoint col_groups (c : N) (ops : list sop) : N :=
  match ops with
  | [] => 0
  | SGroupColumns fc lc _ :: rest => (if (fc <=? c) && (c <=? lc) then 1 else 0) + col_groups c rest
  | _ :: rest => col_groups c rest
  end.
Definition is_group (o : sop) : bool :=
  match o with SGroupRows _ _ _ | SGroupColumns _ _ _ => true | _ => false end.
(** The history runs without panic and no grouping call in it is rejected. *)
Fixpoint groups_accepted (lower : str -> str) (s : sheet) (ops : list sop) : Prop :=
  match ops with
  | [] => True
  | o :: rest => exists s' e, sstep lower s o = Some (s', e) /\ (is_group o = true -> e = None) /\ groups_accepted lower s' rest
  end.
(** The history runs without panic and no merge_range / add_table call in it is
    rejected because of an overlap. *)
Definition overlap_error (e : option serror) : bool :=
  match e with Some SMergeOverlap | Some STableOverlap | Some SFilterOverlap => true | _ => false end.
Fixpoint overlaps_never (lower : str -> str) (s : sheet) (ops : list sop) : Prop :=
  match ops with
  | [] => True
  | o :: rest => exists s' e, sstep lower s o = Some (s', e) /\ overlap_error e = false /\ overlaps_never lower s' rest
  end.

(** The settings of a column as they should be written. *)
Definition same_column_settings (d e : coldef) : Prop :=
  cd_width d = cd_width e /\ cd_style d = cd_style e /\ cd_bestfit d = cd_bestfit e /\ cd_hidden d = cd_hidden e /\
  cd_custom d = cd_custom e /\ cd_level d = cd_level e /\ cd_collapsed d = cd_collapsed e.
(** Column c (0-based) lies in the <col> element (1-based, inclusive). *)
Definition covers_col (d : coldef) (c : N) : Prop := cd_min d <= c + 1 <= cd_max d.
