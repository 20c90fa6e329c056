(** Model of [Worksheet::set_range_format_with_border] (src/worksheet.rs). *)
From Verif Require Import Base Fmt_Model Cells_Model.

(** src/worksheet.rs:20822-20839 (the enum [BorderPosition]) *)
Inductive border_position :=
| All | RowLeft | RowCenter | RowRight | ColTop | ColCenter | ColBottom
| TopLeft | TopCenter | TopRight | CenterLeft | CenterCenter | CenterRight
| BottomLeft | BottomCenter | BottomRight.

Definition set_top (f b : Format) : Format :=                                      (* 15814-15815 *)
  let o := borders f in
  {| num_format := num_format f; num_format_index := num_format_index f; font := font f; alignment := alignment f;
     borders := {| bottom_style := bottom_style o; top_style := top_style (borders b); left_style := left_style o;
                   right_style := right_style o; bottom_color := bottom_color o; top_color := top_color (borders b);
                   left_color := left_color o; right_color := right_color o; diagonal_style := diagonal_style o;
                   diagonal_color := diagonal_color o; diagonal_type := diagonal_type o |};
     fill := fill f; hidden := hidden f; locked := locked f; checkbox := checkbox f; quote_prefix := quote_prefix f |}.
Definition set_bottom (f b : Format) : Format :=                                   (* 15830-15831 *)
  let o := borders f in
  {| num_format := num_format f; num_format_index := num_format_index f; font := font f; alignment := alignment f;
     borders := {| bottom_style := bottom_style (borders b); top_style := top_style o; left_style := left_style o;
                   right_style := right_style o; bottom_color := bottom_color (borders b); top_color := top_color o;
                   left_color := left_color o; right_color := right_color o; diagonal_style := diagonal_style o;
                   diagonal_color := diagonal_color o; diagonal_type := diagonal_type o |};
     fill := fill f; hidden := hidden f; locked := locked f; checkbox := checkbox f; quote_prefix := quote_prefix f |}.
Definition set_left (f b : Format) : Format :=                                     (* 15846-15847 *)
  let o := borders f in
  {| num_format := num_format f; num_format_index := num_format_index f; font := font f; alignment := alignment f;
     borders := {| bottom_style := bottom_style o; top_style := top_style o; left_style := left_style (borders b);
                   right_style := right_style o; bottom_color := bottom_color o; top_color := top_color o;
                   left_color := left_color (borders b); right_color := right_color o; diagonal_style := diagonal_style o;
                   diagonal_color := diagonal_color o; diagonal_type := diagonal_type o |};
     fill := fill f; hidden := hidden f; locked := locked f; checkbox := checkbox f; quote_prefix := quote_prefix f |}.
Definition set_right (f b : Format) : Format :=                                    (* 15862-15863 *)
  let o := borders f in
  {| num_format := num_format f; num_format_index := num_format_index f; font := font f; alignment := alignment f;
     borders := {| bottom_style := bottom_style o; top_style := top_style o; left_style := left_style o;
                   right_style := right_style (borders b); bottom_color := bottom_color o; top_color := top_color o;
                   left_color := left_color o; right_color := right_color (borders b); diagonal_style := diagonal_style o;
                   diagonal_color := diagonal_color o; diagonal_type := diagonal_type o |};
     fill := fill f; hidden := hidden f; locked := locked f; checkbox := checkbox f; quote_prefix := quote_prefix f |}.

(** src/worksheet.rs:15797-15869 *)
Definition combined_border_format (cell_format border_format : Format) (position : border_position) : Format :=
  let f := cell_format in
  let f := match position with
           | All | RowLeft | RowCenter | RowRight | ColTop | TopLeft | TopCenter | TopRight => set_top f border_format
           | _ => f end in
  let f := match position with
           | All | RowLeft | RowCenter | RowRight | ColBottom | BottomLeft | BottomCenter | BottomRight => set_bottom f border_format
           | _ => f end in
  let f := match position with
           | All | RowLeft | ColTop | ColCenter | ColBottom | TopLeft | CenterLeft | BottomLeft => set_left f border_format
           | _ => f end in
  match position with
  | All | RowRight | ColTop | ColCenter | ColBottom | TopRight | CenterRight | BottomRight => set_right f border_format
  | _ => f end.

(** A [for] loop whose body ends with [?]. *)
Fixpoint try_each {A} (body : ws -> A -> ws * option error) (l : list A) (w : ws) : ws * option error :=
  match l with
  | [] => (w, None)
  | x :: r => match body w x with (w, None) => try_each body r w | (w, Some e) => (w, Some e) end
  end.

(** src/worksheet.rs:15652-15663 *)
Definition set_range_border_cell (w : ws) (row col : N) (cf bf : Format) : ws * option error :=
  set_cell_format w row col (combined_border_format cf bf All).
(** src/worksheet.rs:15666-15694 *)
Definition set_range_border_row (w : ws) (row first_col last_col : N) (cf bf : Format) : ws * option error :=
  try_each (fun w col =>
    if col =? first_col then set_cell_format w row col (combined_border_format cf bf RowLeft)
    else if col =? last_col then set_cell_format w row col (combined_border_format cf bf RowRight)
    else set_cell_format w row col (combined_border_format cf bf RowCenter)) (range_incl first_col last_col) w.
(** src/worksheet.rs:15697-15725 *)
Definition set_range_border_col (w : ws) (first_row last_row col : N) (cf bf : Format) : ws * option error :=
  try_each (fun w row =>
    if row =? first_row then set_cell_format w row col (combined_border_format cf bf ColTop)
    else if row =? last_row then set_cell_format w row col (combined_border_format cf bf ColBottom)
    else set_cell_format w row col (combined_border_format cf bf ColCenter)) (range_incl first_row last_row) w.
(** src/worksheet.rs:15728-15793 *)
Definition set_range_border_range (w : ws) (first_row last_row first_col last_col : N) (cf bf : Format) : ws * option error :=
  try_each (fun w row => try_each (fun w col =>
    if row =? first_row then
      if col =? first_col then set_cell_format w row col (combined_border_format cf bf TopLeft)
      else if col =? last_col then set_cell_format w row col (combined_border_format cf bf TopRight)
      else set_cell_format w row col (combined_border_format cf bf TopCenter)
    else if row =? last_row then
      if col =? first_col then set_cell_format w row col (combined_border_format cf bf BottomLeft)
      else if col =? last_col then set_cell_format w row col (combined_border_format cf bf BottomRight)
      else set_cell_format w row col (combined_border_format cf bf BottomCenter)
    else if col =? first_col then set_cell_format w row col (combined_border_format cf bf CenterLeft)
    else if col =? last_col then set_cell_format w row col (combined_border_format cf bf CenterRight)
    else set_cell_format w row col (combined_border_format cf bf CenterCenter))
    (range_incl first_col last_col) w) (range_incl first_row last_row) w.

(** src/worksheet.rs:10453-10492 *)
Definition set_range_format_with_border (w : ws) (fr fc lr lc : N) (cf bf : Format) : ws * option error :=
  if negb (check_dimensions_only fr fc) || negb (check_dimensions_only lr lc) then (w, Some RowColumnLimit)
  else if (lr <? fr) || (lc <? fc) then (w, Some RowColumnOrder)
  else if (fr =? lr) && (fc =? lc) then set_range_border_cell w fr fc cf bf
  else if fr =? lr then set_range_border_row w fr fc lc cf bf
  else if fc =? lc then set_range_border_col w fr lr fc cf bf
  else set_range_border_range w fr lr fc lc cf bf.
