(** Model of pixel geometry: src/worksheet.rs pixels_to_width,
    column_pixel_width, row_pixel_height, position_object_pixels,
    position_object_emus. *)
From Verif Require Import Base F64 SMap Fmt_Model Ref_Model Cells_Model Sheet_Model.

(** [x as u32]: truncates towards zero, saturates, NaN gives 0. *)
Definition f_to_u32 (x : f64) : N :=
  match x with
  | S754_finite false m e =>
    N.min (Z.to_N (if (0 <=? e)%Z then Zpos m * 2 ^ e else Zpos m / 2 ^ (- e))%Z) 4294967295
  | S754_infinity false => 4294967295
  | _ => 0
  end.

(** src/worksheet.rs:16883-16896 pixels_to_width. *)
Definition pixels_to_width (pixels : N) : f64 :=
  let width := f_of_N pixels in
  if flt width (f_of_N 12) then fdiv width (fadd (f_of_N 7) (f_of_N 5))
  else fdiv (fsub width (f_of_N 5)) (f_of_N 7).

(** src/worksheet.rs:7938-7944 set_column_width_pixels, 7972-7978
    set_column_autofit_width, 6507-6515 set_row_height_pixels, 7740-7743
    set_default_row_height_pixels, as calls of the functions in Cells_Model. *)
Definition set_column_width_pixels (w : ws) (col pixels : N) : ws * option error :=
  step w (SetColumnWidth col (pixels_to_width pixels) false).
Definition set_column_autofit_width (w : ws) (col pixels : N) : ws * option error :=
  step w (SetColumnWidth col (pixels_to_width pixels) true).
Definition set_row_height_pixels (w : ws) (row pixels : N) : ws * option error :=
  step w (SetRowHeight row (fmul (f_dec 75 2) (f_of_N pixels))).
Definition set_default_row_height_pixels (w : ws) (pixels : N) : ws * option error :=
  step w (SetDefaultRowHeight (fmul (f_dec 75 2) (f_of_N pixels))).

(** src/worksheet.rs:16743-16765 column_pixel_width; [after] is
    [position == MoveAndSizeWithCellsAfter].  [... as u32 + 5]: the sum cannot
    overflow, widths are at most 255 (store_column_width). *)
Definition width_pixels (width : f64) : N :=
  if flt width (f_of_N 1) then f_to_u32 (fround (fmul width (fadd (f_of_N 7) (f_of_N 5))))
  else f_to_u32 (fround (fmul width (f_of_N 7))) + 5.
Definition column_pixel_width (w : ws) (after : bool) (col : N) : N :=
  match get col (changed_cols w) with
  | Some o => if c_hidden o && negb after then 0 else width_pixels (c_width o)
  | None => 64
  end.

(** src/worksheet.rs:16769-16784 row_pixel_height. *)
Definition height_pixels (height : f64) : N := f_to_u32 (fdiv (fmul height (f_of_N 4)) (f_of_N 3)).
Definition row_pixel_height (w : ws) (after : bool) (row : N) : N :=
  match get row (changed_rows w) with
  | Some o => if r_hidden o && negb after then 0 else height_pixels (r_height o)
  | None => height_pixels (default_row_height w)
  end.

(** The loops of position_object_pixels (16657-16665, 16668-16676, 16687-16695,
    16698-16706): while the offset is at least the size of the cell, subtract it
    and go to the next cell.  A loop is given by its finished executions:
    [walk c x c' x'] relates the values before and after.  There is no derivation
    when the loop does not end, or when [next] (+= 1) panics. *)
Section Walk.
Context {A : Type} (next : N -> option N) (reaches : A -> N -> bool) (minus : A -> N -> A) (size : N -> N).
Inductive walk : N -> A -> N -> A -> Prop :=
| walk_stop c x : reaches x (size c) = false -> walk c x c x
| walk_next c x c1 c2 x2 :
    reaches x (size c) = true -> next c = Some c1 -> walk c1 (minus x (size c)) c2 x2 -> walk c x c2 x2.
End Walk.
(** u32 and f64 versions of [x1 >= col_size] and [x1 -= col_size]. *)
Definition u32_walk (next : N -> option N) (size : N -> N) : N -> N -> N -> N -> Prop :=
  walk next (fun x s => s <=? x) (fun x s => x - s) size.
Definition f64_walk (next : N -> option N) (size : N -> N) : N -> f64 -> N -> f64 -> Prop :=
  walk next (fun x s => fge x (f_of_N s)) (fun x s => fsub x (f_of_N s)) size.

(** [col_start += 1] on u16, [row_start += 1] on u32. *)
Definition next_col (m : ovf) (c : N) : option N := add16 m c 1.
Definition next_row (m : ovf) (r : N) : option N := add32 m r 1.

(** src/worksheet.rs:16645-16648, 16651-16654: the absolute offset, in u32. *)
Fixpoint abs_loop (m : ovf) (size : N -> N) (i : N) (n : nat) (acc : N) : option N :=
  match n with
  | O => Some acc
  | S n => acc <- add32 m acc (size i) ;; abs_loop m size (i + 1) n acc
  end.
Definition absolute (m : ovf) (size : N -> N) (start offset : N) : option N :=
  s <- abs_loop m size 0 (N.to_nat start) 0 ;; add32 m s offset.

(** src/drawing.rs DrawingCoordinates and DrawingInfo (the geometric fields). *)
Record coords := { co_col : N; co_row : N; co_x : f64; co_y : f64 }.
Record placed := { p_from : coords; p_to : coords; p_abs_x : N; p_abs_y : N; p_width : f64; p_height : f64 }.

(** src/worksheet.rs:16622-16739 position_object_pixels: the finished calls. *)
Inductive position_object_pixels (m : ovf) (w : ws) (after : bool) (row col x_offset y_offset : N) (width height : f64)
  : placed -> Prop :=
| Positioned x_abs y_abs col_start x1 row_start y1 col_end x2 row_end y2 :
    absolute m (column_pixel_width w after) col x_offset = Some x_abs ->
    absolute m (row_pixel_height w after) row y_offset = Some y_abs ->
    u32_walk (next_col m) (column_pixel_width w after) col x_offset col_start x1 ->
    u32_walk (next_row m) (row_pixel_height w after) row y_offset row_start y1 ->
    f64_walk (next_col m) (column_pixel_width w after) col_start (fadd width (f_of_N x1)) col_end x2 ->
    f64_walk (next_row m) (row_pixel_height w after) row_start (fadd height (f_of_N y1)) row_end y2 ->
    position_object_pixels m w after row col x_offset y_offset width height
      {| p_from := {| co_col := col_start; co_row := row_start; co_x := f_of_N x1; co_y := f_of_N y1 |};
         p_to := {| co_col := col_end; co_row := row_end; co_x := x2; co_y := y2 |};
         p_abs_x := x_abs; p_abs_y := y_abs; p_width := width; p_height := height |}.

(** src/worksheet.rs:20415-20417 round_to_emus. *)
Definition round_to_emus (x : f64) : f64 := fround (fmul x (f_of_N 9525)).
(** src/worksheet.rs:16566-16586 position_object_emus: the conversion (u64
    products cannot overflow). *)
Definition emu_coords (c : coords) : coords :=
  {| co_col := co_col c; co_row := co_row c; co_x := round_to_emus (co_x c); co_y := round_to_emus (co_y c) |}.
Definition to_emus (p : placed) : placed :=
  {| p_from := emu_coords (p_from p); p_to := emu_coords (p_to p);
     p_abs_x := p_abs_x p * 9525; p_abs_y := p_abs_y p * 9525;
     p_width := round_to_emus (p_width p); p_height := round_to_emus (p_height p) |}.
