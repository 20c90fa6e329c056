(** Pixel positions: where cells begin. *)
From Verif Require Import Base.

(** The left (top) edge of cell [k]: the sizes of the cells before it. *)
Definition edge (size : N -> N) (k : N) : N :=
  fold_right N.add 0 (map (fun i => size (N.of_nat i)) (seq 0 (N.to_nat k))).

(** ECMA-376 part 1, 18.3.1.13 (the col element): the width in pixels that a
    stored width of [w256] / 256 characters denotes, for the default font
    (maximum digit width 7): Truncate(((256 * width + Truncate(128/7)) / 256) * 7). *)
Definition stored_width_pixels (w256 : N) : N := (w256 + 128 / 7) * 7 / 256.
