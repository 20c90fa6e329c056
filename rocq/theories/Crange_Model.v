(** Model of ChartRange::new_from_string: the ranges of charts and sparklines given as text. *)
From Verif Require Import Base Ref_Model Spark_Model.

(** [s.find(c)] and the slices before and after it. *)
Fixpoint find_char (c : char) (s : str) : option (str * str) :=
  match s with
  | [] => None
  | x :: r => if x =? c then Some ([], r) else match find_char c r with Some (a, b) => Some (x :: a, b) | None => None end
  end.
(** [parse::<u32>().unwrap_or_default()] for a text that does not start with a sign. *)
Definition parse_u32_or_0 (s : str) : N :=
  if match s with [] => false | _ => forallb is_ascii_digit s end && (undec s <? 2 ^ 32) then undec s else 0.
(** Row and column of a cell: src/chart.rs:8387-8399, 8403-8409. *)
Definition cell_of_text (m : ovf) (u : unicode) (s : str) : option (N * N) :=
  let '(col, row) := split_cell_reference u s in
  c <- column_name_to_number m col ;;
  Some (parse_u32_or_0 row - 1, c).
(** src/chart.rs:8376-8415.  36 is the dollar sign, 33 '!', 58 ':'.  The text itself, which the
    record keeps for nothing but a check of emptiness, and the cache are left out. *)
Definition range_of_text (m : ovf) (u : unicode) (s : str) : option crange :=
  match find_char 33 s with
  | None => Some no_range
  | Some (sheet, rest) =>
      let range := filter (fun c => negb (c =? 36)) rest in
      if is_valid_range range then
        match find_char 58 range with
        | Some (first, last) =>
            a <- cell_of_text m u first ;; b <- cell_of_text m u last ;;
            Some {| g_sheet := sheet; g_fr := fst a; g_fc := snd a; g_lr := fst b; g_lc := snd b |}
        | None => a <- cell_of_text m u range ;; Some {| g_sheet := sheet; g_fr := fst a; g_fc := snd a; g_lr := fst a; g_lc := snd a |}
        end
      else Some no_range
  end.
(** src/chart.rs:8417-8425: one equals sign, then the quotes around a name, without undoing the
    doubling of quotes in it; for a lone quote the slice [1..0] panics. *)
Definition strip_equals (s : str) : str := match s with c :: r => if c =? 61 then r else s | [] => [] end.
Definition strip_quotes (s : str) : option str :=
  if starts_with_char (N.eqb 39) s && ends_with_char (N.eqb 39) s then
    match s with _ :: _ :: _ => Some (removelast (tl s)) | _ => None end
  else Some s.
(** src/chart.rs:8366-8436. *)
Definition new_from_string (m : ovf) (u : unicode) (s : str) : option crange :=
  c <- range_of_text m u s ;;
  name <- strip_quotes (strip_equals (g_sheet c)) ;;
  Some {| g_sheet := name; g_fr := g_fr c; g_fc := g_fc c; g_lr := g_lr c; g_lc := g_lc c |}.
