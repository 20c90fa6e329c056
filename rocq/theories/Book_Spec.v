(** How a reader of workbook.xml understands sheet lists and defined names.  No
    model function is used here. *)
From Verif Require Import Base Ref_Spec.

(** A rectangle of cells, zero-based and inclusive. *)
Record rect := { rc_fr : N; rc_fc : N; rc_lr : N; rc_lc : N }.

(** "$3:$7": whole rows;  "$B:$D": whole columns;  "$B$3:$D$7" or "$B$3". *)
Definition parse_abs_row (s : str) : option (N * str) :=
  match s with
  | 36 :: s1 => let '(ds, s2) := span is_ascii_digit s1 in
                match ds with
                | d :: _ => if d =? 48 then None else Some (digits_value 0 ds - 1, s2)
                | [] => None
                end
  | _ => None
  end.
Definition parse_abs_col (s : str) : option (N * str) :=
  match s with
  | 36 :: s1 => let '(ls, s2) := span is_ascii_upper s1 in
                match ls with _ :: _ => Some (letters_value 0 ls - 1, s2) | [] => None end
  | _ => None
  end.
Definition parse_rows (s : str) : option (N * N) :=
  match parse_abs_row s with
  | Some (a, 58 :: s') => match parse_abs_row s' with Some (b, []) => Some (a, b) | _ => None end
  | _ => None
  end.
Definition parse_cols (s : str) : option (N * N) :=
  match parse_abs_col s with
  | Some (a, 58 :: s') => match parse_abs_col s' with Some (b, []) => Some (a, b) | _ => None end
  | _ => None
  end.
Definition parse_area (s : str) : option rect :=
  match parse_rows s with
  | Some (a, b) => Some {| rc_fr := a; rc_fc := 0; rc_lr := b; rc_lc := 16383 |}
  | None =>
  match parse_cols s with
  | Some (a, b) => Some {| rc_fr := 0; rc_fc := a; rc_lr := 1048575; rc_lc := b |}
  | None =>
  match parse_range s with
  | Some (x, y) => Some {| rc_fr := a1_row x; rc_fc := a1_col x; rc_lr := a1_row y; rc_lc := a1_col y |}
  | None => None
  end end end.
(** Sheet!Area *)
Definition parse_sheet_area (s : str) : option (str * rect) :=
  match parse_sheet s with
  | Some (name, 33 :: rest) => match parse_area rest with Some r => Some (name, r) | None => None end
  | _ => None
  end.

(** Characters Excel's name rules (as quoted by the library's documentation)
    forbid anywhere in a defined name. *)
Definition forbidden_in_name (c : char) : Prop := In c (lit " ,/*[]:'") \/ c = 34.
(** The syntactic rule: a letter, underscore or backslash, then nothing forbidden. *)
Definition valid_dname (alpha : char -> bool) (n : str) : Prop :=
  (exists c r, n = c :: r /\ (alpha c = true \/ c = 95 \/ c = 92)) /\
  (forall c, In c n -> ~ forbidden_in_name c).
(** "Sheet!name" is a sheet-local name, anything without '!' is global. *)
Definition name_part (full n : str) : Prop :=
  (exists sh, full = sh ++ 33 :: n /\ ~ In 33 sh) \/ (full = n /\ ~ In 33 full).

(** Lexicographic order of strings (code points). *)
Inductive str_lt : list N -> list N -> Prop :=
| lt_nil : forall y b, str_lt [] (y :: b)
| lt_head : forall x y a b, x < y -> str_lt (x :: a) (y :: b)
| lt_tail : forall x a b, str_lt a b -> str_lt (x :: a) (x :: b).
Definition str_le (a b : list N) : Prop := a = b \/ str_lt a b.

(** What is assumed of str::to_lowercase: ASCII strings lower-case letter by
    letter. *)
Definition lower_ok (lower : list N -> list N) : Prop :=
  forall s, forallb is_ascii s = true -> lower s = map ascii_lower s.
