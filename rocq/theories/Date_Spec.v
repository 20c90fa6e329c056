(** Specification: the proleptic Gregorian calendar, by counting. *)
From Verif Require Import Base.

Definition leap (y : N) : Prop := (y mod 4 = 0 /\ y mod 100 <> 0) \/ y mod 400 = 0.
Definition leapb (y : N) : bool :=
  ((y mod 4 =? 0) && negb (y mod 100 =? 0)) || (y mod 400 =? 0).
Definition year_len (y : N) : N := if leapb y then 366 else 365.

Definition month_len (y m : N) : N :=
  match m with
  | 1 | 3 | 5 | 7 | 8 | 10 | 12 => 31
  | 4 | 6 | 9 | 11 => 30
  | 2 => if leapb y then 29 else 28
  | _ => 0
  end.

Definition valid_date (y m d : N) : Prop := 1 <= m <= 12 /\ 1 <= d <= month_len y m.

(** Days from 0000-01-01 to the first of January of year [y]: the sum of the
    lengths of all earlier years. *)
Definition year_start (y : N) : N := N.recursion 0 (fun k acc => acc + year_len k) y.
(** Days in year [y] before month [m]. *)
Definition month_start (y m : N) : N := N.recursion 0 (fun k acc => acc + month_len y k) m.
(** Day number of a date. *)
Definition day_number (y m d : N) : Z := Z.of_N (year_start y + month_start y m + d).

(** Days elapsed between two dates. *)
Definition days_between (y0 m0 d0 y1 m1 d1 : N) : Z := (day_number y1 m1 d1 - day_number y0 m0 d0)%Z.

(** Excel's serial day: days since 1899-12-31, plus one from 1900-03-01 (day 60) on. *)
Definition excel_serial (y m d : N) : Z :=
  let n := days_between 1899 12 31 y m d in if (60 <=? n)%Z then (n + 1)%Z else n.

Definition excel_false_leapday (y m d : N) : Prop := y = 1900 /\ m = 2 /\ d = 29.
Definition excel_epoch (y m d : N) : Prop := y = 1899 /\ m = 12 /\ d = 31.

(** Excel's serial day of a date, with its two special days, 0 for a pure time. *)
Definition serial_day (y m d : N) : Z :=
  if ((y =? 0) || ((y =? 1899) && (m =? 12) && (d =? 31)))%N then 0%Z
  else if ((y =? 1900) && (m =? 2) && (d =? 29))%N then 60%Z
  else excel_serial y m d.

(** Total milliseconds denoted by a date and a time of day. *)
Definition total_ms (y m d h mi s ms : N) : Z :=
  (serial_day y m d * 86400000 + Z.of_N (h * 3600000 + mi * 60000 + s * 1000 + ms))%Z.

(** A non-empty digit string; a text with none of the separators - T Z space colon. *)
Definition all_digits (s : str) : Prop := s <> [] /\ forallb is_ascii_digit s = true.
Definition no_sep (s : str) : Prop :=
  forallb (fun c => negb ((c =? 45) || (c =? 84) || (c =? 90) || (c =? 32) || (c =? 58))) s = true.
