(** Model of src/datetime.rs (ExcelDateTime). *)
From Verif Require Import Base F64.

(** src/datetime.rs:1349-1355 *)
Inductive dttype := TDefault | DateOnly | TimeOnly | DateAndTime.

(** src/datetime.rs:66-76 (struct ExcelDateTime); [is_1904_date] is left out:
    its only setter, [set_1904_date] (929), is crate-private and dead code
    outside tests, so the field is always false. *)
Record exceldt := MkDT {
  year : N; month : N; day : N; hour : N; minute : N; sec : f64;
  serial_datetime : option f64; datetime_type : dttype }.

(** src/datetime.rs:1333-1347 *)
Definition dt_default : exceldt := MkDT 0 0 0 0 0 fzero None TDefault.

(** The only error variants datetime.rs returns (message text dropped). *)
Inductive dterr := DateTimeRangeError | DateTimeParseError.
Definition dtres A := result A dterr.

(** src/datetime.rs:25-32 *)
Definition DAY_SECONDS : N := 86400.
Definition HOUR_SECONDS : N := 3600.
Definition MINUTE_SECONDS : N := 60.
Definition YEAR_DAYS : N := 365.
Definition YEAR_DAYS_4 : N := YEAR_DAYS * 4 + 1.
Definition YEAR_DAYS_100 : N := YEAR_DAYS * 100 + 25.
Definition YEAR_DAYS_400 : N := YEAR_DAYS * 400 + 97.
Definition UNIX_EPOCH_PLUS_400 : Z := 12622780800.

(** src/datetime.rs:1243-1245 *)
Definition is_leap_year (y : N) : bool :=
  (y mod 4 =? 0) && (negb (y mod 100 =? 0) || (y mod 400 =? 0)).

(** The array [31,28,...] with [months[1] = 29] when [feb29]. *)
Definition months (feb29 : bool) : list N :=
  [31; if feb29 then 29 else 28; 31; 30; 31; 30; 31; 31; 30; 31; 30; 31].

(** src/datetime.rs:935-965.  The outer [option]: the array access
    [months[month-1]] is guarded by the month test, so [None] (panic) is
    proved unreachable rather than assumed. *)
Definition validate_ymd (y m d : N) : option (dtres unit) :=
  if (9999 <? y) || ((y <? 1900) && (negb (y =? 1899) || negb (m =? 12) || negb (d =? 31)))
  then Some (Err DateTimeRangeError)
  else if negb ((1 <=? m) && (m <=? 12)) then Some (Err DateTimeRangeError)
  else match nth_error (months (is_leap_year y || (y =? 1900))) (N.to_nat (m - 1)) with
       | None => None
       | Some ml => if (d <? 1) || (ml <? d) then Some (Err DateTimeRangeError) else Some (Ok tt)
       end.

(** src/datetime.rs:968-986 *)
Definition validate_hms (mi : N) (s : f64) : dtres unit :=
  if 60 <? mi then Err DateTimeRangeError
  else if fgt s (f_dec 59999 3) then Err DateTimeRangeError else Ok tt.

(** src/datetime.rs:989-1013 *)
Definition validate_hms_milli (mi s ms : N) : dtres unit :=
  if 60 <? mi then Err DateTimeRangeError
  else if 60 <? s then Err DateTimeRangeError
  else if 999 <? ms then Err DateTimeRangeError else Ok tt.

(** src/datetime.rs:368-382 *)
Definition from_ymd (y m d : N) : option (dtres exceldt) :=
  v <- validate_ymd y m d ;;
  Some match v with
       | Err e => Err e
       | Ok _ => Ok (MkDT y m d 0 0 fzero None DateOnly)
       end.

(** src/datetime.rs:584-608 *)
Definition next_type (t : dttype) : dttype :=
  match t with DateOnly => DateAndTime | _ => TimeOnly end.
Definition and_hms (dt : exceldt) (h mi : N) (s : f64) : dtres exceldt :=
  match validate_hms mi s with
  | Err e => Err e
  | Ok _ => Ok (MkDT (year dt) (month dt) (day dt) h mi s (serial_datetime dt)
                     (next_type (datetime_type dt)))
  end.
(** src/datetime.rs:445-447 *)
Definition from_hms (h mi : N) (s : f64) : dtres exceldt := and_hms dt_default h mi s.

(** src/datetime.rs:676-701 *)
Definition and_hms_milli (dt : exceldt) (h mi s ms : N) : dtres exceldt :=
  match validate_hms_milli mi s ms with
  | Err e => Err e
  | Ok _ => Ok (MkDT (year dt) (month dt) (day dt) h mi
                     (fadd (f_of_N s) (fdiv (f_of_N ms) (f_of_N 1000)))
                     (serial_datetime dt) (next_type (datetime_type dt)))
  end.
(** src/datetime.rs:512-519 *)
Definition from_hms_milli (h mi s ms : N) : dtres exceldt := and_hms_milli dt_default h mi s ms.

(** src/datetime.rs:764-778 *)
Definition from_serial_datetime (n : f64) : dtres exceldt :=
  if negb (fle fzero n && flt n (f_of_N 2958466)) then Err DateTimeRangeError
  else Ok (MkDT 0 0 0 0 0 fzero (Some n) TDefault).

(** Checked unsigned subtraction: [None] is the debug-build panic. *)
Definition chk_sub (a b : N) : option N := if b <=? a then Some (a - b) else None.

(** src/datetime.rs:1079-1081: [for i in 1..month { days += months[i-1] }]. *)
Definition sum_months (ms : list N) (m : N) : option N :=
  if N.of_nat (length ms) <? m - 1 then None
  else Some (fold_left N.add (firstn (N.to_nat (m - 1)) ms) 0).

(** src/datetime.rs:1051-1104: the whole-day part of the serial number.  u32
    additions cannot overflow for a u16 year (the value is below 2^25); the
    subtractions are checked. *)
Definition serial_days (y m d : N) : option N :=
  if (y =? 1899) && (m =? 12) && (d =? 31) then Some 0
  else if (y =? 1900) && (m =? 1) && (d =? 0) then Some 0
  else if (y =? 1900) && (m =? 2) && (d =? 29) then Some 60
  else
    range <- chk_sub y 1900 ;;
    let leap := is_leap_year y in
    mdays <- sum_months (months leap) m ;;
    let days := mdays + d + range * 365 + range / 4 in
    days <- chk_sub days (range / 100) ;;
    let days := days + (range + 300) / 400 in
    days <- chk_sub days (if leap then 1 else 0) ;;
    Some (if 59 <? days then days + 1 else days).

(** src/datetime.rs:1049 *)
Definition day_fraction (h mi : N) (s : f64) : f64 :=
  fdiv (fadd (fadd (fmul (fmul (f_of_N h) (f_of_N 60)) (f_of_N 60)) (fmul (f_of_N mi) (f_of_N 60))) s)
       (fmul (fmul (f_of_N 24) (f_of_N 60)) (f_of_N 60)).

(** src/datetime.rs:1020-1107.  When the day part is the epoch the code returns
    [seconds] itself, not [0.0 + seconds]. *)
Definition to_excel_from_ymd_hms (dt : exceldt) : option f64 :=
  let '(y, m, d) := if year dt =? 0 then (1899, 12, 31) else (year dt, month dt, day dt) in
  let seconds := day_fraction (hour dt) (minute dt) (sec dt) in
  if (y =? 1899) && (m =? 12) && (d =? 31) then Some seconds
  else if (y =? 1900) && (m =? 1) && (d =? 0) then Some seconds
  else days <- serial_days y m d ;; Some (fadd (f_of_N days) seconds).

(** src/datetime.rs:908-914 *)
Definition to_excel (dt : exceldt) : option f64 :=
  match serial_datetime dt with Some s => Some s | None => to_excel_from_ymd_hms dt end.

(** src/datetime.rs:1211-1218: the month loop. *)
Fixpoint month_loop (ms : list N) (mo days : N) : N * N :=
  match ms with
  | [] => (mo, days)
  | x :: r => if x <? days then month_loop r (mo + 1) (days - x) else (mo, days)
  end.

(** src/datetime.rs:1133-1240, without the final narrowing casts (see
    [from_timestamp]).  All quantities are u64 and far from overflow. *)
Definition unix_time_to_date_parts (ts : N) : N * N * N * (N * N * N) :=
  let days := ts / DAY_SECONDS + 135140 in
  let b400 := days / YEAR_DAYS_400 in
  let days := days mod YEAR_DAYS_400 in
  let '(b100, days) :=
    if days <? YEAR_DAYS_100 then (days / YEAR_DAYS_100, days mod YEAR_DAYS_100)
    else (1 + (days - YEAR_DAYS_100) / (YEAR_DAYS_100 - 1),
          (days - YEAR_DAYS_100) mod (YEAR_DAYS_100 - 1)) in
  let '(b4, days, non_leap_block) :=
    if b100 =? 0 then (days / YEAR_DAYS_4, days mod YEAR_DAYS_4, false)
    else if days <? YEAR_DAYS_4 then (days / (YEAR_DAYS_4 - 1), days mod (YEAR_DAYS_4 - 1), true)
    else (1 + (days - (YEAR_DAYS_4 - 1)) / YEAR_DAYS_4, (days - (YEAR_DAYS_4 - 1)) mod YEAR_DAYS_4, false) in
  let '(b1, days) :=
    if (non_leap_block : bool) then (days / YEAR_DAYS, days mod YEAR_DAYS)
    else if days <? YEAR_DAYS + 1 then (days / (YEAR_DAYS + 1), days mod (YEAR_DAYS + 1))
    else (1 + (days - (YEAR_DAYS + 1)) / YEAR_DAYS, (days - (YEAR_DAYS + 1)) mod YEAR_DAYS) in
  let y := 1600 + b400 * 400 + b100 * 100 + b4 * 4 + b1 in
  let days := days + 1 in
  let '(mo, d) := month_loop (months (is_leap_year y)) 1 days in
  let seconds := ts mod DAY_SECONDS in
  let h := seconds / HOUR_SECONDS in
  let mi := (seconds - h * HOUR_SECONDS) / MINUTE_SECONDS in
  let s := (seconds - h * HOUR_SECONDS - mi * MINUTE_SECONDS) mod MINUTE_SECONDS in
  (y, mo, d, (h, mi, s)).

(** src/datetime.rs:842-877.  [year - 400] is checked; the casts to u16/u8 are
    lossless for the accepted range (written as [mod]). *)
Definition from_timestamp (t : Z) : option (dtres exceldt) :=
  if negb ((-2209075200 <=? t)%Z && (t <? 253402300800)%Z) then Some (Err DateTimeRangeError)
  else
    let '(y, mo, d, (h, mi, s)) := unix_time_to_date_parts (Z.to_N (UNIX_EPOCH_PLUS_400 + t)) in
    y <- chk_sub (y mod 65536) 400 ;;
    let mo := mo mod 256 in let d := d mod 256 in
    let h := h mod 65536 in let mi := mi mod 256 in
    v <- validate_ymd y mo d ;;
    match v with
    | Err e => Some (Err e)
    | Ok _ => match validate_hms mi (f_of_N s) with
              | Err e => Some (Err e)
              | Ok _ => Some (Ok (MkDT y mo d h mi (f_of_N s) None DateAndTime))
              end
    end.
