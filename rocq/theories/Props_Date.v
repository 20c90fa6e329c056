(** Property theorems C11-C13 (dates and times). *)
From Coq Require Import Reals.
From Flocq Require Import Core IEEE754.BinarySingleNaN.
From Verif Require Import Base F64 F64_Proofs Date_Model Date_Spec Date_Proofs Date_Proofs2 Date_Float Date_Parse.
Local Open Scope N_scope.

(** C11: the whole-day part is the number of days since 1899-12-31, plus one
    for Excel's phantom 1900-02-29 from 1900-03-01 on; no intermediate
    subtraction underflows (the result is never [None]). *)
Theorem C11_serial_is_day_count : forall y m d, valid_date y m d -> 1900 <= y ->
  serial_days y m d =
    Some (Z.to_N (let n := days_between 1899 12 31 y m d in if (n <? days_between 1899 12 31 1900 3 1)%Z then n else n + 1)%Z).
Proof.
  intros y m d Hv Hy. rewrite (proj1 (serial_days_spec y m d Hv Hy)). do 2 f_equal. cbv zeta. unfold excel_serial.
  change (days_between 1899 12 31 1900 3 1) with 60%Z.
  destruct (Z.leb_spec 60 (days_between 1899 12 31 y m d)), (Z.ltb_spec (days_between 1899 12 31 y m d) 60); lia.
Qed.
Print Assumptions C11_serial_is_day_count.

Theorem C11_special_days : serial_days 1899 12 31 = Some 0 /\ serial_days 1900 2 29 = Some 60 /\
  serial_days 1900 2 28 = Some 59 /\ serial_days 1900 3 1 = Some 61 /\ serial_days 9999 12 31 = Some 2958465.
Proof. vm_compute. auto. Qed.
Print Assumptions C11_special_days.

(** ... and that is exactly the number written for a date without a time. *)
Theorem C11_date_written_exactly : forall y m d dt, from_ymd y m d = Some (Ok dt) ->
  exists x n, to_excel dt = Some x /\ serial_days y m d = Some n /\ frep x (IZR (Z.of_N n)).
Proof. exact date_only_exact_days. Qed.
Print Assumptions C11_date_written_exactly.

(** Later dates get strictly larger serial numbers, so serials determine dates. *)
Theorem C11_serial_monotone : forall y m d y' m' d',
  valid_date y m d -> valid_date y' m' d' -> 1900 <= y -> 1900 <= y' ->
  (y < y' \/ (y = y' /\ (m < m' \/ (m = m' /\ d < d')))) ->
  exists n n', serial_days y m d = Some n /\ serial_days y' m' d' = Some n' /\ n < n'.
Proof.
  intros y m d y' m' d' H H' Hy Hy' Hlt.
  destruct (serial_days_spec _ _ _ H Hy) as [E B], (serial_days_spec _ _ _ H' Hy') as [E' B'].
  pose proof (excel_serial_mono _ _ _ _ _ _ H H' Hlt). do 2 eexists. split; [exact E|]. split; [exact E'|]. lia.
Qed.
Print Assumptions C11_serial_monotone.

(** The f64 written for a date and a time of day (any accepted hour, minute,
    second, millisecond) is within 2^-29 day (0.2 ms) of the exact value ... *)
Theorem C11_serial_accuracy : forall y m d dt h mi s ms dt',
  from_ymd y m d = Some (Ok dt) -> h < 65536 -> and_hms_milli dt h mi s ms = Ok dt' ->
  exists x v, to_excel dt' = Some x /\ frep x v /\
    (Rabs (v - IZR (total_ms y m d h mi s ms) / 86400000) <= / 2 ^ 29)%R.
Proof. exact milli_accurate. Qed.
Print Assumptions C11_serial_accuracy.

(** ... so instants that differ by at least a millisecond keep their order as
    f64 values. *)
Theorem C11_serial_order : forall y m d dt h mi s ms dt' x y2 m2 d2 dt2 h2 mi2 s2 ms2 dt2' x2,
  from_ymd y m d = Some (Ok dt) -> h < 65536 -> and_hms_milli dt h mi s ms = Ok dt' -> to_excel dt' = Some x ->
  from_ymd y2 m2 d2 = Some (Ok dt2) -> h2 < 65536 -> and_hms_milli dt2 h2 mi2 s2 ms2 = Ok dt2' -> to_excel dt2' = Some x2 ->
  (total_ms y m d h mi s ms < total_ms y2 m2 d2 h2 mi2 s2 ms2)%Z -> flt x x2 = true.
Proof. exact milli_order. Qed.
Print Assumptions C11_serial_order.

Example C11_example : valid_date 2024 2 29 /\ ~ valid_date 2023 2 29 /\ ~ valid_date 1900 2 29 /\
  serial_days 2024 2 29 = Some 45351.
Proof. unfold valid_date. cbn. repeat split; try lia. Qed.

(** C12: timestamps. *)
Theorem C12_timestamp_is_calendar_date : forall t, (-2209075200 <= t < 253402300800)%Z -> exists dt s,
  from_timestamp t = Some (Ok dt) /\
  valid_date (year dt) (month dt) (day dt) /\
  days_between 1970 1 1 (year dt) (month dt) (day dt) = (t / 86400)%Z /\
  hour dt < 24 /\ minute dt < 60 /\ s < 60 /\ sec dt = f_of_N s /\
  Z.of_N (hour dt * 3600 + minute dt * 60 + s) = (t mod 86400)%Z.
Proof.
  intros t Ht. destruct (from_timestamp_spec t Ht) as (dt & s & E & Hv & _ & Hd & Hh & Hmi & Hs & Hsec & Hsum & _).
  exists dt, s. auto 10.
Qed.
Print Assumptions C12_timestamp_is_calendar_date.

(** The date is determined by the day number, so the above pins the fields. *)
Theorem C12_day_count_determines_date : forall y m d y' m' d', valid_date y m d -> valid_date y' m' d' ->
  days_between 1970 1 1 y m d = days_between 1970 1 1 y' m' d' -> y = y' /\ m = m' /\ d = d'.
Proof. intros y m d y' m' d' H H' E. apply day_number_inj; auto. unfold days_between in E. lia. Qed.
Print Assumptions C12_day_count_determines_date.

Theorem C12_timestamp_rejects : forall t, ~ (-2209075200 <= t < 253402300800)%Z ->
  from_timestamp t = Some (Err DateTimeRangeError).
Proof. exact from_timestamp_reject. Qed.
Print Assumptions C12_timestamp_rejects.

(** The serial number of a timestamp is t/86400 days after the Unix epoch
    (serial 25569), one less before 1900-03-01, to within 2^-30 day. *)
Theorem C12_timestamp_serial : forall t, (-2209075200 <= t < 253402300800)%Z -> exists dt x v,
  from_timestamp t = Some (Ok dt) /\ to_excel dt = Some x /\ frep x v /\
  let n := (t / 86400 + 25568)%Z in
  (Rabs (v - (IZR (if (60 <=? n)%Z then n + 1 else n) + IZR (t mod 86400) / 86400)) <= / 2 ^ 30)%R.
Proof. exact timestamp_exact. Qed.
Print Assumptions C12_timestamp_serial.

Theorem C12_timestamp_order : forall t1 t2 dt1 dt2 x1 x2, (t1 < t2)%Z ->
  from_timestamp t1 = Some (Ok dt1) -> from_timestamp t2 = Some (Ok dt2) ->
  to_excel dt1 = Some x1 -> to_excel dt2 = Some x2 -> flt x1 x2 = true.
Proof. exact timestamp_order. Qed.
Print Assumptions C12_timestamp_order.

Example C12_example :
  match from_timestamp 1687108108 with
  | Some (Ok dt) => (year dt, month dt, day dt, hour dt, minute dt) = (2023, 6, 18, 17, 8) /\ sec dt = f_of_N 28
  | _ => False end.
Proof. vm_compute. auto. Qed.

(** C13: validation. *)
Theorem C13_ymd_exact : forall y m d, exists r, from_ymd y m d = Some r /\
  ((exists dt, r = Ok dt) <->
     (1900 <= y <= 9999 /\ valid_date y m d) \/ (y, m, d) = (1900, 2, 29) \/ (y, m, d) = (1899, 12, 31)).
Proof.
  intros y m d. destruct (from_ymd_spec y m d) as (r & E & H & _). exists r. split; [exact E|]. rewrite <- H.
  unfold excel_false_leapday, excel_epoch. split; intros [A|[A|A]]; auto; right.
  - left. destruct A as (-> & -> & ->). reflexivity.
  - right. destruct A as (-> & -> & ->). reflexivity.
  - left. injection A as -> -> ->. auto.
  - right. injection A as -> -> ->. auto.
Qed.
Print Assumptions C13_ymd_exact.

(** Times with integer fields: accepted exactly in the documented ranges
    (minutes 0-60, seconds 0-60, milliseconds 0-999; the hour is free). *)
Theorem C13_hms_milli_exact : forall dt h mi s ms,
  (exists dt', and_hms_milli dt h mi s ms = Ok dt') <-> mi <= 60 /\ s <= 60 /\ ms <= 999.
Proof.
  intros dt h mi s ms. unfold and_hms_milli, validate_hms_milli.
  destruct (60 <? mi) eqn:A; [split; [intros [? E]; discriminate|lia]|].
  destruct (60 <? s) eqn:B; [split; [intros [? E]; discriminate|lia]|].
  destruct (999 <? ms) eqn:C; [split; [intros [? E]; discriminate|lia]|].
  split; [lia|eauto].
Qed.
Print Assumptions C13_hms_milli_exact.

(** and_hms with f64 seconds: upper limits only.  The missing part is the lower
    limit, refuted next. *)
Theorem C13_hms_exact_partial : forall dt h mi s,
  (exists dt', and_hms dt h mi s = Ok dt') <-> mi <= 60 /\ fgt s (f_dec 59999 3) = false.
Proof.
  intros dt h mi s. unfold and_hms, validate_hms.
  destruct (60 <? mi) eqn:A; [split; [intros [? E]; discriminate|lia]|].
  destruct (fgt s (f_dec 59999 3)); [split; [intros [? E]; discriminate|intros [_ ?]; discriminate]|].
  split; [intros _; split; [lia|reflexivity]|eauto].
Qed.
Print Assumptions C13_hms_exact_partial.

(** Refuted: negative and NaN seconds are accepted, and a "midnight minus one
    second" becomes a negative serial number. *)
Theorem C13_seconds_range_refuted :
  (exists dt x, from_hms 0 0 (f_of_Z (-1)) = Ok dt /\ to_excel dt = Some x /\ flt x fzero = true) /\
  (exists dt, from_hms 0 0 fnan = Ok dt).
Proof.
  split.
  - do 2 eexists. split; [vm_compute; reflexivity|]. split; vm_compute; reflexivity.
  - eexists. vm_compute. reflexivity.
Qed.
Print Assumptions C13_seconds_range_refuted.

(** Text dates: "Y-M-D", "Y-M-D H:M:S", "Y-M-DTH:M:SZ" and "H:M:S" mean the
    same as the constructors, parsing never panics ... *)
Theorem C13_parse_datetime : forall pf ty tm td sp th ti ts z dt s,
  all_digits ty -> all_digits tm -> all_digits td -> all_digits th -> all_digits ti -> no_sep ts ->
  undec ty < 65536 -> undec tm < 256 -> undec td < 256 -> undec th < 65536 -> undec ti < 256 ->
  sp = 32 \/ sp = 84 -> z = [90] \/ (z = [] /\ ts <> [] /\ forallb (fun c => negb (is_whitespace c)) ts = true) ->
  pf ts = Some s -> from_ymd (undec ty) (undec tm) (undec td) = Some (Ok dt) ->
  parse_from_str pf (ty ++ 45 :: tm ++ 45 :: td ++ sp :: th ++ 58 :: ti ++ 58 :: ts ++ z) =
    Some (and_hms dt (undec th) (undec ti) s).
Proof. exact parse_datetime. Qed.
Print Assumptions C13_parse_datetime.
Theorem C13_parse_time : forall pf th ti ts s,
  all_digits th -> all_digits ti -> no_sep ts -> undec th < 65536 -> undec ti < 256 ->
  ts <> [] -> forallb (fun c => negb (is_whitespace c)) ts = true -> pf ts = Some s ->
  parse_from_str pf (th ++ 58 :: ti ++ 58 :: ts) = Some (from_hms (undec th) (undec ti) s).
Proof. exact parse_time. Qed.
Print Assumptions C13_parse_time.
Theorem C13_parse_total : forall pf s, exists r, parse_from_str pf s = Some r.
Proof. exact parse_total. Qed.
Print Assumptions C13_parse_total.
(** ... but malformed time fields are silently read as zero instead of being
    rejected. *)
Theorem C13_parse_rejects_garbage_refuted : exists dt,
  parse_from_str (fun _ => None) (lit "2024-01-31Tab:cd:ef") = Some (Ok dt) /\ hour dt = 0 /\ minute dt = 0.
Proof. eexists. vm_compute. auto. Qed.
Print Assumptions C13_parse_rejects_garbage_refuted.

Example C13_example : all_digits (lit "2024") /\ no_sep (lit "45.5") /\ undec (lit "2024") = 2024.
Proof. vm_compute. repeat split; discriminate. Qed.
