(** Validation, timestamps and ordering of ExcelDateTime. *)
From Verif Require Import Base F64 Date_Model Date_Spec Date_Proofs.

Lemma validate_ymd_spec y m d : exists r, validate_ymd y m d = Some r /\
  (r = Ok tt <-> (1900 <= y <= 9999 /\ valid_date y m d) \/ excel_false_leapday y m d \/ excel_epoch y m d) /\
  (r = Ok tt \/ r = Err DateTimeRangeError).
Proof.
  unfold validate_ymd, excel_false_leapday, excel_epoch, valid_date. rewrite is_leap_year_leapb.
  destruct ((9999 <? y) || _) eqn:E1.
  { eexists; split; [reflexivity|]. split; [|auto]. split; [discriminate|]. lia. }
  destruct (negb ((1 <=? m) && (m <=? 12))) eqn:E2.
  { eexists; split; [reflexivity|]. split; [|auto]. split; [discriminate|]. lia. }
  assert (Hm : 1 <= m <= 12) by lia.
  assert (Hn : nth_error (months (leapb y || (y =? 1900))) (N.to_nat (m - 1)) =
               Some (if (y =? 1900) && (m =? 2) then 29 else month_len y m)).
  { destruct (N.eqb_spec y 1900) as [->|Hy].
    - month_split Hm; reflexivity.
    - rewrite orb_false_r. cbn [andb]. month_split Hm; reflexivity. }
  rewrite Hn. clear E2.
  match goal with |- context [if ?b then Some (Err _) else Some (Ok tt)] => exists (if b then Err DateTimeRangeError else Ok tt); split; [destruct b; reflexivity|] end.
  destruct (N.eqb_spec y 1900) as [->|Hy]; cbn [andb].
  - destruct (N.eqb_spec m 2) as [->|Hm2].
    + change (month_len 1900 2) with 28. destruct ((d <? 1) || (29 <? d)) eqn:E3; split; auto; split; try discriminate; try reflexivity; lia.
    + destruct ((d <? 1) || _) eqn:E3; split; auto; split; try discriminate; try reflexivity; lia.
  - destruct ((d <? 1) || _) eqn:E3; split; auto; split; try discriminate; try reflexivity.
    + intros [H|[H|(-> & -> & ->)]]; [lia|lia|]. cbn in E3. discriminate.
    + intros _. destruct (N.leb_spec 1900 y) as [Hy2|Hy2]; [left; lia|right; right]. lia.
Qed.

Lemma from_ymd_spec y m d : exists r, from_ymd y m d = Some r /\
  (((1900 <= y <= 9999 /\ valid_date y m d) \/ excel_false_leapday y m d \/ excel_epoch y m d) <->
     exists dt, r = Ok dt) /\
  (forall dt, r = Ok dt -> year dt = y /\ month dt = m /\ day dt = d /\ hour dt = 0 /\ minute dt = 0 /\ sec dt = fzero /\ serial_datetime dt = None).
Proof.
  unfold from_ymd. destruct (validate_ymd_spec y m d) as (r & -> & Hr & Hc). cbn [obind].
  eexists; split; [reflexivity|]. rewrite <- Hr. destruct Hc as [-> | ->].
  - split; [split; [eauto|reflexivity]|]. intros dt E; injection E as <-. cbn; auto 10.
  - split; [split; [discriminate|intros [? E]; discriminate]|discriminate].
Qed.

(** Day numbers are ordered as dates are. *)
Definition date_lt (y m d y' m' d' : N) : Prop :=
  y < y' \/ (y = y' /\ (m < m' \/ (m = m' /\ d < d'))).

Lemma year_start_mono y y' : y < y' -> year_start y + year_len y <= year_start y'.
Proof.
  intros H. rewrite <- year_start_succ.
  assert (Hd : exists k, y' = N.succ y + k) by (exists (y' - N.succ y); lia). destruct Hd as [k ->].
  clear H. induction k as [|k IH] using N.peano_ind; [rewrite N.add_0_r; reflexivity|].
  rewrite N.add_succ_r, (year_start_succ (N.succ y + k)). etransitivity; [exact IH|apply N.le_add_r].
Qed.
Lemma month_start_mono y m m' : m < m' -> month_start y m + month_len y m <= month_start y m'.
Proof.
  intros H. rewrite <- month_start_succ.
  assert (Hd : exists k, m' = N.succ m + k) by (exists (m' - N.succ m); lia). destruct Hd as [k ->].
  clear H. induction k as [|k IH] using N.peano_ind; [rewrite N.add_0_r; reflexivity|].
  rewrite N.add_succ_r, (month_start_succ y (N.succ m + k)). etransitivity; [exact IH|apply N.le_add_r].
Qed.
Lemma day_number_mono y m d y' m' d' : valid_date y m d -> valid_date y' m' d' ->
  date_lt y m d y' m' d' -> (day_number y m d < day_number y' m' d')%Z.
Proof.
  intros [Hm Hd] [Hm' Hd'] Hlt. unfold day_number.
  destruct Hlt as [H|(-> & [H|(-> & H)])].
  - pose proof (year_start_mono _ _ H). pose proof (month_end_le y m Hm). lia.
  - pose proof (month_start_mono y' _ _ H). lia.
  - lia.
Qed.
Lemma date_lt_total y m d y' m' d' : date_lt y m d y' m' d' \/ date_lt y' m' d' y m d \/ (y = y' /\ m = m' /\ d = d').
Proof. unfold date_lt. lia. Qed.
Lemma day_number_inj y m d y' m' d' : valid_date y m d -> valid_date y' m' d' ->
  day_number y m d = day_number y' m' d' -> y = y' /\ m = m' /\ d = d'.
Proof.
  intros H H' E. destruct (date_lt_total y m d y' m' d') as [Hl|[Hl|He]]; [| |assumption].
  - pose proof (day_number_mono _ _ _ _ _ _ H H' Hl). lia.
  - pose proof (day_number_mono _ _ _ _ _ _ H' H Hl). lia.
Qed.

Lemma excel_serial_mono y m d y' m' d' : valid_date y m d -> valid_date y' m' d' ->
  date_lt y m d y' m' d' -> (excel_serial y m d < excel_serial y' m' d')%Z.
Proof.
  intros H H' Hl. pose proof (day_number_mono _ _ _ _ _ _ H H' Hl).
  unfold excel_serial, days_between. destruct (60 <=? _)%Z eqn:E1, (60 <=? day_number y' m' d' - _)%Z eqn:E2; lia.
Qed.

Lemma day_number_dec31 y : (day_number y 12 31 + 1 = day_number (N.succ y) 1 1)%Z.
Proof.
  unfold day_number. rewrite year_start_succ.
  assert (E : month_start (N.succ y) 1 = 0) by reflexivity. rewrite E.
  assert (E2 : month_start y 12 + 31 = year_len y). { rewrite month_start_vals by lia. unfold year_len. destruct (leapb y); reflexivity. }
  lia.
Qed.

Lemma dn_1970 : day_number 1970 1 1 = 719529%Z.
Proof. unfold day_number. rewrite (proj1 (year_start_closed 1970)). reflexivity. Qed.

Lemma day_number_off y a m d : day_number (400 * a + y) m d = (146097 * Z.of_N a + day_number y m d)%Z.
Proof. unfold day_number. rewrite year_start_off, month_start_off. lia. Qed.

(** Timestamps. *)
Definition ts_in_range (t : Z) : Prop := (-2209075200 <= t < 253402300800)%Z.

Lemma ts_year_bounds y m d n : valid_date y m d -> day_number y m d = n ->
  (day_number 1899 12 31 <= n <= day_number 9999 12 31)%Z ->
  (1900 <= y <= 9999) \/ excel_epoch y m d.
Proof.
  intros Hv E [H1 H2].
  assert (Hv1 : valid_date 1899 12 31) by (unfold valid_date; cbn; lia).
  assert (Hv2 : valid_date 9999 12 31) by (unfold valid_date; cbn; lia).
  destruct (date_lt_total 9999 12 31 y m d) as [Hl|Hl2].
  { pose proof (day_number_mono _ _ _ _ _ _ Hv2 Hv Hl). lia. }
  destruct (date_lt_total y m d 1899 12 31) as [Hl|[Hl|Hl]].
  { pose proof (day_number_mono _ _ _ _ _ _ Hv Hv1 Hl). lia. }
  - left. unfold date_lt in *. destruct Hv as [Hm Hd]. pose proof (month_len_bounds y m Hm). split; [|lia].
    destruct Hl as [?|(<- & [?|(<- & ?)])]; [lia|lia|]. cbn in Hd. lia.
  - right. destruct Hl as (-> & -> & ->). unfold excel_epoch; auto.
Qed.

Lemma ts_div t : (-12622780800 <= t)%Z ->
  Z.of_N (Z.to_N (UNIX_EPOCH_PLUS_400 + t) / 86400) = (146097 + t / 86400)%Z /\
  Z.of_N (Z.to_N (UNIX_EPOCH_PLUS_400 + t) mod 86400) = (t mod 86400)%Z.
Proof.
  intros H. unfold UNIX_EPOCH_PLUS_400. rewrite N2Z.inj_div, N2Z.inj_mod, Z2N.id by lia.
  change (Z.of_N 86400) with 86400%Z. replace (12622780800 + t)%Z with (t + 146097 * 86400)%Z by lia.
  rewrite Z.div_add, Z.mod_add by lia. split; lia.
Qed.

Lemma from_timestamp_spec t : ts_in_range t -> exists dt s,
  from_timestamp t = Some (Ok dt) /\
  valid_date (year dt) (month dt) (day dt) /\
  (1900 <= year dt <= 9999 \/ excel_epoch (year dt) (month dt) (day dt)) /\
  days_between 1970 1 1 (year dt) (month dt) (day dt) = (t / 86400)%Z /\
  hour dt < 24 /\ minute dt < 60 /\ s < 60 /\ sec dt = f_of_N s /\
  Z.of_N (hour dt * 3600 + minute dt * 60 + s) = (t mod 86400)%Z /\
  serial_datetime dt = None.
Proof.
  intros Ht. unfold ts_in_range in Ht. unfold from_timestamp.
  replace (negb _) with false by lia.
  destruct (unix_parts_spec (Z.to_N (UNIX_EPOCH_PLUS_400 + t))) as (y & m & d & h & mi & s & -> & Hy & Hv & Hdn & Hh & Hmi & Hs & Hsec).
  destruct (ts_div t ltac:(lia)) as [Ed Em]. rewrite Ed in Hdn. rewrite <- Em, <- Hsec. clear Ed Em Hsec.
  assert (Hr : (-25568 <= t / 86400 <= 2932896)%Z) by (clear - Ht; lia).
  revert Hdn Hr. generalize (t / 86400)%Z. clear Ht t. intros n Hdn Hr.
  assert (Hyy : exists y0, y = 400 * 1 + y0) by (exists (y - 400); lia). destruct Hyy as [y0 ->].
  rewrite day_number_off in Hdn. rewrite dn_1970 in Hdn.
  assert (Hdn0 : day_number y0 m d = (n + 719529)%Z) by lia. clear Hdn.
  assert (Hv0 : valid_date y0 m d) by (unfold valid_date in *; rewrite month_len_off in Hv; exact Hv).
  assert (E9 : day_number 9999 12 31 = 3652425%Z).
  { unfold day_number. rewrite (proj1 (year_start_closed 9999)), month_start_vals by lia. reflexivity. }
  assert (Hb : 1900 <= y0 <= 9999 \/ excel_epoch y0 m d).
  { apply (ts_year_bounds _ _ _ _ Hv0 Hdn0). rewrite epoch_val, E9. lia. }
  assert (Hy0 : y0 <= 9999) by (unfold excel_epoch in Hb; lia).
  pose proof Hv0 as [Hm Hd]. pose proof (month_len_bounds y0 m Hm).
  rewrite (N.mod_small (400 * 1 + y0)), !N.mod_small by lia. unfold chk_sub.
  replace (400 <=? 400 * 1 + y0) with true by lia. cbn [obind]. replace (400 * 1 + y0 - 400) with y0 by lia.
  destruct (validate_ymd_spec y0 m d) as (r & -> & Hr' & _). cbn [obind].
  rewrite (proj2 Hr') by tauto. unfold validate_hms. replace (60 <? mi) with false by lia. rewrite f_of_N_small by assumption.
  do 2 eexists. split; [reflexivity|]. cbn [year month day hour minute sec serial_datetime].
  split; [assumption|]. split; [assumption|]. split; [unfold days_between; rewrite dn_1970; lia|].
  split; [assumption|]. split; [assumption|]. split; [exact Hs|]. split; [reflexivity|]. split; reflexivity.
Qed.

Lemma from_timestamp_reject t : ~ ts_in_range t -> from_timestamp t = Some (Err DateTimeRangeError).
Proof. unfold ts_in_range, from_timestamp. intros H. replace (negb _) with true by lia. reflexivity. Qed.
