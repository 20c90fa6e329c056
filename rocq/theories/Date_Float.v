(** The f64 serial number: accuracy and ordering. *)
From Coq Require Import Reals Lra Psatz.
From Flocq Require Import Core IEEE754.BinarySingleNaN.
From Verif Require Import Base F64 F64_Proofs Date_Model Date_Spec Date_Proofs Date_Proofs2.
Local Open Scope R_scope.

Definition accepted_date (y m d : N) : Prop :=
  y = 0%N \/ (1900 <= y <= 9999 /\ valid_date y m d)%N \/ excel_false_leapday y m d \/ excel_epoch y m d.

Lemma excel_serial_upper y m d : (1900 <= y <= 9999)%N -> valid_date y m d -> (1 <= excel_serial y m d <= 2958465)%Z.
Proof.
  intros Hy Hv. pose proof (proj2 (serial_days_spec y m d Hv (proj1 Hy))) as H1. split; [exact H1|].
  assert (Hv2 : valid_date 9999 12 31) by (unfold valid_date; cbn; lia).
  assert (E9 : excel_serial 9999 12 31 = 2958465%Z).
  { unfold excel_serial, days_between. rewrite epoch_val. unfold day_number.
    rewrite (proj1 (year_start_closed 9999)), month_start_vals by lia. reflexivity. }
  destruct (date_lt_total y m d 9999 12 31) as [Hl|[Hl|(-> & -> & ->)]].
  - pose proof (excel_serial_mono _ _ _ _ _ _ Hv Hv2 Hl). lia.
  - exfalso. destruct Hv as [Hm Hd]. pose proof (month_len_bounds y m Hm). unfold date_lt in Hl.
    destruct Hl as [?|(<- & [?|(<- & ?)])]; [lia|lia|]. cbn in Hd. lia.
  - lia.
Qed.

Lemma serial_day_bounds y m d : accepted_date y m d -> (0 <= serial_day y m d <= 2958465)%Z.
Proof.
  intros H. unfold serial_day. destruct (_ || _)%bool eqn:E1; [lia|]. destruct ((y =? 1900)%N && _ && _)%bool eqn:E2; [lia|].
  destruct H as [->|[[Hy Hv]|[H|H]]].
  - cbn in E1. discriminate.
  - pose proof (excel_serial_upper y m d Hy Hv). lia.
  - unfold excel_false_leapday in H. lia.
  - unfold excel_epoch in H. lia.
Qed.

Lemma to_excel_shape dt : accepted_date (year dt) (month dt) (day dt) -> serial_datetime dt = None ->
  let q := day_fraction (hour dt) (minute dt) (sec dt) in
  let n := serial_day (year dt) (month dt) (day dt) in
  to_excel dt = Some q /\ n = 0%Z \/ to_excel dt = Some (fadd (f_of_N (Z.to_N n)) q).
Proof.
  intros Ha Hs q n. unfold to_excel. rewrite Hs. unfold to_excel_from_ymd_hms. fold q. unfold n, serial_day.
  destruct (N.eqb_spec (year dt) 0) as [E0|E0]; [left; split; reflexivity|].
  cbn [orb]. destruct ((year dt =? 1899) && (month dt =? 12) && (day dt =? 31))%N eqn:E1; [left; split; reflexivity|].
  right. destruct ((year dt =? 1900) && (month dt =? 1) && (day dt =? 0))%N eqn:E2.
  { exfalso. destruct Ha as [H|[[H [H1 H2]]|[H|H]]]; unfold excel_false_leapday, excel_epoch in *; lia. }
  destruct ((year dt =? 1900) && (month dt =? 2) && (day dt =? 29))%N eqn:E3.
  - unfold serial_days. rewrite E1, E2, E3. reflexivity.
  - destruct Ha as [H|[[Hy Hv]|[H|H]]]; [contradiction| |unfold excel_false_leapday in H; lia|unfold excel_epoch in H; lia].
    destruct (serial_days_spec _ _ _ Hv (proj1 Hy)) as [-> _]. reflexivity.
Qed.

Lemma day_fraction_rep h mi s r : (h < 65536)%N -> (mi <= 60)%N -> frep s r -> 0 <= r <= 61 ->
  exists q, frep (day_fraction h mi s) q /\
    Rabs (q - (IZR (Z.of_N (h * 3600 + mi * 60)) + r) / 86400) <= / 2 ^ 36 /\ 0 <= q <= 2732.
Proof.
  intros Hh Hmi Hs Hr. unfold day_fraction.
  assert (Hmulint : forall a b, frep (f_of_N a) (IZR (Z.of_N a)) -> (Z.of_N a * Z.of_N b <= 2 ^ 53)%Z -> (Z.of_N b <= 2^53)%Z ->
     frep (fmul (f_of_N a) (f_of_N b)) (IZR (Z.of_N (a * b)))).
  { intros a b Ha Hab Hb.
    replace (IZR (Z.of_N (a * b))) with (rnd (IZR (Z.of_N a) * IZR (Z.of_N b))).
    - apply fmul_rep with (e := 53%Z); [assumption|apply f_of_N_rep; assumption|lia|].
      rewrite <- mult_IZR, <- abs_IZR. change (bpow radix2 53) with (IZR (2 ^ 53)). apply IZR_le. lia.
    - rewrite <- mult_IZR, rnd_int by lia. rewrite N2Z.inj_mul. reflexivity. }
  assert (Hmulint2 : forall x a b, frep x (IZR (Z.of_N a)) -> (Z.of_N a * Z.of_N b <= 2 ^ 53)%Z -> (Z.of_N b <= 2^53)%Z ->
     frep (fmul x (f_of_N b)) (IZR (Z.of_N (a * b)))).
  { intros x a b Ha Hab Hb.
    replace (IZR (Z.of_N (a * b))) with (rnd (IZR (Z.of_N a) * IZR (Z.of_N b))).
    - apply fmul_rep with (e := 53%Z); [assumption|apply f_of_N_rep; assumption|lia|].
      rewrite <- mult_IZR, <- abs_IZR. change (bpow radix2 53) with (IZR (2 ^ 53)). apply IZR_le. lia.
    - rewrite <- mult_IZR, rnd_int by lia. rewrite N2Z.inj_mul. reflexivity. }
  pose proof (Hmulint2 _ h 60%N (f_of_N_rep h ltac:(lia)) ltac:(lia) ltac:(lia)) as H1.
  pose proof (Hmulint2 _ (h * 60)%N 60%N H1 ltac:(lia) ltac:(lia)) as H2. clear H1.
  pose proof (Hmulint2 _ mi 60%N (f_of_N_rep mi ltac:(lia)) ltac:(lia) ltac:(lia)) as H3.
  pose proof (Hmulint2 _ 24%N 60%N (f_of_N_rep 24 ltac:(lia)) ltac:(lia) ltac:(lia)) as H4.
  pose proof (Hmulint2 _ (24 * 60)%N 60%N H4 ltac:(lia) ltac:(lia)) as H5. clear H4 Hmulint Hmulint2.
  replace (IZR (Z.of_N (24 * 60 * 60))) with 86400 in H5 by reflexivity.
  replace (Z.of_N (h * 60 * 60)) with (Z.of_N (h * 3600)) in H2 by lia.
  set (Hm := Z.of_N (h * 3600 + mi * 60)).
  assert (HHm : (0 <= Hm <= 235929600)%Z) by (unfold Hm; lia).
  assert (H6 : frep (fadd (fmul (fmul (f_of_N h) (f_of_N 60)) (f_of_N 60)) (fmul (f_of_N mi) (f_of_N 60))) (IZR Hm)).
  { replace (IZR Hm) with (rnd (IZR (Z.of_N (h * 3600)) + IZR (Z.of_N (mi * 60)))).
    - apply fadd_rep with (e := 53%Z); [assumption|assumption|lia|].
      rewrite <- plus_IZR, <- abs_IZR. change (bpow radix2 53) with (IZR (2 ^ 53)). apply IZR_le. lia.
    - rewrite <- plus_IZR, rnd_int by lia. f_equal. unfold Hm. lia. }
  assert (HR : 0 <= IZR Hm <= 235929600) by (split; apply IZR_le; lia).
  assert (Hb28 : bpow radix2 28 = 268435456) by reflexivity.
  assert (Habs1 : Rabs (IZR Hm + r) <= bpow radix2 28) by (rewrite Rabs_pos_eq, Hb28; lra).
  pose proof (fadd_rep _ _ _ _ 28 H6 Hs ltac:(lia) Habs1) as H7.
  pose proof (rnd_err _ 28 ltac:(lia) Habs1) as Err1.
  change (bpow radix2 (28 - 53)) with (/ IZR (2 ^ 25)) in Err1.
  set (T := rnd (IZR Hm + r)) in *.
  assert (HT0 : 0 <= T).
  { unfold T. rewrite <- (round_0 radix2 (SpecFloat.fexp 53 1024) (round_mode mode_NE)). apply round_le; [typeclasses eauto|typeclasses eauto|lra]. }
  assert (HTe : Rabs (T - (IZR Hm + r)) <= / 33554432) by exact Err1.
  apply Rabs_le_inv in HTe.
  assert (Hb12 : bpow radix2 12 = 4096) by reflexivity.
  assert (Hq0 : 0 <= T / 86400 <= 2731.5).
  { split; [apply Rmult_le_pos; lra|]. apply Rmult_le_reg_r with 86400; [lra|]. unfold Rdiv. rewrite Rmult_assoc, Rinv_l by lra. lra. }
  assert (Habs2 : Rabs (T / 86400) <= bpow radix2 12) by (rewrite Rabs_pos_eq, Hb12; lra).
  pose proof (fdiv_rep _ _ _ _ 12 H7 H5 ltac:(lra) ltac:(lia) Habs2) as H8.
  pose proof (rnd_err _ 12 ltac:(lia) Habs2) as Err2. change (bpow radix2 (12 - 53)) with (/ IZR (2 ^ 41)) in Err2.
  exists (rnd (T / 86400)). split; [exact H8|].
  assert (Err3 : Rabs (rnd (T / 86400) - T / 86400) <= / 2199023255552) by exact Err2. clear Err2.
  apply Rabs_le_inv in Err3.
  assert (HT86 : - / 33554432 / 86400 <= T / 86400 - (IZR Hm + r) / 86400 <= / 33554432 / 86400).
  { replace (T / 86400 - (IZR Hm + r) / 86400) with ((T - (IZR Hm + r)) / 86400) by (field).
    split; apply Rmult_le_compat_r; lra. }
  split.
  - apply Rabs_le. split; [|]; lra.
  - split; [|lra]. rewrite <- (round_0 radix2 (SpecFloat.fexp 53 1024) (round_mode mode_NE)).
    apply round_le; [typeclasses eauto|typeclasses eauto|lra].
Qed.

(** Accuracy: the serial number written is within 2^-30 day (< 0.1 ms) of the
    exact day count plus time of day. *)
Lemma to_excel_accurate dt r : accepted_date (year dt) (month dt) (day dt) -> serial_datetime dt = None ->
  (hour dt < 65536)%N -> (minute dt <= 60)%N -> frep (sec dt) r -> 0 <= r <= 61 ->
  exists x v, to_excel dt = Some x /\ frep x v /\
    Rabs (v - (IZR (serial_day (year dt) (month dt) (day dt)) + (IZR (Z.of_N (hour dt * 3600 + minute dt * 60)) + r) / 86400)) <= / 2 ^ 30.
Proof.
  intros Ha Hs Hh Hmi Hsr Hr.
  destruct (day_fraction_rep _ _ _ _ Hh Hmi Hsr Hr) as (q & Hq & He & Hqb).
  pose proof (serial_day_bounds _ _ _ Ha) as Hn.
  destruct (to_excel_shape dt Ha Hs) as [[E0 En]| E0]; cbv zeta in E0.
  - exists (day_fraction (hour dt) (minute dt) (sec dt)), q. split; [exact E0|]. split; [exact Hq|].
    rewrite En, Rplus_0_l. lra.
  - set (n := serial_day (year dt) (month dt) (day dt)) in *.
    pose proof (f_of_N_rep (Z.to_N n) ltac:(lia)) as Hnr. rewrite Z2N.id in Hnr by lia.
    assert (HnR : 0 <= IZR n <= 2958465) by (split; apply IZR_le; lia).
    assert (Hb22 : bpow radix2 22 = 4194304) by reflexivity.
    assert (Habs : Rabs (IZR n + q) <= bpow radix2 22) by (rewrite Rabs_pos_eq, Hb22; lra).
    pose proof (fadd_rep _ _ _ _ 22 Hnr Hq ltac:(lia) Habs) as Hx.
    pose proof (rnd_err _ 22 ltac:(lia) Habs) as Err. change (bpow radix2 (22 - 53)) with (/ IZR (2 ^ 31)) in Err.
    assert (Err' : Rabs (rnd (IZR n + q) - (IZR n + q)) <= / 2147483648) by exact Err. clear Err.
    do 2 eexists. split; [exact E0|]. split; [exact Hx|].
    apply Rabs_le_inv in Err'. apply Rabs_le_inv in He. apply Rabs_le. lra.
Qed.

(** Ordering of whole-second timestamps. *)
Lemma serial_day_timestamp t dt : (exists y m d, year dt = y /\ month dt = m /\ day dt = d /\
   valid_date y m d /\ ((1900 <= y <= 9999)%N \/ excel_epoch y m d) /\ days_between 1970 1 1 y m d = (t / 86400)%Z) ->
  serial_day (year dt) (month dt) (day dt) = (let n := t / 86400 + 25568 in if 60 <=? n then n + 1 else n)%Z /\
  accepted_date (year dt) (month dt) (day dt).
Proof.
  intros (y & m & d & -> & -> & -> & Hv & Hy & Hd). split.
  - unfold serial_day. unfold days_between in Hd. rewrite dn_1970 in Hd.
    destruct Hy as [Hy|Hy].
    + replace (y =? 0)%N with false by lia. replace (y =? 1899)%N with false by lia. cbn [andb orb].
      destruct ((y =? 1900) && (m =? 2) && (d =? 29))%N eqn:E.
      { exfalso. assert (y = 1900 /\ m = 2 /\ d = 29)%N as (-> & -> & ->) by lia. destruct Hv as [_ Hv]. cbn in Hv. lia. }
      unfold excel_serial, days_between. rewrite epoch_val. 
      replace (day_number y m d - 693961)%Z with (t / 86400 + 25568)%Z by lia. reflexivity.
    + destruct Hy as (-> & -> & ->). rewrite epoch_val in Hd.
      replace (t / 86400 + 25568)%Z with 0%Z by lia. reflexivity.
  - unfold accepted_date. destruct Hy as [Hy|Hy]; auto.
Qed.

Lemma timestamp_exact t : ts_in_range t -> exists dt x v,
  from_timestamp t = Some (Ok dt) /\ to_excel dt = Some x /\ frep x v /\
  let n := (t / 86400 + 25568)%Z in
  Rabs (v - (IZR (if (60 <=? n)%Z then n + 1 else n) + IZR (t mod 86400) / 86400)) <= / 2 ^ 30.
Proof.
  intros Ht. destruct (from_timestamp_spec t Ht) as (dt & s & E & Hv & Hy & Hd & Hh & Hmi & Hs & Hsec & Hsum & Hser).
  destruct (serial_day_timestamp t dt) as [Esd Hacc]; [eauto 12|].
  assert (Hsr : frep (sec dt) (IZR (Z.of_N s))) by (rewrite Hsec; apply f_of_N_rep; lia).
  assert (Hr : 0 <= IZR (Z.of_N s) <= 61) by (split; apply IZR_le; lia).
  destruct (to_excel_accurate dt _ Hacc Hser ltac:(lia) ltac:(lia) Hsr Hr) as (x & v & Ex & Hx & He).
  exists dt, x, v. split; [exact E|]. split; [exact Ex|]. split; [exact Hx|].
  cbv zeta. rewrite <- Hsum. rewrite Esd in He. cbv zeta in He.
  rewrite <- plus_IZR in He. rewrite <- N2Z.inj_add in He. exact He.
Qed.

Lemma timestamp_order t1 t2 dt1 dt2 x1 x2 : (t1 < t2)%Z ->
  from_timestamp t1 = Some (Ok dt1) -> from_timestamp t2 = Some (Ok dt2) ->
  to_excel dt1 = Some x1 -> to_excel dt2 = Some x2 -> flt x1 x2 = true.
Proof.
  intros Hlt E1 E2 X1 X2.
  assert (Hr : forall t dt, from_timestamp t = Some (Ok dt) -> ts_in_range t).
  { intros t dt E. unfold from_timestamp in E. unfold ts_in_range.
    destruct (negb _) eqn:En in E; [discriminate|]. lia. }
  destruct (timestamp_exact t1 (Hr _ _ E1)) as (dt1' & x1' & v1 & E1' & X1' & R1 & H1).
  destruct (timestamp_exact t2 (Hr _ _ E2)) as (dt2' & x2' & v2 & E2' & X2' & R2 & H2).
  rewrite E1 in E1'. injection E1' as <-. rewrite E2 in E2'. injection E2' as <-.
  rewrite X1 in X1'. injection X1' as <-. rewrite X2 in X2'. injection X2' as <-.
  rewrite (flt_rep _ _ _ _ R1 R2). apply Rlt_bool_true.
  cbv zeta in H1, H2. apply Rabs_le_inv in H1. apply Rabs_le_inv in H2.
  set (n1 := if (60 <=? t1 / 86400 + 25568)%Z then (t1 / 86400 + 25568 + 1)%Z else (t1 / 86400 + 25568)%Z) in *.
  set (n2 := if (60 <=? t2 / 86400 + 25568)%Z then (t2 / 86400 + 25568 + 1)%Z else (t2 / 86400 + 25568)%Z) in *.
  assert (Hgap : (n1 * 86400 + t1 mod 86400 + 1 <= n2 * 86400 + t2 mod 86400)%Z).
  { unfold n1, n2. clear - Hlt. destruct (60 <=? t1 / 86400 + 25568)%Z eqn:Ea, (60 <=? t2 / 86400 + 25568)%Z eqn:Eb; lia. }
  apply IZR_le in Hgap. rewrite !plus_IZR, !mult_IZR in Hgap.
  assert (Hg2 : IZR n1 + IZR (t1 mod 86400) / 86400 + / 86400 <= IZR n2 + IZR (t2 mod 86400) / 86400) by lra.
  lra.
Qed.

(** Seconds with milliseconds. *)
Lemma milli_sec_rep s ms : (s <= 60)%N -> (ms <= 999)%N ->
  exists r, frep (fadd (f_of_N s) (fdiv (f_of_N ms) (f_of_N 1000))) r /\
    Rabs (r - (IZR (Z.of_N s) + IZR (Z.of_N ms) / 1000)) <= / 2 ^ 40 /\ 0 <= r <= 61.
Proof.
  intros Hs Hms.
  assert (HsR : 0 <= IZR (Z.of_N s) <= 60) by (split; apply IZR_le; lia).
  assert (HmR : 0 <= IZR (Z.of_N ms) <= 999) by (split; apply IZR_le; lia).
  pose proof (f_of_N_rep s ltac:(lia)) as H1. pose proof (f_of_N_rep ms ltac:(lia)) as H2.
  pose proof (f_of_N_rep 1000 ltac:(lia)) as H3. replace (IZR (Z.of_N 1000)) with 1000 in H3 by reflexivity.
  assert (Hq : 0 <= IZR (Z.of_N ms) / 1000 <= 0.999) by lra.
  assert (Hb0 : bpow radix2 0 = 1) by reflexivity.
  assert (A1 : Rabs (IZR (Z.of_N ms) / 1000) <= bpow radix2 0) by (rewrite Rabs_pos_eq, Hb0; lra).
  pose proof (fdiv_rep _ _ _ _ 0 H2 H3 ltac:(lra) ltac:(lia) A1) as H4.
  pose proof (rnd_err _ 0 ltac:(lia) A1) as E1. change (bpow radix2 (0 - 53)) with (/ IZR (2 ^ 53)) in E1.
  assert (E1' : Rabs (rnd (IZR (Z.of_N ms) / 1000) - IZR (Z.of_N ms) / 1000) <= / 9007199254740992) by exact E1. clear E1.
  assert (Hq0 : 0 <= rnd (IZR (Z.of_N ms) / 1000)).
  { rewrite <- (round_0 radix2 (SpecFloat.fexp 53 1024) (round_mode mode_NE)). apply round_le; [typeclasses eauto|typeclasses eauto|lra]. }
  set (q := rnd (IZR (Z.of_N ms) / 1000)) in *. apply Rabs_le_inv in E1'.
  assert (Hb6 : bpow radix2 6 = 64) by reflexivity.
  assert (A2 : Rabs (IZR (Z.of_N s) + q) <= bpow radix2 6) by (rewrite Rabs_pos_eq, Hb6; lra).
  pose proof (fadd_rep _ _ _ _ 6 H1 H4 ltac:(lia) A2) as H5.
  pose proof (rnd_err _ 6 ltac:(lia) A2) as E2. change (bpow radix2 (6 - 53)) with (/ IZR (2 ^ 47)) in E2.
  assert (E2' : Rabs (rnd (IZR (Z.of_N s) + q) - (IZR (Z.of_N s) + q)) <= / 140737488355328) by exact E2. clear E2.
  exists (rnd (IZR (Z.of_N s) + q)). split; [exact H5|]. apply Rabs_le_inv in E2'.
  split; [apply Rabs_le; lra|]. split; [|lra].
  rewrite <- (round_0 radix2 (SpecFloat.fexp 53 1024) (round_mode mode_NE)). apply round_le; [typeclasses eauto|typeclasses eauto|lra].
Qed.

Lemma milli_accurate y m d dt h mi s ms dt' :
  from_ymd y m d = Some (Ok dt) -> (h < 65536)%N -> and_hms_milli dt h mi s ms = Ok dt' ->
  exists x v, to_excel dt' = Some x /\ frep x v /\ Rabs (v - IZR (total_ms y m d h mi s ms) / 86400000) <= / 2 ^ 29.
Proof.
  intros Hymd Hh Hand. unfold and_hms_milli, validate_hms_milli in Hand.
  destruct (60 <? mi)%N eqn:B1; [discriminate|]. destruct (60 <? s)%N eqn:B2; [discriminate|].
  destruct (999 <? ms)%N eqn:B3; [discriminate|]. injection Hand as <-.
  destruct (from_ymd_spec y m d) as (r & E & Hacc & Hf). rewrite E in Hymd. injection Hymd as ->.
  destruct (Hf _ eq_refl) as (<- & <- & <- & _ & _ & _ & Hser).
  assert (Ha : accepted_date (year dt) (month dt) (day dt)).
  { unfold accepted_date. right. apply Hacc. eauto. }
  destruct (milli_sec_rep s ms ltac:(lia) ltac:(lia)) as (r & Hr & Her & Hrb).
  set (dt' := MkDT _ _ _ _ _ _ _ _).
  destruct (to_excel_accurate dt' r Ha Hser Hh ltac:(cbn; lia) Hr Hrb) as (x & v & Ex & Hx & He).
  exists x, v. split; [exact Ex|]. split; [exact Hx|]. cbn [year month day hour minute dt'] in He.
  unfold total_ms. rewrite plus_IZR, mult_IZR.
  replace (IZR (Z.of_N (h * 3600000 + mi * 60000 + s * 1000 + ms))) with
    (1000 * IZR (Z.of_N (h * 3600 + mi * 60)) + 1000 * IZR (Z.of_N s) + IZR (Z.of_N ms)).
  2:{ rewrite <- !mult_IZR, <- !plus_IZR. f_equal. lia. }
  apply Rabs_le_inv in He. apply Rabs_le_inv in Her. apply Rabs_le. lra.
Qed.

Lemma milli_order y m d dt h mi s ms dt' x y2 m2 d2 dt2 h2 mi2 s2 ms2 dt2' x2 :
  from_ymd y m d = Some (Ok dt) -> (h < 65536)%N -> and_hms_milli dt h mi s ms = Ok dt' -> to_excel dt' = Some x ->
  from_ymd y2 m2 d2 = Some (Ok dt2) -> (h2 < 65536)%N -> and_hms_milli dt2 h2 mi2 s2 ms2 = Ok dt2' -> to_excel dt2' = Some x2 ->
  (total_ms y m d h mi s ms < total_ms y2 m2 d2 h2 mi2 s2 ms2)%Z -> flt x x2 = true.
Proof.
  intros H1 H2 H3 X1 K1 K2 K3 X2 Hlt.
  destruct (milli_accurate _ _ _ _ _ _ _ _ _ H1 H2 H3) as (x' & v & E & R1 & A1). rewrite X1 in E. injection E as <-.
  destruct (milli_accurate _ _ _ _ _ _ _ _ _ K1 K2 K3) as (x' & v2 & E & R2 & A2). rewrite X2 in E. injection E as <-.
  rewrite (flt_rep _ _ _ _ R1 R2). apply Rlt_bool_true.
  apply Rabs_le_inv in A1. apply Rabs_le_inv in A2.
  assert (Hg : (total_ms y m d h mi s ms + 1 <= total_ms y2 m2 d2 h2 mi2 s2 ms2)%Z) by lia.
  apply IZR_le in Hg. rewrite plus_IZR in Hg. lra.
Qed.

(** A date without a time is written as exactly its day number. *)
Lemma date_only_exact y m d dt : from_ymd y m d = Some (Ok dt) ->
  exists x, to_excel dt = Some x /\ frep x (IZR (serial_day y m d)).
Proof.
  intros Hymd. destruct (from_ymd_spec y m d) as (r & E & Hacc & Hf). rewrite E in Hymd. injection Hymd as ->.
  destruct (Hf _ eq_refl) as (<- & <- & <- & Eh & Em & Es & Hser).
  assert (Ha : accepted_date (year dt) (month dt) (day dt)) by (unfold accepted_date; right; apply Hacc; eauto).
  pose proof (serial_day_bounds _ _ _ Ha) as Hn.
  assert (Eq : day_fraction (hour dt) (minute dt) (sec dt) = fzero) by (rewrite Eh, Em, Es; vm_compute; reflexivity).
  assert (Hz : frep fzero 0). { exists (B754_zero false). split; [reflexivity|]. split; reflexivity. }
  destruct (to_excel_shape dt Ha Hser) as [[E0 En]|E0]; cbv zeta in *; rewrite Eq in E0.
  - exists fzero. split; [exact E0|]. rewrite En. exact Hz.
  - eexists. split; [exact E0|]. set (n := serial_day _ _ _) in *.
    pose proof (f_of_N_rep (Z.to_N n) ltac:(lia)) as Hnr. rewrite Z2N.id in Hnr by lia.
    replace (IZR n) with (rnd (IZR n + 0)).
    + apply fadd_rep with (e := 53%Z); [exact Hnr|exact Hz|lia|]. rewrite Rplus_0_r, <- abs_IZR.
      change (bpow radix2 53) with (IZR (2 ^ 53)). apply IZR_le. lia.
    + rewrite Rplus_0_r. apply rnd_int. lia.
Qed.

Lemma date_only_exact_days y m d dt : from_ymd y m d = Some (Ok dt) ->
  exists x n, to_excel dt = Some x /\ serial_days y m d = Some n /\ frep x (IZR (Z.of_N n)).
Proof.
  intros H. destruct (date_only_exact _ _ _ _ H) as (x & Ex & Hx).
  assert (Hn : serial_days y m d = Some (Z.to_N (serial_day y m d)) /\ (0 <= serial_day y m d)%Z).
  { destruct (from_ymd_spec y m d) as (r & E & Hacc & _). rewrite E in H. injection H as ->.
    apply (proj2) in Hacc. specialize (Hacc (ex_intro _ dt eq_refl)).
    assert (Ha : accepted_date y m d) by (unfold accepted_date; auto).
    split; [|apply serial_day_bounds; exact Ha].
    destruct Hacc as [[Hy Hv]|[(-> & -> & ->)|(-> & -> & ->)]]; [|reflexivity|reflexivity].
    rewrite (proj1 (serial_days_spec _ _ _ Hv (proj1 Hy))). unfold serial_day.
    replace (y =? 0)%N with false by lia. replace (y =? 1899)%N with false by lia. cbn [andb orb].
    destruct ((y =? 1900) && (m =? 2) && (d =? 29))%N eqn:E2; [|reflexivity].
    exfalso. assert (y = 1900 /\ m = 2 /\ d = 29)%N as (-> & -> & ->) by lia. destruct Hv as [_ Hv]. cbn in Hv. lia. }
  exists x, (Z.to_N (serial_day y m d)). split; [exact Ex|]. split; [apply Hn|]. rewrite Z2N.id by apply Hn. exact Hx.
Qed.
