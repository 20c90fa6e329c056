(** Proofs about ExcelDateTime's integer calendar arithmetic. *)
From Verif Require Import Base F64 Date_Model Date_Spec.

Lemma leapb_leap y : leapb y = true <-> leap y.
Proof. unfold leapb, leap. lia. Qed.

Lemma is_leap_year_leapb y : is_leap_year y = leapb y.
Proof.
  unfold is_leap_year, leapb.
  destruct (N.eqb_spec (y mod 4) 0), (N.eqb_spec (y mod 100) 0), (N.eqb_spec (y mod 400) 0); cbn; try reflexivity; lia.
Qed.

Lemma year_start_succ y : year_start (N.succ y) = year_start y + year_len y.
Proof. unfold year_start. rewrite N.recursion_succ; [reflexivity|reflexivity|]. intros ? ? -> ? ? ->. reflexivity. Qed.

Lemma month_start_succ y m : month_start y (N.succ m) = month_start y m + month_len y m.
Proof. unfold month_start. rewrite N.recursion_succ; [reflexivity|reflexivity|]. intros ? ? -> ? ? ->. reflexivity. Qed.

(** Closed form of the year sum. *)
Lemma year_start_closed y :
  year_start y = 365 * y + (y + 3) / 4 - (y + 99) / 100 + (y + 399) / 400 /\
  (y + 99) / 100 <= (y + 3) / 4.
Proof.
  split; [|lia].
  induction y as [|y IH] using N.peano_ind; [reflexivity|].
  rewrite year_start_succ, IH. unfold year_len, leapb.
  destruct (N.eqb_spec (y mod 4) 0), (N.eqb_spec (y mod 100) 0), (N.eqb_spec (y mod 400) 0); cbn [andb negb orb]; lia.
Qed.

Lemma month_cases m : 1 <= m <= 12 ->
  m = 1 \/ m = 2 \/ m = 3 \/ m = 4 \/ m = 5 \/ m = 6 \/ m = 7 \/ m = 8 \/ m = 9 \/ m = 10 \/ m = 11 \/ m = 12.
Proof. lia. Qed.

Ltac month_split H :=
  apply month_cases in H; destruct H as [->|[->|[->|[->|[->|[->|[->|[->|[->|[->|[->| ->]]]]]]]]]]].

Lemma month_start_vals y m : 1 <= m <= 12 ->
  month_start y m = (nth (N.to_nat m) [0;0;31;59;90;120;151;181;212;243;273;304;334] 0) + (if leapb y && (2 <? m) then 1 else 0).
Proof.
  intros H. month_split H; destruct (leapb y) eqn:E; cbv [month_start N.recursion N.peano_rect Pos.peano_rect Pos.peano_rec month_len nth N.to_nat]; rewrite ?E; reflexivity.
Qed.

Lemma sum_months_spec y m : 1 <= m <= 12 -> sum_months (months (leapb y)) m = Some (month_start y m).
Proof.
  intros H. rewrite month_start_vals by assumption. month_split H; destruct (leapb y); reflexivity.
Qed.

Lemma month_len_bounds y m : 1 <= m <= 12 -> 28 <= month_len y m <= 31.
Proof. intros H. month_split H; cbn; destruct (leapb y); lia. Qed.

(** Month offsets stay within the year. *)
Lemma month_end_le y m : 1 <= m <= 12 -> month_start y m + month_len y m <= year_len y.
Proof.
  intros H. rewrite month_start_vals by assumption. unfold year_len.
  unfold month_len; month_split H; destruct (leapb y); vm_compute; discriminate.
Qed.

Lemma epoch_val : day_number 1899 12 31 = 693961%Z.
Proof.
  unfold day_number. rewrite (proj1 (year_start_closed 1899)), month_start_vals by lia. reflexivity.
Qed.

Lemma leap_count r : year_start (1900 + r) + r / 100 + (if leapb (1900 + r) then 1 else 0) = 693961 + 365 * r + r / 4 + (r + 300) / 400.
Proof.
  destruct (year_start_closed (1900 + r)) as [-> Hle]. unfold leapb.
  replace ((1900 + r) mod 4) with (r mod 4) by lia.
  replace ((1900 + r) mod 100) with (r mod 100) by lia.
  replace ((1900 + r) mod 400 =? 0) with ((r + 300) mod 400 =? 0) by lia.
  destruct (N.eqb_spec (r mod 4) 0), (N.eqb_spec (r mod 100) 0), (N.eqb_spec ((r + 300) mod 400) 0); cbn [andb negb orb]; lia.
Qed.

Lemma serial_days_spec y m d : valid_date y m d -> 1900 <= y ->
  serial_days y m d = Some (Z.to_N (excel_serial y m d)) /\ (1 <= excel_serial y m d)%Z.
Proof.
  intros [Hm Hd] Hy. unfold serial_days.
  replace (y =? 1899) with false by lia. cbn [andb].
  replace (d =? 0) with false by lia. rewrite andb_false_r.
  destruct ((y =? 1900) && (m =? 2) && (d =? 29)) eqn:E.
  { exfalso. assert (y = 1900 /\ m = 2 /\ d = 29) as (-> & -> & ->) by lia. cbn in Hd. lia. }
  clear E. unfold chk_sub at 1. replace (1900 <=? y) with true by lia. cbn [obind].
  rewrite is_leap_year_leapb, sum_months_spec by assumption. cbn [obind].
  unfold excel_serial, days_between. rewrite epoch_val. unfold day_number.
  generalize (month_start y m). intros ms.
  assert (Hyr : exists r, y = 1900 + r) by (exists (y - 1900); lia). destruct Hyr as [r ->].
  replace (1900 + r - 1900) with r by lia.
  assert (Hys : 693961 + 365 * r <= year_start (1900 + r)) by (destruct (year_start_closed (1900 + r)) as [-> Hle]; lia).
  pose proof (leap_count r) as HL. clear Hm Hy.
  assert (Hd1 : 1 <= d) by lia. clear Hd.
  assert (Hq : r / 100 <= r) by lia.
  generalize dependent (r / 100). intros r100 HL Hq. generalize dependent (r / 4). intros r4 HL.
  generalize dependent ((r + 300) / 400). intros r400 HL.
  generalize dependent (year_start (1900 + r)). intros ys Hys HL.
  assert (Hlp : (if leapb (1900 + r) then 1 else 0) <= 1) by (destruct (leapb _); lia).
  generalize dependent (if leapb (1900 + r) then 1 else 0). intros lp HL Hlp.
  destruct (N.eq_dec lp 0) as [Hlp0|Hlp0].
  - subst lp. unfold chk_sub.
    match goal with |- context [if ?b then Some ?v else None] => replace b with true by lia end. cbn [obind].
    match goal with |- context [if ?b then Some ?v else None] => replace b with true by lia end. cbn [obind]. 
    destruct (N.ltb_spec 59 (ms + d + r * 365 + r4 - r100 + r400 - 0)).
    + replace (60 <=? Z.of_N (ys + ms + d) - 693961)%Z with true by lia. split; [f_equal|]; lia.
    + replace (60 <=? Z.of_N (ys + ms + d) - 693961)%Z with false by lia. split; [f_equal|]; lia.
  - assert (lp = 1) as -> by lia. unfold chk_sub.
    match goal with |- context [if ?b then Some ?v else None] => replace b with true by lia end. cbn [obind].
    match goal with |- context [if ?b then Some ?v else None] => replace b with true by lia end. cbn [obind]. 
    destruct (N.ltb_spec 59 (ms + d + r * 365 + r4 - r100 + r400 - 1)).
    + replace (60 <=? Z.of_N (ys + ms + d) - 693961)%Z with true by lia. split; [f_equal|]; lia.
    + replace (60 <=? Z.of_N (ys + ms + d) - 693961)%Z with false by lia. split; [f_equal|]; lia.
Qed.

(** Month loop: locates the month containing a day of the year. *)
Lemma months_eq y : months (leapb y) = map (month_len y) [1;2;3;4;5;6;7;8;9;10;11;12].
Proof. reflexivity. Qed.

Lemma month_loop_spec y k days : 1 <= days <= year_len y ->
  k = 1 -> exists m d, month_loop (months (leapb y)) k days = (m, d) /\ valid_date y m d /\ days = month_start y m + d.
Proof.
  intros Hd ->. rewrite months_eq. unfold valid_date.
  assert (Hgen : forall n m, N.of_nat n + m = 13 -> 1 <= m -> month_start y m < days ->
     exists m' d, month_loop (map (month_len y) (map (fun i => m + N.of_nat i) (seq 0 n))) m (days - month_start y m) = (m', d) /\
       (1 <= m' <= 12 /\ 1 <= d <= month_len y m') /\ days = month_start y m' + d).
  { induction n as [|n IH]; intros m Hn Hm Hlt.
    - assert (m = N.succ 12) as -> by lia. rewrite month_start_succ in *.
      assert (month_start y 12 + month_len y 12 = year_len y).
      { rewrite month_start_vals by lia. unfold year_len. cbn -[N.add]. destruct (leapb y); reflexivity. }
      lia.
    - cbn [seq map month_loop]. replace (m + N.of_nat 0) with m by lia.
      destruct (N.ltb_spec (month_len y m) (days - month_start y m)).
      + rewrite <- seq_shift, (map_map S).
        rewrite (map_ext _ (fun i => (m + 1) + N.of_nat i)) by (intros; lia).
        replace (m + 1) with (N.succ m) by lia.
        replace (days - month_start y m - month_len y m) with (days - month_start y (N.succ m)) by (rewrite month_start_succ; lia).
        apply IH; [lia|lia|]. rewrite month_start_succ. lia.
      + exists m, (days - month_start y m). repeat split; lia. }
  specialize (Hgen 12%nat 1).
  change (map (fun i : nat => 1 + N.of_nat i) (seq 0 12)) with [1;2;3;4;5;6;7;8;9;10;11;12] in Hgen.
  assert (E : month_start y 1 = 0) by reflexivity. rewrite E, N.sub_0_r in Hgen.
  apply Hgen; lia.
Qed.

Lemma f_of_N_small s : s < 60 -> fgt (f_of_N s) (f_dec 59999 3) = false.
Proof.
  intros H. assert (Hall : forallb (fun k => negb (fgt (f_of_N (N.of_nat k)) (f_dec 59999 3))) (seq 0 60) = true) by (vm_compute; reflexivity).
  rewrite forallb_forall in Hall. specialize (Hall (N.to_nat s)). rewrite N2Nat.id in Hall.
  apply negb_true_iff. apply Hall. apply in_seq. lia.
Qed.

(** The year search: [D] days after 1600-01-01. *)
Lemma year_start_off y a : year_start (400 * a + y) = 146097 * a + year_start y.
Proof.
  destruct (year_start_closed (400 * a + y)) as [-> H1]. destruct (year_start_closed y) as [-> H2]. lia.
Qed.
Lemma leapb_off y a : leapb (400 * a + y) = leapb y.
Proof.
  unfold leapb. replace ((400 * a + y) mod 4) with (y mod 4) by lia.
  replace ((400 * a + y) mod 100) with (y mod 100) by lia.
  replace ((400 * a + y) mod 400) with (y mod 400) by lia. reflexivity.
Qed.
Lemma month_start_off y a m : month_start (400 * a + y) m = month_start y m.
Proof.
  induction m as [|m IH] using N.peano_ind; [reflexivity|]. rewrite !month_start_succ, IH. f_equal.
  unfold month_len. rewrite leapb_off. reflexivity.
Qed.
Lemma month_len_off y a m : month_len (400 * a + y) m = month_len y m.
Proof. unfold month_len. rewrite leapb_off. reflexivity. Qed.

(** Year-of-block facts with explicit century/4-year/1-year digits. *)
Lemma block_year b c e : b <= 3 -> c <= 24 -> e <= 3 ->
  year_start (100 * b + 4 * c + e) =
    36524 * b + (if 1 <=? b then 1 else 0) + 1461 * c + (if (1 <=? c) && (1 <=? b) then 0 else if (1 <=? b) then 0 else 0)
    - (if (1 <=? b) && (1 <=? c) then 1 else 0)
    + 365 * e + (if (1 <=? e) && negb ((1 <=? b) && (c =? 0)) then 1 else 0) /\
  leapb (100 * b + 4 * c + e) = (e =? 0) && negb ((1 <=? b) && (c =? 0)).
Proof.
  intros Hb Hc He.
  assert (Hall : forallb (fun b => forallb (fun c => forallb (fun e =>
     let k := 100 * b + 4 * c + e in
     (365 * k + (k + 3) / 4 - (k + 99) / 100 + (k + 399) / 400 =?
     36524 * b + (if 1 <=? b then 1 else 0) + 1461 * c + (if (1 <=? c) && (1 <=? b) then 0 else if (1 <=? b) then 0 else 0)
    - (if (1 <=? b) && (1 <=? c) then 1 else 0)
    + 365 * e + (if (1 <=? e) && negb ((1 <=? b) && (c =? 0)) then 1 else 0)) &&
     Bool.eqb (leapb k) ((e =? 0) && negb ((1 <=? b) && (c =? 0))))
     (map N.of_nat (seq 0 4))) (map N.of_nat (seq 0 25))) (map N.of_nat (seq 0 4)) = true) by (vm_compute; reflexivity).
  assert (Hin : forall n x, x < N.of_nat n -> In x (map N.of_nat (seq 0 n))).
  { intros n x Hx. apply in_map_iff. exists (N.to_nat x). split; [lia|]. apply in_seq. lia. }
  rewrite forallb_forall in Hall. specialize (Hall b (Hin 4%nat b ltac:(lia))).
  rewrite forallb_forall in Hall. specialize (Hall c (Hin 25%nat c ltac:(lia))).
  rewrite forallb_forall in Hall. specialize (Hall e (Hin 4%nat e ltac:(lia))). cbn zeta in Hall.
  apply andb_true_iff in Hall as [H1 H2]. apply N.eqb_eq in H1. apply Bool.eqb_prop in H2.
  rewrite (proj1 (year_start_closed _)). split; assumption.
Qed.


Lemma unix_parts_spec ts : exists y m d h mi s,
  unix_time_to_date_parts ts = (y, m, d, (h, mi, s)) /\
  1600 <= y /\ valid_date y m d /\
  day_number y m d = (Z.of_N (ts / 86400) + day_number 1970 1 1)%Z /\
  h < 24 /\ mi < 60 /\ s < 60 /\ h * 3600 + mi * 60 + s = ts mod 86400.
Proof.
  unfold unix_time_to_date_parts, YEAR_DAYS_400, YEAR_DAYS_100, YEAR_DAYS_4, YEAR_DAYS, DAY_SECONDS, HOUR_SECONDS, MINUTE_SECONDS.
  change (365 * 400 + 97) with 146097. change (365*100+25) with 36525. change (365*4+1) with 1461.
  change (36525 - 1) with 36524. change (1461 - 1) with 1460. change (365+1) with 366.
  set (D0 := ts / 86400 + 135140). set (a := D0 / 146097). set (D := D0 mod 146097).
  assert (HD0 : D0 = 146097 * a + D) by (unfold a, D; lia). assert (HD : D < 146097) by (unfold D; lia).
  (* the year search *)
  set (p100 := if D <? 36525 then (D / 36525, D mod 36525) else (1 + (D - 36525) / 36524, (D - 36525) mod 36524)).
  destruct p100 as [b D1] eqn:Ep100. unfold p100 in Ep100; clear p100.
  assert (Hb : b <= 3 /\ D = 36524 * b + (if 1 <=? b then 1 else 0) + D1 /\ D1 < (if b =? 0 then 36525 else 36524)).
  { destruct (N.ltb_spec D 36525); apply pair_equal_spec in Ep100 as [<- <-].
    - rewrite N.div_small, N.mod_small by assumption. cbn [N.leb N.compare N.eqb]. lia.
    - match goal with |- context [1 <=? ?t] => replace (1 <=? t) with true by lia end. match goal with |- context [?t =? 0] => replace (t =? 0) with false by lia end. lia. }
  clear Ep100. destruct Hb as (Hb3 & HDb & HD1).
  set (p4 := if b =? 0 then _ else _). destruct p4 as [[c D2] nl] eqn:Ep4. unfold p4 in Ep4; clear p4.
  assert (Hc : c <= 24 /\ 
     ((nl = false /\ (b = 0 \/ 1 <= c) /\ D2 < 1461 /\ D1 = 1461 * c - (if (1 <=? b) && (1 <=? c) then 1 else 0) + D2) \/
      (nl = true /\ 1 <= b /\ ((c = 0 /\ D2 < 1460 /\ D1 = D2) \/ (c = 1 /\ D2 = 0 /\ D1 = 1460))))).
  { destruct (N.eqb_spec b 0) as [->|Hb0].
    - apply pair_equal_spec in Ep4 as [Ep4 <-]; apply pair_equal_spec in Ep4 as [<- <-]. cbn [N.leb N.compare andb]. split; [lia|left]. repeat split; try lia.
    - destruct (N.ltb_spec D1 1461); apply pair_equal_spec in Ep4 as [Ep4 <-]; apply pair_equal_spec in Ep4 as [<- <-].
      + split; [lia|right]. split; [reflexivity|]. split; [lia|].
        destruct (N.ltb_spec D1 1460).
        * rewrite N.div_small, N.mod_small by assumption. left; lia.
        * right. assert (D1 = 1460) as -> by lia. auto.
      + split; [lia|left]. replace (1 <=? b) with true by lia. match goal with |- context [1 <=? 1 + ?t] => replace (1 <=? 1 + t) with true by lia end. cbn [andb].
        repeat split; lia. }
  clear Ep4. destruct Hc as (Hc24 & Hc).
  set (p1 := if nl then _ else _). destruct p1 as [e D3] eqn:Ep1. unfold p1 in Ep1; clear p1.
  assert (He : e <= 3 /\ D = year_start (100 * b + 4 * c + e) + D3 /\ D3 < year_len (100 * b + 4 * c + e)).
  { unfold year_len.
    assert (He : e <= 3 /\ ((nl = true /\ D2 = 365 * e + D3 /\ D3 < 365) \/ (nl = false /\ D2 = 365 * e + (if 1 <=? e then 1 else 0) + D3 /\ D3 < (if e =? 0 then 366 else 365)))).
    { destruct nl.
      - apply pair_equal_spec in Ep1 as [<- <-]. split; [lia|left]. repeat split; lia.
      - destruct (N.ltb_spec D2 366); apply pair_equal_spec in Ep1 as [<- <-].
        + rewrite N.div_small, N.mod_small by assumption. split; [lia|right]. cbn [N.leb N.compare N.eqb]. lia.
        + split; [lia|right]. match goal with |- context [1 <=? 1 + ?t] => replace (1 <=? 1 + t) with true by lia end. match goal with |- context [1 + ?t =? 0] => replace (1 + t =? 0) with false by lia end. lia. }
    destruct He as [He3 He]. split; [assumption|].
    destruct (block_year b c e Hb3 Hc24 He3) as [-> ->].
    destruct Hc as [(-> & Hbc & HD2 & HD1')|(-> & Hb1 & Hc)].
    - destruct He as [(Hf & _)|(_ & HD2' & HD3)]; [discriminate|].
      destruct (N.leb_spec 1 b), (N.leb_spec 1 c), (N.leb_spec 1 e), (N.eqb_spec e 0), (N.eqb_spec c 0), (N.eqb_spec b 0);
        cbn [andb negb] in *; lia.
    - destruct He as [(_ & HD2' & HD3)|(Hf & _)]; [|discriminate].
      destruct (N.leb_spec 1 b), (N.leb_spec 1 c), (N.leb_spec 1 e), (N.eqb_spec e 0), (N.eqb_spec c 0);
        cbn [andb negb] in *; lia. }
  destruct He as (He3 & HDy & HD3).
  set (k := 100 * b + 4 * c + e) in *.
  replace (1600 + a * 400 + b * 100 + c * 4 + e) with (400 * (4 + a) + k) by (unfold k; lia).
  set (y := 400 * (4 + a) + k).
  rewrite is_leap_year_leapb.
  assert (Hyl : 1 <= D3 + 1 <= year_len y) by (unfold y, year_len in *; rewrite leapb_off; lia).
  destruct (month_loop_spec y 1 (D3 + 1) Hyl eq_refl) as (m & d & -> & Hv & Hdm).
  do 6 eexists. split; [reflexivity|].
  split; [unfold y; lia|]. split; [assumption|].
  split; [|lia].
  unfold day_number. rewrite (proj1 (year_start_closed 1970)).
  unfold y. rewrite year_start_off. fold y.
  assert (E1 : month_start 1970 1 = 0) by reflexivity. rewrite E1.
  change (365 * 1970 + (1970 + 3) / 4 - (1970 + 99) / 100 + (1970 + 399) / 400) with 719528.
  unfold D0 in HD0. lia.
Qed.
