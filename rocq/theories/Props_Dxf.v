(** C68: the number of a differential format selects the format that was given. *)
From Coq Require Import Lia.
From Verif Require Import Base Fmt_Model Dxf_Model.

(** ** What was given, by the calls alone *)
Definition sheets_made (ops : list dop) : nat := length (filter (fun o => match o with DSheet => true | _ => false end) ops).
(** The formats given to conditional formats of sheet [k], in order, and those
    given to table columns: only calls on an existing sheet count. *)
Fixpoint rules_given (k : nat) (made : nat) (ops : list dop) : list Format :=
  match ops with
  | [] => []
  | DSheet :: r => rules_given k (S made) r
  | DRule j f :: r => if (j =? k)%nat && (j <? made)%nat then f :: rules_given k made r else rules_given k made r
  | _ :: r => rules_given k made r
  end.
Fixpoint columns_given (k : nat) (made : nat) (ops : list dop) : list Format :=
  match ops with
  | [] => []
  | DSheet :: r => columns_given k (S made) r
  | DColumn j f :: r => if (j =? k)%nat && (j <? made)%nat then f :: columns_given k made r else columns_given k made r
  | _ :: r => columns_given k made r
  end.
(** The numbers select these formats from the list. *)
Definition select (l : list Format) (is : list N) (fs : list Format) : Prop :=
  map (fun i => nth_error l (N.to_nat i)) is = map Some fs.

(** ** Registries *)
Lemma place_some l f : forall i, place l f = Some i -> nth_error l (N.to_nat i) = Some f.
Proof.
  induction l as [|g l IH]; intros i; cbn [place]; [discriminate|]. destruct (format_eqb_spec g f) as [->|].
  - intros [= <-]. reflexivity.
  - destruct (place l f) as [j|]; [|discriminate]. intros H. assert (i = j + 1) by congruence. subst i.
    replace (N.to_nat (j + 1)) with (S (N.to_nat j)) by lia. apply IH. reflexivity.
Qed.
Lemma register_ok l f l' i : dxf_register l f = (l', i) -> nth_error l' (N.to_nat i) = Some f /\ exists r, l' = l ++ r.
Proof.
  unfold dxf_register. destruct (place l f) eqn:E.
  - intros H. assert (l' = l /\ i = n) as [-> ->] by (split; congruence). split; [apply place_some, E|]. exists []. rewrite app_nil_r. reflexivity.
  - intros H. assert (l' = l ++ [f] /\ i = N.of_nat (length l)) as [-> ->] by (split; congruence). split; [|exists [f]; reflexivity].
    rewrite Nat2N.id, nth_error_app2 by lia. rewrite Nat.sub_diag. reflexivity.
Qed.
Lemma nth_more {A} (l r : list A) k x : nth_error l k = Some x -> nth_error (l ++ r) k = Some x.
Proof. intros H. rewrite nth_error_app1; [exact H|]. apply nth_error_Some. congruence. Qed.
Lemma select_more l r is fs : select l is fs -> select (l ++ r) is fs.
Proof.
  unfold select. revert fs. induction is as [|i is IH]; intros [|f fs]; cbn [map]; try discriminate; [reflexivity|].
  intros H. assert (H1 : nth_error l (N.to_nat i) = Some f) by congruence. rewrite (nth_more _ r _ _ H1). f_equal. apply IH. congruence.
Qed.
Lemma select_snoc l is fs i f : select l is fs -> nth_error l (N.to_nat i) = Some f -> select l (is ++ [i]) (fs ++ [f]).
Proof. unfold select. intros H E. rewrite !map_app, H. cbn [map]. rewrite E. reflexivity. Qed.

Lemma globalise_ok l : forall g g' is, globalise g l = (g', is) -> select g' is l /\ exists r, g' = g ++ r.
Proof.
  induction l as [|f l IH]; intros g g' is; cbn [globalise].
  - intros H. assert (g' = g /\ is = []) as [-> ->] by (split; congruence). split; [reflexivity|]. exists []. rewrite app_nil_r. reflexivity.
  - destruct (dxf_register g f) as [g1 i] eqn:E. destruct (globalise g1 l) as [g2 is'] eqn:E'. intros H.
    assert (g' = g2 /\ is = i :: is') as [-> ->] by (split; congruence).
    destruct (register_ok _ _ _ _ E) as [A [r1 ->]]. destruct (IH _ _ _ E') as [B [r2 ->]]. split.
    + unfold select in *. cbn [map]. rewrite (nth_more _ _ _ _ A), B. reflexivity.
    + exists (r1 ++ r2). rewrite app_assoc. reflexivity.
Qed.
Lemma globalise_all_ok l : forall g g' maps, globalise_all g l = (g', maps) ->
  Forall2 (fun s is => select g' is (d_formats s)) l maps /\ exists r, g' = g ++ r.
Proof.
  induction l as [|s l IH]; intros g g' maps; cbn [globalise_all].
  - intros H. assert (g' = g /\ maps = []) as [-> ->] by (split; congruence). split; [constructor|]. exists []. rewrite app_nil_r. reflexivity.
  - destruct (globalise g (d_formats s)) as [g1 is] eqn:E. destruct (globalise_all g1 l) as [g2 rest] eqn:E'. intros H.
    assert (g' = g2 /\ maps = is :: rest) as [-> ->] by (split; congruence).
    destruct (globalise_ok _ _ _ _ E) as [A [r1 ->]]. destruct (IH _ _ _ E') as [B [r2 ->]]. split.
    + constructor; [apply select_more, A|exact B].
    + exists (r1 ++ r2). rewrite app_assoc. reflexivity.
Qed.
(** Composing a choice from the sheet's formats with the sheet's map. *)
Lemma nth_select g is l k f : select g is l -> nth_error l k = Some f -> exists j, nth_error is k = Some j /\ nth_error g (N.to_nat j) = Some f.
Proof.
  unfold select. revert l k. induction is as [|i is IH]; intros [|x l] k; cbn [map]; try discriminate.
  - intros _ H. destruct k; discriminate.
  - intros H. destruct k as [|k]; cbn [nth_error].
    + intros [= ->]. exists i. split; [reflexivity|congruence].
    + apply IH. congruence.
Qed.
Lemma look_ok g is l : forall xs fs, select g is l -> select l xs fs -> exists ys, look_all is xs = Some ys /\ select g ys fs.
Proof.
  induction xs as [|x xs IH]; intros [|f fs] A; unfold select; cbn [map]; try discriminate.
  - intros _. exists []. split; reflexivity.
  - intros B. assert (B1 : nth_error l (N.to_nat x) = Some f) by congruence. destruct (nth_select _ _ _ _ _ A B1) as (j & J1 & J2).
    destruct (IH fs A) as (ys & Y1 & Y2); [unfold select; congruence|]. exists (j :: ys). cbn [look_all]. rewrite J1, Y1. split; [reflexivity|].
    cbn [map]. rewrite J2. f_equal. exact Y2.
Qed.

(** ** The invariant *)
Lemma rules_snoc k ops : forall made o, rules_given k made (ops ++ [o]) = rules_given k made ops ++
  match o with DRule j f => if (j =? k)%nat && (j <? made + sheets_made ops)%nat then [f] else [] | _ => [] end.
Proof.
  induction ops as [|p ops IH]; intros made o; cbn [app rules_given].
  - change (sheets_made []) with 0%nat. rewrite Nat.add_0_r. destruct o; reflexivity.
  - unfold sheets_made. cbn [filter length]. destruct p; cbn [length]; rewrite IH; fold (sheets_made ops);
      replace (made + S (sheets_made ops))%nat with (S made + sheets_made ops)%nat by lia; try reflexivity.
    destruct ((k0 =? k)%nat && (k0 <? made)%nat); reflexivity.
Qed.
Lemma columns_snoc k ops : forall made o, columns_given k made (ops ++ [o]) = columns_given k made ops ++
  match o with DColumn j f => if (j =? k)%nat && (j <? made + sheets_made ops)%nat then [f] else [] | _ => [] end.
Proof.
  induction ops as [|p ops IH]; intros made o; cbn [app columns_given].
  - change (sheets_made []) with 0%nat. rewrite Nat.add_0_r. destruct o; reflexivity.
  - unfold sheets_made. cbn [filter length]. destruct p; cbn [length]; rewrite IH; fold (sheets_made ops);
      replace (made + S (sheets_made ops))%nat with (S made + sheets_made ops)%nat by lia; try reflexivity.
    destruct ((k0 =? k)%nat && (k0 <? made)%nat); reflexivity.
Qed.
Lemma made_snoc ops o : sheets_made (ops ++ [o]) = (sheets_made ops + match o with DSheet => 1 | _ => 0 end)%nat.
Proof. unfold sheets_made. rewrite filter_app, app_length. destruct o; cbn [filter length]; lia. Qed.

Lemma on_sheet_nth k g l j : nth_error (on_sheet k g l) j = if (j =? k)%nat then option_map g (nth_error l j) else nth_error l j.
Proof.
  unfold on_sheet. destruct (nth_error l k) as [s|] eqn:E.
  - assert (L : (k < length l)%nat) by (apply nth_error_Some; congruence).
    assert (F : length (firstn k l) = k) by (rewrite firstn_length; lia).
    destruct (Nat.eqb_spec j k) as [->|Hn].
    + rewrite nth_error_app2, F, Nat.sub_diag by lia. rewrite E. reflexivity.
    + destruct (Nat.lt_ge_cases j k).
      * rewrite nth_error_app1 by lia. rewrite <- (firstn_skipn k l) at 2. rewrite nth_error_app1 by lia. reflexivity.
      * rewrite nth_error_app2, F by lia. destruct (j - k)%nat as [|d] eqn:Ed; [lia|]. cbn [nth_error].
        rewrite <- (firstn_skipn (S k) l) at 2. rewrite nth_error_app2 by (rewrite firstn_length; lia).
        rewrite firstn_length. replace (j - Nat.min (S k) (length l))%nat with d by lia. reflexivity.
  - destruct (Nat.eqb_spec j k) as [->|]; [rewrite E|]; reflexivity.
Qed.
Lemma on_sheet_length k g l : length (on_sheet k g l) = length l.
Proof.
  unfold on_sheet. destruct (nth_error l k) as [s|] eqn:E; [|reflexivity]. assert (L : (k < length l)%nat) by (apply nth_error_Some; congruence).
  rewrite app_length. cbn [length]. rewrite firstn_length, skipn_length. lia.
Qed.

Lemma remap_frame : forall maps l l', remap_all maps l = Some l' -> length maps = length l -> length l' = length l /\
  forall k s, nth_error l k = Some s -> exists s' is, nth_error l' k = Some s' /\ nth_error maps k = Some is /\
    d_formats s' = d_formats s /\ d_rules s' = d_rules s /\ look_all is (d_columns s) = Some (d_columns s').
Proof.
  induction maps as [|is maps IH]; intros [|s l] l'; cbn [remap_all length]; try discriminate.
  - intros [= <-] _. split; [reflexivity|]. intros k s H. destruct k; discriminate.
  - destruct (look_all is (d_columns s)) as [cs|] eqn:E; [|discriminate]. destruct (remap_all maps l) as [r|] eqn:E'; [|discriminate].
    intros H L. assert (l' = {| d_formats := d_formats s; d_rules := d_rules s; d_columns := cs |} :: r) by congruence. subst l'.
    destruct (IH l r E' ltac:(lia)) as [A B]. split; [cbn [length]; lia|]. intros [|k] s0; cbn [nth_error].
    + intros [= <-]. eexists _, is. split; [reflexivity|]. auto.
    + apply B.
Qed.
Lemma rule_ids_get : forall maps l ids, rule_ids maps l = Some ids -> length maps = length l ->
  forall k s, nth_error l k = Some s -> exists is xs, nth_error maps k = Some is /\ nth_error ids k = Some xs /\ look_all is (d_rules s) = Some xs.
Proof.
  induction maps as [|is maps IH]; intros [|s l] ids; cbn [rule_ids length]; try discriminate.
  - intros _ _ k s H. destruct k; discriminate.
  - destruct (look_all is (d_rules s)) as [cs|] eqn:E; [|discriminate]. destruct (rule_ids maps l) as [r|] eqn:E'; [|discriminate].
    intros H L. assert (ids = cs :: r) by congruence. subst ids. intros [|k] s0; cbn [nth_error].
    + intros [= <-]. exists is, cs. auto.
    + apply (IH l r E'). lia.
Qed.
Lemma forall2_nth {A B} (P : A -> B -> Prop) l m k x : Forall2 P l m -> nth_error l k = Some x -> exists y, nth_error m k = Some y /\ P x y.
Proof. intros F. revert k. induction F as [|a b l m H F IH]; intros [|k]; cbn [nth_error]; try discriminate; [intros [= ->]; eauto|apply IH]. Qed.
Lemma forall2_length {A B} (P : A -> B -> Prop) l m : Forall2 P l m -> length l = length m.
Proof. induction 1; cbn [length]; congruence. Qed.

(** The indices of the rules select the given formats from the sheet's list, always. *)
Lemma rules_inv ops : forall b, drun dbook_new ops = Some b -> length (d_sheets b) = sheets_made ops /\
  forall k s, nth_error (d_sheets b) k = Some s -> select (d_formats s) (d_rules s) (rules_given k 0 ops).
Proof.
  induction ops as [|o ops IH] using rev_ind.
  - intros b H. assert (b = dbook_new) by (cbn in H; congruence). subst b. split; [reflexivity|]. intros [|k] s H'; discriminate.
  - intros b H. assert (R : exists b0, drun dbook_new ops = Some b0 /\ dstep b0 o = Some b).
    { clear IH. revert H. generalize dbook_new. induction ops as [|p ops IH]; intros b0; cbn [app drun].
      - destruct (dstep b0 o) as [b1|] eqn:E; [|discriminate]. intros H. assert (b1 = b) by congruence. subst. eauto.
      - destruct (dstep b0 p); [apply IH|discriminate]. }
    destruct R as (b0 & R & E). destruct (IH b0 R) as [L I]. rewrite made_snoc. destruct o as [|j f|j f|]; cbn [dstep] in E.
    + assert (b = {| d_sheets := d_sheets b0 ++ [dsheet_new]; d_global := d_global b0 |}) by congruence. subst b. cbn [d_sheets]. rewrite app_length. cbn [length].
      split; [lia|]. intros k s H'. rewrite rules_snoc, app_nil_r. destruct (Nat.lt_ge_cases k (length (d_sheets b0))).
      * rewrite nth_error_app1 in H' by assumption. apply I, H'.
      * rewrite nth_error_app2 in H' by assumption. destruct (k - length (d_sheets b0))%nat as [|d] eqn:Ed; [|destruct d; discriminate].
        assert (s = dsheet_new) by (cbn in H'; congruence). subst s.
        assert (Z : rules_given k 0 ops = []).
        { assert (Q : forall p m, (m + sheets_made p <= k)%nat -> rules_given k m p = []).
          { clear. induction p as [|x p IH]; intros m Hm; cbn [rules_given]; [reflexivity|]. unfold sheets_made in Hm. cbn [filter] in Hm.
            destruct x as [|j f|j f|]; cbn [length] in Hm; fold (sheets_made p) in Hm; try (apply IH; lia).
            destruct (Nat.eqb_spec j k); [|apply IH; lia]. destruct (Nat.ltb_spec j m); [lia|]. apply IH; lia. }
          apply Q. lia. }
        rewrite Z. reflexivity.
    + assert (b = {| d_sheets := on_sheet j (fun s => use_rule s f) (d_sheets b0); d_global := d_global b0 |}) by congruence. subst b. cbn [d_sheets].
      rewrite on_sheet_length. split; [lia|]. intros k s. rewrite on_sheet_nth, rules_snoc. destruct (Nat.eqb_spec k j) as [->|Hn].
      * destruct (nth_error (d_sheets b0) j) as [s0|] eqn:E0; [|discriminate]. cbn [option_map]. intros [= <-]. pose proof (I _ _ E0) as S0.
        assert (Lj : (j < length (d_sheets b0))%nat) by (apply nth_error_Some; congruence).
        rewrite Nat.eqb_refl. destruct (Nat.ltb_spec j (0 + sheets_made ops)); [|lia]. cbn [andb].
        unfold use_rule. destruct (dxf_register (d_formats s0) f) as [l i] eqn:Er. destruct (register_ok _ _ _ _ Er) as [A [r ->]]. cbn [d_formats d_rules].
        apply select_snoc; [apply select_more, S0|exact A].
      * destruct (Nat.eqb_spec j k); [congruence|]. cbn [andb]. rewrite app_nil_r. apply I.
    + assert (b = {| d_sheets := on_sheet j (fun s => use_column s f) (d_sheets b0); d_global := d_global b0 |}) by congruence. subst b. cbn [d_sheets].
      rewrite on_sheet_length. split; [lia|]. intros k s. rewrite on_sheet_nth, rules_snoc, app_nil_r. destruct (Nat.eqb_spec k j) as [->|Hn]; [|apply I].
      destruct (nth_error (d_sheets b0) j) as [s0|] eqn:E0; [|discriminate]. cbn [option_map]. intros [= <-]. pose proof (I _ _ E0) as S0.
      unfold use_column. destruct (dxf_register (d_formats s0) f) as [l i] eqn:Er. destruct (register_ok _ _ _ _ Er) as [A [r ->]]. cbn [d_formats d_rules].
      apply select_more, S0.
    + unfold dsave in E. destruct (globalise_all (d_global b0) (d_sheets b0)) as [g maps] eqn:Eg. destruct (remap_all maps (d_sheets b0)) as [l'|] eqn:Em; [|discriminate].
      destruct (rule_ids maps (d_sheets b0)) as [ids|]; [|discriminate]. assert (b = {| d_sheets := l'; d_global := g |}) by congruence. subst b. cbn [d_sheets].
      destruct (globalise_all_ok _ _ _ _ Eg) as [F _]. pose proof (forall2_length _ _ _ F) as Lm. destruct (remap_frame _ _ _ Em ltac:(lia)) as [L' Fr].
      split; [lia|]. intros k s' H'. rewrite rules_snoc, app_nil_r. assert (Lk : (k < length (d_sheets b0))%nat) by (rewrite <- L'; apply nth_error_Some; congruence).
      destruct (nth_error (d_sheets b0) k) as [s|] eqn:E0; [|apply nth_error_None in E0; lia]. destruct (Fr _ _ E0) as (s2 & is & H2 & _ & D1 & D2 & _).
      assert (s2 = s') by congruence. subst s2. rewrite D1, D2. apply I, E0.
Qed.

(** ** C68 *)

(** Conditional formats: in every file a program saves, the number of every rule
    selects the format that was given for it. *)
Theorem C68_rules ops b b' file : drun dbook_new ops = Some b -> dsave b = Some (b', file) ->
  forall k, (k < sheets_made ops)%nat -> exists ids, nth_error (f_rules file) k = Some ids /\ select (f_dxfs file) ids (rules_given k 0 ops).
Proof.
  intros R E k Hk. destruct (rules_inv _ _ R) as [L I]. unfold dsave in E. destruct (globalise_all (d_global b) (d_sheets b)) as [g maps] eqn:Eg.
  destruct (remap_all maps (d_sheets b)) as [l'|]; [|discriminate]. destruct (rule_ids maps (d_sheets b)) as [ids|] eqn:Ei; [|discriminate].
  assert (file = {| f_dxfs := g; f_rules := ids; f_columns := map d_columns l' |}) by congruence. subst file. cbn [f_rules f_dxfs].
  destruct (globalise_all_ok _ _ _ _ Eg) as [F _]. pose proof (forall2_length _ _ _ F) as Lm.
  destruct (nth_error (d_sheets b) k) as [s|] eqn:E0; [|apply nth_error_None in E0; lia].
  destruct (rule_ids_get _ _ _ Ei ltac:(lia) _ _ E0) as (is & xs & M & X & Lk). exists xs. split; [exact X|].
  destruct (forall2_nth _ _ _ _ _ F E0) as (is' & M' & S). assert (is' = is) by congruence. subst is'.
  destruct (look_ok _ _ _ _ _ S (I _ _ E0)) as (ys & Y1 & Y2). congruence.
Qed.

(** The formats of one file are the first ones of every later file. *)
Theorem C68_stable ops b b1 file1 more b2 b3 file2 : drun dbook_new ops = Some b -> dsave b = Some (b1, file1) ->
  drun b1 more = Some b2 -> dsave b2 = Some (b3, file2) -> exists r, f_dxfs file2 = f_dxfs file1 ++ r.
Proof.
  intros _ E1 R E2. assert (G : forall b b' f, dsave b = Some (b', f) -> d_global b' = f_dxfs f /\ exists r, f_dxfs f = d_global b ++ r).
  { clear. intros b b' f. unfold dsave. destruct (globalise_all (d_global b) (d_sheets b)) as [g maps] eqn:Eg.
    destruct (remap_all maps (d_sheets b)) as [l'|]; [|discriminate]. destruct (rule_ids maps (d_sheets b)) as [ids|]; [|discriminate].
    intros H. assert (b' = {| d_sheets := l'; d_global := g |} /\ f = {| f_dxfs := g; f_rules := ids; f_columns := map d_columns l' |}) as [-> ->] by (split; congruence).
    split; [reflexivity|]. apply (proj2 (globalise_all_ok _ _ _ _ Eg)). }
  assert (M : forall more b b', drun b more = Some b' -> exists r, d_global b' = d_global b ++ r).
  { clear - G. induction more as [|o more IH]; intros b b'; cbn [drun].
    - intros [= <-]. exists []. rewrite app_nil_r. reflexivity.
    - destruct (dstep b o) as [c|] eqn:E; [|discriminate]. intros H. destruct (IH _ _ H) as [r Hr].
      assert (exists r0, d_global c = d_global b ++ r0) as [r0 H0].
      { destruct o; cbn [dstep] in E; try (exists []; rewrite app_nil_r; assert (Some (d_global c) = Some (d_global b)) by (injection E as <-; reflexivity); congruence).
        destruct (dsave b) as [[b1 f1]|] eqn:E1; [|discriminate]. assert (b1 = c) by congruence. subst b1. destruct (G _ _ _ E1) as [H1 [r1 H2]]. exists r1. congruence. }
      exists (r0 ++ r). rewrite Hr, H0, app_assoc. reflexivity. }
  destruct (G _ _ _ E1) as [H1 _]. destruct (M _ _ _ R) as [r Hr]. destruct (G _ _ _ E2) as [_ [r2 H2]]. exists (r ++ r2). rewrite H2, Hr, H1, app_assoc. reflexivity.
Qed.

(** Table columns: right in the first file saved after the table was added. *)
Definition no_save (o : dop) : Prop := o <> DSave.
Lemma drun_app a c : forall b, drun b (a ++ c) = match drun b a with Some b => drun b c | None => None end.
Proof. induction a as [|o a IH]; intros b; cbn [app drun]; [reflexivity|]. destruct (dstep b o); [apply IH|reflexivity]. Qed.
Lemma columns_count ops : forall b, drun dbook_new ops = Some b -> forall k s, nth_error (d_sheets b) k = Some s -> length (d_columns s) = length (columns_given k 0 ops).
Proof.
  induction ops as [|o ops IH] using rev_ind.
  - intros b H. assert (b = dbook_new) by (cbn in H; congruence). subst b. intros [|k] s H'; discriminate.
  - intros b H. rewrite drun_app in H. destruct (drun dbook_new ops) as [b0|] eqn:R; [|discriminate]. cbn [drun] in H.
    destruct (dstep b0 o) as [b1|] eqn:E; [|discriminate]. assert (b1 = b) by congruence. subst b1. clear H.
    destruct (rules_inv _ _ R) as [L _]. specialize (IH b0 eq_refl). intros k s. rewrite columns_snoc, app_length. destruct o as [|j f|j f|]; cbn [dstep] in E.
    + assert (b = {| d_sheets := d_sheets b0 ++ [dsheet_new]; d_global := d_global b0 |}) by congruence. subst b. cbn [d_sheets length].
      destruct (Nat.lt_ge_cases k (length (d_sheets b0))).
      * rewrite nth_error_app1 by assumption. intros H'. rewrite (IH _ _ H'). lia.
      * rewrite nth_error_app2 by assumption. intros H'. destruct (k - length (d_sheets b0))%nat as [|d] eqn:Ed; [|destruct d; discriminate].
        assert (s = dsheet_new) by (cbn in H'; congruence). subst s.
        assert (Z : columns_given k 0 ops = []); [|rewrite Z; reflexivity].
        assert (Q : forall p m, (m + sheets_made p <= k)%nat -> columns_given k m p = []).
        { clear. induction p as [|x p IH]; intros m Hm; cbn [columns_given]; [reflexivity|]. unfold sheets_made in Hm. cbn [filter] in Hm.
          destruct x as [|j f|j f|]; cbn [length] in Hm; fold (sheets_made p) in Hm; try (apply IH; lia).
          destruct (Nat.eqb_spec j k); [|apply IH; lia]. destruct (Nat.ltb_spec j m); [lia|]. apply IH; lia. }
        apply Q. lia.
    + assert (b = {| d_sheets := on_sheet j (fun s => use_rule s f) (d_sheets b0); d_global := d_global b0 |}) by congruence. subst b. cbn [d_sheets length].
      rewrite on_sheet_nth. destruct (Nat.eqb_spec k j) as [->|Hn]; [|intros H'; rewrite (IH _ _ H'); lia].
      destruct (nth_error (d_sheets b0) j) as [s0|] eqn:E0; [|discriminate]. cbn [option_map]. intros [= <-].
      unfold use_rule. destruct (dxf_register (d_formats s0) f). cbn [d_columns]. rewrite (IH _ _ E0). lia.
    + assert (b = {| d_sheets := on_sheet j (fun s => use_column s f) (d_sheets b0); d_global := d_global b0 |}) by congruence. subst b. cbn [d_sheets].
      rewrite on_sheet_nth. destruct (Nat.eqb_spec k j) as [->|Hn].
      * destruct (nth_error (d_sheets b0) j) as [s0|] eqn:E0; [|discriminate]. cbn [option_map]. intros [= <-].
        assert (Lj : (j < length (d_sheets b0))%nat) by (apply nth_error_Some; congruence).
        rewrite Nat.eqb_refl. destruct (Nat.ltb_spec j (0 + sheets_made ops)); [|lia]. cbn [andb length].
        unfold use_column. destruct (dxf_register (d_formats s0) f). cbn [d_columns]. rewrite app_length, (IH _ _ E0). reflexivity.
      * intros H'. destruct (Nat.eqb_spec j k); [congruence|]. cbn [andb length]. rewrite (IH _ _ H'). lia.
    + unfold dsave in E. destruct (globalise_all (d_global b0) (d_sheets b0)) as [g maps] eqn:Eg. destruct (remap_all maps (d_sheets b0)) as [l'|] eqn:Em; [|discriminate].
      destruct (rule_ids maps (d_sheets b0)) as [ids|]; [|discriminate]. assert (b = {| d_sheets := l'; d_global := g |}) by congruence. subst b. cbn [d_sheets length].
      destruct (globalise_all_ok _ _ _ _ Eg) as [F _]. pose proof (forall2_length _ _ _ F) as Lm. destruct (remap_frame _ _ _ Em ltac:(lia)) as [L' Fr].
      intros H'. assert (Lk : (k < length (d_sheets b0))%nat) by (rewrite <- L'; apply nth_error_Some; congruence).
      destruct (nth_error (d_sheets b0) k) as [s0|] eqn:E0; [|apply nth_error_None in E0; lia]. destruct (Fr _ _ E0) as (s2 & is & H2 & _ & _ & _ & D).
      assert (s2 = s) by congruence. subst s2. rewrite Nat.add_0_r, <- (IH _ _ E0). clear - D. revert D. generalize (d_columns s). induction (d_columns s0) as [|x xs IHx]; intros ys; cbn [look_all].
      * intros [= <-]. reflexivity.
      * destruct (nth_error is (N.to_nat x)); [|discriminate]. destruct (look_all is xs) as [z|] eqn:Ez; [|discriminate]. intros H.
        assert (ys = n :: z) by congruence. subst ys. cbn [length]. f_equal. apply IHx. reflexivity.
Qed.
(** The index of a column that no save has touched yet. *)
Definition fresh_column (p k : nat) (f : Format) (b : dbook) : Prop := exists s i, nth_error (d_sheets b) k = Some s /\ nth_error (d_columns s) p = Some i /\
  nth_error (d_formats s) (N.to_nat i) = Some f.
Lemma fresh_step p k f b o b' : fresh_column p k f b -> no_save o -> dstep b o = Some b' -> fresh_column p k f b'.
Proof.
  intros (s & i & H1 & H2 & H3) No E. destruct o as [|j g|j g|]; cbn [dstep] in E; [| | |contradiction No; reflexivity].
  - assert (b' = {| d_sheets := d_sheets b ++ [dsheet_new]; d_global := d_global b |}) by congruence. subst b'. exists s, i. cbn [d_sheets].
    split; [apply nth_more, H1|auto].
  - assert (b' = {| d_sheets := on_sheet j (fun s => use_rule s g) (d_sheets b); d_global := d_global b |}) by congruence. subst b'.
    unfold fresh_column. cbn [d_sheets]. rewrite on_sheet_nth, H1. destruct (k =? j)%nat; [|exists s, i; auto]. cbn [option_map]. exists (use_rule s g), i. split; [reflexivity|].
    unfold use_rule. destruct (dxf_register (d_formats s) g) as [l n] eqn:Er. destruct (register_ok _ _ _ _ Er) as [_ [r ->]]. cbn [d_columns d_formats]. split; [exact H2|apply nth_more, H3].
  - assert (b' = {| d_sheets := on_sheet j (fun s => use_column s g) (d_sheets b); d_global := d_global b |}) by congruence. subst b'.
    unfold fresh_column. cbn [d_sheets]. rewrite on_sheet_nth, H1. destruct (k =? j)%nat; [|exists s, i; auto]. cbn [option_map]. exists (use_column s g), i. split; [reflexivity|].
    unfold use_column. destruct (dxf_register (d_formats s) g) as [l n] eqn:Er. destruct (register_ok _ _ _ _ Er) as [_ [r ->]]. cbn [d_columns d_formats]. split; [apply nth_more, H2|apply nth_more, H3].
Qed.
Lemma look_nth is : forall xs ys p i, look_all is xs = Some ys -> nth_error xs p = Some i -> nth_error ys p = nth_error is (N.to_nat i).
Proof.
  induction xs as [|x xs IH]; intros ys p i; [destruct p; discriminate|]. cbn [look_all]. destruct (nth_error is (N.to_nat x)) as [j|] eqn:E; [|discriminate].
  destruct (look_all is xs) as [z|] eqn:Ez; [|discriminate]. intros H. assert (ys = j :: z) by congruence. subst ys. destruct p as [|p]; cbn [nth_error].
  - intros [= <-]. congruence.
  - apply (IH z p i eq_refl).
Qed.
Theorem C68_columns_partial before k f after b b' file :
  (k < sheets_made before)%nat -> Forall no_save after ->
  drun dbook_new (before ++ DColumn k f :: after) = Some b -> dsave b = Some (b', file) ->
  exists ids id, nth_error (f_columns file) k = Some ids /\ nth_error ids (length (columns_given k 0 before)) = Some id /\
    nth_error (f_dxfs file) (N.to_nat id) = Some f.
Proof.
  intros Hk No R E. rewrite drun_app in R. destruct (drun dbook_new before) as [b0|] eqn:R0; [|discriminate]. cbn [drun dstep] in R.
  destruct (rules_inv _ _ R0) as [L _]. destruct (nth_error (d_sheets b0) k) as [s0|] eqn:E0; [|apply nth_error_None in E0; lia].
  pose proof (columns_count _ _ R0 _ _ E0) as Lc.
  assert (F0 : fresh_column (length (columns_given k 0 before)) k f {| d_sheets := on_sheet k (fun s => use_column s f) (d_sheets b0); d_global := d_global b0 |}).
  { unfold fresh_column. cbn [d_sheets]. rewrite on_sheet_nth, Nat.eqb_refl, E0. cbn [option_map]. exists (use_column s0 f).
    unfold use_column. destruct (dxf_register (d_formats s0) f) as [l n] eqn:Er. destruct (register_ok _ _ _ _ Er) as [A _]. exists n. split; [reflexivity|]. cbn [d_columns d_formats].
    split; [|exact A]. rewrite nth_error_app2 by lia. rewrite Lc, Nat.sub_diag. reflexivity. }
  revert R F0. generalize {| d_sheets := on_sheet k (fun s => use_column s f) (d_sheets b0); d_global := d_global b0 |}. intros c R F0.
  assert (F : fresh_column (length (columns_given k 0 before)) k f b).
  { clear - R F0 No. revert c R F0. induction No as [|o after H No IH]; intros c; cbn [drun].
    - intros [= <-]. auto.
    - destruct (dstep c o) as [d|] eqn:E; [|discriminate]. intros R F. apply (IH d R). eapply fresh_step; eassumption. }
  destruct F as (s & i & H1 & H2 & H3). unfold dsave in E. destruct (globalise_all (d_global b) (d_sheets b)) as [g maps] eqn:Eg.
  destruct (remap_all maps (d_sheets b)) as [l'|] eqn:Em; [|discriminate]. destruct (rule_ids maps (d_sheets b)) as [ids|]; [|discriminate].
  assert (file = {| f_dxfs := g; f_rules := ids; f_columns := map d_columns l' |}) by congruence. subst file. cbn [f_columns f_dxfs].
  destruct (globalise_all_ok _ _ _ _ Eg) as [F _]. pose proof (forall2_length _ _ _ F) as Lm. destruct (remap_frame _ _ _ Em ltac:(lia)) as [_ Fr].
  destruct (Fr _ _ H1) as (s' & is & N1 & N2 & _ & _ & N3). destruct (forall2_nth _ _ _ _ _ F H1) as (is' & M' & S). assert (is' = is) by congruence. subst is'.
  destruct (nth_select _ _ _ _ _ S H3) as (j & J1 & J2). exists (d_columns s'), j. split; [rewrite nth_error_map, N1; reflexivity|]. split; [|exact J2].
  rewrite (look_nth _ _ _ _ _ N3 H2). exact J1.
Qed.

(** A second save translates the column numbers again: here the column given the
    number format 10 refers to the format given to the second rule in the second
    file, and the third save panics. *)
Definition numbered (i : N) : Format :=
  {| num_format := []; num_format_index := i; font := font_default; alignment := align_default; borders := border_default; fill := fill_default;
     hidden := false; locked := true; checkbox := false; quote_prefix := false |}.
Definition two_saves : list dop := [DSheet; DRule 0 (numbered 9); DSheet; DColumn 1 (numbered 10); DRule 1 (numbered 11)].
Definition saved (b : option dbook) : option (dbook * dfile) := match b with Some b => dsave b | None => None end.
Definition file_of (b : option dbook) : option dfile := option_map snd (saved b).
Theorem C68_second_save_refuted :
  option_map f_columns (file_of (drun dbook_new two_saves)) = Some [[]; [1]] /\
  option_map f_columns (file_of (drun dbook_new (two_saves ++ [DSave]))) = Some [[]; [2]] /\
  option_map f_dxfs (file_of (drun dbook_new (two_saves ++ [DSave]))) = Some [numbered 9; numbered 10; numbered 11] /\
  (exists b, drun dbook_new (two_saves ++ [DSave; DSave]) = Some b) /\ file_of (drun dbook_new (two_saves ++ [DSave; DSave])) = None.
Proof.
  split; [vm_compute; reflexivity|]. split; [vm_compute; reflexivity|]. split; [vm_compute; reflexivity|].
  split; [|vm_compute; reflexivity].
  exists (match drun dbook_new (two_saves ++ [DSave; DSave]) with Some b => b | None => dbook_new end). vm_compute. reflexivity.
Qed.
(** The hypotheses of the theorems are met by these calls. *)
Example C68_meets :
  rules_given 1 0 two_saves = [numbered 11] /\ columns_given 1 0 two_saves = [numbered 10] /\ sheets_made two_saves = 2%nat /\
  option_map f_rules (file_of (drun dbook_new (two_saves ++ [DSave; DRule 0 (numbered 11); DRule 0 (numbered 12)]))) = Some [[0; 2; 3]; [2]].
Proof. vm_compute. repeat split. Qed.
