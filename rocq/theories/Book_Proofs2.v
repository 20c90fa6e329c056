(** Proofs about defined names (Book_Model). *)
From Coq Require Import Sorting.Permutation Sorting.Sorted.
From Verif Require Import Base Ref_Model Ref_Spec Ref_Proofs Quote_Proofs Book_Model Book_Spec Book_Proofs.

(** Lexicographic order. *)
Lemma str_leb_spec a b : str_leb a b = true <-> str_le a b.
Proof.
  unfold str_le. revert b; induction a as [|x a IH]; intros [|y b]; cbn [str_leb].
  - split; auto.
  - split; [intros _; right; constructor|reflexivity].
  - split; [discriminate|]. intros [H|H]; [discriminate|inversion H].
  - destruct (N.eqb_spec x y) as [->|Hne].
    + rewrite IH. split.
      * intros [->|H]; [left; reflexivity|right; apply lt_tail; assumption].
      * intros [H|H]; [left; congruence|]. inversion H; subst; [lia|right; assumption].
    + split.
      * intros H. right. apply lt_head. lia.
      * intros [H|H]; [congruence|]. inversion H; subst; [lia|congruence].
Qed.

Lemma str_lt_trans a b c : str_lt a b -> str_lt b c -> str_lt a c.
Proof.
  intros H; revert c; induction H as [y b|x y a b Hxy|x a b H IH]; intros c Hc.
  - inversion Hc; constructor.
  - inversion Hc; subst; apply lt_head; lia.
  - inversion Hc; subst; [apply lt_head; assumption|apply lt_tail; auto].
Qed.
Lemma str_lt_irrefl a : ~ str_lt a a.
Proof. induction a as [|x a IH]; intros H; inversion H; subst; [lia|auto]. Qed.
Lemma str_lt_total a b : str_lt a b \/ a = b \/ str_lt b a.
Proof.
  revert b; induction a as [|x a IH]; intros [|y b]; [auto|left; constructor|right; right; constructor|].
  destruct (N.lt_trichotomy x y) as [H|[->|H]]; [left; constructor; assumption| |right; right; constructor; assumption].
  destruct (IH b) as [H|[->|H]]; [left; apply lt_tail; assumption|auto|right; right; apply lt_tail; assumption].
Qed.
Lemma str_le_trans a b c : str_le a b -> str_le b c -> str_le a c.
Proof. intros [->|H] [->|H']; unfold str_le; auto. right. eapply str_lt_trans; eassumption. Qed.
Lemma str_le_prefix p t : str_le p (p ++ t).
Proof.
  induction p as [|x p IH]; cbn [app].
  - destruct t; [left; reflexivity|right; constructor].
  - destruct IH as [E|H]; [left; congruence|right; apply lt_tail; assumption].
Qed.

Definition pair_le (a b : str * str) : Prop :=
  str_lt (fst a) (fst b) \/ (fst a = fst b /\ str_le (snd a) (snd b)).
Definition dkey (d : dname) : str * str := (d_sort d, d_range d).

Lemma dname_leb_spec a b : dname_leb a b = true <-> pair_le (dkey a) (dkey b).
Proof.
  unfold dname_leb, pair_le, dkey. cbn [fst snd]. destruct (str_eqb_spec (d_sort a) (d_sort b)) as [E|Hne].
  - rewrite str_leb_spec, E. split; [auto|]. intros [H|[_ H]]; [destruct (str_lt_irrefl _ H)|assumption].
  - rewrite str_leb_spec. unfold str_le. split; [intros [?|?]; [contradiction|auto]|]. intros [H|[H _]]; [auto|contradiction].
Qed.
Lemma pair_le_total a b : pair_le a b \/ pair_le b a.
Proof.
  unfold pair_le. destruct (str_lt_total (fst a) (fst b)) as [H|[E|H]]; auto.
  rewrite E. destruct (str_lt_total (snd a) (snd b)) as [H|[E2|H]]; unfold str_le; auto 6.
Qed.
Lemma pair_le_trans a b c : pair_le a b -> pair_le b c -> pair_le a c.
Proof.
  unfold pair_le. intros [H|[E H]] [H'|[E' H']].
  - left; eapply str_lt_trans; eassumption.
  - left. rewrite <- E'. assumption.
  - left. rewrite E. assumption.
  - right. split; [congruence|]. eapply str_le_trans; eassumption.
Qed.

Lemma insert_dname_perm x l : Permutation (insert_dname x l) (x :: l).
Proof.
  induction l as [|y l IH]; cbn [insert_dname]; [reflexivity|].
  destruct (dname_leb x y); [reflexivity|]. rewrite IH. apply perm_swap.
Qed.
Lemma sort_dnames_perm l : Permutation (sort_dnames l) l.
Proof. induction l as [|x l IH]; cbn [sort_dnames]; [reflexivity|]. rewrite insert_dname_perm, IH. reflexivity. Qed.

Definition dn_le (a b : dname) : Prop := pair_le (dkey a) (dkey b).
Lemma insert_dname_sorted x l : StronglySorted dn_le l -> StronglySorted dn_le (insert_dname x l).
Proof.
  induction 1 as [|y l Hs IH Hy]; cbn [insert_dname]; [constructor; constructor|].
  destruct (dname_leb x y) eqn:E.
  - apply dname_leb_spec in E. constructor; [constructor; assumption|]. constructor; [exact E|].
    eapply Forall_impl; [|exact Hy]. intros a Ha. eapply pair_le_trans; eassumption.
  - constructor; [assumption|]. rewrite Forall_forall. intros a Ha.
    apply (Permutation_in _ (insert_dname_perm x l)) in Ha as [<-|Ha].
    + destruct (pair_le_total (dkey x) (dkey y)) as [H|H]; [apply dname_leb_spec in H; congruence|exact H].
    + rewrite Forall_forall in Hy. auto.
Qed.
Lemma sort_dnames_sorted l : StronglySorted dn_le (sort_dnames l).
Proof. induction l as [|x l IH]; cbn [sort_dnames]; [constructor|]. apply insert_dname_sorted; assumption. Qed.

(** Resolution of sheet names. *)
Lemma find_sheet_acc l i n acc :
  (find_sheet l i n acc = acc /\ (forall s, In s l -> b_name s <> n)) \/
  (exists k s, nth_error l k = Some s /\ b_name s = n /\ find_sheet l i n acc = Some (as_u16 (i + N.of_nat k))).
Proof.
  revert i acc; induction l as [|x l IH]; intros i acc; cbn [find_sheet]; [left; split; [reflexivity|intros s []]|].
  destruct (IH (i + 1) (if str_eqb (b_name x) n then Some (as_u16 i) else acc)) as [[E Hn]|(k & s & Hk & Hs & E)].
  - rewrite E. destruct (str_eqb_spec (b_name x) n) as [Ex|Ex].
    + right. exists O, x. split; [reflexivity|]. split; [assumption|]. do 2 f_equal. lia.
    + left. split; [reflexivity|]. intros s [<-|Hs]; auto.
  - right. exists (S k), s. split; [assumption|]. split; [assumption|]. rewrite E. do 2 f_equal. lia.
Qed.

Lemma find_sheet_unique l n k s : NoDup (map b_name l) -> nth_error l k = Some s -> b_name s = n ->
  find_sheet l 0 n None = Some (as_u16 (N.of_nat k)).
Proof.
  intros Hnd Hk Hs. destruct (find_sheet_acc l 0 n None) as [[_ Hn]|(j & t & Hj & Ht & E)].
  - exfalso. apply (Hn s); [eapply nth_error_In; eassumption|assumption].
  - rewrite E. assert (j = k) as ->; [|do 2 f_equal; lia].
    rewrite NoDup_nth_error in Hnd. apply Hnd.
    + rewrite map_length. apply nth_error_Some. congruence.
    + rewrite !nth_error_map, Hj, Hk. cbn [option_map]. congruence.
Qed.

Definition resolved (sheets : list bsheet) (d d' : dname) : Prop :=
  exists n, unquote_sheetname (d_sheet d) = Some n /\
    ((n = [] /\ d' = d) \/
     (n <> [] /\ exists i, find_sheet sheets 0 n None = Some i /\ d' = with_index d i)).

Lemma resolve_ok sheets l l' : resolve sheets l = Some (Some l') -> Forall2 (resolved sheets) l l'.
Proof.
  revert l'; induction l as [|d l IH]; intros l' H; cbn [resolve] in H.
  - assert (l' = []) as -> by congruence. constructor.
  - destruct (resolve_one sheets d) as [[d'|]|] eqn:E; cbn [obind] in H; try discriminate.
    destruct (resolve sheets l) as [[r|]|] eqn:E2; cbn [obind] in H; try discriminate.
    assert (l' = d' :: r) as -> by congruence. constructor; [|apply IH; reflexivity].
    unfold resolve_one in E. destruct (unquote_sheetname (d_sheet d)) as [n|] eqn:En; cbn [obind] in E; [|discriminate].
    exists n. split; [assumption|]. destruct n as [|c n].
    + left. split; [reflexivity|congruence].
    + right. split; [discriminate|]. destruct (find_sheet sheets 0 (c :: n) None) as [i|]; [|discriminate].
      exists i. split; [reflexivity|congruence].
Qed.

Lemma resolve_err sheets l : resolve sheets l = Some None ->
  exists d n, In d l /\ unquote_sheetname (d_sheet d) = Some n /\ n <> [] /\ forall s, In s sheets -> b_name s <> n.
Proof.
  induction l as [|d l IH]; cbn [resolve]; [discriminate|].
  destruct (resolve_one sheets d) as [[d'|]|] eqn:E; cbn [obind]; try discriminate.
  - destruct (resolve sheets l) as [[r|]|]; cbn [obind]; try discriminate. intros _.
    destruct (IH eq_refl) as (x & n & Hx & H). exists x, n. split; [right; assumption|assumption].
  - intros _. unfold resolve_one in E. destruct (unquote_sheetname (d_sheet d)) as [n|] eqn:En; cbn [obind] in E; [|discriminate].
    destruct n as [|c n]; [discriminate|].
    destruct (find_sheet_acc sheets 0 (c :: n) None) as [[Ef Hn]|(k & s & _ & _ & Ef)]; rewrite Ef in E; [|discriminate].
    exists d, (c :: n). split; [left; reflexivity|]. split; [assumption|]. split; [discriminate|assumption].
Qed.

Lemma Forall2_in_l {A B} (R : A -> B -> Prop) l l' x : Forall2 R l l' -> In x l -> exists y, In y l' /\ R x y.
Proof.
  induction 1 as [|a b l l' Hab H IH]; intros Hx; [destruct Hx|]. destruct Hx as [->|Hx].
  - exists b. split; [left; reflexivity|assumption].
  - destruct (IH Hx) as (y & Hy & HR). exists y. split; [right; assumption|assumption].
Qed.
Lemma Forall2_in_r {A B} (R : A -> B -> Prop) l l' y : Forall2 R l l' -> In y l' -> exists x, In x l /\ R x y.
Proof.
  induction 1 as [|a b l l' Hab H IH]; intros Hx; [destruct Hx|]. destruct Hx as [->|Hx].
  - exists a. split; [left; reflexivity|assumption].
  - destruct (IH Hx) as (x & Hy & HR). exists x. split; [right; assumption|assumption].
Qed.

(** The saved list: user names and sheet names, each resolved, then sorted. *)
Lemma saved_names_full m o b b' f : save_book m o b = Some (b', SaveOk f) ->
  exists b1 own l, prepared m b = Some b1 /\ k_sheets b' = k_sheets b1 /\ k_user b1 = k_user b' /\
    NoDup (map (bu_lower o) (map b_name (k_sheets b1))) /\
    all_sheet_dnames m o (k_sheets b1) = Some own /\
    Forall2 (resolved (k_sheets b1)) (k_user b1 ++ own) l /\
    k_names b' = sort_dnames l /\ bf_names f = map name_entry_of (sort_dnames l).
Proof.
  intros H. apply save_ok_inv in H as (b1 & own & l & Hp & Hd & _ & Hown & Hr & -> & Hw).
  apply write_book_inv in Hw as (_ & Hn & _). exists b1, own, l. cbn [k_sheets k_user k_names] in *.
  split; [assumption|]. split; [reflexivity|]. split; [reflexivity|]. split; [apply dup_name_nodup; assumption|].
  split; [assumption|]. split; [apply resolve_ok; assumption|]. auto.
Qed.

Lemma prepared_user m b b1 : prepared m b = Some b1 -> k_user b1 = k_user b.
Proof.
  unfold prepared. destruct (k_sheets b) as [|s l] eqn:E.
  - destruct (add_worksheet m b) as [b0|] eqn:Ea; cbn [obind]; [|discriminate]. intros H.
    assert (b1 = set_active_worksheets b0) as -> by congruence. apply add_worksheet_inv in Ea as (_ & _ & _ & _ & _ & Hu & _).
    exact Hu.
  - cbn [obind]. intros H. assert (b1 = set_active_worksheets b) as -> by congruence. reflexivity.
Qed.

Lemma NoDup_map_inv' {A B} (g : A -> B) l : NoDup (map g l) -> NoDup l.
Proof.
  induction l as [|x l IH]; cbn [map]; intros H; [constructor|]. inversion H as [|y ys Hy Hn]; subst.
  constructor; [|auto]. intros Hi. apply Hy. apply in_map; assumption.
Qed.

(** A resolved input name occurs in the file. *)
Lemma saved_in m o b b' f d : save_book m o b = Some (b', SaveOk f) ->
  (In d (k_user b) \/ exists own, all_sheet_dnames m o (k_sheets b') = Some own /\ In d own) ->
  exists n, unquote_sheetname (d_sheet d) = Some n /\
   ((n = [] /\ In (name_entry_of d) (bf_names f)) \/
    (n <> [] /\ exists i s, nth_error (k_sheets b') i = Some s /\ b_name s = n /\
       In (name_entry_of (with_index d (as_u16 (N.of_nat i)))) (bf_names f) /\
       (forall j t, nth_error (k_sheets b') j = Some t -> b_name t = n -> j = i))).
Proof.
  intros H Hin. apply saved_names_full in H as (b1 & own & l & Hp & Es & Eu & Hnd & Hown & HF & _ & ->).
  assert (Hd : In d (k_user b1 ++ own)).
  { apply in_or_app. destruct Hin as [Hin|(own' & Eo & Hin)]; [left; rewrite (prepared_user _ _ _ Hp); assumption|right].
    rewrite Es in Eo. congruence. }
  destruct (Forall2_in_l _ _ _ _ HF Hd) as (d' & Hd' & n & En & Hres). exists n. split; [assumption|].
  assert (Hmem : In (name_entry_of d') (map name_entry_of (sort_dnames l))).
  { apply in_map. apply (Permutation_in _ (Permutation_sym (sort_dnames_perm l))). assumption. }
  destruct Hres as [[-> ->]|(Hne & i & Hi & ->)]; [left; auto|right]. split; [assumption|].
  destruct (find_sheet_acc (k_sheets b1) 0 n None) as [[Ef Hn]|(k & s & Hk & Hs & Ef)]; [congruence|].
  exists k, s. rewrite Es. split; [assumption|]. split; [assumption|]. split.
  - rewrite N.add_0_l in Ef. assert (i = as_u16 (N.of_nat k)) as -> by congruence. assumption.
  - intros j t Hj Ht. apply NoDup_map_inv' in Hnd. rewrite NoDup_nth_error in Hnd. apply Hnd.
    + rewrite map_length. apply nth_error_Some. congruence.
    + rewrite !nth_error_map, Hj, Hk. cbn [option_map]. congruence.
Qed.

(** Area texts. *)
Lemma span_digits ds t : forallb is_ascii_digit ds = true -> no_digit_head t -> span is_ascii_digit (ds ++ t) = (ds, t).
Proof. intros H Ht. apply span_all; assumption. Qed.

Lemma parse_abs_row_dec n t : no_digit_head t -> parse_abs_row (36 :: dec (n + 1) ++ t) = Some (n, t).
Proof.
  intros Ht. destruct (dec_spec (n + 1)) as (Hd & Hne & Hhd & Hv). unfold parse_abs_row.
  rewrite (span_digits _ _ Hd Ht). destruct (dec (n + 1)) as [|d ds]; [congruence|].
  cbn [hd] in Hhd. destruct (N.eqb_spec d 48) as [E|_]; [exfalso; apply Hhd; [lia|assumption]|].
  rewrite Hv. do 2 f_equal. lia.
Qed.

Lemma parse_rows_dec a b : parse_rows (36 :: dec (a + 1) ++ 58 :: 36 :: dec (b + 1)) = Some (a, b).
Proof.
  unfold parse_rows. rewrite (parse_abs_row_dec a (58 :: 36 :: dec (b + 1)) (no_digit_colon _)).
  rewrite <- (app_nil_r (dec (b + 1))), (parse_abs_row_dec b [] no_digit_nil). reflexivity.
Qed.

Definition no_upper_head (t : str) : Prop := forall c r, t = c :: r -> is_ascii_upper c = false.
Lemma parse_abs_col_name m c name t : c < 65535 -> column_number_to_name m c = Some name -> no_upper_head t ->
  parse_abs_col (36 :: name ++ t) = Some (c, t).
Proof.
  intros Hc E Ht. destruct (column_number_to_name_spec m c Hc) as (ls & E' & Hu & Hne & Hv).
  assert (name = ls) as -> by congruence. unfold parse_abs_col. rewrite (span_all is_ascii_upper ls t Hu Ht).
  destruct ls as [|l ls]; [congruence|]. rewrite Hv. do 2 f_equal. lia.
Qed.

Lemma parse_cols_name m a b na nb : a < 65535 -> b < 65535 -> column_number_to_name m a = Some na ->
  column_number_to_name m b = Some nb -> parse_cols (36 :: na ++ 58 :: 36 :: nb) = Some (a, b).
Proof.
  intros Ha Hb Ea Eb. unfold parse_cols.
  rewrite (parse_abs_col_name m a na (58 :: 36 :: nb) Ha Ea).
  - rewrite <- (app_nil_r nb), (parse_abs_col_name m b nb [] Hb Eb); [reflexivity|]. intros c r H; discriminate.
  - intros c r H. injection H as <- _. reflexivity.
Qed.

Lemma parse_rows_letters m a na t : a < 65535 -> column_number_to_name m a = Some na ->
  parse_rows (36 :: na ++ t) = None.
Proof.
  intros Ha E. destruct (column_number_to_name_spec m a Ha) as (ls & E' & Hu & Hne & Hv).
  assert (na = ls) as -> by congruence. destruct ls as [|l ls]; [congruence|].
  cbn [forallb] in Hu. apply andb_true_iff in Hu as [Hl _]. unfold parse_rows, parse_abs_row. cbn [app span].
  assert (is_ascii_digit l = false) as -> by (unfold is_ascii_upper, is_ascii_digit in *; lia). reflexivity.
Qed.

(** An absolute range is not mistaken for whole rows or columns. *)
Lemma abs_range_shape m fr fc lr lc s : fr < 2^32 - 1 -> fc < 65535 -> lr < 2^32 - 1 -> lc < 65535 ->
  cell_range_absolute m fr fc lr lc = Some s -> parse_rows s = None /\ parse_cols s = None.
Proof.
  intros Hfr Hfc Hlr Hlc E. unfold cell_range_absolute, row_col_to_cell_absolute in E.
  destruct (column_number_to_name m fc) as [n1|] eqn:E2; cbn [obind] in E; [|discriminate].
  destruct (add32 m fr 1) as [r1|] eqn:E1; cbn [obind] in E; [|discriminate].
  destruct (column_number_to_name m lc) as [n2|] eqn:E4; cbn [obind] in E; [|discriminate].
  destruct (add32 m lr 1) as [r2|] eqn:E3; cbn [obind] in E; [|discriminate].
  assert (exists t, s = 36 :: n1 ++ 36 :: t) as (t & ->).
  { destruct (str_eqb _ _).
    - exists (dec r1). congruence.
    - eexists. transitivity ((36 :: n1 ++ 36 :: dec r1) ++ 58 :: 36 :: n2 ++ 36 :: dec r2); [congruence|].
      cbn [app]. rewrite <- app_assoc. reflexivity. }
  split; [apply (parse_rows_letters m fc); assumption|].
  unfold parse_cols. rewrite (parse_abs_col_name m fc n1 (36 :: t) Hfc E2); [reflexivity|].
  intros c r H. injection H as <- _. reflexivity.
Qed.

Lemma area_text m u name q d : unicode_ok u -> (forall r, name <> 39 :: r) -> quote_sheet_name m u name = Some q ->
  d_sheet d = q -> (d_type d = DAutofilter \/ d_type d = DPrintArea) ->
  d_fr d <= d_lr d -> d_lr d < 1048576 -> d_fc d <= d_lc d -> d_lc d < 16384 ->
  exists t, range_of m d = Some t /\
    parse_sheet_area t = Some (name, {| rc_fr := d_fr d; rc_fc := d_fc d; rc_lr := d_lr d; rc_lc := d_lc d |}).
Proof.
  intros Hu Hq Eq Es Ht H1 H2 H3 H4.
  assert (Hpar : forall rest, parse_sheet (q ++ 33 :: rest) = Some (name, 33 :: rest))
    by (intros; eapply parse_sheet_quoted; eassumption).
  assert (Hcols : forall c, c < 16384 -> exists n, column_number_to_name m c = Some n).
  { intros c Hc. destruct (column_number_to_name_spec m c ltac:(lia)) as (n & E & _). eauto. }
  assert (G : forall range, (if (d_fc d =? 0) && (d_lc d =? COL_MAX - 1)
                then Some (36 :: dec (d_fr d + 1) ++ 58 :: 36 :: dec (d_lr d + 1))
                else if (d_fr d =? 0) && (d_lr d =? ROW_MAX - 1)
                then c1 <- column_number_to_name m (d_fc d) ;;
                     c2 <- column_number_to_name m (d_lc d) ;;
                     Some (36 :: c1 ++ 58 :: 36 :: c2)
                else cell_range_absolute m (d_fr d) (d_fc d) (d_lr d) (d_lc d)) = Some range ->
            parse_area range = Some {| rc_fr := d_fr d; rc_fc := d_fc d; rc_lr := d_lr d; rc_lc := d_lc d |}).
  { intros range. unfold COL_MAX, ROW_MAX.
    destruct ((d_fc d =? 0) && (d_lc d =? 16384 - 1)) eqn:E1.
    - apply andb_true_iff in E1 as [Ea Eb]. apply N.eqb_eq in Ea, Eb. intros E. assert (range = 36 :: dec (d_fr d + 1) ++ 58 :: 36 :: dec (d_lr d + 1)) as -> by congruence.
      unfold parse_area. rewrite parse_rows_dec. rewrite Ea, Eb. reflexivity.
    - destruct ((d_fr d =? 0) && (d_lr d =? 1048576 - 1)) eqn:E2.
      + apply andb_true_iff in E2 as [Ea Eb]. apply N.eqb_eq in Ea, Eb.
        destruct (Hcols (d_fc d) ltac:(lia)) as (c1 & Ec1). destruct (Hcols (d_lc d) ltac:(lia)) as (c2 & Ec2).
        rewrite Ec1, Ec2. cbn [obind]. intros E. assert (range = 36 :: c1 ++ 58 :: 36 :: c2) as -> by congruence.
        unfold parse_area. rewrite (parse_rows_letters m (d_fc d) c1 _ ltac:(lia) Ec1).
        rewrite (parse_cols_name m (d_fc d) (d_lc d) c1 c2 ltac:(lia) ltac:(lia) Ec1 Ec2). rewrite Ea, Eb. reflexivity.
      + intros E. pose proof E as E'.
        destruct (abs_range_shape m (d_fr d) (d_fc d) (d_lr d) (d_lc d) range) as [Hr Hc]; try (change (2^32) with 4294967296; lia); [assumption|].
        rewrite cell_range_absolute_eq in E.
        destruct (range_text_parse true m (d_fr d) (d_fc d) (d_lr d) (d_lc d)) as (s & Es' & Hp & _); try (change (2^32) with 4294967296; lia).
        assert (s = range) as -> by congruence. unfold parse_area. rewrite Hr, Hc, Hp. reflexivity. }
  assert (Htot : exists range, (if (d_fc d =? 0) && (d_lc d =? COL_MAX - 1)
                then Some (36 :: dec (d_fr d + 1) ++ 58 :: 36 :: dec (d_lr d + 1))
                else if (d_fr d =? 0) && (d_lr d =? ROW_MAX - 1)
                then c1 <- column_number_to_name m (d_fc d) ;;
                     c2 <- column_number_to_name m (d_lc d) ;;
                     Some (36 :: c1 ++ 58 :: 36 :: c2)
                else cell_range_absolute m (d_fr d) (d_fc d) (d_lr d) (d_lc d)) = Some range).
  { destruct ((d_fc d =? 0) && _); [eauto|]. destruct ((d_fr d =? 0) && _).
    - destruct (Hcols (d_fc d) ltac:(lia)) as (c1 & ->). destruct (Hcols (d_lc d) ltac:(lia)) as (c2 & ->). cbn [obind]. eauto.
    - rewrite cell_range_absolute_eq.
      destruct (range_text_parse true m (d_fr d) (d_fc d) (d_lr d) (d_lc d)) as (s & Es' & _); try (change (2^32) with 4294967296; lia). eauto. }
  destruct Htot as (range & Hrange). specialize (G range Hrange).
  exists (q ++ 33 :: range). split.
  - unfold range_of. destruct Ht as [-> | ->]; rewrite Hrange; cbn [obind]; rewrite Es; reflexivity.
  - unfold parse_sheet_area. rewrite Hpar, G. reflexivity.
Qed.

(** Repeat rows/columns. *)
Definition rows_text (q : str) (a b : N) : str := q ++ 33 :: 36 :: dec (a + 1) ++ 58 :: 36 :: dec (b + 1).
Lemma rows_text_parse m u name q a b : unicode_ok u -> (forall r, name <> 39 :: r) -> quote_sheet_name m u name = Some q ->
  parse_sheet_area (rows_text q a b) = Some (name, {| rc_fr := a; rc_fc := 0; rc_lr := b; rc_lc := 16383 |}).
Proof.
  intros Hu Hq Eq. unfold parse_sheet_area, rows_text. rewrite (parse_sheet_quoted m u name q _ Hu Hq Eq).
  unfold parse_area. rewrite parse_rows_dec. reflexivity.
Qed.
Lemma cols_text_parse m u name q a b ca cb : unicode_ok u -> (forall r, name <> 39 :: r) -> quote_sheet_name m u name = Some q ->
  a < 65535 -> b < 65535 -> column_number_to_name m a = Some ca -> column_number_to_name m b = Some cb ->
  parse_sheet_area (q ++ 33 :: 36 :: ca ++ 58 :: 36 :: cb) = Some (name, {| rc_fr := 0; rc_fc := a; rc_lr := 1048575; rc_lc := b |}).
Proof.
  intros Hu Hq Eq Ha Hb Ea Eb. unfold parse_sheet_area. rewrite (parse_sheet_quoted m u name q _ Hu Hq Eq).
  unfold parse_area. rewrite (parse_rows_letters m a ca _ Ha Ea), (parse_cols_name m a b ca cb Ha Hb Ea Eb). reflexivity.
Qed.

(** Membership in the per-sheet names. *)
Lemma all_sheet_dnames_in m o l own k s ds d : all_sheet_dnames m o l = Some own -> nth_error l k = Some s ->
  sheet_dnames m o s = Some ds -> In d ds -> In d own.
Proof.
  revert own k; induction l as [|x l IH]; intros own k H Hk Hs Hd; [destruct k; discriminate|]. cbn [all_sheet_dnames] in H.
  destruct (sheet_dnames m o x) as [a|] eqn:Ea; cbn [obind] in H; [|discriminate].
  destruct (all_sheet_dnames m o l) as [r|] eqn:Er; cbn [obind] in H; [|discriminate].
  assert (own = a ++ r) as -> by congruence. apply in_or_app. destruct k as [|k]; cbn [nth_error] in Hk.
  - left. assert (x = s) as -> by congruence. assert (a = ds) as -> by congruence. assumption.
  - right. eapply IH; eauto.
Qed.
Lemma all_sheet_dnames_some m o l own k s : all_sheet_dnames m o l = Some own -> nth_error l k = Some s ->
  exists ds, sheet_dnames m o s = Some ds.
Proof.
  revert own k; induction l as [|x l IH]; intros own k H Hk; [destruct k; discriminate|]. cbn [all_sheet_dnames] in H.
  destruct (sheet_dnames m o x) as [a|] eqn:Ea; cbn [obind] in H; [|discriminate].
  destruct (all_sheet_dnames m o l) as [r|] eqn:Er; cbn [obind] in H; [|discriminate].
  destruct k as [|k]; cbn [nth_error] in Hk; [|eapply IH; eauto]. assert (x = s) as <- by congruence. eauto.
Qed.

Lemma sheet_dnames_in m o s ds : sheet_dnames m o s = Some ds ->
  exists q, quote_sheet_name m (bu o) (b_name s) = Some q /\
    (forall d0, In d0 [b_autofilter s; b_print s; b_titles s] -> d_in_use d0 = true ->
       exists d, d_initialize m o d0 q = Some d /\ In d ds) /\
    (forall d, In d ds -> exists d0, In d0 [b_autofilter s; b_print s; b_titles s] /\ d_in_use d0 = true /\
       d_initialize m o d0 q = Some d).
Proof.
  unfold sheet_dnames. destruct (quote_sheet_name m (bu o) (b_name s)) as [q|]; cbn [obind]; [|discriminate].
  set (part := fun d0 : dname => if d_in_use d0 then d <- d_initialize m o d0 q ;; Some [d] else Some []).
  fold (part (b_autofilter s)). fold (part (b_print s)). fold (part (b_titles s)).
  assert (Hpart : forall d0 l, part d0 = Some l ->
     (d_in_use d0 = true -> exists d, d_initialize m o d0 q = Some d /\ In d l) /\
     (forall d, In d l -> d_in_use d0 = true /\ d_initialize m o d0 q = Some d)).
  { intros d0 l. unfold part. destruct (d_in_use d0).
    - destruct (d_initialize m o d0 q) as [d|]; cbn [obind]; [|discriminate]. intros H. assert (l = [d]) as -> by congruence.
      split; [intros _; exists d; split; [reflexivity|left; reflexivity]|]. intros x [<-|[]]. auto.
    - intros H. assert (l = []) as -> by congruence. split; [discriminate|intros d []]. }
  destruct (part (b_autofilter s)) as [a|] eqn:Ea; cbn [obind]; [|discriminate].
  destruct (part (b_print s)) as [p|] eqn:Ep; cbn [obind]; [|discriminate].
  destruct (part (b_titles s)) as [t|] eqn:Et; cbn [obind]; [|discriminate].
  intros H. assert (ds = a ++ p ++ t) as -> by congruence. exists q. split; [reflexivity|].
  apply Hpart in Ea as [A1 A2]. apply Hpart in Ep as [P1 P2]. apply Hpart in Et as [T1 T2]. split.
  - intros d0 [<-|[<-|[<-|[]]]] Hu.
    + destruct (A1 Hu) as (d & E & Hi). exists d. rewrite !in_app_iff. auto.
    + destruct (P1 Hu) as (d & E & Hi). exists d. rewrite !in_app_iff. auto.
    + destruct (T1 Hu) as (d & E & Hi). exists d. rewrite !in_app_iff. auto.
  - intros d Hi. rewrite !in_app_iff in Hi. destruct Hi as [Hi|[Hi|Hi]].
    + exists (b_autofilter s). destruct (A2 d Hi). cbn [In]. auto.
    + exists (b_print s). destruct (P2 d Hi). cbn [In]. auto.
    + exists (b_titles s). destruct (T2 d Hi). cbn [In]. auto.
Qed.

(** A sheet's own name is written with that sheet's index. *)
Lemma saved_own m o b b' f i s d0 : save_book m o b = Some (b', SaveOk f) ->
  nth_error (k_sheets b') i = Some s -> N.of_nat i < 65536 -> valid_sheetname (b_name s) ->
  In d0 [b_autofilter s; b_print s; b_titles s] -> d_in_use d0 = true -> d_type d0 <> DGlobal ->
  exists q t, quote_sheet_name m (bu o) (b_name s) = Some q /\ range_of m (with_sheet d0 q) = Some t /\
    In {| ne_name := d_written_name d0; ne_local := Some (N.of_nat i);
          ne_hidden := match d_type d0 with DAutofilter => true | _ => false end; ne_range := t |} (bf_names f).
Proof.
  intros H Hi Hlt Hval Hin Hu Hty.
  destruct (saved_names_full _ _ _ _ _ H) as (b1 & own & l & Hp & Es & Eu & Hnd & Hown & HF & _ & _).
  rewrite <- Es in Hown. destruct (all_sheet_dnames_some _ _ _ _ _ _ Hown Hi) as (ds & Hds).
  destruct (sheet_dnames_in _ _ _ _ Hds) as (q & Eq & Hex & _). destruct (Hex d0 Hin Hu) as (d & Ed & Hdin).
  unfold d_initialize in Ed. destruct (range_of m (with_sheet d0 q)) as [t|] eqn:Er; cbn [obind] in Ed; [|discriminate].
  exists q, t. split; [assumption|]. split; [exact Er|].
  assert (Hd : In d own) by (eapply all_sheet_dnames_in; eauto).
  destruct (saved_in _ _ _ _ _ d H (or_intror (ex_intro _ own (conj Hown Hd)))) as (n & En & Hcase).
  assert (Hsh : d_sheet d = q) by (assert (d = with_text (with_sheet d0 q) t (sort_name_of o (with_sheet d0 q))) as -> by congruence; reflexivity).
  destruct Hval as (Hne & _ & _ & Hq & _).
  rewrite Hsh, (quote_unquote m (bu o) (b_name s) q Hq Eq) in En. assert (n = b_name s) as -> by congruence.
  destruct Hcase as [[E0 _]|(_ & k & s' & Hk & Hs' & Hmem & Huniq)]; [contradiction|].
  assert (i = k) as <- by (eapply Huniq; eauto).
  assert (Ed' : d = with_text (with_sheet d0 q) t (sort_name_of o (with_sheet d0 q))) by congruence.
  rewrite Ed' in Hmem. unfold as_u16 in Hmem. rewrite N.mod_small in Hmem by assumption.
  unfold name_entry_of in Hmem. cbn [with_index with_text with_sheet d_type d_index d_range] in Hmem.
  replace (d_written_name (with_index (with_text (with_sheet d0 q) t (sort_name_of o (with_sheet d0 q))) (N.of_nat i)))
    with (d_written_name d0) in Hmem by reflexivity.
  destruct (d_type d0); try exact Hmem. congruence.
Qed.

(** define_name *)
Lemma split_bang_app sh n : ~ In 33 sh -> split_bang (sh ++ 33 :: n) = Some (sh, n).
Proof.
  induction sh as [|c sh IH]; intros H; cbn [app split_bang]; [reflexivity|].
  destruct (N.eqb_spec c 33) as [->|_]; [exfalso; apply H; left; reflexivity|].
  rewrite IH; [reflexivity|]. intros Hi. apply H. right; assumption.
Qed.
Lemma split_bang_none s : ~ In 33 s -> split_bang s = None.
Proof.
  induction s as [|c s IH]; intros H; cbn [split_bang]; [reflexivity|].
  destruct (N.eqb_spec c 33) as [->|_]; [exfalso; apply H; left; reflexivity|].
  rewrite IH; [reflexivity|]. intros Hi. apply H. right; assumption.
Qed.
Lemma split_bang_some s a b : split_bang s = Some (a, b) -> s = a ++ 33 :: b /\ ~ In 33 a.
Proof.
  revert a; induction s as [|c s IH]; intros a H; cbn [split_bang] in H; [discriminate|].
  destruct (N.eqb_spec c 33) as [->|Hne].
  - assert (a = [] /\ b = s) as [-> ->] by (split; congruence). split; [reflexivity|intros []].
  - destruct (split_bang s) as [[x y]|]; [|discriminate]. assert (a = c :: x /\ b = y) as [-> ->] by (split; congruence).
    destruct (IH x eq_refl) as [-> Hx]. split; [reflexivity|]. intros [Ec|Hi]; [congruence|contradiction].
Qed.
Lemma split_bang_none_inv s : split_bang s = None -> ~ In 33 s.
Proof.
  induction s as [|c s IH]; cbn [split_bang]; intros H Hi; [destruct Hi|].
  destruct (N.eqb_spec c 33) as [->|Hne]; [discriminate|].
  destruct (split_bang s) as [[x y]|]; [discriminate|]. destruct Hi as [Ec|Hi]; [congruence|]. apply IH; auto.
Qed.

Lemma forbidden_name_iff c : existsb (N.eqb c) [32; 44; 47; 42; 91; 93; 58; 34; 39] = true <-> forbidden_in_name c.
Proof.
  rewrite existsb_exists. unfold forbidden_in_name. split.
  - intros (x & Hx & E). apply N.eqb_eq in E. subst x. cbn in Hx |- *. intuition.
  - intros H. exists c. split; [|apply N.eqb_refl]. cbn in H |- *. intuition.
Qed.

Lemma define_name_cases o b full n f : name_part full n ->
  (n = [] -> define_name o b full f = None) /\
  (n <> [] -> valid_dname (bu_alpha o) n -> exists b', define_name o b full f = Some (b', true)) /\
  (n <> [] -> ~ valid_dname (bu_alpha o) n -> define_name o b full f = Some (b, false)).
Proof.
  intros Hpart.
  assert (Hs : exists sh ty, match split_bang full with Some (sh, n) => (sh, n, DLocal) | None => ([], full, DGlobal) end = (sh, n, ty)).
  { destruct Hpart as [(sh & -> & Hsh)|[-> Hn]].
    - rewrite split_bang_app by assumption. eauto.
    - rewrite split_bang_none by assumption. eauto. }
  destruct Hs as (sh & ty & Hs). unfold define_name. rewrite Hs. clear Hs Hpart.
  split; [intros ->; reflexivity|]. 
  destruct n as [|c r]; [split; congruence|].
  assert (Hhead : negb (bu_alpha o c) && negb (c =? 95) && negb (c =? 92) = true <-> ~ (bu_alpha o c = true \/ c = 95 \/ c = 92)).
  { rewrite !andb_true_iff, !negb_true_iff, !N.eqb_neq. destruct (bu_alpha o c); intuition congruence. }
  assert (Hbad : existsb (fun c => existsb (N.eqb c) [32; 44; 47; 42; 91; 93; 58; 34; 39]) (c :: r) = true <->
                 exists x, In x (c :: r) /\ forbidden_in_name x).
  { rewrite existsb_exists. split; intros (x & Hx & Hf); exists x; (split; [assumption|]); apply forbidden_name_iff; assumption. }
  split.
  - intros _ [(c0 & r0 & E & Hc) Hall]. assert (c0 = c) as -> by congruence.
    destruct (negb (bu_alpha o c) && negb (c =? 95) && negb (c =? 92)) eqn:E1.
    { assert (true = true) as T by reflexivity. apply Hhead in T. contradiction. }
    destruct (existsb _ (c :: r)) eqn:E2.
    { destruct Hbad as [Hbad _]. destruct (Hbad eq_refl) as (x & Hx & Hf). exfalso. apply (Hall x Hx Hf). }
    eexists. reflexivity.
  - intros _ Hnv. destruct (negb (bu_alpha o c) && negb (c =? 95) && negb (c =? 92)) eqn:E1; [reflexivity|].
    destruct (existsb _ (c :: r)) eqn:E2; [reflexivity|]. exfalso. apply Hnv. split.
    + exists c, r. split; [reflexivity|]. destruct (bu_alpha o c); [left; reflexivity|]. cbn [negb andb] in E1.
      destruct (N.eqb_spec c 95); [auto|]. destruct (N.eqb_spec c 92); [auto|discriminate].
    + intros x Hx Hf. assert (false = true); [|discriminate]. apply Hbad. eauto.
Qed.

(** What an accepted definition stores. *)
Lemma define_name_stores o b full f b' : define_name o b full f = Some (b', true) ->
  exists d, k_user b' = k_user b ++ [d] /\ k_sheets b' = k_sheets b /\ name_part full (d_name d) /\
    valid_dname (bu_alpha o) (d_name d) /\
    d_range d = formula_to_string f /\ d_sort d = bu_lower o (d_name d) /\
    ((d_type d = DLocal /\ full = d_sheet d ++ 33 :: d_name d /\ ~ In 33 (d_sheet d)) \/
     (d_type d = DGlobal /\ full = d_name d /\ d_sheet d = [] /\ ~ In 33 full)).
Proof.
  intros H. unfold define_name in H.
  assert (Hs : exists sh n ty, match split_bang full with Some (sh, n) => (sh, n, DLocal) | None => ([], full, DGlobal) end = (sh, n, ty) /\
    ((ty = DLocal /\ full = sh ++ 33 :: n /\ ~ In 33 sh) \/ (ty = DGlobal /\ full = n /\ sh = [] /\ ~ In 33 full))).
  { destruct (split_bang full) as [[sh n]|] eqn:E.
    - apply split_bang_some in E as [-> Hsh]. eexists _, _, _. split; [reflexivity|]. auto.
    - apply split_bang_none_inv in E. eexists _, _, _. split; [reflexivity|]. right. auto. }
  destruct Hs as (sh & n & ty & Es & Hty).
  assert (Hpart : name_part full n).
  { destruct Hty as [(_ & -> & Hsh)|(_ & -> & _ & Hn)]; [left; eauto|right; auto]. }
  destruct n as [|c r] eqn:En; [rewrite Es in H; discriminate|]. rewrite <- En in *.
  assert (Hval : valid_dname (bu_alpha o) n).
  { destruct (define_name_cases o b full n f Hpart) as (_ & _ & Hno).
    destruct (negb (bu_alpha o c) && negb (c =? 95) && negb (c =? 92)) eqn:E1.
    { unfold define_name in Hno. rewrite Es, En, E1 in *. congruence. }
    destruct (existsb (fun c => existsb (N.eqb c) [32; 44; 47; 42; 91; 93; 58; 34; 39]) n) eqn:E2.
    { rewrite Es in H. rewrite En in H, E2. rewrite E1, E2 in H. congruence. }
    split.
    - exists c, r. split; [assumption|]. destruct (bu_alpha o c); [auto|]. cbn [negb andb] in E1.
      destruct (N.eqb_spec c 95); [auto|]. destruct (N.eqb_spec c 92); [auto|discriminate].
    - intros x Hx Hf. apply forbidden_name_iff in Hf.
      assert (existsb (fun c => existsb (N.eqb c) [32; 44; 47; 42; 91; 93; 58; 34; 39]) n = true) by (apply existsb_exists; eauto).
      congruence. }
  rewrite Es in H. rewrite En in H at 1.
  destruct (negb (bu_alpha o c) && negb (c =? 95) && negb (c =? 92)); [congruence|].
  destruct (existsb (fun c => existsb (N.eqb c) [32; 44; 47; 42; 91; 93; 58; 34; 39]) n); [congruence|].
  match goal with H : Some (?bb, _) = Some (b', _) |- _ => assert (Hb : b' = bb) by congruence end.
  clear H. rewrite Hb. cbn [k_user k_sheets]. eexists. split; [reflexivity|]. split; [reflexivity|].
  cbn [with_text d_name d_range d_sort d_type d_sheet]. split; [assumption|]. split; [assumption|]. split; [reflexivity|].
  split.
  - unfold sort_name_of. cbn [d_type d_name].
    assert (Hdq : drop_quotes n = n).
    { destruct Hval as [_ Hall]. unfold drop_quotes. clear - Hall. induction n as [|x n IH]; cbn [filter]; [reflexivity|].
      destruct (N.eqb_spec x 39) as [->|_]; [exfalso; apply (Hall 39); [left; reflexivity|left; cbn; auto 10]|].
      cbn [negb]. f_equal. apply IH. intros c Hc. apply Hall. right; assumption. }
    destruct Hty as [(-> & _)|(-> & _)]; rewrite Hdq; reflexivity.
  - destruct Hty as [(-> & -> & Hsh)|(-> & -> & -> & Hn)]; [left; auto|right; auto].
Qed.

(** Every stored user name of every history is valid. *)
Definition user_ok (o : bunicode) (d : dname) : Prop :=
  valid_dname (bu_alpha o) (d_name d) /\ d_sort d = bu_lower o (d_name d) /\ (d_type d = DLocal \/ d_type d = DGlobal).
Lemma define_name_rejects o b full f b' : define_name o b full f = Some (b', false) -> b' = b.
Proof.
  unfold define_name. destruct (match split_bang full with Some (sh, n) => (sh, n, DLocal) | None => ([], full, DGlobal) end) as [[sh n] ty].
  destruct n as [|c r]; [discriminate|]. destruct (negb _ && _ && _); [congruence|]. destruct (existsb _ _); congruence.
Qed.
Lemma run_user_ok m o ops : forall b b', Forall (user_ok o) (k_user b) -> book_run m o b ops = Some b' ->
  Forall (user_ok o) (k_user b').
Proof.
  induction ops as [|op ops IH]; intros b b' Hb H; cbn [book_run] in H; [assert (b' = b) as -> by congruence; assumption|].
  destruct (book_op m o b op) as [b1|] eqn:E; cbn [obind] in H; [|discriminate]. apply (IH b1 b'); [|assumption].
  clear IH H. destruct op; cbn [book_op] in E.
  - apply add_worksheet_inv in E as (_ & _ & _ & _ & _ & -> & _). assumption.
  - apply add_chartsheet_inv in E as (_ & _ & _ & _ & _ & -> & _). assumption.
  - unfold push_worksheet in E. destruct (b_name _).
    + destruct (validate_sheetname _); [discriminate|].
      match goal with H : Some ?bb = Some b1 |- _ => assert (Hb1 : b1 = bb) by congruence end. rewrite Hb1. assumption.
    + match goal with H : Some ?bb = Some b1 |- _ => assert (Hb1 : b1 = bb) by congruence end. rewrite Hb1. assumption.
  - match goal with H : Some ?bb = Some b1 |- _ => assert (Hb1 : b1 = bb) by congruence end. rewrite Hb1. assumption.
  - match goal with H : Some ?bb = Some b1 |- _ => assert (Hb1 : b1 = bb) by congruence end. rewrite Hb1. assumption.
  - destruct (define_name o b name formula) as [[b2 r]|] eqn:Ed; cbn [obind fst] in E; [|discriminate].
    assert (b2 = b1) as -> by congruence. destruct r.
    + apply define_name_stores in Ed as (d & -> & _ & _ & Hv & _ & Hs & Ht). apply Forall_app. split; [assumption|].
      constructor; [|constructor]. split; [assumption|]. split; [assumption|]. destruct Ht as [[-> _]|[-> _]]; auto.
    + apply define_name_rejects in Ed as ->. assumption.
  - destruct (save_book m o b) as [[b2 r]|] eqn:Es; cbn [obind fst] in E; [|discriminate].
    assert (b2 = b1) as -> by congruence. apply save_book_state in Es as (b0 & Hp & _ & _ & _ & -> & _).
    rewrite (prepared_user _ _ _ Hp). assumption.
Qed.

(** The three per-sheet names keep their kind. *)
Definition types_ok (s : bsheet) : Prop :=
  (d_in_use (b_autofilter s) = true -> d_type (b_autofilter s) = DAutofilter) /\
  (d_in_use (b_print s) = true -> d_type (b_print s) = DPrintArea) /\
  (d_in_use (b_titles s) = true -> d_type (b_titles s) = DPrintTitles).
Lemma types_new c : types_ok (bsheet_new c).
Proof. repeat split; cbn; discriminate. Qed.
Lemma types_name s n : types_ok s -> types_ok (b_set_name s n).
Proof. intros H; exact H. Qed.
Lemma types_op s so : types_ok s -> types_ok (fst (sheet_op s so)).
Proof.
  intros H. destruct so; cbn [sheet_op].
  - destruct (validate_sheetname n); exact H.
  - destruct e; exact H.
  - exact H.
  - destruct e; exact H.
  - destruct e; exact H.
  - exact H.
  - exact H.
  - destruct (_ || _); [exact H|]. destruct (_ || _); [exact H|]. destruct H as (A & B & C). cbn [fst]. split; [reflexivity|auto].
  - destruct (_ || _); [exact H|]. destruct (_ || _); [exact H|]. destruct (_ && _); [exact H|].
    destruct H as (A & B & C). cbn [fst]. split; [auto|]. split; [reflexivity|auto].
  - destruct (_ || _); [exact H|]. destruct (_ <? _); [exact H|]. destruct H as (A & B & C). cbn [fst]. split; [auto|]. split; [auto|reflexivity].
  - destruct (_ || _); [exact H|]. destruct (_ <? _); [exact H|]. destruct H as (A & B & C). cbn [fst]. split; [auto|]. split; [auto|reflexivity].
Qed.
Lemma types_ops c ops : types_ok (sheet_ops (bsheet_new c) ops).
Proof.
  unfold sheet_ops. generalize (types_new c). generalize (bsheet_new c) as s.
  induction ops as [|o ops IH]; intros s H; cbn [fold_left]; [assumption|]. apply IH. apply types_op; assumption.
Qed.
Lemma prepared_types m b b1 : prepared m b = Some b1 -> Forall types_ok (k_sheets b) -> Forall types_ok (k_sheets b1).
Proof.
  unfold prepared. intros H Hb.
  destruct (match k_sheets b with [] => add_worksheet m b | _ => Some b end) as [b0|] eqn:E0; [|discriminate].
  cbn [obind] in H. assert (b1 = set_active_worksheets b0) as -> by congruence.
  cbn [set_active_worksheets k_sheets]. apply update_nth_Forall; [|intros x Hx; exact Hx].
  destruct (k_sheets b) eqn:E; [|assert (b0 = b) as -> by congruence; rewrite E; assumption].
  apply add_worksheet_inv in E0 as (n & _ & -> & _). rewrite E. constructor; [|constructor]. apply types_name, types_new.
Qed.
Lemma run_types m o ops : forall b b', Forall types_ok (k_sheets b) -> book_run m o b ops = Some b' -> Forall types_ok (k_sheets b').
Proof.
  induction ops as [|op ops IH]; intros b b' Hb H; cbn [book_run] in H; [assert (b' = b) as -> by congruence; assumption|].
  destruct (book_op m o b op) as [b1|] eqn:E; cbn [obind] in H; [|discriminate]. apply (IH b1 b'); [|assumption].
  clear IH H. destruct op; cbn [book_op] in E.
  - apply add_worksheet_inv in E as (n & _ & -> & _). apply Forall_app. split; [assumption|]. constructor; [|constructor]. apply types_name, types_new.
  - apply add_chartsheet_inv in E as (n & _ & -> & _). apply Forall_app. split; [assumption|]. constructor; [|constructor]. apply types_name, types_new.
  - assert (Hp : forall n, Forall types_ok (k_sheets b ++ [b_set_name (sheet_ops (bsheet_new chartsheet) ops0) n]) /\
                 Forall types_ok (k_sheets b ++ [sheet_ops (bsheet_new chartsheet) ops0])).
    { intros n. split; apply Forall_app; (split; [assumption|]); constructor; try constructor; apply types_ops || (apply types_name, types_ops). }
    unfold push_worksheet in E. destruct (b_name _).
    + destruct (validate_sheetname _); [discriminate|].
      match goal with H : Some ?bb = Some b1 |- _ => assert (Hb1 : b1 = bb) by congruence end. rewrite Hb1. cbn [k_with_sheets k_sheets]. apply Hp.
    + match goal with H : Some ?bb = Some b1 |- _ => assert (Hb1 : b1 = bb) by congruence end. rewrite Hb1. cbn [k_with_sheets k_sheets]. apply (Hp []).
  - match goal with H : Some ?bb = Some b1 |- _ => assert (Hb1 : b1 = bb) by congruence end. rewrite Hb1. cbn [k_with_sheets k_sheets].
    apply update_nth_Forall; [assumption|]. intros; apply types_op; assumption.
  - match goal with H : Some ?bb = Some b1 |- _ => assert (Hb1 : b1 = bb) by congruence end. rewrite Hb1. cbn [k_with_sheets k_sheets].
    rewrite Forall_forall in Hb |- *. intros s Hs. apply in_flat_map in Hs as (v & _ & Hs). destruct v as [i|c ops0]; cbn [vec_item] in Hs.
    + destruct (nth_error (k_sheets b) i) eqn:En; [|destruct Hs]. destruct Hs as [<-|[]]. apply Hb. eapply nth_error_In; eassumption.
    + destruct Hs as [<-|[]]. apply types_ops.
  - destruct (define_name o b name formula) as [[b2 r]|] eqn:Ed; cbn [obind fst] in E; [|discriminate].
    assert (b2 = b1) as -> by congruence. apply define_counters in Ed as (_ & _ & ->). assumption.
  - destruct (save_book m o b) as [[b2 r]|] eqn:Es; cbn [obind fst] in E; [|discriminate].
    assert (b2 = b1) as -> by congruence. apply save_book_state in Es as (b0 & Hp & -> & _).
    eapply prepared_types; eassumption.
Qed.
Lemma Forall2_len {A B} (R : A -> B -> Prop) l l' : Forall2 R l l' -> length l = length l'.
Proof. induction 1; cbn [length]; congruence. Qed.
Lemma Forall2_weaken {A B} (R S : A -> B -> Prop) l l' : (forall a b, R a b -> S a b) -> Forall2 R l l' -> Forall2 S l l'.
Proof. intros H; induction 1; constructor; auto. Qed.
