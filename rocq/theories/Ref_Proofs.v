(** Proofs about A1 references and sheet names (Ref_Model against Ref_Spec). *)
From Verif Require Import Base Ref_Model Ref_Spec.

Lemma letters_value_app acc s t : letters_value acc (s ++ t) = letters_value (letters_value acc s) t.
Proof. revert acc; induction s as [|c s IH]; intros acc; cbn [letters_value app]; [reflexivity|apply IH]. Qed.

Lemma digits_value_app acc s t : digits_value acc (s ++ t) = digits_value (digits_value acc s) t.
Proof. revert acc; induction s as [|c s IH]; intros acc; cbn [digits_value app]; [reflexivity|apply IH]. Qed.

Lemma undec_digits_value s : undec s = digits_value 0 s.
Proof.
  unfold undec. generalize 0. induction s as [|c s IH]; intros a; cbn [fold_left digits_value]; [reflexivity|].
  apply IH.
Qed.

Lemma dec_loop_spec f n acc : (N.size_nat n < f)%nat ->
  exists ds, dec_loop f n acc = ds ++ acc /\ forallb is_ascii_digit ds = true /\ ds <> [] /\
    (0 < n -> hd 0 ds <> 48) /\ digits_value 0 ds = n.
Proof.
  revert n acc; induction f as [|f IH]; intros n acc Hf; [lia|]. cbn [dec_loop].
  assert (Hd : is_ascii_digit (48 + n mod 10) = true).
  { unfold is_ascii_digit. assert (n mod 10 < 10) by (apply N.mod_lt; lia). lia. }
  destruct (N.eqb_spec (n / 10) 0) as [Hz|Hnz].
  - exists [48 + n mod 10]. cbn [app forallb]. rewrite Hd. repeat split; try congruence.
    + intros Hn. cbn [hd]. lia.
    + cbn [digits_value]. lia.
  - destruct (IH (n / 10) ((48 + n mod 10) :: acc)) as (ds & E & Hall & Hne & Hhd & Hv).
    { pose proof (size_nat_div n 10 ltac:(lia)). assert (n <> 0) by (intros ->; apply Hnz; reflexivity).
      specialize (H H0). lia. }
    exists (ds ++ [48 + n mod 10]). rewrite E, <- app_assoc. repeat split.
    + rewrite forallb_app, Hall. cbn [forallb]. rewrite Hd. reflexivity.
    + destruct ds; discriminate.
    + intros Hn. destruct ds as [|d ds]; [congruence|]. cbn [app hd]. cbn [hd] in Hhd. apply Hhd. lia.
    + rewrite digits_value_app, Hv. cbn [digits_value]. lia.
Qed.

Lemma dec_spec n :
  forallb is_ascii_digit (dec n) = true /\ dec n <> [] /\ (0 < n -> hd 0 (dec n) <> 48) /\
  digits_value 0 (dec n) = n.
Proof.
  unfold dec. destruct (dec_loop_spec (S (N.size_nat n)) n []) as (ds & E & H); [lia|].
  rewrite E, app_nil_r. tauto.
Qed.

Lemma col_name_loop_spec f n acc : (N.size_nat n < f)%nat ->
  exists ls, col_name_loop f n acc = Some (ls ++ acc) /\ forallb is_ascii_upper ls = true /\
    letters_value 0 ls = n /\ (0 < n -> ls <> []).
Proof.
  revert n acc; induction f as [|f IH]; intros n acc Hf; [lia|]. cbn [col_name_loop].
  destruct (N.ltb_spec 0 n) as [Hn|Hn].
  - set (r := if n mod 26 =? 0 then 26 else n mod 26).
    assert (Hr : 1 <= r <= 26 /\ 26 * ((n - 1) / 26) + r = n).
    { unfold r. destruct (N.eqb_spec (n mod 26) 0); lia. }
    destruct (IH ((n - 1) / 26) ((64 + r) :: acc)) as (ls & E & Hall & Hv & _).
    { pose proof (size_nat_div n 26 ltac:(lia) ltac:(lia)).
      assert (N.size_nat ((n - 1) / 26) <= N.size_nat (n / 26))%nat by (apply size_nat_mono; apply N.div_le_mono; lia).
      lia. }
    exists (ls ++ [64 + r]). rewrite E, <- app_assoc. repeat split.
    + rewrite forallb_app, Hall. cbn [forallb andb]. unfold is_ascii_upper. lia.
    + rewrite letters_value_app, Hv. cbn [letters_value]. lia.
    + intros _. destruct ls; discriminate.
  - exists []. cbn. repeat split; lia.
Qed.

Lemma size_nat_16 n : n < 65536 -> (N.size_nat n < 17)%nat.
Proof.
  intros H. apply Nat.le_lt_trans with (m := N.size_nat 65535); [apply size_nat_mono; lia|].
  vm_compute. lia.
Qed.

Lemma wrapN_ok m w v : (0 <= v < 2 ^ Z.of_N w)%Z -> wrapN m w v = Some (Z.to_N v).
Proof. intros H. unfold wrapN. destruct (Z.leb_spec 0 v), (Z.ltb_spec v (2 ^ Z.of_N w)); cbn [andb]; try lia. reflexivity. Qed.

Lemma add16_ok m a b : a + b < 65536 -> add16 m a b = Some (a + b).
Proof. intros H. unfold add16. rewrite wrapN_ok; [f_equal; lia|]. change (2 ^ Z.of_N 16)%Z with 65536%Z. lia. Qed.
Lemma sub16_ok m a b : b <= a -> a < 65536 -> sub16 m a b = Some (a - b).
Proof. intros H H2. unfold sub16. rewrite wrapN_ok; [f_equal; lia|]. change (2 ^ Z.of_N 16)%Z with 65536%Z. lia. Qed.
Lemma mul16_ok m a b : a * b < 65536 -> mul16 m a b = Some (a * b).
Proof. intros H. unfold mul16. rewrite wrapN_ok; [f_equal; lia|]. change (2 ^ Z.of_N 16)%Z with 65536%Z. lia. Qed.
Lemma add32_ok m a b : a + b < 2^32 -> add32 m a b = Some (a + b).
Proof. intros H. change (2^32) with 4294967296 in H. unfold add32. rewrite wrapN_ok; [f_equal; lia|]. change (2 ^ Z.of_N 32)%Z with 4294967296%Z. lia. Qed.

Lemma column_number_to_name_spec m c : c < 65535 ->
  exists ls, column_number_to_name m c = Some ls /\ forallb is_ascii_upper ls = true /\
    ls <> [] /\ letters_value 0 ls = c + 1.
Proof.
  intros Hc. unfold column_number_to_name. rewrite add16_ok by lia. cbn [obind].
  destruct (col_name_loop_spec 17 (c + 1) [] (size_nat_16 (c + 1) ltac:(lia))) as (ls & E & H1 & H2 & H3).
  exists ls. rewrite E, app_nil_r. repeat split; auto. apply H3; lia.
Qed.

Lemma letters_value_ge acc s : forallb is_ascii_upper s = true -> acc <= letters_value acc s.
Proof.
  revert acc; induction s as [|c s IH]; intros acc H; cbn [letters_value]; [lia|].
  cbn [forallb] in H. apply andb_true_iff in H as [Hc Hs]. specialize (IH (26 * acc + (c - 64)) Hs). lia.
Qed.

Lemma letters_value_pos s : forallb is_ascii_upper s = true -> s <> [] -> 1 <= letters_value 0 s.
Proof.
  destruct s as [|c s]; [congruence|]. intros H _. cbn [forallb] in H. apply andb_true_iff in H as [Hc Hs].
  cbn [letters_value]. pose proof (letters_value_ge (26 * 0 + (c - 64)) s Hs). unfold is_ascii_upper in Hc. lia.
Qed.

Lemma letters_value_inj s t : forallb is_ascii_upper s = true -> forallb is_ascii_upper t = true ->
  letters_value 0 s = letters_value 0 t -> s = t.
Proof.
  revert t; induction s as [|c s IH] using rev_ind; intros t Hs Ht E.
  - destruct t as [|d t]; [reflexivity|]. pose proof (letters_value_pos (d :: t) Ht ltac:(discriminate)).
    change (letters_value 0 []) with 0 in E. lia.
  - destruct t as [|d t _] using rev_ind.
    + pose proof (letters_value_pos (s ++ [c]) Hs ltac:(destruct s; discriminate)). change (letters_value 0 []) with 0 in E. lia.
    + rewrite forallb_app in Hs, Ht. cbn [forallb] in Hs, Ht. apply andb_true_iff in Hs as [Hs Hc], Ht as [Ht Hd].
      rewrite !letters_value_app in E. cbn [letters_value] in E.
      unfold is_ascii_upper in Hc, Hd.
      assert (c = d /\ letters_value 0 s = letters_value 0 t) as [-> E'] by lia.
      f_equal. apply IH; assumption.
Qed.

Lemma col_number_loop_spec m acc s : forallb is_ascii_upper s = true -> letters_value acc s < 65536 ->
  col_number_loop m acc s = Some (letters_value acc s).
Proof.
  revert acc; induction s as [|c s IH]; intros acc Hs Hv; cbn [col_number_loop letters_value]; [reflexivity|].
  cbn [forallb] in Hs. apply andb_true_iff in Hs as [Hc Hs]. cbn [letters_value] in Hv.
  pose proof (letters_value_ge _ _ Hs : 26 * acc + (c - 64) <= letters_value (26 * acc + (c - 64)) s).
  unfold is_ascii_upper in Hc.
  rewrite mul16_ok by lia. cbn [obind].
  rewrite N.mod_small by lia. rewrite sub16_ok by lia. cbn [obind].
  rewrite add16_ok by lia. cbn [obind]. rewrite add16_ok by lia. cbn [obind].
  replace (acc * 26 + (c - 65 + 1)) with (26 * acc + (c - 64)) by lia. apply IH; assumption.
Qed.

Lemma column_name_to_number_spec m s : forallb is_ascii_upper s = true -> s <> [] ->
  letters_value 0 s < 65536 -> column_name_to_number m s = Some (letters_value 0 s - 1).
Proof.
  intros Hs Hne Hv. unfold column_name_to_number. destruct s as [|c s]; [congruence|].
  rewrite col_number_loop_spec by assumption. cbn [obind].
  pose proof (letters_value_pos _ Hs Hne). apply sub16_ok; lia.
Qed.

Lemma column_roundtrip m c : c < 65535 ->
  exists name, column_number_to_name m c = Some name /\ name <> [] /\
    (forall x, In x name -> 65 <= x <= 90) /\ letters_value 0 name = c + 1 /\
    column_name_to_number m name = Some c.
Proof.
  intros Hc. destruct (column_number_to_name_spec m c Hc) as (ls & E & Hall & Hne & Hv).
  exists ls. repeat split; auto.
  - rewrite forallb_forall in Hall. apply Hall in H. unfold is_ascii_upper in H. lia.
  - rewrite forallb_forall in Hall. apply Hall in H. unfold is_ascii_upper in H. lia.
  - rewrite column_name_to_number_spec by (auto; lia). f_equal. lia.
Qed.

Lemma column_name_complete m name : name <> [] -> (forall x, In x name -> 65 <= x <= 90) ->
  letters_value 0 name <= 65535 ->
  exists c, column_name_to_number m name = Some c /\ column_number_to_name m c = Some name.
Proof.
  intros Hne Hall Hv.
  assert (Hu : forallb is_ascii_upper name = true).
  { apply forallb_forall. intros x Hx. apply Hall in Hx. unfold is_ascii_upper. lia. }
  exists (letters_value 0 name - 1). split; [apply column_name_to_number_spec; auto; lia|].
  pose proof (letters_value_pos _ Hu Hne).
  destruct (column_number_to_name_spec m (letters_value 0 name - 1)) as (ls & E & Hl & _ & Hlv); [lia|].
  rewrite E. f_equal. apply letters_value_inj; auto. lia.
Qed.

Lemma column_name_injective m c d : c < 65535 -> d < 65535 ->
  column_number_to_name m c = column_number_to_name m d -> c = d.
Proof.
  intros Hc Hd E.
  destruct (column_roundtrip m c Hc) as (n1 & E1 & _ & _ & _ & R1).
  destruct (column_roundtrip m d Hd) as (n2 & E2 & _ & _ & _ & R2).
  rewrite E1, E2 in E. injection E as ->. congruence.
Qed.

(** ** Parsing back cell references *)

Lemma span_all p s t : forallb p s = true -> (forall c r, t = c :: r -> p c = false) -> span p (s ++ t) = (s, t).
Proof.
  intros Hs Ht. induction s as [|c s IH]; cbn [app span].
  - destruct t as [|c t]; cbn [span]; [reflexivity|]. rewrite (Ht c t eq_refl). reflexivity.
  - cbn [forallb] in Hs. apply andb_true_iff in Hs as [-> Hs]. rewrite IH by assumption. reflexivity.
Qed.

Lemma eat_dollar_no c s : c <> 36 -> eat_dollar (c :: s) = (false, c :: s).
Proof. intros H. unfold eat_dollar. destruct (N.eqb_spec c 36); [congruence|reflexivity]. Qed.

Definition no_digit_head (t : str) : Prop := forall c r, t = c :: r -> is_ascii_digit c = false.

Lemma parse_cell_core ac ar ls ds t row col :
  forallb is_ascii_upper ls = true -> ls <> [] -> letters_value 0 ls = col + 1 ->
  forallb is_ascii_digit ds = true -> ds <> [] -> hd 0 ds <> 48 -> digits_value 0 ds = row + 1 ->
  no_digit_head t ->
  parse_cell ((if ac : bool then [36] else []) ++ ls ++ (if ar : bool then [36] else []) ++ ds ++ t)
  = Some ({| a1_row := row; a1_col := col; a1_absrow := ar; a1_abscol := ac |}, t).
Proof.
  intros Hu Hne Hv Hd Hdne Hhd Hdv Ht.
  assert (Hd0 : exists d ds', ds = d :: ds' /\ is_ascii_digit d = true).
  { destruct ds as [|d ds']; [congruence|]. cbn [forallb] in Hd. apply andb_true_iff in Hd as [Hd _]. eauto. }
  assert (Hl0 : exists l ls', ls = l :: ls' /\ is_ascii_upper l = true).
  { destruct ls as [|l ls']; [congruence|]. cbn [forallb] in Hu. apply andb_true_iff in Hu as [Hl _]. eauto. }
  destruct Hd0 as (d & ds' & Ed & Hdd). destruct Hl0 as (l & ls' & El & Hll).
  unfold parse_cell.
  assert (E1 : eat_dollar ((if ac then [36] else []) ++ ls ++ (if ar then [36] else []) ++ ds ++ t)
             = (ac, ls ++ (if ar then [36] else []) ++ ds ++ t)).
  { destruct ac; cbn [app].
    - reflexivity.
    - rewrite El. cbn [app]. apply eat_dollar_no. unfold is_ascii_upper in Hll. lia. }
  rewrite E1.
  rewrite span_all; [| assumption |].
  2:{ intros c r E. destruct ar; cbn [app] in E.
      - injection E as <- _. reflexivity.
      - rewrite Ed in E. cbn [app] in E. injection E as <- _. unfold is_ascii_upper, is_ascii_digit in *. lia. }
  assert (E2 : eat_dollar ((if ar then [36] else []) ++ ds ++ t) = (ar, ds ++ t)).
  { destruct ar; cbn [app]; [reflexivity|]. rewrite Ed. cbn [app]. apply eat_dollar_no. unfold is_ascii_digit in Hdd. lia. }
  rewrite E2, span_all by assumption.
  rewrite El at 1. rewrite Ed at 1. 
  assert (d <> 48) by (rewrite Ed in Hhd; exact Hhd).
  destruct (N.eqb_spec d 48); [congruence|].
  rewrite Hv, Hdv, !N.add_sub. reflexivity.
Qed.

Lemma row_col_to_cell_text m row col : row < 2^32 - 1 -> col < 65535 ->
  exists name, column_number_to_name m col = Some name /\
    row_col_to_cell m row col = Some (name ++ dec (row + 1)) /\
    row_col_to_cell_absolute m row col = Some (36 :: name ++ 36 :: dec (row + 1)) /\
    forall (ab : bool) t, no_digit_head t ->
      parse_cell ((if ab then [36] else []) ++ name ++ (if ab then [36] else []) ++ dec (row + 1) ++ t)
      = Some ({| a1_row := row; a1_col := col; a1_absrow := ab; a1_abscol := ab |}, t).
Proof.
  intros Hr Hc. destruct (column_number_to_name_spec m col Hc) as (ls & E & Hall & Hne & Hv).
  destruct (dec_spec (row + 1)) as (Hd & Hdne & Hhd & Hdv).
  exists ls. unfold row_col_to_cell, row_col_to_cell_absolute. rewrite E. cbn [obind].
  rewrite add32_ok by lia. cbn [obind]. repeat split.
  intros ab t Ht. apply parse_cell_core; auto. apply Hhd; lia.
Qed.

Lemma no_digit_nil : no_digit_head [].
Proof. intros c r E; discriminate. Qed.
Lemma no_digit_colon s : no_digit_head (58 :: s).
Proof. intros c r E; injection E as <- _; reflexivity. Qed.

Lemma cell_roundtrip m row col : row < 2^32 - 1 -> col < 65535 ->
  exists s, row_col_to_cell m row col = Some s /\
    parse_a1 s = Some {| a1_row := row; a1_col := col; a1_absrow := false; a1_abscol := false |}.
Proof.
  intros Hr Hc. destruct (row_col_to_cell_text m row col Hr Hc) as (n & _ & E & _ & P).
  eexists; split; [exact E|]. unfold parse_a1.
  specialize (P false [] no_digit_nil). rewrite app_nil_r in P. cbn [app] in P. rewrite P. reflexivity.
Qed.

Lemma cell_abs_roundtrip m row col : row < 2^32 - 1 -> col < 65535 ->
  exists s, row_col_to_cell_absolute m row col = Some s /\
    parse_a1 s = Some {| a1_row := row; a1_col := col; a1_absrow := true; a1_abscol := true |}.
Proof.
  intros Hr Hc. destruct (row_col_to_cell_text m row col Hr Hc) as (n & _ & _ & E & P).
  eexists; split; [exact E|]. unfold parse_a1.
  specialize (P true [] no_digit_nil). rewrite app_nil_r in P. cbn [app] in P. rewrite P. reflexivity.
Qed.

Definition mk (ab : bool) (row col : N) : a1 :=
  {| a1_row := row; a1_col := col; a1_absrow := ab; a1_abscol := ab |}.

Definition cell_text (ab : bool) m row col :=
  if ab then row_col_to_cell_absolute m row col else row_col_to_cell m row col.

Lemma cell_text_parse ab m row col : row < 2^32 - 1 -> col < 65535 ->
  exists s, cell_text ab m row col = Some s /\
    forall t, no_digit_head t -> parse_cell (s ++ t) = Some (mk ab row col, t).
Proof.
  intros Hr Hc. destruct (row_col_to_cell_text m row col Hr Hc) as (n & _ & E1 & E2 & P).
  destruct ab; cbn [cell_text].
  - eexists; split; [exact E2|]. intros t Ht. specialize (P true t Ht).
    cbn [app] in P |- *. rewrite <- app_assoc. cbn [app]. exact P.
  - eexists; split; [exact E1|]. intros t Ht. specialize (P false t Ht).
    cbn [app] in P |- *. rewrite <- app_assoc. cbn [app]. exact P.
Qed.

Lemma cell_text_inj ab m r c r' c' s : r < 2^32 - 1 -> c < 65535 -> r' < 2^32 - 1 -> c' < 65535 ->
  cell_text ab m r c = Some s -> cell_text ab m r' c' = Some s -> r = r' /\ c = c'.
Proof.
  intros Hr Hc Hr' Hc' E E'.
  destruct (cell_text_parse ab m r c Hr Hc) as (s1 & E1 & P1).
  destruct (cell_text_parse ab m r' c' Hr' Hc') as (s2 & E2 & P2).
  assert (s1 = s) by congruence. assert (s2 = s) by congruence. subst s1 s2.
  specialize (P1 [] no_digit_nil). specialize (P2 [] no_digit_nil). rewrite P1 in P2. injection P2 as -> ->. auto.
Qed.

(** Body common to the four range printers. *)
Definition range_text ab m fr fc lr lc :=
  range1 <- cell_text ab m fr fc ;;
  range2 <- cell_text ab m lr lc ;;
  Some (if str_eqb range1 range2 then range1 else range1 ++ 58 :: range2).

Lemma range_text_parse ab m fr fc lr lc :
  fr < 2^32 - 1 -> fc < 65535 -> lr < 2^32 - 1 -> lc < 65535 ->
  exists s, range_text ab m fr fc lr lc = Some s /\
    parse_range s = Some (mk ab fr fc, mk ab lr lc) /\
    (In 58 s <-> (fr, fc) <> (lr, lc)).
Proof.
  intros H1 H2 H3 H4.
  destruct (cell_text_parse ab m fr fc H1 H2) as (s1 & E1 & P1).
  destruct (cell_text_parse ab m lr lc H3 H4) as (s2 & E2 & P2).
  assert (Hnocolon : forall a b r c s, r < 2^32 - 1 -> c < 65535 -> cell_text a b r c = Some s -> ~ In 58 s).
  { intros a b r c s Hr Hc E. destruct (row_col_to_cell_text b r c Hr Hc) as (n & En & E1' & E2' & _).
    destruct (column_number_to_name_spec b c Hc) as (n' & En' & Hu & _ & _).
    assert (n' = n) by congruence. subst n'.
    destruct (dec_spec (r + 1)) as (Hd & _).
    assert (Hn : ~ In 58 n). { intros Hin. rewrite forallb_forall in Hu. apply Hu in Hin. discriminate. }
    assert (Hdd : ~ In 58 (dec (r + 1))). { intros Hin. rewrite forallb_forall in Hd. apply Hd in Hin. discriminate. }
    destruct a; cbn [cell_text] in E.
    - rewrite E2' in E. injection E as <-. cbn [In]. rewrite in_app_iff. cbn [In]. intuition discriminate.
    - rewrite E1' in E. injection E as <-. rewrite in_app_iff. intuition. }
  unfold range_text. rewrite E1, E2. cbn [obind].
  destruct (str_eqb_spec s1 s2) as [->|Hne].
  - eexists; split; [reflexivity|].
    assert (fr = lr /\ fc = lc) as [-> ->] by (apply (cell_text_inj ab m fr fc lr lc s2); assumption).
    split.
    + unfold parse_range. specialize (P1 [] no_digit_nil). rewrite app_nil_r in P1. rewrite P1. reflexivity.
    + split; [intros H; exfalso; eapply Hnocolon; [| |exact E2|exact H]; assumption | congruence].
  - eexists; split; [reflexivity|]. split.
    + unfold parse_range. rewrite (P1 (58 :: s2) (no_digit_colon s2)).
      unfold parse_a1. specialize (P2 [] no_digit_nil). rewrite app_nil_r in P2. rewrite P2. reflexivity.
    + rewrite in_app_iff. cbn [In]. split; [|tauto]. intros _ E. injection E as -> ->. congruence.
Qed.

Lemma cell_range_eq m fr fc lr lc : cell_range m fr fc lr lc = range_text false m fr fc lr lc.
Proof. reflexivity. Qed.
Lemma cell_range_absolute_eq m fr fc lr lc : cell_range_absolute m fr fc lr lc = range_text true m fr fc lr lc.
Proof. reflexivity. Qed.

(** ** Sheet names *)

Lemma existsb_false_forall {A} (p : A -> bool) l : existsb p l = false <-> (forall x, In x l -> p x = false).
Proof.
  split.
  - intros H x Hx. destruct (p x) eqn:E; [|reflexivity]. rewrite <- not_true_iff_false in H. exfalso. apply H.
    apply existsb_exists. eauto.
  - intros H. destruct (existsb p l) eqn:E; [|reflexivity]. apply existsb_exists in E as (x & Hx & Hp).
    rewrite H in Hp by assumption. discriminate.
Qed.

Lemma forbidden_iff c : existsb (N.eqb c) [42; 63; 58; 91; 93; 92; 47] = true <-> forbidden_in_sheetname c.
Proof.
  unfold forbidden_in_sheetname. rewrite existsb_exists. cbn [lit list_ascii_of_string map In].
  split.
  - intros (x & Hx & E). apply N.eqb_eq in E; subst x. 
    change (In c (map N_of_ascii (list_ascii_of_string "[]:*?/\"))). cbn in Hx |- *. intuition.
  - intros H. exists c. split; [|apply N.eqb_refl]. cbn in H |- *. intuition.
Qed.

Lemma starts_with_char_iff x s : starts_with_char (N.eqb x) s = true <-> exists r, s = x :: r.
Proof.
  destruct s as [|c s]; cbn [starts_with_char].
  - split; [discriminate|intros [r E]; discriminate].
  - rewrite N.eqb_eq. split; [intros ->; eauto|intros [r E]; congruence].
Qed.

Lemma ends_with_char_iff x s : ends_with_char (N.eqb x) s = true <-> exists r, s = r ++ [x].
Proof.
  unfold ends_with_char, last_char. destruct s as [|c s _] using rev_ind.
  - cbn. split; [discriminate|intros [r E]; destruct r; discriminate].
  - rewrite rev_app_distr. cbn [rev app]. rewrite N.eqb_eq. split.
    + intros ->; eauto.
    + intros [r E]. apply app_inj_tail in E. symmetry. tauto.
Qed.

Definition first_violation (s : str) (e : sheetname_error) : Prop :=
  match e with
  | SheetnameCannotBeBlank => s = []
  | SheetnameLengthExceeded => s <> [] /\ (31 < length s)%nat
  | SheetnameContainsInvalidCharacter =>
      s <> [] /\ (length s <= 31)%nat /\ exists c, In c s /\ forbidden_in_sheetname c
  | SheetnameStartsOrEndsWithApostrophe =>
      s <> [] /\ (length s <= 31)%nat /\ (forall c, In c s -> ~ forbidden_in_sheetname c) /\
      ((exists r, s = 39 :: r) \/ (exists r, s = r ++ [39]))
  end.

Lemma validate_sheetname_exact s :
  (validate_sheetname s = None <-> valid_sheetname s) /\
  (forall e, validate_sheetname s = Some e <-> first_violation s e).
Proof.
  unfold validate_sheetname, valid_sheetname.
  destruct s as [|c0 s0].
  { split; [split; [discriminate|intros (H & _); congruence]|].
    intros e; split.
    - intros E; injection E as <-. reflexivity.
    - destruct e; cbn [first_violation]; try reflexivity; intros (H & _); congruence. }
  set (s := c0 :: s0). assert (Hne : s <> []) by discriminate.
  clearbody s. clear c0 s0.
  assert (HL : char_count s <=? 31 = true <-> (length s <= 31)%nat) by (unfold char_count; lia).
  destruct (N.ltb_spec 31 (char_count s)) as [Hlen|Hlen].
  { unfold char_count in Hlen. split; [split; [discriminate|intros (_ & H & _); lia]|].
    intros e; split.
    - intros E; injection E as <-. cbn. split; [assumption|lia].
    - destruct e; cbn [first_violation]; try reflexivity; intros H; try congruence; destruct H as (_ & H & _); lia. }
  assert (Hl : (length s <= 31)%nat) by (unfold char_count in Hlen; lia).
  match goal with |- context[existsb ?p s] => destruct (existsb p s) eqn:Hf end.
  { apply existsb_exists in Hf as (c & Hc & Hfc). apply forbidden_iff in Hfc.
    split; [split; [discriminate|intros (_ & _ & H & _); exfalso; eapply H; eauto]|].
    intros e; split.
    - intros E; injection E as <-. cbn. eauto.
    - destruct e; cbn [first_violation]; try reflexivity; intros H; try congruence.
      + destruct H as (_ & H); lia.
      + destruct H as (_ & _ & H & _). exfalso. eapply H; eauto. }
  assert (Hnf : forall c, In c s -> ~ forbidden_in_sheetname c).
  { intros c Hc Hfc. apply forbidden_iff in Hfc. rewrite (proj1 (existsb_false_forall _ _) Hf c Hc) in Hfc. discriminate. }
  destruct (starts_with_char (N.eqb 39) s) eqn:Hs; cbn [orb].
  - apply starts_with_char_iff in Hs.
    split; [split; [discriminate|intros (_ & _ & _ & H & _); destruct Hs as [r Hr]; exfalso; eapply H; eauto]|].
    intros e; split.
    + intros E; injection E as <-. cbn [first_violation]. auto 6.
    + destruct e; cbn [first_violation]; try reflexivity; intros H; try congruence.
      * destruct H as (_ & H); lia.
      * destruct H as (_ & _ & c & Hc & Hfc). exfalso. eapply Hnf; eauto.
  - assert (Hns : forall r, s <> 39 :: r).
    { intros r Hr. assert (H : starts_with_char (N.eqb 39) s = true) by (apply starts_with_char_iff; eauto). congruence. }
    destruct (ends_with_char (N.eqb 39) s) eqn:He.
    + apply ends_with_char_iff in He.
      split; [split; [discriminate|intros (_ & _ & _ & _ & H); destruct He as [r Hr]; exfalso; eapply H; eauto]|].
      intros e; split.
      * intros E; injection E as <-. cbn [first_violation]. auto 6.
      * destruct e; cbn [first_violation]; try reflexivity; intros H; try congruence.
        -- destruct H as (_ & H); lia.
        -- destruct H as (_ & _ & c & Hc & Hfc). exfalso. eapply Hnf; eauto.
    + assert (Hnend : forall r, s <> r ++ [39]).
      { intros r Hr. assert (H : ends_with_char (N.eqb 39) s = true) by (apply ends_with_char_iff; eauto). congruence. }
      split; [split; [intros _; auto 6|reflexivity]|].
      intros e; split; [discriminate|].
      destruct e; cbn [first_violation]; intros H; try congruence.
      * destruct H as (_ & H); lia.
      * destruct H as (_ & _ & c & Hc & Hfc). exfalso. eapply Hnf; eauto.
      * destruct H as (_ & _ & _ & [[r Hr]|[r Hr]]); exfalso; [eapply Hns|eapply Hnend]; eauto.
Qed.
