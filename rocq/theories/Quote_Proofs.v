(** Proofs about quote_sheet_name / unquote_sheetname and sheet-qualified ranges. *)
From Verif Require Import Base Ref_Model Ref_Spec Ref_Proofs.

Lemma ascii_unicode_ok : unicode_ok ascii_unicode.
Proof.
  repeat split; cbn [ascii_unicode u_alnum u_upper].
  - intros c ->. reflexivity.
  - discriminate.
  - intros c x [<-|[]] Hx. unfold ascii_upper in *. destruct (is_ascii_lower c) eqn:E; [|reflexivity].
    unfold is_ascii_lower in E. lia.
Qed.

Lemma undouble_double s : undouble_quotes (double_quotes s) = s.
Proof.
  induction s as [|c s IH]; [reflexivity|].
  cbn [double_quotes flat_map]. fold (double_quotes s).
  destruct (N.eqb_spec c 39) as [->|Hne]; cbn [app undouble_quotes].
  - rewrite !N.eqb_refl. cbn [andb]. rewrite IH. reflexivity.
  - destruct (double_quotes s) as [|b r] eqn:E.
    + cbn in IH. rewrite <- IH. reflexivity.
    + rewrite (proj2 (N.eqb_neq c 39) Hne). cbn [andb]. rewrite IH. reflexivity.
Qed.

Lemma quoted_body_double s t : (forall r, t <> 39 :: r) ->
  quoted_body (double_quotes s ++ 39 :: t) = Some (s, t).
Proof.
  intros Ht. induction s as [|c s IH].
  - cbn [double_quotes flat_map app quoted_body]. rewrite N.eqb_refl.
    destruct t as [|d t]; [reflexivity|]. destruct (N.eqb_spec d 39) as [->|]; [exfalso; eapply Ht; eauto|reflexivity].
  - cbn [double_quotes flat_map]. fold (double_quotes s).
    destruct (N.eqb_spec c 39) as [->|Hne]; cbn [app quoted_body].
    + rewrite !N.eqb_refl, IH. reflexivity.
    + rewrite (proj2 (N.eqb_neq c 39) Hne), IH. reflexivity.
Qed.

Lemma unquote_quoted s : unquote_sheetname (39 :: double_quotes s ++ [39]) = Some s.
Proof.
  unfold unquote_sheetname.
  assert (H1 : starts_with_char (N.eqb 39) (39 :: double_quotes s ++ [39]) = true) by reflexivity.
  assert (H2 : ends_with_char (N.eqb 39) (39 :: double_quotes s ++ [39]) = true).
  { apply ends_with_char_iff. exists (39 :: double_quotes s). reflexivity. }
  rewrite H1, H2. cbn [andb].
  destruct (double_quotes s ++ [39]) as [|x l] eqn:E; [destruct (double_quotes s); discriminate|].
  cbn [tl]. rewrite <- E, removelast_last, undouble_double. reflexivity.
Qed.

Lemma not_starting_quote s : (forall r, s <> 39 :: r) -> starts_with_char (N.eqb 39) s = false.
Proof.
  intros H. destruct (starts_with_char (N.eqb 39) s) eqn:E; [|reflexivity].
  apply starts_with_char_iff in E as [r ->]. exfalso; eapply H; reflexivity.
Qed.

Lemma quote_unquote m u s q : (forall r, s <> 39 :: r) ->
  quote_sheet_name m u s = Some q -> unquote_sheetname q = Some s.
Proof.
  intros Hs. unfold quote_sheet_name. destruct (requires_quoting m u s) as [[|]|]; cbn [obind]; intros E;
    try discriminate; injection E as <-.
  - apply unquote_quoted.
  - unfold unquote_sheetname. rewrite (not_starting_quote s Hs). reflexivity.
Qed.

(** What [requires_quoting = Some false] means about the characters. *)
Definition bare_char (u : unicode) (c : char) : bool := u_alnum u c || (c =? 95) || (c =? 46) || is_emoji c.

Lemma requires_quoting_false_chars m u s : (forall r, s <> 39 :: r) ->
  requires_quoting m u s = Some false ->
  forallb (bare_char u) s = true /\
  starts_with_char (fun c => is_ascii_digit c || (c =? 46) || is_emoji c) s = false.
Proof.
  intros Hs. unfold requires_quoting. destruct (split_cell_reference u s) as [sp np].
  rewrite (not_starting_quote s Hs).
  change (forallb (fun c => u_alnum u c || (c =? 95) || (c =? 46) || is_emoji c) s) with (forallb (bare_char u) s).
  destruct (forallb (bare_char u) s); cbn [negb]; [|discriminate].
  destruct (starts_with_char _ s); [discriminate|]. auto.
Qed.

Lemma bang_not_bare u : unicode_ok u -> bare_char u 33 = false.
Proof. intros (Ha & _). unfold bare_char. rewrite Ha by reflexivity. reflexivity. Qed.

Lemma parse_sheet_quoted m u s q t : unicode_ok u -> (forall r, s <> 39 :: r) ->
  quote_sheet_name m u s = Some q -> parse_sheet (q ++ 33 :: t) = Some (s, 33 :: t).
Proof.
  intros Hu Hs. unfold quote_sheet_name. destruct (requires_quoting m u s) as [[|]|] eqn:Hq; cbn [obind]; intros E;
    try discriminate; injection E as <-.
  - cbn [app]. rewrite <- app_assoc. cbn [app parse_sheet]. apply quoted_body_double. intros r E; discriminate.
  - apply requires_quoting_false_chars in Hq as [Hall _]; [|assumption].
    assert (Hsp : span (fun c => negb (c =? 33)) (s ++ 33 :: t) = (s, 33 :: t)).
    { apply span_all.
      - apply forallb_forall. intros c Hc. rewrite forallb_forall in Hall. apply Hall in Hc.
        destruct (N.eqb_spec c 33) as [->|]; [|reflexivity]. rewrite bang_not_bare in Hc by assumption. discriminate.
      - intros c r E; injection E as <- _. reflexivity. }
    unfold parse_sheet. destruct s as [|c s]; cbn [app] in *.
    + reflexivity.
    + rewrite Hsp. destruct (N.eqb_spec c 39) as [->|]; [exfalso; eapply Hs; reflexivity|reflexivity].
Qed.

(** ** Quoting is applied whenever the bare name would be ambiguous *)

Lemma split_at_digit_app ls ds : forallb (fun c => negb (is_ascii_digit c)) ls = true ->
  ds <> [] -> (exists d r, ds = d :: r /\ is_ascii_digit d = true) ->
  split_at_digit (ls ++ ds) = Some (ls, ds).
Proof.
  intros Hl _ (d & r & -> & Hd). induction ls as [|c ls IH]; cbn [app split_at_digit].
  - rewrite Hd. reflexivity.
  - cbn [forallb] in Hl. apply andb_true_iff in Hl as [Hc Hl]. rewrite negb_true_iff in Hc.
    rewrite Hc, IH by assumption. reflexivity.
Qed.

Lemma split_at_digit_none s : forallb (fun c => negb (is_ascii_digit c)) s = true -> split_at_digit s = None.
Proof.
  induction s as [|c s IH]; cbn [forallb split_at_digit]; [reflexivity|].
  intros H. apply andb_true_iff in H as [Hc H]. rewrite negb_true_iff in Hc. rewrite Hc, IH by assumption. reflexivity.
Qed.

Lemma upper_ascii u s : unicode_ok u -> forallb is_ascii s = true -> to_uppercase u s = map ascii_upper s.
Proof.
  intros (_ & Hu & _). induction s as [|c s IH]; cbn [forallb map to_uppercase flat_map]; [reflexivity|].
  intros H. apply andb_true_iff in H as [Hc H]. rewrite Hu by assumption. cbn [app].
  fold (to_uppercase u s). rewrite IH by assumption. reflexivity.
Qed.

Lemma upper_digits s : forallb is_ascii_digit s = true -> map ascii_upper s = s.
Proof.
  induction s as [|c s IH]; cbn [forallb map]; [reflexivity|]. intros H. apply andb_true_iff in H as [Hc H].
  rewrite IH by assumption. f_equal. unfold ascii_upper, is_ascii_lower, is_ascii_digit in *.
  destruct ((97 <=? c) && (c <=? 122)) eqn:E; lia.
Qed.

Lemma digits_ascii s : forallb is_ascii_digit s = true -> forallb is_ascii s = true.
Proof.
  intros H. apply forallb_forall. intros c Hc. rewrite forallb_forall in H. apply H in Hc.
  unfold is_ascii, is_ascii_digit in *. lia.
Qed.
Lemma alpha_ascii s : forallb is_ascii_alpha s = true -> forallb is_ascii s = true.
Proof.
  intros H. apply forallb_forall. intros c Hc. rewrite forallb_forall in H. apply H in Hc.
  unfold is_ascii, is_ascii_alpha, is_ascii_upper, is_ascii_lower in *. lia.
Qed.
Lemma alpha_nodigit s : forallb is_ascii_alpha s = true -> forallb (fun c => negb (is_ascii_digit c)) s = true.
Proof.
  intros H. apply forallb_forall. intros c Hc. rewrite forallb_forall in H. apply H in Hc.
  unfold is_ascii_digit, is_ascii_alpha, is_ascii_upper, is_ascii_lower in *. lia.
Qed.
Lemma upper_of_alpha s : forallb is_ascii_alpha s = true -> forallb is_ascii_upper (map ascii_upper s) = true.
Proof.
  intros H. apply forallb_forall. intros c Hc. apply in_map_iff in Hc as (x & <- & Hx).
  rewrite forallb_forall in H. apply H in Hx.
  unfold is_ascii_alpha, ascii_upper, is_ascii_upper, is_ascii_lower in *.
  destruct ((97 <=? x) && (x <=? 122)) eqn:E; lia.
Qed.
Lemma byte_len_ascii s : forallb is_ascii s = true -> byte_len s = N.of_nat (length s).
Proof.
  induction s as [|c s IH]; cbn [forallb byte_len length]; [reflexivity|]. intros H.
  apply andb_true_iff in H as [Hc H]. rewrite IH by assumption. unfold utf8_len, is_ascii in *.
  rewrite Hc. lia.
Qed.
Lemma ascii_upper_ascii s : forallb is_ascii s = true -> forallb is_ascii (map ascii_upper s) = true.
Proof.
  intros H. apply forallb_forall. intros c Hc. apply in_map_iff in Hc as (x & <- & Hx).
  rewrite forallb_forall in H. apply H in Hx. unfold ascii_upper, is_ascii, is_ascii_lower in *.
  destruct ((97 <=? x) && (x <=? 122)) eqn:E; lia.
Qed.
Lemma digits_head s : forallb is_ascii_digit s = true -> s <> [] -> exists d r, s = d :: r /\ is_ascii_digit d = true.
Proof. destruct s as [|d r]; [congruence|]. cbn [forallb]. intros H _. apply andb_true_iff in H as [H _]. eauto. Qed.

(** Rule 3 on a plain ASCII letters+digits name. *)
Lemma rule3_value m ls ds : forallb is_ascii_upper ls = true -> ls <> [] ->
  letters_value 0 ls <= 16384 -> 1 <= digits_value 0 ds <= 1048576 -> ds <> [] ->
  (col <- column_name_to_number m ls ;;
   col <- add16 m col 1 ;;
   Some ((0 <? parse_u64_or_0 ds) && (parse_u64_or_0 ds <=? ROW_MAX) && (col <=? COL_MAX))) = Some true.
Proof.
  intros Hl Hne Hv Hd Hdne. pose proof (letters_value_pos ls Hl Hne).
  rewrite column_name_to_number_spec by (auto; lia). cbn [obind].
  rewrite add16_ok by lia. cbn [obind].
  assert (Hp : parse_u64_or_0 ds = digits_value 0 ds).
  { unfold parse_u64_or_0. destruct ds as [|c ds]; [congruence|]. rewrite undec_digits_value.
    change (2^64) with 18446744073709551616.
    destruct (N.ltb_spec (digits_value 0 (c :: ds)) 18446744073709551616); lia. }
  rewrite Hp. unfold ROW_MAX, COL_MAX. f_equal. lia.
Qed.

Lemma looks_like_a1_quoted m u s : unicode_ok u -> (forall r, s <> 39 :: r) ->
  looks_like_a1 s -> requires_quoting m u s = Some true.
Proof.
  intros Hu Hs (ls & ds & -> & Hls & Hds & Hlen & Hdne & Hlv & Hdv).
  unfold requires_quoting, split_cell_reference.
  rewrite split_at_digit_app; [|apply alpha_nodigit; assumption|assumption|apply digits_head; assumption].
  rewrite !upper_ascii by (auto using alpha_ascii, digits_ascii).
  rewrite (upper_digits ds) by assumption.
  rewrite (not_starting_quote _ Hs).
  destruct (forallb _ (ls ++ ds)); cbn [negb]; [|reflexivity].
  destruct (starts_with_char _ (ls ++ ds)); [reflexivity|].
  rewrite byte_len_ascii by (apply ascii_upper_ascii; apply alpha_ascii; assumption).
  rewrite map_length.
  replace ((1 <=? N.of_nat (length ls)) && (N.of_nat (length ls) <=? 3)) with true by (symmetry; lia).
  rewrite Hds. cbn [andb].
  apply rule3_value; auto using upper_of_alpha; try lia.
  destruct ls; [cbn in Hlen; lia|discriminate].
Qed.

Lemma leading_digits_app ds t : forallb is_ascii_digit ds = true -> no_digit_head t -> leading_digits (ds ++ t) = ds.
Proof.
  intros Hd Ht. induction ds as [|d ds IH]; cbn [app].
  - destruct t as [|c t]; cbn [leading_digits]; [reflexivity|]. rewrite (Ht c t eq_refl). reflexivity.
  - cbn [forallb] in Hd. apply andb_true_iff in Hd as [Hd1 Hd]. cbn [leading_digits]. rewrite Hd1, IH by assumption. reflexivity.
Qed.

Lemma upper_app u a b : to_uppercase u (a ++ b) = to_uppercase u a ++ to_uppercase u b.
Proof. unfold to_uppercase. apply flat_map_app. Qed.

Lemma upper_no_digit_head u t : unicode_ok u -> no_digit_head t -> no_digit_head (to_uppercase u t).
Proof.
  intros (_ & _ & Hne & Hlt) Ht. destruct t as [|c t]; [exact no_digit_nil|].
  cbn [to_uppercase flat_map]. destruct (u_upper u c) as [|x r] eqn:E; [exfalso; eapply Hne; eauto|].
  cbn [app]. intros y r' E'. injection E' as <- _.
  destruct (is_ascii_digit x) eqn:Hx; [|reflexivity].
  assert (x = c) as ->. { apply Hlt; [rewrite E; left; reflexivity|]. unfold is_ascii_digit in Hx. lia. }
  rewrite (Ht c t eq_refl) in Hx. discriminate.
Qed.

Lemma map_upper_letters p w : map ascii_upper p = w -> forallb is_ascii_upper w = true ->
  forallb is_ascii_alpha p = true /\ forallb is_ascii p = true.
Proof.
  intros <- H.
  assert (Ha : forallb is_ascii_alpha p = true).
  { apply forallb_forall. intros c Hc. rewrite forallb_forall in H. specialize (H _ (in_map ascii_upper _ _ Hc)).
    unfold ascii_upper, is_ascii_alpha, is_ascii_upper, is_ascii_lower in *.
    destruct ((97 <=? c) && (c <=? 122)) eqn:E; lia. }
  split; [assumption|]. apply alpha_ascii; assumption.
Qed.

Lemma upper_letters_oracle u s w : unicode_ok u -> map ascii_upper s = w -> forallb is_ascii_upper w = true ->
  to_uppercase u s = w.
Proof. intros Hu E Hw. destruct (map_upper_letters s w E Hw). rewrite upper_ascii by assumption. assumption. Qed.

Lemma looks_like_rc_quoted m u s : unicode_ok u -> (forall r, s <> 39 :: r) ->
  looks_like_rc s -> requires_quoting m u s = Some true.
Proof.
  intros Hu Hs [Hrc | (p & ds & rest & -> & Hds & Hdne & Hrest & Hcase)].
  - assert (Hw : exists w, map ascii_upper s = w /\ In w [lit "R"; lit "C"; lit "RC"]) by eauto.
    destruct Hw as (w & Ew & Hw).
    assert (Hwu : forallb is_ascii_upper w = true) by (cbn [In] in Hw; destruct Hw as [<-|[<-|[<-|[]]]]; reflexivity).
    destruct (map_upper_letters s w Ew Hwu) as [Halpha _].
    unfold requires_quoting, split_cell_reference.
    rewrite split_at_digit_none by (apply alpha_nodigit; assumption).
    rewrite (not_starting_quote _ Hs).
    destruct (negb _); [reflexivity|].
    destruct (starts_with_char _ s); [reflexivity|].
    cbn [byte_len]. change (1 <=? 0) with false. cbn [andb].
    change (str_eqb [] (lit "R")) with false. change (str_eqb [] (lit "RC")) with false. change (str_eqb [] (lit "C")) with false.
    cbn [orb]. rewrite (upper_letters_oracle u s w) by assumption.
    cbn [In] in Hw; destruct Hw as [<-|[<-|[<-|[]]]]; reflexivity.
  - assert (Hw : exists w, map ascii_upper p = w /\ In w [lit "R"; lit "C"; lit "RC"]).
    { destruct Hcase as [[E _]|[E _]]; [rewrite E|]; eexists; split; try reflexivity; cbn [In] in *; tauto. }
    destruct Hw as (w & Ew & Hw).
    assert (Hwu : forallb is_ascii_upper w = true) by (cbn [In] in Hw; destruct Hw as [<-|[<-|[<-|[]]]]; reflexivity).
    destruct (map_upper_letters p w Ew Hwu) as [Halpha _].
    unfold requires_quoting, split_cell_reference.
    destruct (digits_head ds Hds Hdne) as (d & ds' & Ed & Hd).
    rewrite split_at_digit_app; [|apply alpha_nodigit; assumption|subst ds; discriminate|exists d, (ds' ++ rest); subst ds; auto].
    rewrite (upper_letters_oracle u p w) by assumption.
    rewrite upper_app, (upper_ascii u ds) by (auto using digits_ascii). rewrite (upper_digits ds) by assumption.
    rewrite (not_starting_quote _ Hs).
    destruct (forallb _ (p ++ ds ++ rest)); cbn [negb]; [|reflexivity].
    destruct (starts_with_char _ (p ++ ds ++ rest)); [reflexivity|].
    assert (Hnd : no_digit_head (to_uppercase u rest)) by (apply upper_no_digit_head; assumption).
    assert (Hp64 : parse_u64_or_0 ds = digits_value 0 ds).
    { unfold parse_u64_or_0. subst ds. rewrite undec_digits_value. change (2^64) with 18446744073709551616.
      destruct (N.ltb_spec (digits_value 0 (d :: ds')) 18446744073709551616); [reflexivity|].
      destruct Hcase as [[_ Hb]|[_ Hb]]; lia. }
    assert (Hlv : letters_value 0 w <= 16384 /\ w <> [] /\ (1 <=? byte_len w) && (byte_len w <=? 3) = true).
    { cbn [In] in Hw; destruct Hw as [<-|[<-|[<-|[]]]]; repeat split; vm_compute; congruence. }
    destruct Hlv as (Hlv & Hwne & Hwb). rewrite Hwb. cbn [andb].
    rewrite forallb_app, Hds. cbn [andb].
    destruct (forallb is_ascii_digit (to_uppercase u rest)) eqn:Hrd.
    + assert (to_uppercase u rest = []) as Er.
      { destruct (to_uppercase u rest) as [|x r]; [reflexivity|]. cbn [forallb] in Hrd.
        apply andb_true_iff in Hrd as [Hx _]. rewrite (Hnd x r eq_refl) in Hx. discriminate. }
      rewrite Er, app_nil_r. apply rule3_value; auto. destruct Hcase as [[_ Hb]|[_ Hb]]; lia.
    + rewrite leading_digits_app, Hp64 by assumption.
      destruct Hcase as [[Ep Hb]|[Ep Hb]].
      * rewrite Ew in Ep. subst w. change (str_eqb (lit "R") (lit "R")) with true.
        unfold ROW_MAX. f_equal. lia.
      * rewrite Ew in Ep. clear Hw. cbn [In] in Ep.
        destruct Ep as [<-|[<-|[]]].
        -- change (str_eqb (lit "C") (lit "R")) with false. change (str_eqb (lit "C") (lit "RC")) with false.
           change (str_eqb (lit "C") (lit "C")) with true. cbn [orb]. unfold COL_MAX. f_equal. lia.
        -- change (str_eqb (lit "RC") (lit "R")) with false. change (str_eqb (lit "RC") (lit "RC")) with true.
           cbn [orb]. unfold COL_MAX. f_equal. lia.
Qed.

Lemma bare_name_safe m u s : unicode_ok u -> (forall r, s <> 39 :: r) ->
  quote_sheet_name m u s = Some s ->
  (forall c, In c s -> u_alnum u c = true \/ c = 95 \/ c = 46 \/ is_emoji c = true) /\
  (forall c r, s = c :: r -> is_ascii_digit c = false /\ c <> 46) /\
  ~ looks_like_a1 s /\ ~ looks_like_rc s.
Proof.
  intros Hu Hs E. unfold quote_sheet_name in E.
  destruct (requires_quoting m u s) as [[|]|] eqn:Hq; cbn [obind] in E; try discriminate.
  { injection E as E. symmetry in E. exfalso. eapply Hs. exact E. }
  destruct (requires_quoting_false_chars m u s Hs Hq) as [Hall Hst].
  split; [|split; [|split]].
  - intros c Hc. rewrite forallb_forall in Hall. apply Hall in Hc. unfold bare_char in Hc.
    rewrite !orb_true_iff, !N.eqb_eq in Hc. tauto.
  - intros c r ->. cbn [starts_with_char] in Hst. rewrite !orb_false_iff, N.eqb_neq in Hst. tauto.
  - intros H. rewrite (looks_like_a1_quoted m u s) in Hq by assumption. discriminate.
  - intros H. rewrite (looks_like_rc_quoted m u s) in Hq by assumption. discriminate.
Qed.

(** ** Totality *)

Lemma wrapN_release w v : exists x, wrapN Release w v = Some x.
Proof. unfold wrapN. destruct (_ && _); eauto. Qed.

Lemma col_number_loop_release acc s : exists x, col_number_loop Release acc s = Some x.
Proof.
  revert acc; induction s as [|c s IH]; intros acc; cbn [col_number_loop]; [eauto|].
  unfold mul16, sub16, add16.
  destruct (wrapN_release 16 (Z.of_N acc * Z.of_N 26)) as [a ->]. cbn [obind].
  destruct (wrapN_release 16 (Z.of_N (c mod 65536) - Z.of_N 65)) as [b ->]. cbn [obind].
  destruct (wrapN_release 16 (Z.of_N b + Z.of_N 1)) as [b1 ->]. cbn [obind].
  destruct (wrapN_release 16 (Z.of_N a + Z.of_N b1)) as [n ->]. cbn [obind]. apply IH.
Qed.

Lemma quote_total_release u s : exists q, quote_sheet_name Release u s = Some q.
Proof.
  unfold quote_sheet_name.
  assert (H : exists b, requires_quoting Release u s = Some b); [|destruct H as [b ->]; cbn [obind]; eauto].
  unfold requires_quoting. destruct (split_cell_reference u s) as [sp np].
  destruct (starts_with_char _ s); [eauto|]. destruct (negb _); [eauto|].
  destruct (starts_with_char _ s); [eauto|]. destruct (_ && _ && _).
  - assert (exists x, column_name_to_number Release sp = Some x) as [x ->].
    { unfold column_name_to_number. destruct sp as [|c sp]; [eauto|].
      destruct (col_number_loop_release 0 (c :: sp)) as [x ->]. cbn [obind]. apply wrapN_release. }
    cbn [obind]. unfold add16. destruct (wrapN_release 16 (Z.of_N x + Z.of_N 1)) as [y ->]. cbn [obind]. eauto.
  - destruct (str_eqb sp _); [eauto|]. destruct (_ || _); eauto.
Qed.

(** In a debug build the u16 arithmetic cannot overflow when no character below
    'A' is in the letter part, which holds when the name has no full stop. *)
Lemma col_number_short m s : (forall c, In c s -> 65 <= c) -> byte_len s <= 3 -> s <> [] ->
  exists v, col_number_loop m 0 s = Some v /\ 1 <= v <= 65535.
Proof.
  intros Hge Hb Hne.
  assert (Hbl : forall c, 1 <= utf8_len c <= 4 /\ (utf8_len c <= 1 -> c < 128) /\ (utf8_len c <= 2 -> c < 2048)
            /\ (utf8_len c <= 3 -> c < 65536)).
  { intros c. unfold utf8_len. destruct (N.ltb_spec c 0x80), (N.ltb_spec c 0x800), (N.ltb_spec c 0x10000); lia. }
  assert (step : forall acc c, 65 <= c < 65536 -> 26 * acc + (c - 64) < 65536 ->
     forall r, col_number_loop m acc (c :: r) = col_number_loop m (26 * acc + (c - 64)) r).
  { intros acc c Hc Hv r. cbn [col_number_loop]. rewrite mul16_ok by lia. cbn [obind].
    rewrite N.mod_small by lia. rewrite sub16_ok by lia. cbn [obind].
    rewrite add16_ok by lia. cbn [obind]. rewrite add16_ok by lia. cbn [obind].
    f_equal. lia. }
  destruct s as [|a [|b [|c [|d s]]]]; [congruence| | | |].
  - pose proof (Hge a ltac:(cbn; auto)). pose proof (Hbl a) as (?&?&?&?). cbn [byte_len] in Hb.
    rewrite step by lia. cbn [col_number_loop]. eexists; split; [reflexivity|lia].
  - pose proof (Hge a ltac:(cbn; auto)). pose proof (Hbl a) as (?&?&?&?).
    pose proof (Hge b ltac:(cbn; auto)). pose proof (Hbl b) as (?&?&?&?). cbn [byte_len] in Hb.
    destruct (N.leb_spec (utf8_len a) 1).
    + rewrite step by lia. rewrite step by lia. cbn [col_number_loop]. eexists; split; [reflexivity|lia].
    + rewrite step by lia. rewrite step by lia. cbn [col_number_loop]. eexists; split; [reflexivity|lia].
  - pose proof (Hge a ltac:(cbn; auto)). pose proof (Hbl a) as (?&?&?&?).
    pose proof (Hge b ltac:(cbn; auto)). pose proof (Hbl b) as (?&?&?&?).
    pose proof (Hge c ltac:(cbn; auto)). pose proof (Hbl c) as (?&?&?&?). cbn [byte_len] in Hb.
    rewrite step by lia. rewrite step by lia. rewrite step by lia. cbn [col_number_loop]. eexists; split; [reflexivity|lia].
  - exfalso. cbn [byte_len] in Hb. pose proof (Hbl a). pose proof (Hbl b). pose proof (Hbl c). pose proof (Hbl d). lia.
Qed.

Lemma quote_total_debug u s : unicode_ok u -> ~ In 46 s -> exists q, quote_sheet_name Debug u s = Some q.
Proof.
  intros Hu Hdot. unfold quote_sheet_name.
  assert (H : exists b, requires_quoting Debug u s = Some b); [|destruct H as [b ->]; cbn [obind]; eauto].
  unfold requires_quoting. destruct (split_cell_reference u s) as [sp np] eqn:Esp.
  destruct (starts_with_char _ s); [eauto|]. 
  destruct (forallb _ s) eqn:Hall; cbn [negb]; [|eauto].
  destruct (starts_with_char _ s); [eauto|]. destruct (_ && _ && _) eqn:Hb.
  - apply andb_true_iff in Hb as [Hb _]. apply andb_true_iff in Hb as [Hb1 Hb2].
    assert (Hge : forall x, In x sp -> 65 <= x).
    { unfold split_cell_reference in Esp. destruct (split_at_digit s) as [[a b]|] eqn:E.
      - injection Esp as <- <-. 
        assert (Ha : forall c, In c a -> In c s /\ is_ascii_digit c = false).
        { clear - E. revert a b E. induction s as [|c s IH]; intros a b E; cbn [split_at_digit] in E; [discriminate|].
          destruct (is_ascii_digit c) eqn:Hc; [injection E as <- <-; intros x []|].
          destruct (split_at_digit s) as [[a' b']|]; [|discriminate]. injection E as <- <-.
          intros x [<-|Hx]; [cbn; auto|]. specialize (IH a' b' eq_refl x Hx). cbn; tauto. }
        intros x Hx. unfold to_uppercase in Hx. apply in_flat_map in Hx as (c & Hc & Hx).
        apply Ha in Hc as [Hc Hnd]. destruct (N.leb_spec 65 x); [assumption|].
        destruct Hu as (Hal & Hup & Hne & Hlt). assert (x = c) as -> by (apply Hlt; assumption).
        exfalso. rewrite forallb_forall in Hall. apply Hall in Hc as Hbc.
        rewrite Hal in Hbc by (unfold is_ascii; lia).
        assert (c <> 46) by congruence.
        unfold is_ascii_alnum, is_emoji in Hbc. rewrite Hnd in Hbc. cbn [orb] in Hbc.
        unfold is_ascii_alpha, is_ascii_upper, is_ascii_lower in Hbc.
        destruct (N.ltb_spec c 0x203C); lia.
      - injection Esp as <- <-. intros x []. }
    assert (Hspne : sp <> []) by (intros ->; cbn in Hb1; discriminate).
    destruct (col_number_short Debug sp Hge ltac:(lia) Hspne) as (v & Hv & Hv2).
    unfold column_name_to_number. destruct sp as [|c sp]; [congruence|].
    rewrite Hv. cbn [obind]. rewrite sub16_ok by lia. cbn [obind]. rewrite add16_ok by lia. cbn [obind]. eauto.
  - destruct (str_eqb sp _); [eauto|]. destruct (_ || _); eauto.
Qed.

(** ** Sheet-qualified ranges *)
Lemma chart_range_parse (ab : bool) m u sheet q fr fc lr lc : unicode_ok u -> (forall r, sheet <> 39 :: r) ->
  fr < 2^32 - 1 -> fc < 65535 -> lr < 2^32 - 1 -> lc < 65535 ->
  quote_sheet_name m u sheet = Some q ->
  exists s, (if ab then chart_range_abs m u sheet fr fc lr lc else chart_range m u sheet fr fc lr lc) = Some s /\
    parse_sheet_range s = Some (sheet, (mk ab fr fc, mk ab lr lc)).
Proof.
  intros Hu Hs H1 H2 H3 H4 Hq.
  destruct (range_text_parse ab m fr fc lr lc H1 H2 H3 H4) as (t & Et & Pt & _).
  exists (q ++ 33 :: t). split.
  - unfold range_text in Et. unfold chart_range_abs, chart_range. rewrite Hq. cbn [obind].
    destruct ab; cbn [cell_text] in Et.
    + destruct (row_col_to_cell_absolute m fr fc) as [r1|]; cbn [obind] in *; [|discriminate].
      destruct (row_col_to_cell_absolute m lr lc) as [r2|]; cbn [obind] in *; [|discriminate].
      injection Et as <-. destruct (str_eqb r1 r2); reflexivity.
    + destruct (row_col_to_cell m fr fc) as [r1|]; cbn [obind] in *; [|discriminate].
      destruct (row_col_to_cell m lr lc) as [r2|]; cbn [obind] in *; [|discriminate].
      injection Et as <-. destruct (str_eqb r1 r2); reflexivity.
  - unfold parse_sheet_range. rewrite (parse_sheet_quoted m u sheet q t) by assumption. rewrite Pt. reflexivity.
Qed.
