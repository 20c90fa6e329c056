(** C70: a range given as text is the range that text denotes. *)
From Verif Require Import Base Ref_Model Ref_Spec Ref_Proofs Quote_Proofs Spark_Model Crange_Model.

Definition dollar (b : bool) : str := if b then [36] else [].
Definition strip (s : str) : str := filter (fun c => negb (c =? 36)) s.
Lemma eat_dollar_inv s b t : eat_dollar s = (b, t) -> s = dollar b ++ t.
Proof. destruct s as [|c r]; cbn [eat_dollar]; [intros [= <- <-]; reflexivity|]. destruct (N.eqb_spec c 36); intros [= <- <-]; subst; reflexivity. Qed.
Lemma span_inv p s : forall a b, span p s = (a, b) -> s = a ++ b /\ forallb p a = true /\ (forall c r, b = c :: r -> p c = false).
Proof.
  induction s as [|c s IH]; intros a b; cbn [span]; [intros [= <- <-]; split; [reflexivity|split; [reflexivity|discriminate]]|].
  destruct (p c) eqn:P.
  - destruct (span p s) as [a' b'] eqn:E. intros [= <- <-]. destruct (IH _ _ eq_refl) as (-> & F & T). split; [reflexivity|]. split; [cbn [forallb]; rewrite P; exact F|exact T].
  - intros [= <- <-]. split; [reflexivity|]. split; [reflexivity|]. intros x r [= <- _]. exact P.
Qed.
Record cell_split (s : str) (r : a1) (t : str) (ls ds : str) : Prop := {
  cs_text : strip s = ls ++ ds ++ strip t; cs_no_bang : ~ In 33 t -> ~ In 33 s;
  cs_ls : forallb is_ascii_upper ls = true; cs_ls0 : ls <> []; cs_ds : forallb is_ascii_digit ds = true; cs_ds0 : ds <> [];
  cs_row : a1_row r = digits_value 0 ds - 1; cs_col : a1_col r = letters_value 0 ls - 1;
  cs_pos : 1 <= digits_value 0 ds; cs_t : no_digit_head t }.
Lemma strip_app a b : strip (a ++ b) = strip a ++ strip b. Proof. apply filter_app. Qed.
Lemma strip_dollar b : strip (dollar b) = []. Proof. destruct b; reflexivity. Qed.
Lemma strip_id s : (forall c, In c s -> c <> 36) -> strip s = s.
Proof. induction s as [|c s IH]; intros H; cbn [strip filter]; [reflexivity|]. destruct (N.eqb_spec c 36) as [E|_]; [destruct (H c (or_introl eq_refl) E)|]. cbn [negb]. f_equal. apply IH. intros x Hx. apply H. right. exact Hx. Qed.
Lemma digits_ge s : forall acc, acc <= digits_value acc s.
Proof. induction s as [|c s IH]; intros acc; cbn [digits_value]; [lia|]. pose proof (IH (10 * acc + (c - 48))). lia. Qed.
Lemma upper_bounds s c : forallb is_ascii_upper s = true -> In c s -> 65 <= c <= 90.
Proof. intros H I. rewrite forallb_forall in H. apply H in I. unfold is_ascii_upper in I. lia. Qed.
Lemma digit_bounds s c : forallb is_ascii_digit s = true -> In c s -> 48 <= c <= 57.
Proof. intros H I. rewrite forallb_forall in H. apply H in I. unfold is_ascii_digit in I. lia. Qed.
Lemma parse_cell_inv s r t : parse_cell s = Some (r, t) -> exists ls ds, cell_split s r t ls ds.
Proof.
  unfold parse_cell. destruct (eat_dollar s) as [ac s1] eqn:E1. destruct (span is_ascii_upper s1) as [ls s2] eqn:E2. destruct (eat_dollar s2) as [ar s3] eqn:E3. destruct (span is_ascii_digit s3) as [ds s4] eqn:E4.
  destruct ls as [|l ls]; [discriminate|]. destruct ds as [|d ds]; [discriminate|]. destruct (N.eqb_spec d 48) as [|D]; [discriminate|]. intros E. assert (Er : r = {| a1_row := digits_value 0 (d :: ds) - 1; a1_col := letters_value 0 (l :: ls) - 1; a1_absrow := ar; a1_abscol := ac |} /\ t = s4) by (split; congruence). clear E. destruct Er as [-> ->].
  exists (l :: ls), (d :: ds). apply eat_dollar_inv in E1, E3. destruct (span_inv _ _ _ _ E2) as (-> & F2 & _), (span_inv _ _ _ _ E4) as (-> & F4 & T4). subst s s2.
  assert (NL : forall c, In c (l :: ls) -> c <> 36 /\ c <> 33) by (intros c Hc; pose proof (upper_bounds _ _ F2 Hc); lia).
  assert (ND : forall c, In c (d :: ds) -> c <> 36 /\ c <> 33) by (intros c Hc; pose proof (digit_bounds _ _ F4 Hc); lia).
  constructor; try assumption; try discriminate; try reflexivity.
  - rewrite !strip_app, !strip_dollar. cbn [app]. rewrite (strip_id (l :: ls)) by (intros c Hc; apply NL; exact Hc). rewrite (strip_id (d :: ds)) by (intros c Hc; apply ND; exact Hc). reflexivity.
  - intros H. rewrite !in_app_iff. intros [H0|[H0|[H0|[H0|H0]]]].
    + destruct ac; cbn [dollar In] in H0; [destruct H0 as [H0|[]]; discriminate|destruct H0].
    + apply NL in H0. lia.
    + destruct ar; cbn [dollar In] in H0; [destruct H0 as [H0|[]]; discriminate|destruct H0].
    + apply ND in H0. lia.
    + exact (H H0).
  - cbn [digits_value]. pose proof (digits_ge ds (10 * 0 + (d - 48))). pose proof (digit_bounds _ _ F4 (or_introl eq_refl)). lia.
Qed.

Lemma find_char_app c a b : ~ In c a -> find_char c (a ++ c :: b) = Some (a, b).
Proof.
  induction a as [|x a IH]; intros H; cbn [app find_char]; [rewrite N.eqb_refl; reflexivity|].
  destruct (N.eqb_spec x c) as [E|_]; [destruct H; left; exact E|]. rewrite IH by (intros H0; apply H; right; exact H0). reflexivity.
Qed.
Lemma find_char_none c a : ~ In c a -> find_char c a = None.
Proof.
  induction a as [|x a IH]; intros H; cbn [find_char]; [reflexivity|].
  destruct (N.eqb_spec x c) as [E|_]; [destruct H; left; exact E|]. rewrite IH by (intros H0; apply H; right; exact H0). reflexivity.
Qed.

Section Text.
  Variable m : ovf.
  Variable u : unicode.
  Hypothesis Hu : unicode_ok u.
  Lemma cell_reads r ls ds : forallb is_ascii_upper ls = true -> ls <> [] -> forallb is_ascii_digit ds = true -> ds <> [] ->
    a1_row r = digits_value 0 ds - 1 -> a1_col r = letters_value 0 ls - 1 -> 1 <= digits_value 0 ds -> a1_row r + 1 < 2 ^ 32 -> a1_col r < 65535 ->
    cell_of_text m u (ls ++ ds) = Some (a1_row r, a1_col r).
  Proof.
    intros L L0 D D0 Er Ec P Br Bc. unfold cell_of_text, split_cell_reference.
    assert (NL : forallb (fun c => negb (is_ascii_digit c)) ls = true) by (apply forallb_forall; intros c Hc; pose proof (upper_bounds _ _ L Hc); unfold is_ascii_digit; lia).
    rewrite (split_at_digit_app ls ds NL D0 (digits_head _ D D0)). pose proof (letters_value_pos _ L L0) as LP.
    assert (UL : to_uppercase u ls = ls).
    { apply (upper_letters_oracle u ls ls Hu); [|exact L]. clear - L. induction ls as [|c ls IH]; [reflexivity|]. cbn [forallb] in L. apply andb_true_iff in L as [Lc L]. cbn [map]. rewrite (IH L). f_equal. unfold ascii_upper, is_ascii_lower, is_ascii_upper in *. destruct (N.leb_spec 97 c); cbn [andb]; [lia|reflexivity]. }
    assert (UD : to_uppercase u ds = ds) by (rewrite (upper_ascii u ds Hu (digits_ascii _ D)); apply upper_digits; exact D).
    rewrite UL, UD. rewrite (column_name_to_number_spec m ls L L0) by lia. cbn [obind]. unfold parse_u32_or_0. rewrite undec_digits_value. destruct ds as [|d ds]; [congruence|]. rewrite D.
    destruct (N.ltb_spec (digits_value 0 (d :: ds)) (2 ^ 32)) as [H|H]; cbn [andb]; [rewrite Er, Ec; reflexivity|lia].
  Qed.
  Lemma is_valid_range_of ls ds t : forallb is_ascii_upper ls = true -> ls <> [] -> forallb is_ascii_digit ds = true -> ds <> [] ->
    (t = [] \/ exists ls' ds', t = 58 :: ls' ++ ds' /\ forallb is_ascii_upper ls' = true /\ forallb is_ascii_digit ds' = true /\ ds' <> []) ->
    is_valid_range (ls ++ ds ++ t) = true.
  Proof.
    intros L L0 D D0 T. destruct ls as [|l ls]; [congruence|]. cbn [app]. unfold is_valid_range.
    assert (S : starts_with_char is_ascii_upper (l :: ls ++ ds ++ t) = true) by (cbn [forallb] in L; apply andb_true_iff in L as [L _]; exact L). rewrite S.
    assert (LC : forall (a b : str), forallb is_ascii_digit b = true -> b <> [] -> ends_with_char is_ascii_digit (a ++ b) = true).
    { intros a b Fb Nb. unfold ends_with_char, last_char. rewrite rev_app_distr. destruct (exists_last Nb) as (b' & x & ->). rewrite rev_app_distr. cbn [rev app]. rewrite forallb_app in Fb. apply andb_true_iff in Fb as [_ Fb]. cbn [forallb] in Fb. apply andb_true_iff in Fb as [Fb _]. exact Fb. }
    assert (E : ends_with_char is_ascii_digit (l :: ls ++ ds ++ t) = true).
    { destruct T as [->|(ls' & ds' & -> & L' & D' & D0')]; [rewrite app_nil_r; exact (LC (l :: ls) ds D D0)|].
      replace (l :: ls ++ ds ++ 58 :: ls' ++ ds') with ((l :: ls ++ ds ++ 58 :: ls') ++ ds') by (cbn [app]; rewrite <- !app_assoc; reflexivity). exact (LC _ _ D' D0'). }
    rewrite E. cbn [negb orb]. apply forallb_forall. intros c Hc.
    assert (C : (65 <= c <= 90) \/ (48 <= c <= 57) \/ c = 58).
    { change (In c ((l :: ls) ++ ds ++ t)) in Hc. rewrite !in_app_iff in Hc. destruct Hc as [Hc|[Hc|Hc]]; [left; exact (upper_bounds _ _ L Hc)|right; left; exact (digit_bounds _ _ D Hc)|].
      destruct T as [->|(ls' & ds' & -> & L' & D' & D0')]; [destruct Hc|]. destruct Hc as [<-|Hc]; [right; right; reflexivity|]. apply in_app_iff in Hc as [Hc|Hc]; [left; exact (upper_bounds _ _ L' Hc)|right; left; exact (digit_bounds _ _ D' Hc)]. }
    unfold is_ascii_upper, is_ascii_digit. lia.
  Qed.
  Definition in_reach (r : a1) : Prop := a1_row r + 1 < 2 ^ 32 /\ a1_col r < 65535.
  Lemma range_text_reads sheet rest a b : ~ In 33 sheet -> parse_range rest = Some (a, b) -> in_reach a -> in_reach b ->
    range_of_text m u (sheet ++ 33 :: rest) = Some {| g_sheet := sheet; g_fr := a1_row a; g_fc := a1_col a; g_lr := a1_row b; g_lc := a1_col b |}.
  Proof.
    intros Hs P [Ra Ca] [Rb Cb]. unfold range_of_text. rewrite (find_char_app 33 sheet rest Hs). fold (strip rest). unfold parse_range in P.
    destruct (parse_cell rest) as [[r t]|] eqn:Ep; [|discriminate]. destruct (parse_cell_inv _ _ _ Ep) as (ls & ds & C). rewrite (cs_text _ _ _ _ _ C).
    assert (N58 : ~ In 58 (ls ++ ds)) by (rewrite in_app_iff; intros [I|I]; [pose proof (upper_bounds _ _ (cs_ls _ _ _ _ _ C) I)|pose proof (digit_bounds _ _ (cs_ds _ _ _ _ _ C) I)]; lia).
    destruct t as [|c t].
    - assert (Ea : r = a /\ r = b) by (split; congruence). destruct Ea as [<- <-]. cbn [strip filter].
      rewrite (is_valid_range_of ls ds [] (cs_ls _ _ _ _ _ C) (cs_ls0 _ _ _ _ _ C) (cs_ds _ _ _ _ _ C) (cs_ds0 _ _ _ _ _ C) (or_introl eq_refl)).
      rewrite app_nil_r. rewrite (find_char_none 58 _ N58).
      rewrite (cell_reads r ls ds (cs_ls _ _ _ _ _ C) (cs_ls0 _ _ _ _ _ C) (cs_ds _ _ _ _ _ C) (cs_ds0 _ _ _ _ _ C) (cs_row _ _ _ _ _ C) (cs_col _ _ _ _ _ C) (cs_pos _ _ _ _ _ C) Ra Ca). reflexivity.
    - assert (Ec : c = 58 /\ match parse_a1 t with Some r' => Some (r, r') | None => None end = Some (a, b)).
      { destruct (N.eq_dec c 58) as [->|Nc]; [split; [reflexivity|exact P]|]. exfalso. revert P. clear - Nc. destruct c as [|p]; [discriminate|]. repeat (destruct p as [p|p|]; try discriminate). congruence. }
      clear P. destruct Ec as [-> P]. unfold parse_a1 in P. destruct (parse_cell t) as [[r' t']|] eqn:Ep'; [|discriminate]. destruct t' as [|]; [|discriminate].
      assert (Ea : r = a /\ r' = b) by (split; congruence). destruct Ea as [<- <-]. destruct (parse_cell_inv _ _ _ Ep') as (ls' & ds' & C').
      cbn [strip filter N.eqb Pos.eqb negb]. fold (strip t). rewrite (cs_text _ _ _ _ _ C'). cbn [strip filter]. rewrite app_nil_r.
      rewrite (is_valid_range_of ls ds (58 :: ls' ++ ds') (cs_ls _ _ _ _ _ C) (cs_ls0 _ _ _ _ _ C) (cs_ds _ _ _ _ _ C) (cs_ds0 _ _ _ _ _ C)
        (or_intror (ex_intro _ ls' (ex_intro _ ds' (conj eq_refl (conj (cs_ls _ _ _ _ _ C') (conj (cs_ds _ _ _ _ _ C') (cs_ds0 _ _ _ _ _ C')))))))).
      rewrite app_assoc. rewrite (find_char_app 58 _ _ N58).
      rewrite (cell_reads r ls ds (cs_ls _ _ _ _ _ C) (cs_ls0 _ _ _ _ _ C) (cs_ds _ _ _ _ _ C) (cs_ds0 _ _ _ _ _ C) (cs_row _ _ _ _ _ C) (cs_col _ _ _ _ _ C) (cs_pos _ _ _ _ _ C) Ra Ca).
      rewrite (cell_reads r' ls' ds' (cs_ls _ _ _ _ _ C') (cs_ls0 _ _ _ _ _ C') (cs_ds _ _ _ _ _ C') (cs_ds0 _ _ _ _ _ C') (cs_row _ _ _ _ _ C') (cs_col _ _ _ _ _ C') (cs_pos _ _ _ _ _ C') Rb Cb). reflexivity.
  Qed.

  Lemma quoted_body_inv s : forall a b, quoted_body s = Some (a, b) -> ~ In 39 a -> s = a ++ 39 :: b.
  Proof.
    induction s as [s IH] using (induction_ltof1 _ (@length char)); unfold ltof in IH. destruct s as [|c s]; intros a b; cbn [quoted_body]; [discriminate|].
    destruct (N.eqb_spec c 39) as [->|Nc].
    - destruct s as [|d s]; [intros [= <- <-] _; reflexivity|]. destruct (N.eqb_spec d 39) as [->|_]; [|intros [= <- <-] _; reflexivity].
      destruct (quoted_body s) as [[a' b']|]; [|discriminate]. intros [= <- <-] H. destruct H. left. reflexivity.
    - destruct (quoted_body s) as [[a' b']|] eqn:E; [|discriminate]. intros [= <- <-] H. cbn [app]. f_equal. apply (IH s); [cbn [length]; lia|exact E|]. intros I. apply H. right. exact I.
  Qed.
  Lemma parse_sheet_inv s sheet rest : parse_sheet s = Some (sheet, rest) -> ~ In 39 sheet -> s = 39 :: sheet ++ 39 :: rest \/ (s = sheet ++ rest /\ forall r, s <> 39 :: r).
  Proof.
    destruct s as [|c s]; cbn [parse_sheet]; [discriminate|]. destruct (N.eqb_spec c 39) as [->|Nc].
    - intros E H. left. f_equal. exact (quoted_body_inv _ _ _ E H).
    - intros E _. right. assert (E' : span (fun c => negb (c =? 33)) (c :: s) = (sheet, rest)) by congruence. assert (K : forall r, c :: s <> 39 :: r) by congruence. destruct (span_inv _ _ _ _ E') as (Es & _ & _). rewrite Es in K |- *. split; [reflexivity|exact K].
  Qed.
  Lemma strip_quotes_plain s : ~ In 39 s -> strip_quotes s = Some s.
  Proof. intros H. unfold strip_quotes. destruct (starts_with_char (N.eqb 39) s) eqn:E; [|reflexivity]. apply starts_with_char_iff in E as [r ->]. destruct H. left. reflexivity. Qed.
  Lemma strip_quotes_quoted s : strip_quotes (39 :: s ++ [39]) = Some s.
  Proof.
    unfold strip_quotes. cbn [starts_with_char N.eqb Pos.eqb andb]. assert (E : ends_with_char (N.eqb 39) (39 :: s ++ [39]) = true) by (apply ends_with_char_iff; exists (39 :: s); reflexivity). rewrite E.
    destruct s as [|c s]; [reflexivity|]. cbn [app tl]. change (c :: s ++ [39]) with ((c :: s) ++ [39]). rewrite removelast_last. reflexivity.
  Qed.

  (** A text that, read as a reference, denotes a range on a sheet gives that range; so does the
      text after an equals sign.  The name has no quote and no exclamation mark in it, and a
      bare name does not start with an equals sign. *)
  Theorem C70_range_text_partial s sheet a b : parse_sheet_range s = Some (sheet, (a, b)) ->
    ~ In 39 sheet -> ~ In 33 sheet -> (forall r, s <> 61 :: r) -> in_reach a -> in_reach b ->
    let c := Some {| g_sheet := sheet; g_fr := a1_row a; g_fc := a1_col a; g_lr := a1_row b; g_lc := a1_col b |} in
    new_from_string m u s = c /\ new_from_string m u (61 :: s) = c.
  Proof.
    intros P Q B E Ra Rb c. unfold parse_sheet_range in P. destruct (parse_sheet s) as [[name rest0]|] eqn:Ps; [|discriminate].
    destruct rest0 as [|x rest]; [discriminate|].
    assert (Ex : x = 33 /\ match parse_range rest with Some r => Some (name, r) | None => None end = Some (sheet, (a, b))).
    { destruct (N.eq_dec x 33) as [->|Nx]; [split; [reflexivity|exact P]|]. exfalso. revert P. clear - Nx. destruct x as [|p]; [discriminate|]. repeat (destruct p as [p|p|]; try discriminate). congruence. }
    clear P. destruct Ex as [-> P]. destruct (parse_range rest) as [ab|] eqn:Pr; [|discriminate]. assert (Ea : name = sheet /\ ab = (a, b)) by (split; congruence). clear P. destruct Ea as [-> ->].
    assert (W : exists w, s = w ++ 33 :: rest /\ ~ In 33 w /\ strip_quotes w = Some sheet /\ (forall r, w <> 61 :: r)).
    { destruct (parse_sheet_inv _ _ _ Ps Q) as [->|[-> _]].
      - exists (39 :: sheet ++ [39]). split; [cbn [app]; rewrite <- app_assoc; reflexivity|]. split; [intros [I|I]; [discriminate|apply in_app_iff in I as [I|[I|[]]]; [exact (B I)|discriminate]]|]. split; [apply strip_quotes_quoted|]. intros r [= I _]; discriminate.
      - exists sheet. split; [reflexivity|]. split; [exact B|]. split; [apply strip_quotes_plain; exact Q|]. intros r ->. exact (E (r ++ 33 :: rest) eq_refl). }
    destruct W as (w & -> & Bw & Sw & Ew). unfold new_from_string. split.
    - rewrite (range_text_reads w rest a b Bw Pr Ra Rb). cbn [obind g_sheet g_fr g_fc g_lr g_lc].
      assert (Se : strip_equals w = w) by (destruct w as [|y w]; [reflexivity|]; cbn [strip_equals]; destruct (N.eqb_spec y 61) as [->|_]; [destruct (Ew w eq_refl)|reflexivity]). rewrite Se, Sw. reflexivity.
    - change (61 :: w ++ 33 :: rest) with ((61 :: w) ++ 33 :: rest).
      rewrite (range_text_reads (61 :: w) rest a b ltac:(intros [I|I]; [discriminate|exact (Bw I)]) Pr Ra Rb). cbn [obind g_sheet g_fr g_fc g_lr g_lc strip_equals N.eqb Pos.eqb]. rewrite Sw. reflexivity.
  Qed.

  (** The text a range is written as denotes it: with or without dollar signs. *)
  Theorem C70_written_text_partial ab c q s : quote_sheet_name m u (g_sheet c) = Some q -> ~ In 39 (g_sheet c) -> ~ In 33 (g_sheet c) ->
    g_fr c < 2 ^ 32 - 1 -> g_fc c < 65535 -> g_lr c < 2 ^ 32 - 1 -> g_lc c < 65535 ->
    (if ab : bool then chart_range_abs m u (g_sheet c) (g_fr c) (g_fc c) (g_lr c) (g_lc c) else chart_range m u (g_sheet c) (g_fr c) (g_fc c) (g_lr c) (g_lc c)) = Some s ->
    new_from_string m u s = Some c /\ new_from_string m u (61 :: s) = Some c.
  Proof.
    intros Q N39 N33 A B C D E. assert (Ns : forall r, g_sheet c <> 39 :: r) by (intros r Er; apply N39; rewrite Er; left; reflexivity).
    destruct (chart_range_parse ab m u _ q _ _ _ _ Hu Ns A B C D Q) as (s' & Es & Ps). assert (Ess : s' = s) by (rewrite Es in E; injection E as E; exact E). subst s'.
    assert (NE : forall r, s <> 61 :: r).
    { intros r ->. assert (X : exists t, 61 :: r = q ++ 33 :: t).
      { clear Ps. destruct ab; [unfold chart_range_abs in Es; destruct (row_col_to_cell_absolute m (g_fr c) (g_fc c)), (row_col_to_cell_absolute m (g_lr c) (g_lc c))|unfold chart_range in Es; destruct (row_col_to_cell m (g_fr c) (g_fc c)), (row_col_to_cell m (g_lr c) (g_lc c))];
        rewrite Q in Es; cbn [obind] in Es; try discriminate; destruct (str_eqb _ _); injection Es as <-; eexists; reflexivity. }
      destruct X as (t & X). unfold quote_sheet_name in Q. destruct (requires_quoting m u (g_sheet c)) as [[|]|] eqn:Rq; cbn [obind] in Q; [injection Q as <-; discriminate X| |discriminate].
      injection Q as <-. destruct (g_sheet c) as [|x n] eqn:Eg; [discriminate X|]. injection X as <- _.
      destruct (requires_quoting_false_chars m u (61 :: n) ltac:(intros ? [=]) Rq) as [Fb _]. cbn [forallb] in Fb. apply andb_true_iff in Fb as [Fb _]. unfold bare_char in Fb. destruct Hu as (Ha & _). rewrite Ha in Fb by reflexivity. vm_compute in Fb. discriminate Fb. }
    destruct c as [sh fr fc lr lc]. cbn [g_sheet g_fr g_fc g_lr g_lc] in *. change (2 ^ 32) with 4294967296 in *.
    assert (X := C70_range_text_partial s sh (mk ab fr fc) (mk ab lr lc)). cbn [a1_row a1_col mk] in X. apply X; [|exact N39|exact N33|exact NE|unfold in_reach, mk; cbn [a1_row a1_col]; change (2 ^ 32) with 4294967296; lia|unfold in_reach, mk; cbn [a1_row a1_col]; change (2 ^ 32) with 4294967296; lia].
    revert Ps. destruct ab; exact (fun H => H).
  Qed.
End Text.

(** ** What does not hold *)
(** The doubled quote of a quoted name is not undone: the name is that of no sheet (a name with a
    quote is always written this way). *)
Theorem C70_apostrophe_refuted m : parse_sheet_range (lit "'Bob''s'!A1") = Some (lit "Bob's", (mk false 0 0, mk false 0 0)) /\
  new_from_string m ascii_unicode (lit "'Bob''s'!A1") = Some {| g_sheet := lit "Bob''s"; g_fr := 0; g_fc := 0; g_lr := 0; g_lc := 0 |} /\
  new_from_string m ascii_unicode (lit "Bob's!A1") = Some {| g_sheet := lit "Bob's"; g_fr := 0; g_fc := 0; g_lr := 0; g_lc := 0 |}.
Proof. destruct m; vm_compute; split; [reflexivity|split; reflexivity|reflexivity|split; reflexivity]. Qed.
(** A name with an exclamation mark, which a sheet may have, cannot be given. *)
Theorem C70_bang_refuted m : parse_sheet_range (lit "'Go!'!A1") = Some (lit "Go!", (mk false 0 0, mk false 0 0)) /\ validate_sheetname (lit "Go!") = None /\
  new_from_string m ascii_unicode (lit "'Go!'!A1") = Some no_range.
Proof. destruct m; vm_compute; split; [reflexivity|split; reflexivity|reflexivity|split; reflexivity]. Qed.
(** Texts that denote no range give a range that will be accepted. *)
Theorem C70_not_a_range_refuted m :
  let one r c r' c' := Some {| g_sheet := lit "S"; g_fr := r; g_fc := c; g_lr := r'; g_lc := c' |} in
  let f := new_from_string m ascii_unicode in
  Forall (fun t => parse_sheet_range t = None) [lit "S!A1B2"; lit "S!A1:B2:C3"; lit "S!A0"; lit "S!A:B3"] /\
  f (lit "S!A1B2") = one 0 0 0 0 /\ f (lit "S!A1:B2:C3") = one 0 0 0 1 /\ f (lit "S!A0") = one 0 0 0 0 /\ f (lit "S!A:B3") = one 0 0 2 1 /\
  (** and a row beyond 32 bits is row 1 *)
  f (lit "S!A4294967297") = one 0 0 0 0.
Proof. destruct m; vm_compute; split; [repeat constructor| |repeat constructor|]; (split; [reflexivity|split; [reflexivity|split; [reflexivity|split; reflexivity]]]). Qed.
(** A lone quote before the range, or a column of four letters in a debug build, panics. *)
Theorem C70_panics_refuted : (forall m, new_from_string m ascii_unicode (lit "'!A1") = None) /\ new_from_string Debug ascii_unicode (lit "S!ZZZZ1") = None.
Proof. split; [intros []; reflexivity|vm_compute; reflexivity]. Qed.

(** A text meeting the hypotheses. *)
Example C70_meets : parse_sheet_range (lit "'My sheet'!$B$2:$D$10") = Some (lit "My sheet", (mk true 1 1, mk true 9 3)) /\
  new_from_string Debug ascii_unicode (lit "='My sheet'!$B$2:$D$10") = Some {| g_sheet := lit "My sheet"; g_fr := 1; g_fc := 1; g_lr := 9; g_lc := 3 |}.
Proof. vm_compute. split; reflexivity. Qed.
