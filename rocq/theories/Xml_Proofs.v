(** Proofs about XML escaping. *)
From Verif Require Import Base Xml_Model Xml_Spec.

Lemma escape_string_chars h s : escape_string h s = escape_chars h s.
Proof.
  unfold escape_string. induction s as [|c s IH]; cbn [split_first escape_chars]; [reflexivity|].
  destruct (h c) as [e|] eqn:E; cbn [is_some].
  - cbn [app escape_chars]. rewrite E. reflexivity.
  - destruct (split_first _ s) as [[a b]|]; cbn [app]; f_equal; exact IH.
Qed.

Lemma escape_chars_app h a b : escape_chars h (a ++ b) = escape_chars h a ++ escape_chars h b.
Proof.
  induction a as [|c a IH]; cbn [escape_chars app]; [reflexivity|].
  destruct (h c); rewrite IH; rewrite <- ?app_assoc; reflexivity.
Qed.

(** ** Character data *)

(** What the text reader should return: controls as their _xHHHH_ code. *)
Definition is_escaped_control (c : char) : bool := (c <? 32) && negb (c =? 9) && negb (c =? 10).
Definition control_code (c : char) : str := lit "_x00" ++ [hex_upper (c / 16); hex_upper (c mod 16)] ++ lit "_".
Definition ctl (s : str) : str := flat_map (fun c => if is_escaped_control c then control_code c else [c]) s.

Lemma xml_text_plain w s t : forallb (fun c => xml_char c && negb (c =? 38) && negb (c =? 60) && negb (c =? 13)) w = true ->
  xml_text None s = Some t -> xml_text None (w ++ s) = Some (w ++ t).
Proof.
  intros Hw Hs. induction w as [|c w IH]; cbn [app]; [assumption|].
  cbn [forallb] in Hw. apply andb_true_iff in Hw as [Hc Hw]. cbn [xml_text].
  rewrite (IH Hw). destruct (xml_char c), (c =? 38), (c =? 60), (c =? 13); cbn in Hc |- *; try discriminate. reflexivity.
Qed.

Lemma hex_upper_range d : d < 16 -> 48 <= hex_upper d <= 70.
Proof. intros H. unfold hex_upper. destruct (N.ltb_spec d 10); lia. Qed.

Lemma control_code_plain c : c < 32 ->
  forallb (fun c => xml_char c && negb (c =? 38) && negb (c =? 60) && negb (c =? 13)) (control_code c) = true.
Proof.
  intros Hc. unfold control_code.
  pose proof (hex_upper_range (c / 16) ltac:(lia)). pose proof (hex_upper_range (c mod 16) ltac:(lia)).
  assert (Hno : forall d, d < 16 -> hex_upper d <> 60).
  { intros d Hd. unfold hex_upper. destruct (N.ltb_spec d 10); lia. }
  pose proof (Hno (c / 16) ltac:(lia)). pose proof (Hno (c mod 16) ltac:(lia)).
  generalize dependent (hex_upper (c / 16)). generalize dependent (hex_upper (c mod 16)).
  intros b Hb Hb' a Ha Ha'. 
  change (lit "_x00" ++ [a; b] ++ lit "_") with [95; 120; 48; 48; a; b; 95].
  cbn [forallb].
  assert (forall z, 48 <= z <= 70 -> z <> 60 -> xml_char z && negb (z =? 38) && negb (z =? 60) && negb (z =? 13) = true) as Hz.
  { intros z Hz Hz'. unfold xml_char. lia. }
  rewrite (Hz a), (Hz b) by assumption. reflexivity.
Qed.

Lemma parse_escape_xml_data s : forallb (fun c => xml_char c || is_escaped_control c) s = true ->
  parse_text (escape_xml_data s) = Some (ctl s).
Proof.
  unfold escape_xml_data, parse_text. rewrite escape_string_chars.
  induction s as [|c s IH]; cbn [escape_chars ctl flat_map]; [reflexivity|].
  cbn [forallb]. intros H. apply andb_true_iff in H as [Hc Hs]. specialize (IH Hs).
  fold (ctl s). revert IH. generalize (escape_chars match_xml_char s) as w. intros w IH. unfold match_xml_char.
  destruct (N.eqb_spec c 38) as [->|]; [cbn; rewrite IH; reflexivity|].
  destruct (N.eqb_spec c 60) as [->|]; [cbn; rewrite IH; reflexivity|].
  destruct (N.eqb_spec c 62) as [->|]; [cbn; rewrite IH; reflexivity|].
  change ((c <? 32) && negb (c =? 9) && negb (c =? 10)) with (is_escaped_control c).
  destruct (is_escaped_control c) eqn:Ec.
  - fold (control_code c). apply xml_text_plain; [|assumption].
    apply control_code_plain. unfold is_escaped_control in Ec. lia.
  - rewrite orb_false_r in Hc. cbn [app xml_text]. rewrite Hc. cbn [negb].
    rewrite (proj2 (N.eqb_neq c 38)), (proj2 (N.eqb_neq c 60)) by assumption. rewrite IH.
    destruct (N.eqb_spec c 13) as [->|]; [discriminate|reflexivity].
Qed.

(** Raw markup never appears. *)
Definition no_raw_markup (s : str) : Prop :=
  ~ In 60 s /\ ~ In 62 s /\
  (forall a b, s = a ++ 38 :: b ->
     exists r, b = lit "amp;" ++ r \/ b = lit "lt;" ++ r \/ b = lit "gt;" ++ r).

Lemma in_control_code x c : c < 32 -> In x (control_code c) -> x <> 60 /\ x <> 62 /\ x <> 38.
Proof.
  intros Hc Hx. unfold control_code in Hx.
  change (lit "_x00" ++ [hex_upper (c / 16); hex_upper (c mod 16)] ++ lit "_")
    with [95; 120; 48; 48; hex_upper (c / 16); hex_upper (c mod 16); 95] in Hx.
  assert (Hno : forall d, d < 16 -> hex_upper d <> 60 /\ hex_upper d <> 62 /\ hex_upper d <> 38).
  { intros d Hd. unfold hex_upper. destruct (N.ltb_spec d 10); lia. }
  pose proof (Hno (c / 16) ltac:(lia)). pose proof (Hno (c mod 16) ltac:(lia)).
  cbn [In] in Hx. repeat (destruct Hx as [<-|Hx]; [first [assumption|lia]|]). destruct Hx.
Qed.

Lemma app_split_elem {A} (a b c d : list A) x : a ++ b = c ++ x :: d ->
  (exists e, a = c ++ x :: e /\ d = e ++ b) \/ (exists e, c = a ++ e /\ b = e ++ x :: d).
Proof.
  revert c; induction a as [|y a IH]; intros c E; cbn [app] in E.
  - right. exists c. auto.
  - destruct c as [|z c]; cbn [app] in E; injection E as <- E.
    + left. exists a. auto.
    + apply IH in E as [(e & -> & ->)|(e & -> & ->)]; [left; exists e; auto|right; exists e; auto].
Qed.

Lemma escape_no_markup s : no_raw_markup (escape_xml_data s).
Proof.
  unfold escape_xml_data. rewrite escape_string_chars.
  induction s as [|c s IH]; cbn [escape_chars].
  { split; [intros []|split; [intros []|]]. intros a b E; destruct a; discriminate. }
  destruct IH as (I1 & I2 & I3).
  assert (Happ : forall w, (forall x, In x w -> x <> 60 /\ x <> 62) ->
     (forall a b, w = a ++ 38 :: b -> a = [] /\ (b = lit "amp;" \/ b = lit "lt;" \/ b = lit "gt;")) ->
     no_raw_markup (w ++ escape_chars match_xml_char s)).
  { intros w Hw1 Hw2. split; [|split].
    - rewrite in_app_iff. intros [H|H]; [apply Hw1 in H; tauto|tauto].
    - rewrite in_app_iff. intros [H|H]; [apply Hw1 in H; tauto|tauto].
    - intros a b E. symmetry in E. symmetry in E. apply app_split_elem in E as [(e & E1 & E2)|(e & E1 & E2)].
      + apply Hw2 in E1 as [-> E1]. exists (escape_chars match_xml_char s).
        subst b. destruct E1 as [->|[->| ->]]; auto.
      + apply I3 in E2. exact E2. }
  assert (Hlit : forall w, In w [lit "&amp;"; lit "&lt;"; lit "&gt;"] -> no_raw_markup (w ++ escape_chars match_xml_char s)).
  { intros w Hw. apply Happ.
    - cbn [In] in Hw. intros x Hx. destruct Hw as [<-|[<-|[<-|[]]]]; cbn in Hx; intuition lia.
    - intros a b E. cbn [In] in Hw. destruct Hw as [<-|[<-|[<-|[]]]]; cbn in E;
        (destruct a as [|a1 a]; [injection E as <-; auto|]);
        injection E as <- E; exfalso;
        repeat (destruct a as [|? a]; [discriminate|injection E as <- E]); destruct a; discriminate. }
  clear I1 I2 I3. revert Happ Hlit. generalize (escape_chars match_xml_char s) as W. intros W Happ Hlit.
  unfold match_xml_char.
  destruct (N.eqb_spec c 38) as [->|H38]; [apply Hlit; cbn; auto|].
  destruct (N.eqb_spec c 60) as [->|H60]; [apply Hlit; cbn; auto|].
  destruct (N.eqb_spec c 62) as [->|H62]; [apply Hlit; cbn; auto|].
  destruct (_ && _ && _) eqn:Ec.
  - fold (control_code c). assert (Hc : c < 32) by lia. apply Happ.
    + intros x Hx. apply in_control_code in Hx; tauto.
    + intros a b E. exfalso. assert (In 38 (control_code c)) by (rewrite E; apply in_elt).
      apply in_control_code in H; tauto.
  - change (c :: W) with ([c] ++ W). apply Happ.
    + intros x [<-|[]]. auto.
    + intros a b E. exfalso. destruct a as [|a1 a]; [injection E as E; congruence|]. destruct a; discriminate.
Qed.

(** ** escape_xml_escapes *)

(** Structural characterisation: insert "_x005F" in front of every "_xHHHH" that
    is followed by at least one more character. *)
Definition trigger (t : str) : bool :=
  match t with
  | u :: x :: a :: b :: c :: d :: _ :: _ =>
      (u =? 95) && (x =? 120) && forallb is_ascii_hexdigit [a; b; c; d]
  | _ => false
  end.
Fixpoint esc (s : str) : str :=
  match s with
  | [] => []
  | c :: r => (if trigger s then lit "_x005F" else []) ++ c :: esc r
  end.

Lemma utf8_len_pos c : 1 <= utf8_len c.
Proof. unfold utf8_len. destruct (N.ltb_spec c 0x80), (N.ltb_spec c 0x800), (N.ltb_spec c 0x10000); lia. Qed.

Lemma byte_len_app a b : byte_len (a ++ b) = byte_len a + byte_len b.
Proof. induction a as [|c a IH]; cbn [app byte_len]; lia. Qed.

Lemma split_at_byte_app n a b : split_at_byte (byte_len a + n) (a ++ b) =
  match split_at_byte n b with Some (x, y) => Some (a ++ x, y) | None => None end.
Proof.
  induction a as [|c a IH]; cbn [byte_len app].
  - rewrite N.add_0_l. destruct (split_at_byte n b) as [[x y]|]; reflexivity.
  - cbn [split_at_byte]. pose proof (utf8_len_pos c).
    destruct (N.eqb_spec (utf8_len c + byte_len a + n) 0); [lia|].
    destruct (N.ltb_spec (utf8_len c + byte_len a + n) (utf8_len c)); [lia|].
    replace (utf8_len c + byte_len a + n - utf8_len c) with (byte_len a + n) by lia.
    rewrite IH. destruct (split_at_byte n b) as [[x y]|]; reflexivity.
Qed.

Lemma split_at_byte_0 s : split_at_byte 0 s = Some ([], s).
Proof. destruct s; reflexivity. Qed.

Lemma split_at_byte_ascii c n s : is_ascii c = true -> n <> 0 ->
  split_at_byte n (c :: s) = match split_at_byte (n - 1) s with Some (a, b) => Some (c :: a, b) | None => None end.
Proof.
  intros Hc Hn. cbn [split_at_byte]. unfold is_ascii in Hc. unfold utf8_len. rewrite Hc.
  destruct (N.eqb_spec n 0); [congruence|]. destruct (N.ltb_spec n 1); [lia|]. reflexivity.
Qed.

Lemma hexdigit_ascii c : is_ascii_hexdigit c = true -> is_ascii c = true.
Proof. unfold is_ascii_hexdigit, is_ascii_digit, is_ascii. lia. Qed.

Lemma split_at_byte_some n s a b : split_at_byte n s = Some (a, b) -> s = a ++ b /\ byte_len a = n.
Proof.
  revert n a b; induction s as [|c s IH]; intros n a b; cbn [split_at_byte].
  - destruct (N.eqb_spec n 0) as [->|]; [|discriminate]. intros E; injection E as <- <-. auto.
  - destruct (N.eqb_spec n 0) as [->|]; [intros E; injection E as <- <-; auto|].
    destruct (N.ltb_spec n (utf8_len c)) as [|Hge]; [discriminate|].
    destruct (split_at_byte (n - utf8_len c) s) as [[x y]|] eqn:E1; [|discriminate].
    intros E; injection E as <- <-. apply IH in E1 as [-> Hx]. split; [reflexivity|]. cbn [byte_len]. lia.
Qed.

Lemma escape_step_spec pre t e :
  escape_step (pre ++ 95 :: 120 :: t) (Some (pre ++ e)) (byte_len pre) =
  Some (pre ++ (if trigger (95 :: 120 :: t) then lit "_x005F" else []) ++ e).
Proof.
  unfold escape_step. cbn [obind].
  set (T := 95 :: 120 :: t).
  assert (Hins : insert_at_byte (byte_len pre) (lit "_x005F") (pre ++ e) = Some (pre ++ lit "_x005F" ++ e)).
  { unfold insert_at_byte. rewrite <- (N.add_0_r (byte_len pre)), split_at_byte_app, split_at_byte_0.
    rewrite app_nil_r. reflexivity. }
  assert (Hb : byte_len (pre ++ T) = byte_len pre + byte_len T) by apply byte_len_app.
  assert (Hbnd : is_char_boundary (byte_len pre + 6) (pre ++ T) = is_some (split_at_byte 4 t)).
  { unfold is_char_boundary. rewrite split_at_byte_app. unfold T.
    rewrite (split_at_byte_ascii 95 6) by (reflexivity || discriminate).
    change (6 - 1) with 5. rewrite (split_at_byte_ascii 120 5) by (reflexivity || discriminate).
    change (5 - 1) with 4. destruct (split_at_byte 4 t) as [[x y]|]; reflexivity. }
  assert (Hsl : byte_slice (byte_len pre + 2) (byte_len pre + 6) (pre ++ T) =
    match split_at_byte 4 t with Some (x, _) => Some x | None => None end).
  { unfold byte_slice. rewrite split_at_byte_app. unfold T.
    rewrite (split_at_byte_ascii 95 2) by (reflexivity || discriminate).
    change (2 - 1) with 1. rewrite (split_at_byte_ascii 120 1) by (reflexivity || discriminate).
    change (1 - 1) with 0. rewrite split_at_byte_0.
    replace (byte_len pre + 6 - (byte_len pre + 2)) with 4 by lia. reflexivity. }
  rewrite Hb, Hbnd, Hsl.
  assert (HbT : byte_len T = 2 + byte_len t) by (unfold T; cbn [byte_len]; change (utf8_len 95) with 1; change (utf8_len 120) with 1; lia).
  destruct (N.ltb_spec (byte_len pre + byte_len T) (byte_len pre + 7)) as [Hlt|Hge].
  - (* too short: trigger is false *)
    assert (Ht : trigger T = false).
    { unfold trigger, T. destruct t as [|a [|b [|c [|d [|v r]]]]]; try reflexivity.
      exfalso. rewrite HbT in Hlt. cbn [byte_len] in Hlt.
      pose proof (utf8_len_pos a). pose proof (utf8_len_pos b). pose proof (utf8_len_pos c). pose proof (utf8_len_pos d).
      pose proof (utf8_len_pos v). lia. }
    rewrite Ht. reflexivity.
  - destruct (split_at_byte 4 t) as [[x y]|] eqn:E4; cbn [is_some negb].
    + apply split_at_byte_some in E4 as [-> Hx]. cbn [obind].
      destruct (forallb is_ascii_hexdigit x) eqn:Hhex.
      * rewrite Hins.
        assert (Hall : forall z, byte_len z = 4 -> forallb is_ascii_hexdigit z = true ->
            exists a b c d, z = [a; b; c; d]).
        { intros z Hz Hh. assert (Hlen : byte_len z = N.of_nat (length z)).
          { clear Hz. induction z as [|c z IH]; cbn [forallb byte_len length] in *; [reflexivity|].
            apply andb_true_iff in Hh as [Hc Hh]. apply hexdigit_ascii in Hc. rewrite IH by assumption.
            unfold utf8_len, is_ascii in *. rewrite Hc. lia. }
          destruct z as [|a [|b [|c [|d [|v r]]]]]; cbn [length] in Hlen; try lia. eauto. }
        destruct (Hall x Hx Hhex) as (a & b & c & d & ->).
        destruct y as [|v r].
        -- exfalso. rewrite HbT, app_nil_r, Hx in Hge. lia.
        -- unfold T, trigger. cbn [app]. rewrite Hhex. reflexivity.
      * assert (Ht : trigger T = false).
        { unfold trigger, T. destruct (x ++ y) as [|a [|b [|c [|d [|v r]]]]] eqn:Exy; try reflexivity.
          rewrite !N.eqb_refl. cbn [andb]. destruct (forallb is_ascii_hexdigit [a; b; c; d]) eqn:Hh; [|reflexivity].
          exfalso.
          assert (x = [a; b; c; d]) as ->; [|congruence].
          cbn [forallb] in Hh. rewrite andb_true_r in Hh.
          apply andb_true_iff in Hh as [Ha Hh]. apply andb_true_iff in Hh as [Hb' Hh]. apply andb_true_iff in Hh as [Hc Hd].
          apply hexdigit_ascii in Ha, Hb', Hc, Hd.
          assert (Hu : forall z, is_ascii z = true -> utf8_len z = 1) by (intros z Hz; unfold utf8_len, is_ascii in *; rewrite Hz; reflexivity).
          destruct x as [|x1 [|x2 [|x3 [|x4 [|x5 x]]]]]; cbn [app] in Exy; cbn [byte_len] in Hx; try lia.
          - injection Exy as -> _. rewrite Hu in Hx by assumption. lia.
          - injection Exy as -> -> _. rewrite !Hu in Hx by assumption. lia.
          - injection Exy as -> -> -> _. rewrite !Hu in Hx by assumption. lia.
          - injection Exy as -> -> -> -> _. reflexivity.
          - injection Exy as -> -> -> -> -> _. pose proof (utf8_len_pos v). rewrite (Hu a), (Hu b), (Hu c), (Hu d) in Hx by assumption. lia. }
        rewrite Ht. reflexivity.
    + assert (Ht : trigger T = false).
      { unfold trigger, T. destruct t as [|a [|b [|c [|d [|v r]]]]]; try reflexivity.
        rewrite !N.eqb_refl. cbn [andb]. destruct (forallb is_ascii_hexdigit [a; b; c; d]) eqn:Hh; [|reflexivity].
        exfalso. cbn [forallb] in Hh. rewrite andb_true_r in Hh.
        apply andb_true_iff in Hh as [Ha Hh]. apply andb_true_iff in Hh as [Hb' Hh]. apply andb_true_iff in Hh as [Hc Hd].
        apply hexdigit_ascii in Ha, Hb', Hc, Hd.
        rewrite (split_at_byte_ascii a 4) in E4 by (assumption || discriminate). change (4 - 1) with 3 in E4.
        rewrite (split_at_byte_ascii b 3) in E4 by (assumption || discriminate). change (3 - 1) with 2 in E4.
        rewrite (split_at_byte_ascii c 2) in E4 by (assumption || discriminate). change (2 - 1) with 1 in E4.
        rewrite (split_at_byte_ascii d 1) in E4 by (assumption || discriminate). change (1 - 1) with 0 in E4.
        rewrite split_at_byte_0 in E4. discriminate. }
      rewrite Ht. reflexivity.
Qed.

Lemma match_indices_fold original pre t : original = pre ++ t ->
  fold_right (fun i e => escape_step original e i) (Some original) (match_indices 95 120 (byte_len pre) t)
  = Some (pre ++ esc t).
Proof.
  revert pre; induction t as [|c t IH]; intros pre E; cbn [match_indices].
  - cbn [fold_right esc]. congruence.
  - rewrite fold_right_app.
    assert (E' : original = (pre ++ [c]) ++ t) by (rewrite <- app_assoc; exact E).
    specialize (IH (pre ++ [c]) E'). rewrite byte_len_app in IH. cbn [byte_len] in IH. rewrite N.add_0_r in IH.
    rewrite IH.
    destruct (N.eqb_spec c 95) as [->|Hc]; cbn [andb].
    + destruct t as [|x t].
      { cbn [starts_with fold_right]. cbn [esc trigger app]. rewrite <- app_assoc. reflexivity. }
      cbn [starts_with]. destruct (N.eqb_spec 120 x) as [<-|Hx]; cbn [andb fold_right].
      * rewrite E. rewrite <- app_assoc. rewrite escape_step_spec. reflexivity.
      * cbn [esc]. assert (Ht : trigger (95 :: x :: t) = false).
        { unfold trigger. destruct t as [|? [|? [|? [|? [|? ?]]]]]; try reflexivity.
          rewrite (proj2 (N.eqb_neq x 120)) by congruence. reflexivity. }
        rewrite Ht. rewrite <- app_assoc. reflexivity.
    + cbn [fold_right]. cbn [esc]. assert (Ht : trigger (c :: t) = false).
      { unfold trigger. destruct t as [|? [|? [|? [|? [|? [|? ?]]]]]]; try reflexivity.
        rewrite (proj2 (N.eqb_neq c 95)) by congruence. reflexivity. }
      rewrite Ht. rewrite <- app_assoc. reflexivity.
Qed.

Lemma esc_no_match s : str_contains (lit "_x") s = false -> esc s = s.
Proof.
  induction s as [|c s IH]; [reflexivity|]. cbn [str_contains]. intros H.
  apply orb_false_iff in H as [Hs H]. cbn [esc]. rewrite IH by assumption.
  assert (Ht : trigger (c :: s) = false).
  { unfold trigger. destruct s as [|? [|? [|? [|? [|? [|? ?]]]]]]; try reflexivity.
    cbn in Hs. destruct (N.eqb_spec 95 c) as [<-|]; cbn [andb] in *.
    - destruct (N.eqb_spec 120 n) as [<-|]; [discriminate|]. rewrite (proj2 (N.eqb_neq n 120)) by congruence. reflexivity.
    - rewrite (proj2 (N.eqb_neq c 95)) by congruence. reflexivity. }
  rewrite Ht. reflexivity.
Qed.

Lemma escape_xml_escapes_esc s : escape_xml_escapes s = Some (esc s).
Proof.
  unfold escape_xml_escapes. destruct (str_contains (lit "_x") s) eqn:E; cbn [negb].
  - pose proof (match_indices_fold s [] s eq_refl) as H. cbn [app byte_len] in H. rewrite <- H.
    rewrite <- fold_left_rev_right, rev_involutive. reflexivity.
  - rewrite esc_no_match by assumption. reflexivity.
Qed.

(** ** Decoding recovers the string *)

Lemma hex_value_upper d : d < 16 -> hex_value (hex_upper d) = Some d.
Proof.
  intros H. unfold hex_upper, hex_value, is_ascii_digit.
  destruct (N.ltb_spec d 10).
  - replace ((48 <=? 48 + d) && (48 + d <=? 57)) with true by (symmetry; lia). f_equal; lia.
  - replace ((48 <=? 55 + d) && (55 + d <=? 57)) with false by (symmetry; lia).
    replace ((65 <=? 55 + d) && (55 + d <=? 70)) with true by (symmetry; lia). f_equal; lia.
Qed.

Lemma excel_decode_step a b c d n r : hex_number 0 [a; b; c; d] = Some n ->
  excel_decode (95 :: 120 :: a :: b :: c :: d :: 95 :: r) = n :: excel_decode r.
Proof.
  intros H.
  transitivity (match hex_number 0 [a; b; c; d] with
    | Some n => n :: excel_decode r | None => 95 :: excel_decode (120 :: a :: b :: c :: d :: 95 :: r) end);
    [reflexivity|rewrite H; reflexivity].
Qed.

Lemma excel_decode_code c r : c < 32 -> excel_decode (control_code c ++ r) = c :: excel_decode r.
Proof.
  intros Hc. unfold control_code.
  change ((lit "_x00" ++ [hex_upper (c / 16); hex_upper (c mod 16)] ++ lit "_") ++ r)
    with (95 :: 120 :: 48 :: 48 :: hex_upper (c / 16) :: hex_upper (c mod 16) :: 95 :: r).
  apply excel_decode_step. cbn [hex_number]. change (hex_value 48) with (Some 0). cbn iota beta.
  rewrite hex_value_upper by lia. rewrite hex_value_upper by lia. f_equal. lia.
Qed.

Lemma excel_decode_cons_not u s1 : u <> 95 -> excel_decode (u :: s1) = u :: excel_decode s1.
Proof.
  intros Hu. cbn [excel_decode]. destruct s1 as [|x [|a [|b [|c [|d [|v r]]]]]]; try reflexivity.
  destruct (hex_number 0 [a; b; c; d]); [|reflexivity].
  rewrite (proj2 (N.eqb_neq u 95)) by assumption. reflexivity.
Qed.

Lemma hex_number_hexdigit acc s n : hex_number acc s = Some n -> forallb is_ascii_hexdigit s = true.
Proof.
  revert acc; induction s as [|c s IH]; intros acc; cbn [hex_number forallb]; [reflexivity|].
  unfold hex_value at 1. intros H. apply andb_true_iff. split.
  - unfold is_ascii_hexdigit. destruct (is_ascii_digit c); [reflexivity|].
    destruct ((65 <=? c) && (c <=? 70)); [reflexivity|]. destruct ((97 <=? c) && (c <=? 102)); [reflexivity|discriminate].
  - destruct (is_ascii_digit c); [eapply IH; eassumption|].
    destruct ((65 <=? c) && (c <=? 70)); [eapply IH; eassumption|].
    destruct ((97 <=? c) && (c <=? 102)); [eapply IH; eassumption|discriminate].
Qed.

(** A character other than '_' at the front of the escaped text is a literal
    character of the source. *)
Lemma ctl_esc_head r y w : ctl (esc r) = y :: w -> y <> 95 ->
  exists r', r = y :: r' /\ w = ctl (esc r').
Proof.
  destruct r as [|c r]; cbn [esc]; [discriminate|]. intros E Hy.
  destruct (trigger (c :: r)).
  - cbn in E. injection E as <- _. congruence.
  - cbn [app ctl flat_map] in E. fold (ctl (esc r)) in E.
    destruct (is_escaped_control c); cbn in E.
    + injection E as <- _. congruence.
    + injection E as <- <-. eauto.
Qed.

Lemma ctl_app a b : ctl (a ++ b) = ctl a ++ ctl b.
Proof. apply flat_map_app. Qed.

Lemma excel_decode_underscore w : excel_decode (ctl (lit "_x005F") ++ 95 :: w) = 95 :: excel_decode w.
Proof. reflexivity. Qed.

Lemma excel_decode_ctl_esc s : excel_decode (ctl (esc s)) = s.
Proof.
  induction s as [|c s IH]; [reflexivity|]. cbn [esc].
  destruct (trigger (c :: s)) eqn:Ht.
  - assert (c = 95) as ->.
    { unfold trigger in Ht. destruct s as [|? [|? [|? [|? [|? [|? ?]]]]]]; try discriminate.
      destruct (N.eqb_spec c 95); [assumption|discriminate]. }
    rewrite ctl_app. change (ctl (95 :: esc s)) with (95 :: ctl (esc s)).
    rewrite excel_decode_underscore, IH. reflexivity.
  - cbn [app ctl flat_map]. fold (ctl (esc s)). destruct (is_escaped_control c) eqn:Ec.
    + rewrite excel_decode_code by (unfold is_escaped_control in Ec; lia). f_equal; exact IH.
    + cbn [app]. destruct (N.eqb_spec c 95) as [->|Hc].
      2:{ rewrite excel_decode_cons_not by assumption. f_equal; exact IH. }
      cbn [excel_decode]. 
      destruct (ctl (esc s)) as [|x [|a [|b [|c [|d [|v r]]]]]] eqn:Ew; try (rewrite IH; reflexivity).
      destruct (hex_number 0 [a; b; c; d]) as [n|] eqn:Eh; [|rewrite IH; reflexivity].
      destruct (N.eqb_spec x 120) as [->|]; cbn [andb]; [|rewrite IH; reflexivity].
      destruct (N.eqb_spec v 95) as [->|]; cbn [andb]; [|rewrite IH; reflexivity].
      exfalso. apply hex_number_hexdigit in Eh.
      assert (Hne : forall z, is_ascii_hexdigit z = true -> z <> 95).
      { intros z Hz ->. discriminate. }
      pose proof Eh as Eh0. cbn [forallb] in Eh. rewrite andb_true_r in Eh.
      apply andb_true_iff in Eh as [Ha Eh]. apply andb_true_iff in Eh as [Hb Eh]. apply andb_true_iff in Eh as [Hc Hd].
      apply ctl_esc_head in Ew as (s1 & -> & Ew); [|discriminate]. symmetry in Ew.
      apply ctl_esc_head in Ew as (s2 & -> & Ew); [|auto]. symmetry in Ew.
      apply ctl_esc_head in Ew as (s3 & -> & Ew); [|auto]. symmetry in Ew.
      apply ctl_esc_head in Ew as (s4 & -> & Ew); [|auto]. symmetry in Ew.
      apply ctl_esc_head in Ew as (s5 & -> & Ew); [|auto].
      destruct s5 as [|z s5]; [discriminate|].
      unfold trigger in Ht. rewrite Eh0 in Ht. discriminate.
Qed.

(** ** String items *)

Lemma esc_chars s p : (forall c, In c (lit "_x005F") -> p c = true) -> forallb p s = true -> forallb p (esc s) = true.
Proof.
  intros Hp. induction s as [|c s IH]; [reflexivity|]. cbn [forallb esc]. intros H.
  apply andb_true_iff in H as [Hc H]. rewrite forallb_app. cbn [forallb]. rewrite Hc, IH by assumption.
  destruct (trigger (c :: s)); [|reflexivity]. rewrite andb_true_r. apply forallb_forall. assumption.
Qed.

Definition writable (c : char) : bool := is_scalar c && negb (c =? 0xFFFE) && negb (c =? 0xFFFF).

Lemma writable_cases c : writable c = true -> xml_char c || is_escaped_control c = true.
Proof. unfold writable, is_scalar, xml_char, is_escaped_control. lia. Qed.

Lemma si_body s : forallb writable s = true ->
  exists body, escape_xml_escapes s = Some body /\ no_raw_markup (escape_xml_data body) /\
    option_map excel_decode (parse_text (escape_xml_data body)) = Some s.
Proof.
  intros Hs. exists (esc s). split; [apply escape_xml_escapes_esc|]. split; [apply escape_no_markup|].
  rewrite parse_escape_xml_data.
  - cbn [option_map]. rewrite excel_decode_ctl_esc. reflexivity.
  - apply esc_chars.
    + intros c Hc. cbn in Hc. repeat (destruct Hc as [<-|Hc]; [reflexivity|]). destruct Hc.
    + apply forallb_forall. intros c Hc. apply writable_cases. rewrite forallb_forall in Hs. auto.
Qed.

Definition looks_rich (s : str) : bool := starts_with (lit "<r>") s && ends_with (lit "</r>") s.

Lemma string_item_roundtrip s : forallb writable s = true -> looks_rich s = false ->
  exists open body, write_si s = Some (open ++ body ++ lit "</t></si>") /\
    no_raw_markup body /\
    option_map excel_decode (parse_text body) = Some s /\
    (open = lit "<si><t>" \/ open = lit "<si><t xml:space=""preserve"">") /\
    ((exists c r, In c [9; 10; 32] /\ (s = c :: r \/ s = r ++ [c])) <-> open = lit "<si><t xml:space=""preserve"">").
Proof.
  intros Hs Hr. destruct (si_body s Hs) as (e & E & Hm & Hd).
  unfold write_si. unfold looks_rich in Hr. rewrite Hr. unfold xml_si_element. rewrite E. cbn [obind].
  eexists. eexists. split; [reflexivity|]. split; [exact Hm|]. split; [exact Hd|].
  set (p := _ || _).
  assert (Hp : p = true <-> exists c r, In c [9; 10; 32] /\ (s = c :: r \/ s = r ++ [c])).
  { unfold p. assert (Hws : forall c, is_ws_edge c = true <-> In c [9; 10; 32]).
    { intros c. unfold is_ws_edge. cbn [In]. lia. }
    rewrite orb_true_iff. split.
    - intros [H|H].
      + destruct s as [|c r]; [discriminate|]. exists c, r. split; [apply Hws; assumption|auto].
      + destruct s as [|c r _] using rev_ind; [discriminate|]. rewrite rev_app_distr in H. cbn [rev app] in H.
        exists c, r. split; [apply Hws; assumption|auto].
    - intros (c & r & Hc & [->| ->]).
      + left. apply Hws; assumption.
      + right. rewrite rev_app_distr. cbn [rev app]. apply Hws; assumption. }
  rewrite <- Hp. destruct p; split; auto; split; auto; discriminate.
Qed.

(** ** Attributes *)

Lemma parse_escape_attributes s : forallb (fun c => xml_char c && negb (c =? 9) && negb (c =? 13)) s = true ->
  parse_attr (escape_attributes s) = Some s.
Proof.
  unfold escape_attributes, parse_attr. rewrite escape_string_chars.
  induction s as [|c s IH]; cbn [escape_chars]; [reflexivity|].
  cbn [forallb]. intros H. apply andb_true_iff in H as [Hc Hs]. specialize (IH Hs).
  revert IH. generalize (escape_chars match_attribute_html_char s) as w. intros w IH.
  unfold match_attribute_html_char.
  destruct (N.eqb_spec c 38) as [->|]; [cbn; rewrite IH; reflexivity|].
  destruct (N.eqb_spec c 34) as [->|]; [cbn; rewrite IH; reflexivity|].
  destruct (N.eqb_spec c 60) as [->|]; [cbn; rewrite IH; reflexivity|].
  destruct (N.eqb_spec c 62) as [->|]; [cbn; rewrite IH; reflexivity|].
  destruct (N.eqb_spec c 10) as [->|]; [cbn; rewrite IH; reflexivity|].
  cbn [xml_attr]. rewrite IH.
  apply andb_true_iff in Hc as [Hc H13]. apply andb_true_iff in Hc as [Hc H9]. rewrite Hc.
  apply negb_true_iff in H13, H9. rewrite H13, H9.
  rewrite (proj2 (N.eqb_neq c 38)), (proj2 (N.eqb_neq c 60)), (proj2 (N.eqb_neq c 34)), (proj2 (N.eqb_neq c 10)) by assumption.
  reflexivity.
Qed.

Lemma escape_attributes_delimited s x : In x (escape_attributes s) -> x <> 34 /\ x <> 60 /\ x <> 62.
Proof.
  unfold escape_attributes. rewrite escape_string_chars.
  induction s as [|c s IH]; cbn [escape_chars]; [intros []|].
  unfold match_attribute_html_char.
  destruct (N.eqb_spec c 38) as [->|]; [rewrite in_app_iff; intros [H|H]; [cbn in H; intuition lia|auto]|].
  destruct (N.eqb_spec c 34) as [->|]; [rewrite in_app_iff; intros [H|H]; [cbn in H; intuition lia|auto]|].
  destruct (N.eqb_spec c 60) as [->|]; [rewrite in_app_iff; intros [H|H]; [cbn in H; intuition lia|auto]|].
  destruct (N.eqb_spec c 62) as [->|]; [rewrite in_app_iff; intros [H|H]; [cbn in H; intuition lia|auto]|].
  destruct (N.eqb_spec c 10) as [->|]; [rewrite in_app_iff; intros [H|H]; [cbn in H; intuition lia|auto]|].
  intros [<-|H]; auto.
Qed.

(** ** URL escaping *)
Lemma percent_decode_cons_not p s1 : p <> 37 -> percent_decode (p :: s1) = p :: percent_decode s1.
Proof.
  intros Hp. cbn [percent_decode]. destruct s1 as [|a [|b r]]; try reflexivity.
  destruct (hex_number 0 [a; b]); [|reflexivity]. rewrite (proj2 (N.eqb_neq p 37)) by assumption. reflexivity.
Qed.

Lemma percent_decode_escape_url s : percent_decode (escape_url s) = s.
Proof.
  unfold escape_url. rewrite escape_string_chars. induction s as [|c s IH]; cbn [escape_chars]; [reflexivity|].
  revert IH. generalize (escape_chars match_url_char s) as w. intros w IH.
  unfold match_url_char.
  repeat match goal with |- context [if ?c =? ?k then _ else _] =>
    destruct (N.eqb_spec c k) as [->|?]; [cbn [lit list_ascii_of_string map app]; cbn; rewrite IH; reflexivity|] end.
  rewrite percent_decode_cons_not by assumption. rewrite IH. reflexivity.
Qed.

Lemma ends_with_true p s : ends_with p s = true <-> exists r, s = r ++ p.
Proof.
  unfold ends_with. rewrite starts_with_true. split.
  - intros [r E]. exists (rev r). rewrite <- (rev_involutive s), E, rev_app_distr, rev_involutive. reflexivity.
  - intros [r ->]. exists (rev r). apply rev_app_distr.
Qed.

Lemma string_item_roundtrip_spec s :
  (forall c, In c s -> is_scalar c = true /\ c <> 0xFFFE /\ c <> 0xFFFF) ->
  ~ ((exists r, s = lit "<r>" ++ r) /\ (exists r, s = r ++ lit "</r>")) ->
  exists open body, write_si s = Some (open ++ body ++ lit "</t></si>") /\
    ~ In 60 body /\
    option_map excel_decode (parse_text body) = Some s /\
    (open = lit "<si><t>" \/ open = lit "<si><t xml:space=""preserve"">") /\
    ((exists c r, In c [9; 10; 32] /\ (s = c :: r \/ s = r ++ [c])) <->
     open = lit "<si><t xml:space=""preserve"">").
Proof.
  intros Hs Hr. destruct (string_item_roundtrip s) as (o & b & H1 & (H2 & _) & H3).
  - apply forallb_forall. intros c Hc. apply Hs in Hc. unfold writable. destruct Hc as (-> & H1 & H2). rewrite (proj2 (N.eqb_neq c 0xFFFE) H1), (proj2 (N.eqb_neq c 0xFFFF) H2). reflexivity.
  - unfold looks_rich. destruct (starts_with _ s) eqn:E1; [|reflexivity].
    destruct (ends_with _ s) eqn:E2; [|reflexivity]. exfalso. apply Hr.
    split; [apply starts_with_true; assumption|apply ends_with_true; assumption].
  - exists o, b. tauto.
Qed.
