(** Property theorems C01-C05 (A1 references and sheet names). *)
From Verif Require Import Base Ref_Model Ref_Spec Ref_Proofs Quote_Proofs.

(** C01: column names are a bijection.  In both build modes: every column below
    65535 has a non-empty A-Z name that converts back, and every A-Z name whose
    base-26 value fits in 16 bits is the name of the column it converts to. *)
Theorem C01_column_name_roundtrip : forall m c, c < 65535 ->
  exists name, column_number_to_name m c = Some name /\ name <> [] /\
    (forall x, In x name -> 65 <= x <= 90) /\ letters_value 0 name = c + 1 /\
    column_name_to_number m name = Some c.
Proof. exact column_roundtrip. Qed.
Print Assumptions C01_column_name_roundtrip.

Theorem C01_column_name_complete : forall m name, name <> [] ->
  (forall x, In x name -> 65 <= x <= 90) -> letters_value 0 name <= 65535 ->
  exists c, column_name_to_number m name = Some c /\ column_number_to_name m c = Some name.
Proof. exact column_name_complete. Qed.
Print Assumptions C01_column_name_complete.

Theorem C01_column_name_injective : forall m c d, c < 65535 -> d < 65535 ->
  column_number_to_name m c = column_number_to_name m d -> c = d.
Proof. exact column_name_injective. Qed.
Print Assumptions C01_column_name_injective.

Example C01_example : column_number_to_name Debug 16383 = Some (lit "XFD") /\
  column_name_to_number Debug (lit "XFD") = Some 16383 /\ letters_value 0 (lit "XFD") <= 65535.
Proof. vm_compute. repeat split; congruence. Qed.

(** Finding: the public function takes any u16; for 65535 the addition overflows
    (panic in debug, empty name in release). *)
Theorem C01_all_u16_refuted : exists c, c < 65536 /\
  column_number_to_name Debug c = None /\ column_number_to_name Release c = Some [].
Proof. exists 65535. vm_compute. auto. Qed.
Print Assumptions C01_all_u16_refuted.

(** C02: A1 references denote the cell they were made from. *)
Theorem C02_cell_reference_roundtrip : forall m row col, row < 2^32 - 1 -> col < 65535 ->
  exists s, row_col_to_cell m row col = Some s /\
    parse_a1 s = Some {| a1_row := row; a1_col := col; a1_absrow := false; a1_abscol := false |}.
Proof. exact cell_roundtrip. Qed.
Print Assumptions C02_cell_reference_roundtrip.

Theorem C02_absolute_reference_roundtrip : forall m row col, row < 2^32 - 1 -> col < 65535 ->
  exists s, row_col_to_cell_absolute m row col = Some s /\
    parse_a1 s = Some {| a1_row := row; a1_col := col; a1_absrow := true; a1_abscol := true |}.
Proof. exact cell_abs_roundtrip. Qed.
Print Assumptions C02_absolute_reference_roundtrip.

Theorem C02_reference_injective : forall m r c r' c' s,
  r < 2^32 - 1 -> c < 65535 -> r' < 2^32 - 1 -> c' < 65535 ->
  row_col_to_cell m r c = Some s -> row_col_to_cell m r' c' = Some s -> r = r' /\ c = c'.
Proof. exact (fun m => cell_text_inj false m). Qed.
Print Assumptions C02_reference_injective.

Example C02_example : row_col_to_cell Debug 1048575 16383 = Some (lit "XFD1048576") /\
  row_col_to_cell_absolute Release 0 26 = Some (lit "$AA$1").
Proof. vm_compute. auto. Qed.

(** C03: ranges.  The ':' form is used exactly when the corners differ. *)
Theorem C03_cell_range_roundtrip : forall m fr fc lr lc,
  fr < 2^32 - 1 -> fc < 65535 -> lr < 2^32 - 1 -> lc < 65535 ->
  exists s, cell_range m fr fc lr lc = Some s /\
    parse_range s = Some ({| a1_row := fr; a1_col := fc; a1_absrow := false; a1_abscol := false |},
                          {| a1_row := lr; a1_col := lc; a1_absrow := false; a1_abscol := false |}) /\
    (In 58 s <-> (fr, fc) <> (lr, lc)).
Proof. exact (range_text_parse false). Qed.
Print Assumptions C03_cell_range_roundtrip.

Theorem C03_cell_range_absolute_roundtrip : forall m fr fc lr lc,
  fr < 2^32 - 1 -> fc < 65535 -> lr < 2^32 - 1 -> lc < 65535 ->
  exists s, cell_range_absolute m fr fc lr lc = Some s /\
    parse_range s = Some ({| a1_row := fr; a1_col := fc; a1_absrow := true; a1_abscol := true |},
                          {| a1_row := lr; a1_col := lc; a1_absrow := true; a1_abscol := true |}) /\
    (In 58 s <-> (fr, fc) <> (lr, lc)).
Proof. exact (range_text_parse true). Qed.
Print Assumptions C03_cell_range_absolute_roundtrip.

(** Sheet-qualified ranges, for every sheet name whose quoting does not panic
    (see C05) and which does not itself start with an apostrophe (Excel and
    [set_name] forbid that). *)
Theorem C03_sheet_range_roundtrip : forall m u sheet q fr fc lr lc,
  unicode_ok u -> (forall r, sheet <> 39 :: r) ->
  fr < 2^32 - 1 -> fc < 65535 -> lr < 2^32 - 1 -> lc < 65535 ->
  quote_sheet_name m u sheet = Some q ->
  exists s, chart_range m u sheet fr fc lr lc = Some s /\
    parse_sheet_range s = Some (sheet,
      ({| a1_row := fr; a1_col := fc; a1_absrow := false; a1_abscol := false |},
       {| a1_row := lr; a1_col := lc; a1_absrow := false; a1_abscol := false |})).
Proof. exact (chart_range_parse false). Qed.
Print Assumptions C03_sheet_range_roundtrip.

Theorem C03_sheet_range_absolute_roundtrip : forall m u sheet q fr fc lr lc,
  unicode_ok u -> (forall r, sheet <> 39 :: r) ->
  fr < 2^32 - 1 -> fc < 65535 -> lr < 2^32 - 1 -> lc < 65535 ->
  quote_sheet_name m u sheet = Some q ->
  exists s, chart_range_abs m u sheet fr fc lr lc = Some s /\
    parse_sheet_range s = Some (sheet,
      ({| a1_row := fr; a1_col := fc; a1_absrow := true; a1_abscol := true |},
       {| a1_row := lr; a1_col := lc; a1_absrow := true; a1_abscol := true |})).
Proof. exact (chart_range_parse true). Qed.
Print Assumptions C03_sheet_range_absolute_roundtrip.

Example C03_example :
  chart_range_abs Debug ascii_unicode (lit "It's 100%") 0 0 9 2 = Some (lit "'It''s 100%'!$A$1:$C$10") /\
  parse_sheet_range (lit "'It''s 100%'!$A$1:$C$10") =
    Some (lit "It's 100%", ({| a1_row := 0; a1_col := 0; a1_absrow := true; a1_abscol := true |},
                            {| a1_row := 9; a1_col := 2; a1_absrow := true; a1_abscol := true |})) /\
  unicode_ok ascii_unicode.
Proof. split; [vm_compute; reflexivity|]. split; [vm_compute; reflexivity|exact ascii_unicode_ok]. Qed.

(** C04: sheet-name validation accepts exactly Excel's valid names and reports
    the first violated rule (blank, length, characters, apostrophe). *)
Theorem C04_sheetname_validation_exact : forall s,
  (validate_sheetname s = None <-> valid_sheetname s) /\
  (forall e, validate_sheetname s = Some e <-> first_violation s e).
Proof. exact validate_sheetname_exact. Qed.
Print Assumptions C04_sheetname_validation_exact.

Example C04_example : validate_sheetname (lit "Data 2024") = None /\
  validate_sheetname (lit "a/b") = Some SheetnameContainsInvalidCharacter /\
  validate_sheetname (lit "'x") = Some SheetnameStartsOrEndsWithApostrophe.
Proof. vm_compute. auto. Qed.

(** C05: quoting is reversible ... *)
Theorem C05_quote_unquote : forall m u s q, (forall r, s <> 39 :: r) ->
  quote_sheet_name m u s = Some q -> unquote_sheetname q = Some s.
Proof. exact quote_unquote. Qed.
Print Assumptions C05_quote_unquote.

(** ... a formula parser recovers the name ... *)
Theorem C05_quote_parses_back : forall m u s q rest, unicode_ok u -> (forall r, s <> 39 :: r) ->
  quote_sheet_name m u s = Some q -> parse_sheet (q ++ 33 :: rest) = Some (s, 33 :: rest).
Proof. exact parse_sheet_quoted. Qed.
Print Assumptions C05_quote_parses_back.

(** ... and a name is left bare only when it is unambiguous. *)
Theorem C05_bare_names_are_safe : forall m u s, unicode_ok u -> (forall r, s <> 39 :: r) ->
  quote_sheet_name m u s = Some s ->
  (forall c, In c s -> u_alnum u c = true \/ c = 95 \/ c = 46 \/ is_emoji c = true) /\
  (forall c r, s = c :: r -> is_ascii_digit c = false /\ c <> 46) /\
  ~ looks_like_a1 s /\ ~ looks_like_rc s.
Proof. exact bare_name_safe. Qed.
Print Assumptions C05_bare_names_are_safe.

Theorem C05_quote_total_release : forall u s, exists q, quote_sheet_name Release u s = Some q.
Proof. exact quote_total_release. Qed.
Print Assumptions C05_quote_total_release.

(** In a debug build quoting is total for names without a full stop ... *)
Theorem C05_quote_total_debug_partial : forall u s, unicode_ok u -> ~ In 46 s ->
  exists q, quote_sheet_name Debug u s = Some q.
Proof. exact quote_total_debug. Qed.
Print Assumptions C05_quote_total_debug_partial.

(** ... but not in general.  Finding: a valid sheet name such as "A.1" makes the
    u16 subtraction in column_name_to_number underflow. *)
Theorem C05_quote_total_debug_refuted : exists s, valid_sheetname s /\
  forall u, unicode_ok u -> quote_sheet_name Debug u s = None.
Proof.
  exists (lit "A.1"). split.
  - apply validate_sheetname_exact. vm_compute. reflexivity.
  - intros u (Ha & Hu & _). unfold quote_sheet_name, requires_quoting, split_cell_reference.
    change (split_at_digit (lit "A.1")) with (Some (lit "A.", lit "1")).
    cbn -[u_upper u_alnum]. rewrite !Ha, !Hu by reflexivity. reflexivity.
Qed.
Print Assumptions C05_quote_total_debug_refuted.

(** Finding: un-quoting a lone apostrophe panics (slice 1..0). *)
Theorem C05_unquote_total_refuted : unquote_sheetname [39] = None.
Proof. reflexivity. Qed.
Print Assumptions C05_unquote_total_refuted.

Example C05_example :
  quote_sheet_name Debug ascii_unicode (lit "Sheet1") = Some (lit "Sheet1") /\
  quote_sheet_name Debug ascii_unicode (lit "A1") = Some (lit "'A1'") /\
  quote_sheet_name Debug ascii_unicode (lit "r1c1") = Some (lit "'r1c1'") /\
  quote_sheet_name Debug ascii_unicode (lit "Bob's") = Some (lit "'Bob''s'") /\
  looks_like_a1 (lit "xfd1048576").
Proof.
  repeat (split; [vm_compute; reflexivity|]). exists (lit "xfd"), (lit "1048576").
  repeat split; vm_compute; congruence || lia.
Qed.
