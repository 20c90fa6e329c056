(** Property theorems C29, C30, C46 (sheet names, active sheet, defined names). *)
From Coq Require Import Sorting.Permutation Sorting.Sorted.
From Verif Require Import Base Ref_Model Ref_Spec Ref_Proofs Quote_Proofs Book_Model Book_Spec Book_Proofs Book_Proofs2.

(** A concrete Unicode oracle (ASCII only). *)
Definition ascii_book : bunicode :=
  {| bu := ascii_unicode; bu_lower := map ascii_lower; bu_alpha := is_ascii_alpha |}.
Lemma ascii_book_lower : lower_ok (bu_lower ascii_book).
Proof. intros s _. reflexivity. Qed.

(** Showing a concrete run by computation. *)
Definition run_save (ops : list bop) : option (book * book * save_result) :=
  b <- book_run Debug ascii_book book_new ops ;; r <- save_book Debug ascii_book b ;; Some (b, fst r, snd r).
Lemma run_save_ok ops (P : book_file -> Prop) :
  match run_save ops with Some (_, _, SaveOk f) => P f | _ => False end ->
  exists b b' f, book_run Debug ascii_book book_new ops = Some b /\
    save_book Debug ascii_book b = Some (b', SaveOk f) /\ P f.
Proof.
  unfold run_save. destruct (book_run Debug ascii_book book_new ops) as [b|]; cbn [obind]; [|intros []].
  destruct (save_book Debug ascii_book b) as [[b' [f|e]]|] eqn:E; cbn [obind fst snd]; try (intros []; fail).
  intros H. exists b, b', f. auto.
Qed.
Lemma run_save_err ops e :
  match run_save ops with Some (_, _, SaveErr e') => e' = e | _ => False end ->
  exists b b', book_run Debug ascii_book book_new ops = Some b /\ save_book Debug ascii_book b = Some (b', SaveErr e).
Proof.
  unfold run_save. destruct (book_run Debug ascii_book book_new ops) as [b|]; cbn [obind]; [|intros []].
  destruct (save_book Debug ascii_book b) as [[b' [f|e']]|] eqn:E; cbn [obind fst snd]; try (intros []; fail).
  intros ->. exists b, b'. auto.
Qed.
Lemma run_save_panic ops :
  match book_run Debug ascii_book book_new ops with
  | Some b => match save_book Debug ascii_book b with None => True | _ => False end | None => False end ->
  exists b, book_run Debug ascii_book book_new ops = Some b /\ save_book Debug ascii_book b = None.
Proof.
  destruct (book_run Debug ascii_book book_new ops) as [b|]; [|intros []].
  destruct (save_book Debug ascii_book b) as [r|] eqn:E; [intros []|]. intros _. exists b. auto.
Qed.

(** ** C29: a saved workbook never contains two sheets with equal names. *)

(** Whatever the workbook, a successful save wrote pairwise different names
    (case-insensitively), in sheet order, unchanged. *)
Theorem C29_saved_names_distinct : forall m o b b' f, save_book m o b = Some (b', SaveOk f) ->
  NoDup (map (bu_lower o) (map se_name (bf_sheets f))) /\
  bf_sheets f <> [] /\
  (k_sheets b <> [] -> map se_name (bf_sheets f) = map b_name (k_sheets b)).
Proof. exact saved_names_distinct. Qed.
Print Assumptions C29_saved_names_distinct.

(** The duplicate-name error is raised exactly for duplicates. *)
Theorem C29_reused_reported_exactly : forall m o b, k_sheets b <> [] ->
  ((exists b' n, save_book m o b = Some (b', SaveErr (ESheetnameReused n))) <->
   ~ NoDup (map (bu_lower o) (map b_name (k_sheets b)))).
Proof. exact reused_iff. Qed.
Print Assumptions C29_reused_reported_exactly.

(** Names generated by add_worksheet / add_chartsheet (and by saving an empty
    workbook) never collide with one another, in any history: in a debug build
    unconditionally (the 65536th sheet panics), in a release build for histories
    of fewer than 65536 operations. *)
Theorem C29_generated_names_distinct : forall m o lower ops, lower_ok lower ->
  (m = Release -> N.of_nat (length ops) < 65536) ->
  NoDup (map lower (generated m o book_new ops)).
Proof.
  intros m o lower ops Hl Hr. apply (generated_fresh m o ops book_new); [cbn; lia|cbn; lia| |assumption].
  intros Hm. specialize (Hr Hm). cbn. lia.
Qed.
Print Assumptions C29_generated_names_distinct.

(** Histories that only add sheets (no renaming, pushing or direct vector
    access) are never refused for a duplicate name. *)
Theorem C29_added_sheets_never_reused : forall m o ops b, lower_ok (bu_lower o) ->
  (m = Release -> N.of_nat (length ops) < 65536) -> Forall no_rename ops ->
  book_run m o book_new ops = Some b -> NoDup (map (bu_lower o) (map b_name (k_sheets b))).
Proof.
  intros m o ops b Hl Hr Hops H. rewrite (add_only_names m o ops Hops book_new b H). cbn [book_new k_sheets map app].
  apply C29_generated_names_distinct; assumption.
Qed.
Print Assumptions C29_added_sheets_never_reused.

(** The [unwrap] on generated names never panics. *)
Theorem C29_generated_names_valid : forall m b s,
  (k_nws b < 65535 -> exists b', add_worksheet m b = Some b') /\
  (k_ncs b < 65535 -> exists b', add_chartsheet m b = Some b') /\
  (N.of_nat (length (k_sheets b)) < 2 ^ 64 - 1 -> exists b', push_worksheet b s = Some b').
Proof. intros; split; [apply add_worksheet_total|]. split; [apply add_chartsheet_total|apply push_total]. Qed.
Print Assumptions C29_generated_names_valid.

(** Every operation keeps all sheet names valid, provided sheets put straight
    into the vector (worksheets_mut) have been named. *)
Theorem C29_names_stay_valid_partial : forall m o b op b',
  k_nws b < 65536 -> k_ncs b < 65536 -> N.of_nat (length (k_sheets b)) < 2 ^ 64 - 1 ->
  vec_ok op -> Forall (fun s => valid_sheetname (b_name s)) (k_sheets b) ->
  book_op m o b op = Some b' -> Forall (fun s => valid_sheetname (b_name s)) (k_sheets b').
Proof. exact op_valid. Qed.
Print Assumptions C29_names_stay_valid_partial.

(** Finding: a worksheet pushed onto worksheets_mut() without a name is saved
    with an empty name. *)
Theorem C29_empty_name_saved_refuted : exists b b' f,
  book_run Debug ascii_book book_new [OVec [VNew false []]] = Some b /\
  save_book Debug ascii_book b = Some (b', SaveOk f) /\ map se_name (bf_sheets f) = [[]].
Proof. apply (run_save_ok _ _). vm_compute. reflexivity. Qed.
Print Assumptions C29_empty_name_saved_refuted.

(** Finding: the automatic name chosen by push_worksheet uses the vector length,
    add_worksheet a separate counter: the two collide and save fails. *)
Theorem C29_push_names_collide_refuted : exists b b',
  book_run Debug ascii_book book_new [OPush false []; OAdd] = Some b /\
  save_book Debug ascii_book b = Some (b', SaveErr (ESheetnameReused (lit "sheet1"))).
Proof. apply run_save_err. vm_compute. reflexivity. Qed.
Print Assumptions C29_push_names_collide_refuted.

Example C29_example :
  generated Debug ascii_book book_new [OAdd; OAddChart; OSheet 0 (SName (lit "x")); OAdd]
    = [lit "Sheet1"; lit "Chart1"; lit "Sheet2"] /\ lower_ok (bu_lower ascii_book) /\
  exists b b' f, book_run Debug ascii_book book_new [OAdd; OAdd; OSheet 1 (SName (lit "Data"))] = Some b /\
    save_book Debug ascii_book b = Some (b', SaveOk f) /\ map se_name (bf_sheets f) = [lit "Sheet1"; lit "Data"].
Proof.
  split; [vm_compute; reflexivity|]. split; [exact ascii_book_lower|].
  apply (run_save_ok _ (fun f => map se_name (bf_sheets f) = [lit "Sheet1"; lit "Data"])). vm_compute. reflexivity.
Qed.

(** ** C30: active and first sheet. *)

(** The active tab of a saved workbook exists, is visible and selected. *)
Theorem C30_active_tab_ok : forall m o b b' f, save_book m o b = Some (b', SaveOk f) ->
  N.of_nat (length (bf_sheets f)) <= 65536 ->
  let a := N.to_nat (match bf_active f with Some a => a | None => 0 end) in
  exists e, nth_error (bf_sheets f) a = Some e /\ se_state e = VDefault /\ nth_error (bf_tabs f) a = Some true.
Proof.
  intros m o b b' f H Hlen. apply save_ok_inv in H as (b1 & own & l & Hp & _ & _ & _ & _ & -> & Hw).
  apply write_book_inv in Hw as (Hs & _ & Ha & Ht & _). cbn [k_sheets k_active] in *.
  assert (Hl : length (bf_sheets f) = length (k_sheets b1)).
  { rewrite Hs. rewrite <- (map_length se_name), entries_names, map_length. reflexivity. }
  rewrite Hl in Hlen. destruct (prepared_active m b b1 Hp Hlen) as (s & Hn & _ & Hsel & Hvis).
  assert (Ea : match bf_active f with Some a => a | None => 0 end = k_active b1).
  { rewrite Ha. destruct (N.ltb_spec 0 (k_active b1)); [reflexivity|lia]. }
  cbv zeta. rewrite Ea, Hs, Ht. eexists. split; [apply entries_nth; exact Hn|]. split; [exact Hvis|].
  rewrite nth_error_map, Hn. cbn [option_map]. rewrite Hsel. reflexivity.
Qed.
Print Assumptions C30_active_tab_ok.

(** It is the last sheet the user activated, or the first sheet if none is. *)
Theorem C30_active_tab_choice : forall m o b b' f, save_book m o b = Some (b', SaveOk f) ->
  k_sheets b <> [] -> N.of_nat (length (k_sheets b)) <= 65536 ->
  let a := N.to_nat (match bf_active f with Some a => a | None => 0 end) in
  ((forall s, In s (k_sheets b) -> b_active s = false) -> a = O) /\
  (forall i s, nth_error (k_sheets b) i = Some s -> b_active s = true ->
     (forall j t, (i < j)%nat -> nth_error (k_sheets b) j = Some t -> b_active t = false) -> a = i).
Proof.
  intros m o b b' f H Hne Hlen. apply save_ok_inv in H as (b1 & own & l & Hp & _ & _ & _ & _ & -> & Hw).
  apply write_book_inv in Hw as (_ & _ & Ha & _). cbn [k_active] in Ha.
  unfold prepared in Hp. destruct (k_sheets b) as [|s0 l0] eqn:Eb; [congruence|]. cbn [obind] in Hp.
  assert (b1 = set_active_worksheets b) as -> by congruence. cbn [set_active_worksheets k_active] in Ha. rewrite Eb in Ha.
  set (L := s0 :: l0) in *.
  assert (Ea : match bf_active f with Some a => a | None => 0 end = as_u16 (last_flagged b_active L 0 0)).
  { rewrite Ha. destruct (N.ltb_spec 0 (as_u16 (last_flagged b_active L 0 0))); [reflexivity|lia]. }
  cbv zeta. rewrite Ea. destruct (last_flagged_spec b_active L 0 0) as [[E ->]|(k & s & Hk & Hs & -> & Hlast)].
  - split; [reflexivity|]. intros i s Hi Hs _.
    assert (existsb b_active L = true) by (apply existsb_exists; exists s; split; [eapply nth_error_In; eassumption|assumption]). congruence.
  - assert (Hkl : (k < length L)%nat) by (apply nth_error_Some; congruence).
    unfold as_u16. rewrite N.mod_small by lia. replace (N.to_nat (0 + N.of_nat k)) with k by lia. split.
    + intros Hall. rewrite (Hall s) in Hs by (eapply nth_error_In; eassumption). discriminate.
    + intros i t Hi Ht Hafter. destruct (Nat.lt_trichotomy i k) as [Hlt|[Heq|Hgt]]; [|auto|].
      * rewrite (Hafter k s Hlt Hk) in Hs. discriminate.
      * rewrite (Hlast i t Hgt Hi) in Ht. discriminate.
Qed.
Print Assumptions C30_active_tab_choice.

(** firstSheet: when some sheet is flagged with set_first_tab, the attribute (a
    1-based number) designates an existing sheet so flagged.  What is missing:
    that sheet need not be visible or selected (refuted below). *)
Theorem C30_first_sheet_exists_partial : forall m o b b' f n, save_book m o b = Some (b', SaveOk f) ->
  k_sheets b <> [] -> N.of_nat (length (k_sheets b)) <= 65535 -> existsb b_first (k_sheets b) = true ->
  bf_first f = Some n ->
  exists s e, nth_error (k_sheets b) (N.to_nat (n - 1)) = Some s /\ b_first s = true /\
              nth_error (bf_sheets f) (N.to_nat (n - 1)) = Some e.
Proof.
  intros m o b b' f n H Hne Hlen Hex Hf. apply save_ok_inv in H as (b1 & own & l & Hp & _ & _ & _ & _ & -> & Hw).
  apply write_book_inv in Hw as (Hs & _ & _ & _ & Hfi). cbn [k_first k_sheets] in *.
  unfold prepared in Hp. destruct (k_sheets b) as [|s0 l0] eqn:Eb; [congruence|]. cbn [obind] in Hp.
  assert (b1 = set_active_worksheets b) as -> by congruence. cbn [set_active_worksheets k_first k_sheets] in Hfi, Hs. rewrite Eb in Hfi, Hs.
  set (L := s0 :: l0) in *. rewrite Hex in Hfi.
  destruct (last_flagged_spec b_first L 0 0) as [[E _]|(k & s & Hk & Hsf & Ek & _)]; [congruence|].
  rewrite Ek in Hfi. assert (Hkl : (k < length L)%nat) by (apply nth_error_Some; congruence).
  unfold as_u16 in Hfi. rewrite N.mod_small in Hfi by lia. rewrite N.add_0_l in Hfi.
  destruct (0 <? N.of_nat k); [|congruence]. destruct Hfi as (n' & Hn' & Hn). assert (n' = n) as -> by congruence.
  rewrite add16_ok in Hn' by lia. assert (n = N.of_nat k + 1) as -> by congruence.
  replace (N.to_nat (N.of_nat k + 1 - 1)) with k by lia. exists s.
  destruct (nth_error (bf_sheets f) k) as [e|] eqn:Ee; [exists e; auto|]. exfalso.
  apply nth_error_None in Ee. rewrite Hs, <- (map_length se_name), entries_names, map_length, update_nth_length in Ee. lia.
Qed.
Print Assumptions C30_first_sheet_exists_partial.

(** Finding: set_first_tab tests [selected] instead of the new flag, so a hidden
    sheet stays hidden although it is announced as the first visible tab; and the
    attribute is index + 1, which names no sheet if it is read as an index. *)
Theorem C30_first_sheet_hidden_refuted : exists b b' f,
  book_run Debug ascii_book book_new [OAdd; OAdd; OSheet 1 (SHidden true); OSheet 1 (SFirstTab true)] = Some b /\
  save_book Debug ascii_book b = Some (b', SaveOk f) /\
  bf_first f = Some 2 /\ map se_state (bf_sheets f) = [VDefault; VHidden] /\ nth_error (bf_sheets f) 2 = None.
Proof.
  apply (run_save_ok _ _). vm_compute. split; [reflexivity|]. split; reflexivity.
Qed.
Print Assumptions C30_first_sheet_hidden_refuted.

(** Finding: the first-sheet index survives a save: after the flag is removed (or
    the sheet deleted) the next file still carries it. *)
Theorem C30_first_sheet_stale_refuted : exists b b' f,
  book_run Debug ascii_book book_new
    [OAdd; OAdd; OAdd; OSheet 2 (SFirstTab true); OSave; OVec [VKeep 0; VKeep 1]] = Some b /\
  save_book Debug ascii_book b = Some (b', SaveOk f) /\ bf_first f = Some 3 /\ length (bf_sheets f) = 2%nat.
Proof.
  apply (run_save_ok _ _). vm_compute. split; reflexivity.
Qed.
Print Assumptions C30_first_sheet_stale_refuted.

Example C30_example : exists b b' f,
  book_run Debug ascii_book book_new
    [OAdd; OAdd; OAdd; OSheet 1 (SActive true); OSheet 2 (SActive true); OSheet 2 (SHidden true); OSheet 0 (SHidden true)] = Some b /\
  save_book Debug ascii_book b = Some (b', SaveOk f) /\ bf_active f = Some 1 /\
  map se_state (bf_sheets f) = [VHidden; VDefault; VHidden] /\ bf_tabs f = [false; true; false].
Proof.
  apply (run_save_ok _ _). vm_compute. split; [reflexivity|]. split; reflexivity.
Qed.

(** ** C46: defined names. *)

(** define_name accepts exactly the syntactically valid names (of the part after
    "Sheet!"), rejects the others without effect, and panics on an empty one. *)
Theorem C46_define_name_validation : forall o b full n f, name_part full n ->
  (n = [] -> define_name o b full f = None) /\
  (n <> [] -> valid_dname (bu_alpha o) n -> exists b', define_name o b full f = Some (b', true)) /\
  (n <> [] -> ~ valid_dname (bu_alpha o) n -> define_name o b full f = Some (b, false)).
Proof. exact define_name_cases. Qed.
Print Assumptions C46_define_name_validation.

(** Finding: [define_name("", ..)] and [define_name("Sheet1!", ..)] panic. *)
Theorem C46_empty_name_panics_refuted : forall o b f,
  define_name o b [] f = None /\ define_name o b (lit "Sheet1!") f = None.
Proof.
  intros o b f. split.
  - apply (define_name_cases o b [] [] f); [right; split; [reflexivity|intros []]|reflexivity].
  - apply (define_name_cases o b (lit "Sheet1!") [] f); [|reflexivity]. left. exists (lit "Sheet1"). split; [reflexivity|].
    cbn. intuition discriminate.
Qed.
Print Assumptions C46_empty_name_panics_refuted.

(** A name defined as 'Sheet'!name is written with the index of that sheet,
    whatever happens to be defined elsewhere in the workbook. *)
Theorem C46_local_name_bound_to_sheet : forall m o b i s q nm formula b1 b2 f,
  nth_error (k_sheets b) i = Some s -> N.of_nat i < 65536 -> valid_sheetname (b_name s) -> ~ In 33 (b_name s) ->
  quote_sheet_name m (bu o) (b_name s) = Some q ->
  define_name o b (q ++ 33 :: nm) formula = Some (b1, true) ->
  save_book m o b1 = Some (b2, SaveOk f) ->
  In {| ne_name := nm; ne_local := Some (N.of_nat i); ne_hidden := false; ne_range := formula_to_string formula |} (bf_names f).
Proof.
  intros m o b i s q nm formula b1 b2 f Hi Hlt Hval Hbang Eq Hd Hs.
  assert (Hq33 : ~ In 33 q).
  { unfold quote_sheet_name in Eq. destruct (requires_quoting m (bu o) (b_name s)) as [[|]|]; cbn [obind] in Eq; [| |discriminate].
    - assert (q = 39 :: double_quotes (b_name s) ++ [39]) as -> by congruence. intros [E|Hi2]; [discriminate|].
      apply in_app_or in Hi2 as [Hi2|[E|[]]]; [|discriminate]. unfold double_quotes in Hi2.
      apply in_flat_map in Hi2 as (x & Hx & Hxi). destruct (N.eqb_spec x 39) as [->|_].
      + destruct Hxi as [E|[E|[]]]; discriminate.
      + destruct Hxi as [->|[]]. contradiction.
    - assert (q = b_name s) as -> by congruence. assumption. }
  destruct (define_name_stores _ _ _ _ _ Hd) as (d & Eu & Es & _ & _ & Er & _ & Hty).
  assert (Hty' : d_type d = DLocal /\ d_sheet d = q /\ d_name d = nm).
  { destruct Hty as [(Ht & E & Hsh)|(Ht & E & _ & Hn)].
    - split; [assumption|]. pose proof (split_bang_app q nm Hq33) as A. rewrite E, (split_bang_app _ _ Hsh) in A. split; congruence.
    - exfalso. apply Hn. apply in_or_app. right. left. reflexivity. }
  destruct Hty' as (Ht & Hsh & Hnm). destruct Hval as (Hne & _ & _ & Hq & _).
  assert (Hdin : In d (k_user b1)) by (rewrite Eu; apply in_or_app; right; left; reflexivity).
  destruct (saved_in _ _ _ _ _ d Hs (or_introl Hdin)) as (n & En & Hc).
  rewrite Hsh, (quote_unquote m (bu o) (b_name s) q Hq Eq) in En. assert (n = b_name s) as -> by congruence.
  destruct Hc as [[E _]|(_ & k & t & Hk & Hkn & Hmem & Huniq)]; [contradiction|].
  assert (Hb2 : exists s2, nth_error (k_sheets b2) i = Some s2 /\ b_name s2 = b_name s).
  { assert (Hnames : map b_name (k_sheets b2) = map b_name (k_sheets b1)).
    { eapply save_names; [eassumption|]. rewrite Es. intros E. rewrite E in Hi. destruct i; discriminate. }
    assert (A : nth_error (map b_name (k_sheets b2)) i = Some (b_name s)).
    { rewrite Hnames, Es, nth_error_map, Hi. reflexivity. }
    rewrite nth_error_map in A. destruct (nth_error (k_sheets b2) i) as [s2|]; [|discriminate]. exists s2. split; [reflexivity|].
    cbn [option_map] in A. congruence. }
  destruct Hb2 as (s2 & Hs2 & Hn2). assert (i = k) as <- by (eapply Huniq; eauto).
  unfold as_u16 in Hmem. rewrite N.mod_small in Hmem by assumption.
  unfold name_entry_of, d_written_name in Hmem. cbn [with_index d_type d_index d_range d_name] in Hmem.
  rewrite Ht, Er, Hnm in Hmem. exact Hmem.
Qed.
Print Assumptions C46_local_name_bound_to_sheet.

(** A global name is written without a sheet, unchanged apart from the leading '='. *)
Theorem C46_global_name_written : forall m o b nm formula b1 b2 f, ~ In 33 nm ->
  define_name o b nm formula = Some (b1, true) -> save_book m o b1 = Some (b2, SaveOk f) ->
  In {| ne_name := nm; ne_local := None; ne_hidden := false; ne_range := formula_to_string formula |} (bf_names f).
Proof.
  intros m o b nm formula b1 b2 f H33 Hd Hs.
  destruct (define_name_stores _ _ _ _ _ Hd) as (d & Eu & _ & _ & _ & Er & _ & Hty).
  destruct Hty as [(Ht & E & Hsh)|(Ht & E & Hsh & _)]; [exfalso; apply H33; rewrite E; apply in_or_app; right; left; reflexivity|].
  assert (Hdin : In d (k_user b1)) by (rewrite Eu; apply in_or_app; right; left; reflexivity).
  destruct (saved_in _ _ _ _ _ d Hs (or_introl Hdin)) as (n & En & Hc). rewrite Hsh in En. cbn in En.
  assert (n = []) as -> by congruence. destruct Hc as [[_ Hmem]|[Hne _]]; [|congruence].
  unfold name_entry_of, d_written_name in Hmem. rewrite Ht, Er, <- E in Hmem. exact Hmem.
Qed.
Print Assumptions C46_global_name_written.

(** A name for a sheet that does not exist makes save fail: never a dangling
    binding.  And the error is raised only in that case. *)
Theorem C46_unknown_sheet_refused : forall m o b b' d n f,
  In d (k_user b) -> unquote_sheetname (d_sheet d) = Some n -> n <> [] ->
  (forall s, In s (k_sheets b') -> b_name s <> n) -> save_book m o b <> Some (b', SaveOk f).
Proof.
  intros m o b b' d n f Hd En Hne Hno H.
  destruct (saved_in _ _ _ _ _ d H (or_introl Hd)) as (n' & En' & Hc). assert (n' = n) as -> by congruence.
  destruct Hc as [[E _]|(_ & k & t & Hk & Hkn & _)]; [contradiction|]. apply (Hno t); [eapply nth_error_In; eassumption|assumption].
Qed.
Print Assumptions C46_unknown_sheet_refused.

Theorem C46_unknown_sheet_error_only_then : forall m o b b', save_book m o b = Some (b', SaveErr EUnknownSheet) ->
  exists own d n, all_sheet_dnames m o (k_sheets b') = Some own /\ In d (k_user b' ++ own) /\
    unquote_sheetname (d_sheet d) = Some n /\ n <> [] /\ forall s, In s (k_sheets b') -> b_name s <> n.
Proof.
  intros m o b b' H. unfold save_book in H.
  destruct (match k_sheets b with [] => add_worksheet m b | _ => Some b end) as [b0|]; [|discriminate].
  cbn [obind] in H. set (b1 := set_active_worksheets b0) in *.
  destruct (dup_name (bu_lower o) [] (k_sheets b1)); [discriminate|].
  destruct (chartless (k_sheets b1)); [discriminate|].
  destruct (all_sheet_dnames m o (k_sheets b1)) as [own|] eqn:E3; [|discriminate]. cbn [obind] in H.
  destruct (resolve (k_sheets b1) (k_user b1 ++ own)) as [[l|]|] eqn:E4; cbn [obind] in H; try discriminate.
  { match goal with H : obind (write_book m ?bb) _ = _ |- _ => destruct (write_book m bb); discriminate end. }
  assert (b1 = b') as <- by congruence. apply resolve_err in E4 as (d & n & Hd & Hn & Hne & Hall).
  exists own, d, n. auto.
Qed.
Print Assumptions C46_unknown_sheet_error_only_then.

(** Print areas and autofilters: after a successful set_print_area on sheet i, the
    saved file has a sheet-local _xlnm.Print_Area for sheet i whose text reads
    back as exactly that sheet and that rectangle. *)
Theorem C46_print_area_denotes : forall m o b i s fr fc lr lc b1 b2 f, unicode_ok (bu o) ->
  nth_error (k_sheets b) i = Some s -> N.of_nat i < 65536 -> valid_sheetname (b_name s) ->
  fr <= lr -> lr < 1048576 -> fc <= lc -> lc < 16384 -> (fr, fc, lr, lc) <> (0, 0, 1048575, 16383) ->
  book_op m o b (OSheet i (SPrintArea fr fc lr lc)) = Some b1 -> save_book m o b1 = Some (b2, SaveOk f) ->
  exists t, In {| ne_name := lit "_xlnm.Print_Area"; ne_local := Some (N.of_nat i); ne_hidden := false; ne_range := t |} (bf_names f) /\
    parse_sheet_area t = Some (b_name s, {| rc_fr := fr; rc_fc := fc; rc_lr := lr; rc_lc := lc |}).
Proof.
  intros m o b i s fr fc lr lc b1 b2 f Hu Hi Hlt Hval H1 H2 H3 H4 Hnot Hop Hs.
  assert (Hstep : sheet_op s (SPrintArea fr fc lr lc) =
    (b_set_dnames s (b_autofilter s) (with_area (b_print s) DPrintArea fr fc lr lc) (b_titles s), true)).
  { cbn [sheet_op]. unfold in_limits, ROW_MAX, COL_MAX.
    destruct (N.ltb_spec fr 1048576), (N.ltb_spec fc 16384), (N.ltb_spec lr 1048576), (N.ltb_spec lc 16384); try lia. cbn [andb negb orb].
    destruct (N.ltb_spec lr fr), (N.ltb_spec lc fc); try lia. cbn [orb].
    destruct (N.eqb_spec fr 0), (N.eqb_spec fc 0), (N.eqb_spec lr (1048576 - 1)), (N.eqb_spec lc (16384 - 1)); cbn [andb]; try reflexivity.
    exfalso. apply Hnot. repeat f_equal; lia. }
  cbn [book_op] in Hop. assert (Hb1 : b1 = k_with_sheets b (update_nth (k_sheets b) i (fun s => fst (sheet_op s (SPrintArea fr fc lr lc))))) by congruence.
  assert (Hi1 : nth_error (k_sheets b1) i = Some (fst (sheet_op s (SPrintArea fr fc lr lc)))).
  { rewrite Hb1. cbn [k_with_sheets k_sheets]. exact (update_nth_same (fun s => fst (sheet_op s (SPrintArea fr fc lr lc))) _ _ _ Hi). }
  rewrite Hstep in Hi1. cbn [fst] in Hi1.
  destruct (save_book_state _ _ _ _ _ Hs) as (b0 & Hp & Hks & _).
  assert (Hi2 : exists s2, nth_error (k_sheets b2) i = Some s2 /\ b_name s2 = b_name s /\
                 b_print s2 = with_area (b_print s) DPrintArea fr fc lr lc).
  { rewrite Hks. unfold prepared in Hp. destruct (k_sheets b1) as [|x xs] eqn:Ex; [destruct i; discriminate|]. cbn [obind] in Hp.
    assert (b0 = set_active_worksheets b1) as -> by congruence. cbn [set_active_worksheets k_sheets]. rewrite Ex.
    set (L := x :: xs) in *. set (k := N.to_nat (last_flagged b_active L 0 0)).
    destruct (Nat.eq_dec k i) as [->|Hne].
    - eexists. split; [exact (update_nth_same (fun s => set_active s true) _ _ _ Hi1)|]. split; reflexivity.
    - rewrite update_nth_other by assumption. eexists. split; [exact Hi1|]. split; reflexivity. }
  destruct Hi2 as (s2 & Hs2 & Hn2 & Hp2). assert (Hval2 : valid_sheetname (b_name s2)) by (rewrite Hn2; assumption).
  destruct (saved_own m o b1 b2 f i s2 (b_print s2) Hs Hs2 Hlt Hval2) as (q & t & Eq & Er & Hmem).
  { right; left; reflexivity. } { rewrite Hp2; reflexivity. } { rewrite Hp2; discriminate. }
  exists t. rewrite Hn2 in Eq. destruct Hval as (_ & _ & _ & Hq & _). rewrite Hp2 in Er, Hmem.
  destruct (area_text m (bu o) (b_name s) q (with_sheet (with_area (b_print s) DPrintArea fr fc lr lc) q) Hu Hq Eq) as (t' & Er' & Hpar);
    [reflexivity|right; reflexivity|exact H1|exact H2|exact H3|exact H4|].
  assert (t' = t) as -> by congruence. split; [exact Hmem|exact Hpar].
Qed.
Print Assumptions C46_print_area_denotes.

Theorem C46_autofilter_name_denotes : forall m o b i s fr fc lr lc ov b1 b2 f, unicode_ok (bu o) ->
  nth_error (k_sheets b) i = Some s -> N.of_nat i < 65536 -> valid_sheetname (b_name s) ->
  fr <= lr -> lr < 1048576 -> fc <= lc -> lc < 16384 ->
  book_op m o b (OSheet i (SAutofilter fr fc lr lc ov)) = Some b1 -> save_book m o b1 = Some (b2, SaveOk f) ->
  exists t, In {| ne_name := lit "_xlnm._FilterDatabase"; ne_local := Some (N.of_nat i); ne_hidden := true; ne_range := t |} (bf_names f) /\
    parse_sheet_area t = Some (b_name s, {| rc_fr := fr; rc_fc := fc; rc_lr := lr; rc_lc := lc |}).
Proof.
  intros m o b i s fr fc lr lc ov b1 b2 f Hu Hi Hlt Hval H1 H2 H3 H4 Hop Hs.
  assert (Hstep : sheet_op s (SAutofilter fr fc lr lc ov) =
    (b_set_dnames s (with_area (b_autofilter s) DAutofilter fr fc lr lc) (b_print s) (b_titles s), negb ov)).
  { cbn [sheet_op]. unfold in_limits, ROW_MAX, COL_MAX.
    destruct (N.ltb_spec fr 1048576), (N.ltb_spec fc 16384), (N.ltb_spec lr 1048576), (N.ltb_spec lc 16384); try lia. cbn [andb negb orb].
    destruct (N.ltb_spec lr fr), (N.ltb_spec lc fc); try lia. reflexivity. }
  cbn [book_op] in Hop. assert (Hb1 : b1 = k_with_sheets b (update_nth (k_sheets b) i (fun s => fst (sheet_op s (SAutofilter fr fc lr lc ov))))) by congruence.
  assert (Hi1 : nth_error (k_sheets b1) i = Some (fst (sheet_op s (SAutofilter fr fc lr lc ov)))).
  { rewrite Hb1. cbn [k_with_sheets k_sheets]. exact (update_nth_same (fun s => fst (sheet_op s (SAutofilter fr fc lr lc ov))) _ _ _ Hi). }
  rewrite Hstep in Hi1. cbn [fst] in Hi1.
  destruct (save_book_state _ _ _ _ _ Hs) as (b0 & Hp & Hks & _).
  assert (Hi2 : exists s2, nth_error (k_sheets b2) i = Some s2 /\ b_name s2 = b_name s /\
                 b_autofilter s2 = with_area (b_autofilter s) DAutofilter fr fc lr lc).
  { rewrite Hks. unfold prepared in Hp. destruct (k_sheets b1) as [|x xs] eqn:Ex; [destruct i; discriminate|]. cbn [obind] in Hp.
    assert (b0 = set_active_worksheets b1) as -> by congruence. cbn [set_active_worksheets k_sheets]. rewrite Ex.
    set (L := x :: xs) in *. set (k := N.to_nat (last_flagged b_active L 0 0)).
    destruct (Nat.eq_dec k i) as [->|Hne].
    - eexists. split; [exact (update_nth_same (fun s => set_active s true) _ _ _ Hi1)|]. split; reflexivity.
    - rewrite update_nth_other by assumption. eexists. split; [exact Hi1|]. split; reflexivity. }
  destruct Hi2 as (s2 & Hs2 & Hn2 & Hp2). assert (Hval2 : valid_sheetname (b_name s2)) by (rewrite Hn2; assumption).
  destruct (saved_own m o b1 b2 f i s2 (b_autofilter s2) Hs Hs2 Hlt Hval2) as (q & t & Eq & Er & Hmem).
  { left; reflexivity. } { rewrite Hp2; reflexivity. } { rewrite Hp2; discriminate. }
  exists t. rewrite Hn2 in Eq. destruct Hval as (_ & _ & _ & Hq & _). rewrite Hp2 in Er, Hmem.
  destruct (area_text m (bu o) (b_name s) q (with_sheet (with_area (b_autofilter s) DAutofilter fr fc lr lc) q) Hu Hq Eq) as (t' & Er' & Hpar);
    [reflexivity|left; reflexivity|exact H1|exact H2|exact H3|exact H4|].
  assert (t' = t) as -> by congruence. split; [exact Hmem|exact Hpar].
Qed.
Print Assumptions C46_autofilter_name_denotes.

(** Repeated rows and columns: set_repeat_rows and set_repeat_columns on a sheet
    give one _xlnm.Print_Titles: the column part, a comma, the row part. *)
Theorem C46_print_titles_denote : forall m o b i s fr lr fc lc b1 b2 f, unicode_ok (bu o) ->
  nth_error (k_sheets b) i = Some s -> N.of_nat i < 65536 -> valid_sheetname (b_name s) ->
  fr <= lr -> lr < 1048576 -> fc <= lc -> lc < 16384 ->
  book_run m o b [OSheet i (SRepeatRows fr lr); OSheet i (SRepeatCols fc lc)] = Some b1 ->
  save_book m o b1 = Some (b2, SaveOk f) ->
  exists t1 t2, In {| ne_name := lit "_xlnm.Print_Titles"; ne_local := Some (N.of_nat i); ne_hidden := false;
                      ne_range := t1 ++ 44 :: t2 |} (bf_names f) /\
    parse_sheet_area t1 = Some (b_name s, {| rc_fr := 0; rc_fc := fc; rc_lr := 1048575; rc_lc := lc |}) /\
    parse_sheet_area t2 = Some (b_name s, {| rc_fr := fr; rc_fc := 0; rc_lr := lr; rc_lc := 16383 |}).
Proof.
  intros m o b i s fr lr fc lc b1 b2 f Hu Hi Hlt Hval H1 H2 H3 H4 Hrun Hs.
  set (so1 := SRepeatRows fr lr) in *. set (so2 := SRepeatCols fc lc) in *.
  set (s1 := fst (sheet_op s so1)). set (s' := fst (sheet_op s1 so2)).
  assert (Hs1 : s1 = b_set_dnames s (b_autofilter s) (b_print s)
              (with_area (b_titles s) DPrintTitles fr (d_fc (b_titles s)) lr (d_lc (b_titles s)))).
  { unfold s1, so1. cbn [sheet_op]. unfold in_limits, ROW_MAX, COL_MAX.
    destruct (N.ltb_spec fr 1048576), (N.ltb_spec lr 1048576); try lia. cbn [andb negb orb N.ltb N.compare].
    destruct (N.ltb_spec lr fr); try lia. reflexivity. }
  assert (Hs' : b_titles s' = with_area (b_titles s1) DPrintTitles fr fc lr lc /\ b_name s' = b_name s).
  { unfold s', so2. rewrite Hs1. cbn [sheet_op b_titles b_set_dnames]. unfold in_limits, ROW_MAX, COL_MAX.
    destruct (N.ltb_spec fc 16384), (N.ltb_spec lc 16384); try lia. cbn [andb negb orb N.ltb N.compare].
    destruct (N.ltb_spec lc fc); try lia. split; reflexivity. }
  destruct Hs' as [Htit Hname].
  cbn [book_run book_op obind] in Hrun.
  match goal with H : Some ?bb = Some b1 |- _ => assert (Hb1 : b1 = bb) by congruence end.
  assert (Hi1 : nth_error (k_sheets b1) i = Some s').
  { rewrite Hb1. cbn [k_with_sheets k_sheets].
    assert (A : nth_error (update_nth (k_sheets b) i (fun s => fst (sheet_op s so1))) i = Some s1)
      by exact (update_nth_same (fun s => fst (sheet_op s so1)) _ _ _ Hi).
    exact (update_nth_same (fun s => fst (sheet_op s so2)) _ _ _ A). }
  clear Hb1 Hrun. destruct (save_book_state _ _ _ _ _ Hs) as (b0 & Hp & Hks & _).
  assert (Hi2 : exists s2, nth_error (k_sheets b2) i = Some s2 /\ b_name s2 = b_name s /\ b_titles s2 = b_titles s').
  { rewrite Hks. unfold prepared in Hp. destruct (k_sheets b1) as [|x xs] eqn:Ex; [destruct i; discriminate|]. cbn [obind] in Hp.
    assert (b0 = set_active_worksheets b1) as -> by congruence. cbn [set_active_worksheets k_sheets]. rewrite Ex.
    set (L := x :: xs) in *. set (k := N.to_nat (last_flagged b_active L 0 0)).
    destruct (Nat.eq_dec k i) as [->|Hne].
    - eexists. split; [exact (update_nth_same (fun s => set_active s true) _ _ _ Hi1)|]. split; [exact Hname|reflexivity].
    - rewrite update_nth_other by assumption. eexists. split; [exact Hi1|]. split; [exact Hname|reflexivity]. }
  destruct Hi2 as (s2 & Hs2 & Hn2 & Hp2). assert (Hval2 : valid_sheetname (b_name s2)) by (rewrite Hn2; assumption).
  destruct (saved_own m o b1 b2 f i s2 (b_titles s2) Hs Hs2 Hlt Hval2) as (q & t & Eq & Er & Hmem).
  { right; right; left; reflexivity. } { rewrite Hp2, Htit; reflexivity. } { rewrite Hp2, Htit; discriminate. }
  rewrite Hn2 in Eq. destruct Hval as (_ & _ & _ & Hq & _). rewrite Hp2, Htit in Er, Hmem.
  destruct (column_number_to_name_spec m fc ltac:(lia)) as (ca & Eca & _).
  destruct (column_number_to_name_spec m lc ltac:(lia)) as (cb & Ecb & _).
  exists (q ++ 33 :: 36 :: ca ++ 58 :: 36 :: cb), (rows_text q fr lr).
  split; [|split; [apply (cols_text_parse m (bu o)); try assumption; lia|apply (rows_text_parse m (bu o)); assumption]].
  unfold range_of in Er. cbn [with_sheet with_area d_type d_fc d_lc d_fr d_lr d_sheet] in Er.
  unfold COL_MAX, ROW_MAX in Er. destruct (N.eqb_spec fc 16384); [lia|]. destruct (N.eqb_spec fr 1048576); [lia|]. cbn [negb orb] in Er.
  rewrite Eca, Ecb in Er. cbn [obind] in Er.
  assert (Hne : exists x y, q ++ 33 :: 36 :: ca ++ 58 :: 36 :: cb = x :: y).
  { destruct q; cbn [app]; eauto. }
  destruct Hne as (x & y & Hxy). rewrite Hxy in Er |- *. injection Er as Er. unfold rows_text. rewrite <- Er in Hmem. exact Hmem.
Qed.
Print Assumptions C46_print_titles_denote.

(** The written list contains exactly the user's names and the sheets' own names
    (nothing lost, nothing invented), sorted by (sort key, range). *)
Theorem C46_list_complete_and_sorted : forall m o b b' f, save_book m o b = Some (b', SaveOk f) ->
  exists own l, all_sheet_dnames m o (k_sheets b') = Some own /\
    bf_names f = map name_entry_of (k_names b') /\
    length (bf_names f) = (length (k_user b) + length own)%nat /\
    Permutation (k_names b') l /\
    Forall2 (fun d d' => d_written_name d' = d_written_name d /\ d_range d' = d_range d /\ d_type d' = d_type d)
            (k_user b ++ own) l /\
    StronglySorted (fun a c => str_lt (d_sort a) (d_sort c) \/ (d_sort a = d_sort c /\ str_le (d_range a) (d_range c))) (k_names b').
Proof.
  intros m o b b' f H. apply saved_names_full in H as (b1 & own & l & Hp & Es & Eu & _ & Hown & HF & Ek & Ef).
  exists own, l. rewrite Es. split; [assumption|]. rewrite Ek. split; [assumption|].
  rewrite (prepared_user _ _ _ Hp) in HF. split.
  - rewrite Ef, map_length, (Permutation_length (sort_dnames_perm l)), <- (Forall2_len _ _ _ HF), app_length. reflexivity.
  - split; [apply sort_dnames_perm|]. split; [|exact (sort_dnames_sorted l)].
    eapply Forall2_weaken; [|exact HF]. intros d d' (n & _ & [[_ ->]|(_ & i & _ & ->)]); repeat split; reflexivity.
Qed.
Print Assumptions C46_list_complete_and_sorted.

(** Sorted case-insensitively by the name Excel shows (without "_xlnm."): true
    when no user-defined name properly extends Print_Area or _FilterDatabase, and
    none impersonates a built-in name. *)
Definition shown_name (e : name_entry) : str :=
  match strip_prefix (lit "_xlnm.") (ne_name e) with Some r => r | None => ne_name e end.
Definition ordinary (lower : str -> str) (n : str) : Prop :=
  (forall r, n <> lit "_xlnm." ++ r) /\
  (forall r, lower n = lit "print_area" ++ r -> r = []) /\ (forall r, lower n = lit "_filterdatabase" ++ r -> r = []).

Lemma strict_ext_le p x : (forall r, x = p ++ r -> r = []) -> str_le x (p ++ lit "{}") -> str_le x p.
Proof.
  revert x; induction p as [|c p IH]; intros x Hx H.
  - cbn [app] in *. specialize (Hx x eq_refl). subst. left; reflexivity.
  - destruct x as [|y x]; [right; constructor|]. cbn [app] in H. destruct H as [E|H].
    + exfalso. assert (y :: x = (c :: p) ++ lit "{}") as Ex by exact E. specialize (Hx _ Ex). discriminate Hx.
    + inversion H as [| |]; subst; [right; apply lt_head; assumption|].
      assert (str_le x p) as [->|Hlt].
      { apply IH; [|right; assumption]. intros r ->. apply (Hx r). reflexivity. }
      * left; reflexivity. 
      * right. apply lt_tail; assumption.
Qed.

Theorem C46_sorted_by_shown_name_partial : forall m o ops b b' f, lower_ok (bu_lower o) ->
  book_run m o book_new ops = Some b -> save_book m o b = Some (b', SaveOk f) ->
  (forall d, In d (k_user b) -> ordinary (bu_lower o) (d_name d)) ->
  StronglySorted (fun e1 e2 => str_le (bu_lower o (shown_name e1)) (bu_lower o (shown_name e2))) (bf_names f).
Proof.
  intros m o ops b b' f Hl Hrun Hs Hord.
  assert (Huser : Forall (user_ok o) (k_user b)) by (eapply run_user_ok; [|exact Hrun]; constructor).
  destruct (saved_names_full _ _ _ _ _ Hs) as (b1 & own & l & Hp & Es & Eu & _ & Hown & HF & Ek & Ef).
  rewrite (prepared_user _ _ _ Hp) in HF.
  assert (Htypes : Forall types_ok (k_sheets b1)).
  { eapply prepared_types; [exact Hp|]. eapply run_types; [|exact Hrun]. constructor. }
  (* what is known of every written name *)
  assert (Hall : forall d, In d l ->
     (exists u, In u (k_user b) /\ d_sort d = bu_lower o (d_name u) /\ bu_lower o (shown_name (name_entry_of d)) = d_sort d /\ ordinary (bu_lower o) (d_name u)) \/
     (d_sort d = lit "print_titles" /\ bu_lower o (shown_name (name_entry_of d)) = lit "print_titles") \/
     (d_sort d = lit "print_area{}" /\ bu_lower o (shown_name (name_entry_of d)) = lit "print_area") \/
     (d_sort d = lit "_filterdatabase{}" /\ bu_lower o (shown_name (name_entry_of d)) = lit "_filterdatabase")).
  { intros d' Hd'. destruct (Forall2_in_r _ _ _ _ HF Hd') as (d & Hd & n & _ & Hres).
    assert (Hsame : d_sort d' = d_sort d /\ shown_name (name_entry_of d') = shown_name (name_entry_of d)).
    { destruct Hres as [[_ ->]|(_ & i & _ & ->)]; split; reflexivity. }
    destruct Hsame as [-> ->]. apply in_app_or in Hd as [Hd|Hd].
    - left. exists d. split; [assumption|]. rewrite Forall_forall in Huser. destruct (Huser d Hd) as (_ & Hsort & Hty).
      split; [assumption|]. split; [|auto]. rewrite Hsort. f_equal. unfold shown_name, name_entry_of, d_written_name. cbn [ne_name].
      assert (E : match d_type d with DPrintArea => lit "_xlnm.Print_Area" | DAutofilter => lit "_xlnm._FilterDatabase"
                  | DPrintTitles => lit "_xlnm.Print_Titles" | _ => d_name d end = d_name d) by (destruct Hty as [-> | ->]; reflexivity).
      rewrite E. destruct (strip_prefix (lit "_xlnm.") (d_name d)) as [r|] eqn:Er; [|reflexivity].
      apply strip_prefix_some in Er. destruct (Hord d Hd) as (Hx & _). destruct (Hx r Er).
    - right. assert (Hsheet : exists s ds, In s (k_sheets b1) /\ sheet_dnames m o s = Some ds /\ In d ds).
      { clear - Hown Hd. revert own Hown Hd. induction (k_sheets b1) as [|x xs IH]; intros own Hown Hd; cbn [all_sheet_dnames] in Hown.
        - assert (own = []) as -> by congruence. destruct Hd.
        - destruct (sheet_dnames m o x) as [a|] eqn:Ea; cbn [obind] in Hown; [|discriminate].
          destruct (all_sheet_dnames m o xs) as [r|] eqn:Er; cbn [obind] in Hown; [|discriminate].
          assert (own = a ++ r) as -> by congruence. apply in_app_or in Hd as [Hd|Hd].
          + exists x, a. split; [left; reflexivity|auto].
          + destruct (IH r eq_refl Hd) as (s & ds & Hs & H). exists s, ds. split; [right; assumption|assumption]. }
      destruct Hsheet as (s & ds & Hsin & Hds & Hdd). destruct (sheet_dnames_in _ _ _ _ Hds) as (q & _ & _ & Hinv).
      destruct (Hinv d Hdd) as (d0 & Hd0 & Huse & Hini).
      unfold d_initialize in Hini. destruct (range_of m (with_sheet d0 q)) as [t|]; cbn [obind] in Hini; [|discriminate].
      assert (d = with_text (with_sheet d0 q) t (sort_name_of o (with_sheet d0 q))) as -> by congruence.
      assert (Hsn : d_sort (with_text (with_sheet d0 q) t (sort_name_of o (with_sheet d0 q))) = sort_name_of o (with_sheet d0 q)) by reflexivity.
      rewrite Hsn. unfold sort_name_of, shown_name, name_entry_of, d_written_name. cbn [with_sheet with_text d_type ne_name d_name].
      assert (Hty : d_type d0 = DAutofilter \/ d_type d0 = DPrintArea \/ d_type d0 = DPrintTitles) by (
        rewrite Forall_forall in Htypes; destruct (Htypes s Hsin) as (T1 & T2 & T3);
        destruct Hd0 as [<-|[<-|[<-|[]]]]; auto).
      destruct Hty as [-> |[-> | ->]].
      + right; right. split; [apply (Hl (drop_quotes (lit "_FilterDatabase{}")) eq_refl)|]. apply (Hl (lit "_FilterDatabase") eq_refl).
      + right; left. split; [apply (Hl (drop_quotes (lit "Print_Area{}")) eq_refl)|]. apply (Hl (lit "Print_Area") eq_refl).
      + left. split; [apply (Hl (drop_quotes (lit "Print_Titles")) eq_refl)|]. apply (Hl (lit "Print_Titles") eq_refl). }
  rewrite Ef.
  assert (Hsorted : StronglySorted dn_le (sort_dnames l)) by apply sort_dnames_sorted.
  assert (Hin : forall d, In d (sort_dnames l) -> In d l) by (intros d; apply (Permutation_in _ (sort_dnames_perm l))).
  revert Hin. generalize (sort_dnames l) Hsorted. clear - Hall.
  induction 1 as [|d ds Hss IH Hd]; intros Hin; cbn [map]; constructor; [apply IH; intros; apply Hin; right; assumption|].
  rewrite Forall_forall in Hd |- *. intros e He. apply in_map_iff in He as (d2 & <- & Hd2). specialize (Hd d2 Hd2).
  assert (Hle : str_le (d_sort d) (d_sort d2)).
  { destruct Hd as [H|[E _]]; cbn [dkey fst] in *; [right; assumption|left; assumption]. }
  assert (H1 := Hall d (Hin d (or_introl eq_refl))). assert (H2 := Hall d2 (Hin d2 (or_intror Hd2))). clear Hd Hall Hin IH.
  (* left side: the shown name never exceeds the sort key *)
  assert (HL : str_le (bu_lower o (shown_name (name_entry_of d))) (d_sort d)).
  { destruct H1 as [(u & _ & _ & -> & _)|[(-> & ->)|[(-> & ->)|(-> & ->)]]]; [left; reflexivity|left; reflexivity| |].
    - exact (str_le_prefix (lit "print_area") (lit "{}")).
    - exact (str_le_prefix (lit "_filterdatabase") (lit "{}")). }
  assert (Hle2 : str_le (bu_lower o (shown_name (name_entry_of d))) (d_sort d2)) by (eapply str_le_trans; eassumption).
  destruct H2 as [(u & _ & _ & -> & _)|[(E2 & ->)|[(E2 & ->)|(E2 & ->)]]]; [assumption|rewrite <- E2; assumption| |].
  - rewrite E2 in Hle2. apply (strict_ext_le (lit "print_area")); [|exact Hle2].
    intros r Er. destruct H1 as [(u & _ & Es & E & (_ & Hp & _))|[(_ & E)|[(_ & E)|(_ & E)]]].
    + apply Hp. congruence.
    + rewrite E in Er. discriminate Er.
    + rewrite E in Er. injection Er as Er. auto.
    + rewrite E in Er. discriminate Er.
  - rewrite E2 in Hle2. apply (strict_ext_le (lit "_filterdatabase")); [|exact Hle2].
    intros r Er. destruct H1 as [(u & _ & Es & E & (_ & _ & Hp))|[(_ & E)|[(_ & E)|(_ & E)]]].
    + apply Hp. congruence.
    + rewrite E in Er. discriminate Er.
    + rewrite E in Er. discriminate Er.
    + rewrite E in Er. injection Er as Er. auto.
Qed.
Print Assumptions C46_sorted_by_shown_name_partial.

(** Finding: the sort key of a print area is the literal "print_area{}" (an
    unfilled format string), so a longer user name sorts before it. *)
Theorem C46_sorted_by_shown_name_refuted : exists b b' f,
  book_run Debug ascii_book book_new
    [OAdd; OSheet 0 (SPrintArea 0 0 9 2); ODefine (lit "Print_Area_2") (lit "=Sheet1!$A$1")] = Some b /\
  save_book Debug ascii_book b = Some (b', SaveOk f) /\
  map shown_name (bf_names f) = [lit "Print_Area_2"; lit "Print_Area"] /\
  ~ StronglySorted (fun e1 e2 => str_le (bu_lower ascii_book (shown_name e1)) (bu_lower ascii_book (shown_name e2))) (bf_names f).
Proof.
  apply (run_save_ok _ (fun f => map shown_name (bf_names f) = _ /\ ~ StronglySorted _ (bf_names f))).
  split; [vm_compute; reflexivity|].
  match goal with |- ~ StronglySorted _ (bf_names ?f) =>
    let v := eval vm_compute in (bf_names f) in replace (bf_names f) with v by (vm_compute; reflexivity) end.
  intros H. inversion H as [|a l Hl Ha]; subst. inversion Ha as [|x y Hx _]; subst.
  apply str_leb_spec in Hx. vm_compute in Hx. discriminate.
Qed.
Print Assumptions C46_sorted_by_shown_name_refuted.

(** Findings: a name defined as "!Foo" is accepted and bound to the first sheet;
    "'!x" is accepted and makes save panic; two equal names are both written. *)
Theorem C46_bad_prefixes_refuted :
  (exists b b' f, book_run Debug ascii_book book_new [OAdd; OAdd; ODefine (lit "!Foo") (lit "=1")] = Some b /\
     save_book Debug ascii_book b = Some (b', SaveOk f) /\
     bf_names f = [{| ne_name := lit "Foo"; ne_local := Some 0; ne_hidden := false; ne_range := lit "1" |}]) /\
  (exists b, book_run Debug ascii_book book_new [OAdd; ODefine (lit "'!x") (lit "=1")] = Some b /\
     save_book Debug ascii_book b = None) /\
  (exists b b' f, book_run Debug ascii_book book_new [OAdd; ODefine (lit "x") (lit "=1"); ODefine (lit "X") (lit "=2")] = Some b /\
     save_book Debug ascii_book b = Some (b', SaveOk f) /\ map ne_name (bf_names f) = [lit "x"; lit "X"]).
Proof.
  split; [|split].
  - apply (run_save_ok _ (fun f => bf_names f = _)). vm_compute. reflexivity.
  - apply run_save_panic. vm_compute. exact I.
  - apply (run_save_ok _ (fun f => map ne_name (bf_names f) = _)). vm_compute. reflexivity.
Qed.
Print Assumptions C46_bad_prefixes_refuted.

Example C46_example : exists b b' f,
  book_run Debug ascii_book book_new
    [OAdd; OAdd; OSheet 1 (SName (lit "My Data")); OSheet 1 (SPrintArea 2 1 9 3); OSheet 0 (SRepeatRows 0 1);
     ODefine (lit "'My Data'!Sales") (lit "='My Data'!$G$1"); ODefine (lit "Exchange") (lit "=0.95")] = Some b /\
  save_book Debug ascii_book b = Some (b', SaveOk f) /\
  map (fun e => (ne_name e, ne_local e, ne_range e)) (bf_names f) =
    [(lit "Exchange", None, lit "0.95"); (lit "_xlnm.Print_Area", Some 1, lit "'My Data'!$B$3:$D$10");
     (lit "_xlnm.Print_Titles", Some 0, lit "Sheet1!$1:$2"); (lit "Sales", Some 1, lit "'My Data'!$G$1")].
Proof. apply (run_save_ok _ _). vm_compute. reflexivity. Qed.
