(** C21 column definitions, C22 merged ranges and tables, C23 page breaks,
    C39 outline levels. *)
From Verif Require Import Base SMap SortLib F64 Fmt_Model Sst_Model Cells_Model Cells_Proofs Sheet_Model Sheet_Spec Opts_Frame Sheet_Proofs Sheet_Proofs2 Sheet_Proofs3.

Section Histories.
(** [str::to_lowercase] is arbitrary. *)
Variable lower : str -> str.
(** A worksheet of any mode (standard, constant or low memory) after any
    history of calls that did not panic. *)
Definition reachable (s : sheet) : Prop :=
  exists cmem inl gsst regs t ops, srun lower (sheet_new (ws_new cmem inl gsst regs t)) ops = Some s.

Lemma reach_claims s : reachable s -> claims_ok s.
Proof. intros (a & b & c & d & t & ops & E). exact (claims_ok_run lower ops _ _ (claims_ok_new _) E). Qed.
Lemma reach_opts s : reachable s -> opts_ok s.
Proof. intros (a & b & c & d & t & ops & E). exact (opts_run lower ops _ _ (opts_new a b c d t) E). Qed.

(** * C22 *)
(** The <mergeCell> ranges of a worksheet never share a cell, have more than
    one cell and lie within the sheet, whatever was called before. *)
Theorem C22_merged_ranges_disjoint s : reachable s ->
  pairwise_disjoint (ranges (merges s)) /\
  Forall (fun R => within_limits R /\ more_than_one_cell R) (ranges (merges s)).
Proof. intros H. destruct (reach_claims s H). split; [apply owned_disjoint; assumption|assumption]. Qed.
(** The same for the ranges of the tables of a worksheet. *)
Theorem C22_table_ranges_disjoint s : reachable s ->
  pairwise_disjoint (map t_range (tables s)) /\ Forall within_limits (map t_range (tables s)).
Proof. intros H. destruct (reach_claims s H) as [A B C D E]. rewrite E. split; [apply owned_disjoint; assumption|assumption]. Qed.

(** A merge that shares a cell with an accepted one is not accepted. *)
Theorem C22_overlapping_merge_rejected s R fr fc lr lc r c text f s' : reachable s ->
  In R (ranges (merges s)) -> in_rng R r c -> fr <= r <= lr -> fc <= c <= lc ->
  merge_range s fr fc lr lc text f <> Some (s', None).
Proof.
  intros H HR Hin Hr Hc E. destruct (reach_claims s H) as [A _ _ _ _]. apply merge_claims in E as (_ & _ & _ & C).
  destruct C as [(_ & l & Cl & _)|[(Q & _)|(Q & _)]]; [|discriminate|congruence].
  apply In_nth_error in HR as (i & HR). destruct (claim_done _ _ _ _ _ Cl r c) as [_ B]; [apply in_range_cells; tauto|].
  rewrite (A i R r c HR Hin) in B. discriminate.
Qed.
Theorem C22_overlapping_table_rejected s T fr fc lr lc r c t s' : reachable s ->
  In T (tables s) -> in_rng (t_range T) r c -> fr <= r <= lr -> fc <= c <= lc ->
  add_table lower s fr fc lr lc t <> Some (s', None).
Proof.
  intros H HR Hin Hr Hc E. destruct (reach_claims s H) as [_ A _ _ TT]. apply table_claims in E as (_ & C).
  destruct C as [(_ & l & t' & Cl & _)|[(Q & _)|[(Q & _)|(Q & _)]]]; [|discriminate|discriminate|congruence].
  apply (in_map t_range) in HR. rewrite TT in HR.
  apply In_nth_error in HR as (i & HR). destruct (claim_done _ _ _ _ _ Cl r c) as [_ B]; [apply in_range_cells; tauto|].
  rewrite (A i _ r c HR Hin) in B. discriminate.
Qed.
(** A valid merge that shares no cell with the accepted ones is accepted, as
    long as no earlier call was rejected for overlapping (see the refutation
    below for why this is needed). *)
Theorem C22_free_merge_accepted cmem inl gsst regs t ops s fr fc lr lc text f :
  overlaps_never lower (sheet_new (ws_new cmem inl gsst regs t)) ops ->
  srun lower (sheet_new (ws_new cmem inl gsst regs t)) ops = Some s ->
  fr <= lr < 1048576 -> fc <= lc < 16384 -> (fr, fc) <> (lr, lc) -> N.of_nat (length text) <= 32767 ->
  (forall R r c, In R (ranges (merges s)) -> fr <= r <= lr -> fc <= c <= lc -> ~ in_rng R r c) ->
  exists s', merge_range s fr fc lr lc text f = Some (s', None) /\
    ranges (merges s') = ranges (merges s) ++ [{| r0 := fr; c0 := fc; r1 := lr; c1 := lc |}].
Proof.
  intros Hn Hs Hr Hc Hne Hl Hfree. destruct (clean_run lower ops _ _ (clean_new _) Hn Hs) as [Cm _].
  destruct (merge_accepted s fr fc lr lc text f Hr Hc Hne Hl) as (s' & E).
  - intros r c Hr' Hc'. destruct (owner_of r c (owner (merges s))) as [i|] eqn:Q; [|reflexivity].
    destruct (Cm r c i Q) as (R & HR & Hin). exfalso. exact (Hfree R r c (nth_error_In _ _ HR) Hr' Hc' Hin).
  - exists s'. split; [exact E|]. apply merge_claims in E as (_ & _ & _ & C).
    destruct C as [(_ & l & Cl & -> & _)|[(Q & _)|(Q & _)]]; [reflexivity|discriminate|congruence].
Qed.
(** A rejected call leaves the accepted ranges and tables as they were. *)
Theorem C22_rejected_keeps_ranges_partial s o s' e : sstep lower s o = Some (s', Some e) ->
  ranges (merges s') = ranges (merges s) /\ tables s' = tables s.
Proof.
  destruct o; cbn [sstep].
  - intros [= <- _]. auto.
  - intros E. apply merge_claims in E as (_ & T & _ & C). split; [|exact T].
    destruct C as [(Q & _)|[(_ & l & _ & ->)|(_ & _ & ->)]]; [discriminate|reflexivity|reflexivity].
  - intros E. apply table_claims in E as (-> & C). split; [reflexivity|].
    destruct C as [(Q & _)|[(_ & T & _)|[(_ & T & _)|(_ & _ & _ & T & _)]]]; [discriminate|exact T|exact T|exact T].
  - intros E. apply autofilter_frame in E as (_ & -> & _ & ->). auto.
  - intros [= <- _]. auto.
  - intros [= <- _]. auto.
  - destruct (page_breaks _ _ _ _) as [[b0 e0]|]; [|discriminate]. intros [= <- _]. auto.
  - destruct (page_breaks _ _ _ _) as [[b0 e0]|]; [|discriminate]. intros [= <- _]. auto.
Qed.

(** * C21 *)
(** The <col> elements written (for any iteration order of the HashMap): in
    increasing order without overlap, within A..XFD. *)
Theorem C21_ranges_increasing s g iter : reachable s -> Permutation iter (changed_cols (cells s)) ->
  StronglySorted (fun d e => cd_max d < cd_min e) (cols_xml g iter) /\
  Forall (fun d => 1 <= cd_min d /\ cd_min d <= cd_max d <= 16384) (cols_xml g iter).
Proof.
  intros H HP. destruct (reach_opts s H) as [A _]. pose proof (cols_sorted iter _ (cc_ok _ A) HP) as E.
  unfold cols_xml, write_cols. rewrite E. destruct (changed_cols (cells s)) as [|[c o] rest] eqn:M; [split; constructor|].
  assert (Hw : Forall (fun p => width_ok (snd p)) ((c, o) :: rest)).
  { apply Forall_forall. intros [k p] Hin. apply (cc_w _ A k p). rewrite M. apply In_get; [|exact Hin]. rewrite <- M. apply (cc_ok _ A). }
  inversion Hw as [|? ? Hwo Hwr]; subst. pose proof (cc_ok _ A) as Hok. rewrite M in Hok. unfold ok in Hok. cbn [keys map fst] in Hok.
  destruct (coalesce_spec rest c c o (N.le_refl c) Hok Hwo Hwr) as (_ & I2 & I3 & I4 & _). split.
  - clear - I2. induction I2 as [|d D Hs IH Hf]; cbn [map]; constructor; [exact IH|]. apply Forall_forall. intros x Hx. apply in_map_iff in Hx as ([[f l] q] & <- & Hx).
    rewrite Forall_forall in Hf. specialize (Hf _ Hx). destruct d as [[f0 l0] q0]. cbn in *. lia.
  - apply Forall_forall. intros x Hx. apply in_map_iff in Hx as ([[f l] q] & <- & Hx). cbn. rewrite Forall_forall in I3. pose proof (I3 _ Hx) as Hfl. cbn in Hfl.
    assert (In l (keys ((c, o) :: rest))) as Hl.
    { destruct (proj1 (I4 l)) as [Hl|Hl]; [exists f, l, q; split; [exact Hx|lia]|left; cbn; lia|right; exact Hl]. }
    apply in_map_iff in Hl as ([k p] & Hk & Hl). cbn in Hk. subst k.
    assert (l < 16384). { apply (cc_lim _ A l p). rewrite M. apply In_get; [|exact Hl]. rewrite <- M. apply (cc_ok _ A). } lia.
Qed.
(** Expanding the elements gives back the configured columns: a column lies in
    an element exactly if it was configured, and then that element carries the
    settings of the column itself (as if it were written alone). *)
Theorem C21_expands_to_settings s g iter : reachable s -> Permutation iter (changed_cols (cells s)) ->
  (forall c, (exists d, In d (cols_xml g iter) /\ covers_col d c) <-> get c (changed_cols (cells s)) <> None) /\
  (forall c o d, get c (changed_cols (cells s)) = Some o -> In d (cols_xml g iter) -> covers_col d c ->
     same_column_settings d (col_element g (c, c, o))).
Proof.
  intros H HP. destruct (reach_opts s H) as [A _]. pose proof (cols_sorted iter _ (cc_ok _ A) HP) as E.
  unfold cols_xml, write_cols. rewrite E. destruct (changed_cols (cells s)) as [|[c0 o0] rest] eqn:M.
  { split; [intros c; split; [intros (d & [] & _)|cbn; congruence]|intros c o d; discriminate]. }
  assert (Hw : Forall (fun p => width_ok (snd p)) ((c0, o0) :: rest)).
  { apply Forall_forall. intros [k p] Hin. apply (cc_w _ A k p). rewrite M. apply In_get; [|exact Hin]. rewrite <- M. apply (cc_ok _ A). }
  inversion Hw as [|? ? Hwo Hwr]; subst. pose proof (cc_ok _ A) as Hok. rewrite M in Hok. pose proof Hok as Hok'. unfold ok in Hok. cbn [keys map fst] in Hok.
  destruct (coalesce_spec rest c0 c0 o0 (N.le_refl c0) Hok Hwo Hwr) as (_ & I2 & I3 & I4 & I5 & _). split.
  - intros c. rewrite get_keys. cbn [keys map fst In]. split.
    + intros (d & Hd & Hc). apply in_map_iff in Hd as ([[f l] q] & <- & Hd). unfold covers_col in Hc. cbn in Hc.
      destruct (proj1 (I4 c)) as [Hk|Hk]; [exists f, l, q; split; [exact Hd|lia]|left; lia|right; exact Hk].
    + intros Hk. destruct (proj2 (I4 c)) as (f & l & q & Hd & Hc); [destruct Hk as [<-|Hk]; [left; lia|right; exact Hk]|].
      exists (col_element g (f, l, q)). split; [apply in_map; exact Hd|]. unfold covers_col. cbn. lia.
  - intros c o d Hg Hd Hc. apply in_map_iff in Hd as ([[f l] q] & <- & Hd). unfold covers_col in Hc. cbn in Hc.
    assert (q = o) as ->.
    { assert (In (c, q) ((c0, o0) :: rest)) as Hin.
      { destruct (I5 f l q c Hd ltac:(lia)) as [[Hk ->]|Hk]; [left; f_equal; lia|right; exact Hk]. }
      apply (In_get c q _ Hok') in Hin. congruence. }
    repeat split.
Qed.
(** Adjacent elements differ in the options of their columns (a NaN width is
    different from itself), so no longer run could have been written. *)
Theorem C21_adjacent_elements_differ s iter : reachable s -> Permutation iter (changed_cols (cells s)) ->
  forall i a b, nth_error (write_cols iter) i = Some a -> nth_error (write_cols iter) (S i) = Some b ->
  fst (fst b) = snd (fst a) + 1 -> is_nan (c_width (snd a)) = false -> snd b <> snd a.
Proof.
  intros H HP. destruct (reach_opts s H) as [A _]. pose proof (cols_sorted iter _ (cc_ok _ A) HP) as E.
  unfold write_cols. rewrite E. destruct (changed_cols (cells s)) as [|[c0 o0] rest] eqn:M; [intros [|i]; discriminate|].
  assert (Hw : Forall (fun p => width_ok (snd p)) ((c0, o0) :: rest)).
  { apply Forall_forall. intros [k p] Hin. apply (cc_w _ A k p). rewrite M. apply In_get; [|exact Hin]. rewrite <- M. apply (cc_ok _ A). }
  inversion Hw as [|? ? Hwo Hwr]; subst. pose proof (cc_ok _ A) as Hok. rewrite M in Hok. unfold ok in Hok. cbn [keys map fst] in Hok.
  destruct (coalesce_spec rest c0 c0 o0 (N.le_refl c0) Hok Hwo Hwr) as (_ & _ & _ & _ & _ & I6). exact I6.
Qed.

(** * C39 *)
(** Outline levels never exceed 7, whatever was called and whatever was
    rejected. *)
Theorem C39_levels_at_most_7 s r c : reachable s -> row_level (cells s) r <= 7 /\ col_level (cells s) c <= 7.
Proof.
  intros H. destruct (reach_opts s H) as [A B]. split; [apply (rr_lev _ B)|].
  unfold col_level. destruct (get c (changed_cols (cells s))) as [o|] eqn:E; [exact (cc_lev _ A c o E)|lia].
Qed.
(** When no grouping call was rejected, the level of every row and column is
    the number of groups that cover it. *)
Theorem C39_level_counts_groups cmem inl gsst regs t ops s r c :
  groups_accepted lower (sheet_new (ws_new cmem inl gsst regs t)) ops ->
  srun lower (sheet_new (ws_new cmem inl gsst regs t)) ops = Some s ->
  row_level (cells s) r = row_groups r ops /\ col_level (cells s) c = col_groups c ops.
Proof.
  intros Ha Hs. destruct (levels_run lower ops _ _ (opts_new cmem inl gsst regs t) Ha Hs) as [L1 L2].
  rewrite L1, L2. split; reflexivity.
Qed.
(** The outlineLevelRow/outlineLevelCol attributes: if some row (column) has a
    level of at least 2, the attribute is the greatest level.  The full
    statement (the attribute is the greatest level, whatever it is) is false:
    see C39_single_level_not_announced_refuted. *)
Theorem C39_announced_level_partial s : reachable s ->
  (forall r, 2 <= row_level (cells s) r -> exists m, outline_level_row (cells s) = Some m /\
      (exists r', row_level (cells s) r' = m) /\ forall r', row_level (cells s) r' <= m) /\
  (forall c, 2 <= col_level (cells s) c -> exists m, outline_level_col (cells s) = Some m /\
      (exists c', col_level (cells s) c' = m) /\ forall c', col_level (cells s) c' <= m).
Proof.
  intros H. destruct (reach_opts s H) as [A B]. split.
  - intros r Hr. destruct (rr_max _ B) as (_ & M2 & M3). pose proof (M2 r Hr). unfold outline_level_row.
    destruct (N.ltb_spec 0 (max_row_level (cells s))); [|lia]. eexists; split; [reflexivity|].
    assert (U : forall r', row_level (cells s) r' <= max_row_level (cells s)).
    { intros r'. destruct (N.le_gt_cases 2 (row_level (cells s) r')) as [Q|Q]; [apply M2; exact Q|lia]. }
    split; [|exact U]. destruct M3 as [M3|(r' & M3)]; [lia|]. exists r'. specialize (U r'). lia.
  - intros c Hc. destruct (cc_max _ A) as (_ & M2 & M3). pose proof (M2 c Hc). unfold outline_level_col.
    destruct (N.ltb_spec 0 (max_col_level (cells s))); [|lia]. eexists; split; [reflexivity|].
    assert (U : forall r', col_level (cells s) r' <= max_col_level (cells s)).
    { intros r'. destruct (N.le_gt_cases 2 (col_level (cells s) r')) as [Q|Q]; [apply M2; exact Q|lia]. }
    split; [|exact U]. destruct M3 as [M3|(r' & M3)]; [lia|]. exists r'. specialize (U r'). lia.
Qed.
End Histories.

(** * C23 *)
(** [set] is any iteration order of the set of the values given. *)
Theorem C23_breaks_stored limit breaks set old : NoDup set -> (forall x, In x set <-> In x breaks) ->
  match page_breaks limit breaks set old with
  | None => breaks <> [] /\ forall x, In x breaks -> x = 0
  | Some (stored, None) =>
      (breaks = [] /\ stored = old) \/
      (StronglySorted N.lt stored /\ (forall x, In x stored <-> In x breaks /\ x <> 0) /\
       (forall x, In x stored -> 0 < x < limit) /\ (length stored <= 1023)%nat /\ stored <> [])
  | Some (stored, Some e) => stored = old /\
      ((e = STooManyBreaks /\ exists bs, NoDup bs /\ (forall x, In x bs <-> In x breaks /\ x <> 0) /\ (1023 < length bs)%nat) \/
       (e = SE RowColumnLimit /\ exists x, In x breaks /\ limit <= x))
  end.
Proof.
  intros Hn Hin. unfold page_breaks. destruct breaks as [|b0 breaks]; [left; auto|].
  assert (Hne : set <> []). { intros ->. destruct (proj2 (Hin b0) (or_introl eq_refl)). }
  destruct (process_spec set Hn Hne) as (bs & Hs & Hbs & ->).
  assert (Hbs' : forall x, In x bs <-> In x (b0 :: breaks) /\ x <> 0) by (intros x; rewrite Hbs, Hin; reflexivity).
  destruct (N.ltb_spec 1023 (N.of_nat (length bs))) as [H1023|H1023].
  - split; [reflexivity|]. left. split; [reflexivity|]. exists bs. split; [|split; [exact Hbs'|lia]].
    clear - Hs. induction Hs as [|x l Hs IH Hf]; constructor; [|exact IH]. intros Hx. rewrite Forall_forall in Hf. specialize (Hf x Hx). lia.
  - destruct (rev bs) as [|m t] eqn:E.
    + assert (bs = []) as -> by (rewrite <- (rev_involutive bs), E; reflexivity). split; [discriminate|]. intros x Hx.
      destruct (N.eq_dec x 0) as [|Hx0]; [assumption|]. destruct (proj2 (Hbs' x) (conj Hx Hx0)).
    + destruct (last_max bs m t Hs E) as [Hm Hmax]. destruct (N.leb_spec limit m) as [Hl|Hl].
      * split; [reflexivity|]. right. split; [reflexivity|]. exists m. split; [apply Hbs', Hm|exact Hl].
      * right. split; [exact Hs|]. split; [exact Hbs'|]. split; [|split; [lia|intros ->; destruct Hm]].
        intros x Hx. specialize (Hmax x Hx). apply Hbs' in Hx. lia.
Qed.
Example C23_met : page_breaks 100 [20; 0; 5; 20] [5; 20; 0] [7] = Some ([5; 20], None) /\
  page_breaks 100 [20; 100] [100; 20] [7] = Some ([7], Some (SE RowColumnLimit)).
Proof. split; reflexivity. Qed.
(** set_page_breaks(&[0]) panics (src/worksheet.rs:12831): the list is empty
    after removing 0. *)
Theorem C23_only_zero_panics_refuted : page_breaks ROW_MAX [0] [0] [] = None.
Proof. reflexivity. Qed.

(** * Witnesses and refutations *)
Definition plain : str -> str := fun s => s.
Lemma run_view {A} : forall (o : option sheet) (f : sheet -> A) v, option_map f o = Some v -> exists s, o = Some s /\ f s = v.
Proof. intros [s|] f v H; [|discriminate]. exists s. split; [reflexivity|]. cbn in H. now inversion H. Qed.
Definition fresh := sheet_new ws_standard.
Definition bolded : Format := format_merge format_hyperlink format_default.
Example C22_met : exists s, srun plain fresh [SMerge 0 2 0 3 [65] bolded; SMerge 3 0 5 1 [66] bolded] = Some s /\
  overlaps_never plain fresh [SMerge 0 2 0 3 [65] bolded; SMerge 3 0 5 1 [66] bolded] /\ length (ranges (merges s)) = 2%nat.
Proof.
  eexists. split; [vm_compute; reflexivity|]. split; [|vm_compute; reflexivity].
  do 2 eexists. split; [vm_compute; reflexivity|]. split; [reflexivity|].
  do 2 eexists. split; [vm_compute; reflexivity|]. split; [reflexivity|exact I].
Qed.
(** A merge rejected for overlapping has already overwritten the cells of its
    range: the user's text "K" in A1 is gone. *)
Theorem C22_rejected_merge_changes_cells_refuted :
  exists s s', srun plain fresh [SCell (WriteString 0 0 (lit "K") None); SMerge 0 2 0 3 [65] bolded] = Some s /\
    merge_range s 0 0 0 2 [66] bolded = Some (s', Some SMergeOverlap) /\
    table_get 0 0 (data (cells s)) = Some (CString (lit "K") None, 0) /\
    table_get 0 0 (data (cells s')) = Some (CString [66] None, 1).
Proof. do 2 eexists. split; [vm_compute; reflexivity|]. split; [vm_compute; reflexivity|]. split; (vm_compute; reflexivity). Qed.
(** After a rejected merge, merging a range that overlaps no accepted range
    panics (src/worksheet.rs:5020: the index of the rejected range is looked up). *)
Theorem C22_merge_after_rejection_panics_refuted :
  exists s, srun plain fresh [SMerge 0 2 0 3 [65] bolded; SMerge 0 0 0 2 [66] bolded] = Some s /\
    ranges (merges s) = [{| r0 := 0; c0 := 2; r1 := 0; c1 := 3 |}] /\ merge_range s 0 0 0 1 [67] bolded = None.
Proof. eexists. split; [vm_compute; reflexivity|]. split; (vm_compute; reflexivity). Qed.
(** The same for tables: a table rejected because of the sheet's autofilter
    makes a later table on a free range panic. *)
Definition plain_table : tbl := {| t_columns := []; t_name := []; t_header := true; t_total := false; t_autofilter := true; t_serde := false; t_range := {| r0 := 0; c0 := 0; r1 := 0; c1 := 0 |} |}.
Theorem C22_table_after_rejection_panics_refuted :
  exists s, srun plain fresh [SAutofilter 0 0 4 1; STable 0 0 3 1 plain_table] = Some s /\
    tables s = [] /\ add_table plain s 1 0 3 1 plain_table = None.
Proof. eexists. split; [vm_compute; reflexivity|]. split; (vm_compute; reflexivity). Qed.

Example C21_met : exists s, srun plain fresh [SCell (SetColumnWidth 3 (f_of_N 20) false); SCell (SetColumnWidth 2 (f_of_N 20) false);
    SCell (SetColumnHidden 5); SCell (SetColumnWidth 4 (f_of_N 21) false)] = Some s /\
  map (fun d => (cd_min d, cd_max d, cd_hidden d)) (cols_xml (fun x => x) (changed_cols (cells s))) = [(3, 4, false); (5, 5, false); (6, 6, true)].
Proof. apply run_view. vm_compute. reflexivity. Qed.
(** Two adjacent columns with the same written attributes can be written as two
    elements: options that do not show (a stale copy of the format) differ. *)
Theorem C21_adjacent_equal_elements_refuted :
  exists s d e, srun plain fresh [SCell (SetColumnFormat 0 bolded); SCell (SetColumnWidth 1 DEFAULT_COL_WIDTH false); SCell (SetColumnFormat 1 bolded)] = Some s /\
    cols_xml (fun x => x) (changed_cols (cells s)) = [d; e] /\ cd_max d + 1 = cd_min e /\ same_column_settings d e.
Proof. do 3 eexists. split; [vm_compute; reflexivity|]. split; [vm_compute; reflexivity|]. split; [reflexivity|repeat split; (vm_compute; reflexivity)]. Qed.

Example C39_met : groups_accepted plain fresh [SGroupRows 1 5 false; SGroupRows 2 3 true; SGroupColumns 0 2 false] /\
  exists s, srun plain fresh [SGroupRows 1 5 false; SGroupRows 2 3 true; SGroupColumns 0 2 false] = Some s /\
   row_level (cells s) 3 = 2 /\ row_level (cells s) 5 = 1 /\ outline_level_row (cells s) = Some 2.
Proof.
  split; [|eexists; split; [vm_compute; reflexivity|repeat split; (vm_compute; reflexivity)]].
  do 2 eexists; split; [vm_compute; reflexivity|split; [reflexivity|]].
  do 2 eexists; split; [vm_compute; reflexivity|split; [reflexivity|]].
  do 2 eexists; split; [vm_compute; reflexivity|split; [reflexivity|exact I]].
Qed.
(** A single level of grouping is not announced in <sheetFormatPr>: rows have
    level 1 but outlineLevelRow is not written. *)
Theorem C39_single_level_not_announced_refuted :
  exists s, srun plain fresh [SGroupRows 1 5 false] = Some s /\ row_level (cells s) 3 = 1 /\ outline_level_row (cells s) = None.
Proof. eexists. split; [vm_compute; reflexivity|]. split; (vm_compute; reflexivity). Qed.
(** A rejected grouping call is applied to the rows before the offending one. *)
Theorem C39_rejected_group_half_applied_refuted :
  exists s s', srun plain fresh (repeat (SGroupRows 3 3 false) 7) = Some s /\ sstep plain s (SGroupRows 1 4 false) = Some (s', Some (SE MaxGroupLevel)) /\
    row_level (cells s) 1 = 0 /\ row_level (cells s') 1 = 1 /\ row_level (cells s') 4 = 0.
Proof. do 2 eexists. split; [vm_compute; reflexivity|]. split; [vm_compute; reflexivity|]. repeat split; (vm_compute; reflexivity). Qed.
