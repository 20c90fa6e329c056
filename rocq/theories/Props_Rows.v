(** C92, C93: rows and cells of a sheet built with merged ranges, tables, filters and
    groups, from the calls to the text of the sheet and back. *)
From Verif Require Import Base SMap F64 Fmt_Model Xml_Model Xml_Spec Xml_Proofs Xml_Read Xml_Read_Proofs Xml_Tree Note_Spec
  Sst_Model Sst_Proofs Ref_Model Cells_Model Cells_Spec Cells_Proofs Cells_Save Cells_Hist Props_Cells Rich_Model
  SheetXml_Model SheetXml_Spec SheetXml_Proofs SheetXml_Proofs2 SheetXml_Proofs3 SheetXml_Proofs4 SheetXml_Proofs5 SheetXml_Proofs6 Props_SheetXml SheetXml_General
  Sheet_Model Sheet_Spec Sheet_Proofs3 Sheet_Hist5 SheetXml_Sops SheetXml_Rows Opts_Spec Opts_Hist Opts_Hist2 Opts_Hist4 Props_Group Merge_Model Props_Merge Table_Spec Props_Table Props_Sheet.
From Coq Require Import Permutation Sorted.
Open Scope N_scope.

(** What the file says about row [r], given the accepted calls [h]: [fs] are the
    formats of the sheet in the order they were registered, [g] their numbers in the
    style part.  A height is written for every row of a sheet whose default height
    was changed, and for a row whose own height is not 15. *)
Definition row_tells (num_text : f64 -> str) (fs : list Format) (g : N -> N) (h : list sop) (r : N) (f : frow) : Prop :=
  fr_hidden f = told_row_hidden r h /\ fr_level f = told_row_level r h /\ fr_collapsed f = told_row_collapsed r h /\
  (let default := told_default h in
   let height := match told_height r h with Some u => u | None => default end in
   fr_height f = if feq height (f_of_N 15) && feq default (f_of_N 15) then None else Some (num_text height)) /\
  match told_row_format r h with
  | None => fr_style f = None
  | Some fmt => exists i, nth_error fs (N.to_nat i) = Some fmt /\ fr_style f = if i =? 0 then None else Some (g i) end.

Section Rows.
  Variable num_text : f64 -> str.
  Variable read_num : str -> option f64.
  Variable m : ovf.
  Variable image_id : N -> N.
  Variable lower : str -> str.
  Variables before after : list str.
  Variable g : N -> N.
  Variable x14 : bool.

  (** The files of the sheet [s] of a workbook, whose other sheets contribute the
      strings [before] and [after]. *)
  Record in_files (s : sheet) (entries : list (str * N)) (items : list node) (rows : list frow) : Prop := {
    inf_strings : exists part attrs, shared_strings_part (table_after before after (cells s)) entries = Some part /\
                  read_document part = Some (Elem (lit "sst") attrs items);
    inf_sheet : exists text, sheet_data_text num_text m image_id (saved_ws before (cells s)) g x14 = Some text /\ read_sheet_data items text = Some rows }.

  Lemma text_start w : texts w = texts ws_standard -> texts_ok w.
  Proof.
    intros E. assert (T : texts_ok ws_standard).
    { split; (split; [|intros [[r E0] _]; discriminate E0]) || (split; [split|]).
      - intros c Hc; cbn in Hc; repeat destruct Hc as [<-|Hc]; try destruct Hc; cbn; repeat split; discriminate.
      - intros c Hc; cbn in Hc; repeat destruct Hc as [<-|Hc]; try destruct Hc; cbn; repeat split; discriminate.
      - intros c Hc; cbn in Hc; repeat destruct Hc as [<-|Hc]; try destruct Hc; cbn; repeat split; discriminate.
      - intros c Hc; cbn in Hc; repeat destruct Hc as [<-|Hc]; try destruct Hc; cbn; repeat split; discriminate.
      - split; [|reflexivity]. intros c Hc; cbn in Hc. destruct Hc as [<-|[]]. lia.
      - intros (sg & w0 & E0 & S & I). destruct S as [->|[->| ->]]; try discriminate E0. cbn in E0. subst w0. cbn in I.
        repeat destruct I as [I|I]; try discriminate I. destruct I. }
    unfold texts in E. refine (texts_frame ws_standard w _ _ _ _ T); congruence.
  Qed.

  (** Every sheet of a standard workbook that calls can build - merged ranges, tables,
      filters, groups, page breaks among them - is written as text that reads back:
      the cells the writer was asked for and no others, in rows in increasing order. *)
  Theorem C93_sheet_reads_back ops s entries :
    number_display num_text read_num -> srun lower fresh ops = Some s -> Forall sop_readable ops ->
    Forall string_ok before -> Forall string_ok after -> Permutation entries (strings (table_after before after (cells s))) ->
    exists items rows, in_files s entries items rows /\
      StronglySorted N.lt (map fr_row rows) /\
      (forall r c, Forall2 (fun v f => value_read read_num image_id (fst v) (fst f) /\ snd f = snd v)
                   (shown (sheet_rows (cells s) (table_before before) g) r c) (cells_at rows r c)) /\
      (forall f, In f rows -> row_says num_text (cells s) g (get (fr_row f) (changed_rows (cells s))) f) /\
      map fr_row rows = map o_row (sheet_rows (cells s) (table_before before) g).
  Proof.
    intros ND E R B A P. destruct (srun_std lower ops fresh s std_start E) as (S & M & _).
    assert (S0 : stored_ok (cells fresh)).
    { split; [exact std_start|]. split; [apply text_start; reflexivity|]. intros r c k x. discriminate. }
    destruct (stored_run lower ops R fresh s S0 E) as (_ & _ & V).
    assert (G : global_sst (cells s) = false) by (rewrite (m_gsst _ _ M); reflexivity).
    assert (L : last_row (cells s) < Cells_Model.ROW_MAX) by (apply (m_lr_max _ _ M); reflexivity).
    destruct (sheet_reads_all num_text read_num m image_id before after (cells s) g x14 entries ND S V G L B A P)
      as (text & part & attrs & items & rows & T1 & T2 & T3 & T4 & T5 & _ & T7 & T8).
    exists items, rows. split; [split; [exists part, attrs; split; assumption|exists text; split; assumption]|].
    split; [rewrite T7; apply rows_increase|]. split; [exact T5|]. split; [exact T8|exact T7].
  Qed.

  (** C92 for rows: every row that an accepted call was about is found, once, and what
      is found about any row is exactly what the accepted calls said about it. *)
  Theorem C92_rows_read_back ops s entries :
    number_display num_text read_num -> srun lower fresh ops = Some s -> groups_accepted lower fresh ops -> Forall sop_readable ops ->
    Forall string_ok before -> Forall string_ok after -> Permutation entries (strings (table_after before after (cells s))) ->
    let h := ok_calls lower fresh ops in
    exists items rows, in_files s entries items rows /\
      StronglySorted N.lt (map fr_row rows) /\
      (forall r, existsb (about_row r) h = true -> In r (map fr_row rows)) /\
      (forall f, In f rows -> row_tells num_text (xfs (cells s)) g h (fr_row f) f).
  Proof.
    intros ND E GA R B A P h. destruct (C93_sheet_reads_back ops s entries ND E R B A P) as (items & rows & F & Inc & _ & Says & Rows).
    exists items, rows. split; [exact F|]. split; [exact Inc|].
    pose proof (opts_new false false false [format_default] sst_new) as OO. change (sheet_new (ws_new false false false [format_default] sst_new)) with fresh in OO.
    destruct (told_run lower ops fresh s [] OO E GA (told_new false false false [format_default] sst_new)) as [_ T]. cbn [app] in T. fold h in T.
    assert (W : rows_within (cells s)).
    { refine (within_run lower ops fresh s OO std_start E _). intros r Hr. destruct (Hr eq_refl). }
    split.
    - intros r Hr. rewrite Rows. apply rows_written; [exact W|]. intros K. pose proof (rt_height _ _ _ (T r)) as H. rewrite K in H.
      assert (X : fst (fold_left (next_height r) h (None, f_of_N 15)) = None) by (rewrite H; reflexivity). apply told_height_known in X as [_ X]. congruence.
    - intros f Hf. specialize (Says f Hf). specialize (T (fr_row f)). destruct T as [T1 T2 T3 T4 T5]. unfold row_tells.
      assert (TH : told_height (fr_row f) h = match get (fr_row f) (changed_rows (cells s)) with Some o => Some (r_height o) | None => None end) by (unfold told_height; rewrite T1; reflexivity).
      assert (TD : told_default h = default_row_height (cells s)).
      { rewrite told_default_snoc. change (f_of_N 15) with (snd (@None f64, f_of_N 15)). rewrite <- (told_default_is (fr_row f) h (None, f_of_N 15)), T1. reflexivity. }
      cbv zeta. rewrite TH, TD, <- T2, <- T3, <- T4. unfold row_says, row_settings, custom in *.
      destruct (get (fr_row f) (changed_rows (cells s))) as [o|]; destruct Says as (Q1 & Q2 & Q3 & Q4 & Q5); (split; [exact Q1|]); (split; [exact Q2|]); (split; [exact Q3|]).
      + split.
        * rewrite Q5. change DEFAULT_ROW_HEIGHT with (f_of_N 15). destruct (feq (r_height o) (f_of_N 15)); cbn [negb andb orb]; [destruct (feq (default_row_height _) (f_of_N 15)); reflexivity|reflexivity].
        * destruct (told_row_format (fr_row f) h) as [fmt|]; [|rewrite Q4, T5; reflexivity]. exists (r_xf o). split; [exact T5|]. rewrite Q4. destruct (r_xf o); reflexivity.
      + split.
        * rewrite Q5. change DEFAULT_ROW_HEIGHT with (f_of_N 15). destruct (feq (default_row_height _) (f_of_N 15)); reflexivity.
        * destruct (told_row_format (fr_row f) h) as [fmt|]; [|exact Q4]. exists 0. split; [exact T5|]. exact Q4.
  Qed.

  (** The cells of a table: in the file, the header cell of a column shows its name,
      the data cells its formula and the total cell its label or formula. *)
  Lemma run_through pre o post : forall s0 s s1 s2, srun lower s0 pre = Some s -> sstep lower s o = Some (s1, None) -> srun lower s1 post = Some s2 -> srun lower s0 (pre ++ o :: post) = Some s2.
  Proof.
    induction pre as [|p pre IH]; intros s0 s s1 s2; cbn [srun app].
    - intros E E1 E2. assert (s0 = s) by congruence. subst s0. rewrite E1. exact E2.
    - destruct (sstep lower s0 p) as [[s3 e]|]; [|discriminate]. apply IH.
  Qed.
  Lemma one_read {s entries items rows} r c v st : in_files s entries items rows ->
    (forall r c, Forall2 (fun v f => value_read read_num image_id (fst v) (fst f) /\ snd f = snd v) (shown (sheet_rows (cells s) (table_before before) g) r c) (cells_at rows r c)) ->
    shown (sheet_rows (cells s) (table_before before) g) r c = [(v, st)] -> exists f, cells_at rows r c = [(f, st)] /\ value_read read_num image_id v f.
  Proof.
    intros _ F E. specialize (F r c). rewrite E in F. inversion F as [|? [f st'] ? ? [V1 V2] F2]; subst. inversion F2; subst. cbn [fst snd] in *. exists f. split; congruence || assumption.
  Qed.
  Theorem C93_table_cell_reads_back pre s fr fc lr lc t s1 T post s2 j c r v entries :
    number_display num_text read_num ->
    srun lower fresh pre = Some s -> add_table lower s fr fc lr lc t = Some (s1, None) -> tables s1 = tables s ++ [T] -> srun lower s1 post = Some s2 ->
    Forall sop_readable (pre ++ STable fr fc lr lc t :: post) ->
    Forall string_ok before -> Forall string_ok after -> Permutation entries (strings (table_after before after (cells s2))) ->
    nth_error (t_columns T) j = Some c -> column_value (default_result (cells s)) (t_header t) (t_serde t) (t_total t) fr lr c r v ->
    (forall o, In o post -> stouches o r (fc + N.of_nat j) = false) ->
    exists items rows f style, in_files s2 entries items rows /\ cells_at rows r (fc + N.of_nat j) = [(f, style)] /\ value_read read_num image_id v f.
  Proof.
    intros ND Hp Ht HT Hpost R B A P Hj Hv Hn. pose proof (run_through pre (STable fr fc lr lc t) post fresh s s1 s2 Hp Ht Hpost) as E.
    destruct (C93_sheet_reads_back _ s2 entries ND E R B A P) as (items & rows & F & _ & C & _).
    destruct (C54_file lower pre s fr fc lr lc t s1 T post s2 (table_before before) g j c r v Hp Ht HT Hj Hv Hpost Hn) as [style S].
    destruct (one_read _ _ _ _ F C S) as (f & F1 & F2). exists items, rows, f, style. auto.
  Qed.
  (** A merged range: its text is read in the first cell (a blank of its own if the text
      is empty), every other cell of the range is there with the format and no value. *)
  Theorem C93_merged_cell_reads_back pre s fr fc lr lc text f s1 post s2 r c entries :
    number_display num_text read_num ->
    srun lower fresh pre = Some s -> merge_range s fr fc lr lc text f = Some (s1, None) -> srun lower s1 post = Some s2 ->
    Forall sop_readable (pre ++ SMerge fr fc lr lc text f :: post) ->
    Forall string_ok before -> Forall string_ok after -> Permutation entries (strings (table_after before after (cells s2))) ->
    (forall o, In o post -> stouches o r c = false) -> fr <= r <= lr -> fc <= c <= lc -> f <> format_default -> (forall i, i <> 0 -> g i <> 0) ->
    exists items rows v i, in_files s2 entries items rows /\ nth_error (xfs (cells s2)) (N.to_nat i) = Some f /\
      cells_at rows r c = [(v, g i)] /\ value_read read_num image_id (merged_value fr fc text r c) v.
  Proof.
    intros ND Hp Hm Hpost R B A P Hn Hr Hc Hf Hg. pose proof (run_through pre (SMerge fr fc lr lc text f) post fresh s s1 s2 Hp Hm Hpost) as E.
    destruct (C93_sheet_reads_back _ s2 entries ND E R B A P) as (items & rows & F & _ & C & _).
    destruct (C53_merged_cells lower pre s fr fc lr lc text f s1 post s2 (table_before before) g r c Hp Hm Hpost Hn Hr Hc Hf Hg) as (i & S1 & S2).
    destruct (one_read _ _ _ _ F C S2) as (v & F1 & F2). exists items, rows, v, i. auto.
  Qed.
End Rows.
Print Assumptions C93_table_cell_reads_back.
Print Assumptions C93_sheet_reads_back.
Print Assumptions C92_rows_read_back.

(** ** A history that meets the hypotheses *)
Definition sample : list sop :=
  [SCell (SetRowHeight 1 (f_of_N 20)); SCell (SetRowFormat 1 bolded); SGroupRows 2 3 true; SCell (SetRowHidden 5); SCell (SetRowUnhidden 5);
   SCell (SetRowHeight 6 fzero); SCell (SetDefaultRowHeight (f_of_N 12)); SCell (SetRowHidden 2000000); SCell (SetColumnWidth 1 (f_of_N 20) false); SCell (SetColumnFormat 1 bolded);
   SGroupColumns 2 4 true; SCell (SetColumnHidden 7); SMerge 0 2 0 3 [65] bolded; STable 10 0 12 1 plain_table].
Example C92_met : exists s, srun plain fresh sample = Some s /\ groups_accepted plain fresh sample /\ Forall sop_readable sample.
Proof.
  eexists. split; [vm_compute; reflexivity|]. split.
  - unfold sample. repeat (cbn [groups_accepted]; eexists _, _; split; [vm_compute; reflexivity|split; [first [discriminate|intros _; reflexivity]|]]). exact Logic.I.
  - assert (T : text_ok [65]) by (split; [intros c [<-|[]]; cbn; repeat split; discriminate|intros [[r E] _]; discriminate E]).
    unfold sample. repeat (apply Forall_cons; [first [exact Logic.I|exact T|apply Forall_nil]|]). apply Forall_nil.
Qed.
(** What its accepted calls say (the hidden row 2000000 is not among them). *)
Example C92_sample_says : let h := ok_calls plain fresh sample in
  length h = 13%nat /\
  map (fun r => (told_row_hidden r h, told_row_level r h, told_row_collapsed r h)) [0; 1; 2; 3; 4; 5; 6] =
    [(false, 0, false); (false, 0, false); (true, 1, false); (true, 1, false); (false, 0, true); (false, 0, false); (true, 0, false)] /\
  map (fun r => told_height r h) [0; 1; 2; 5; 6] = [None; Some (f_of_N 20); Some (f_of_N 15); Some (f_of_N 15); Some (f_of_N 15)] /\
  told_default h = f_of_N 12 /\ told_row_format 1 h = Some bolded /\ told_row_format 2 h = None /\
  map (fun c => (told_col_hidden c h, told_col_level c h, told_col_collapsed c h)) [1; 2; 4; 5; 7] =
    [(false, 0, false); (true, 1, false); (true, 1, false); (false, 0, true); (true, 0, false)] /\
  map (fun c => told_width c h) [1; 2; 6] = [(true, f_of_N 20, false); (true, f_dec 843 2, false); (false, f_dec 843 2, false)] /\
  told_col_format 1 h = Some bolded.
Proof. vm_compute. repeat split. Qed.
(** ** What a user could expect and does not get *)
(** A row whose height no call gives does not follow the default height of the sheet:
    if a call was about it before the default was changed, it keeps the old one. *)
Theorem C92_rows_follow_default_refuted num_text read_num m image_id g x14 :
  number_display num_text read_num ->
  let ops := [SCell (SetRowFormat 1 bolded); SCell (SetDefaultRowHeight (f_of_N 20)); SCell (SetRowFormat 2 bolded)] in
  exists s items rows f1 f2, srun plain fresh ops = Some s /\
    in_files num_text m image_id [] [] g x14 s (strings (table_after [] [] (cells s))) items rows /\
    In f1 rows /\ In f2 rows /\ fr_row f1 = 1 /\ fr_row f2 = 2 /\
    fr_height f1 = Some (num_text (f_of_N 15)) /\ fr_height f2 = Some (num_text (f_of_N 20)).
Proof.
  intros ND ops. destruct (srun plain fresh ops) as [s|] eqn:E; [|vm_compute in E; discriminate E].
  assert (GA : groups_accepted plain fresh ops).
  { unfold ops. repeat (cbn [groups_accepted]; eexists _, _; split; [vm_compute; reflexivity|split; [first [discriminate|intros _; reflexivity]|]]). exact Logic.I. }
  assert (R : Forall sop_readable ops) by (unfold ops; repeat constructor).
  destruct (C92_rows_read_back num_text read_num m image_id plain [] [] g x14 ops s (strings (table_after [] [] (cells s))) ND E GA R) as (items & rows & F & Inc & About & Tells);
    [constructor|constructor|apply Permutation_refl|].
  pose proof (About 1 ltac:(vm_compute; reflexivity)) as A1. pose proof (About 2 ltac:(vm_compute; reflexivity)) as A2.
  apply in_map_iff in A1 as (f1 & R1 & I1). apply in_map_iff in A2 as (f2 & R2 & I2).
  exists s, items, rows, f1, f2. split; [reflexivity|]. split; [exact F|]. split; [exact I1|]. split; [exact I2|]. split; [exact R1|]. split; [exact R2|].
  pose proof (Tells f1 I1) as (_ & _ & _ & H1 & _). pose proof (Tells f2 I2) as (_ & _ & _ & H2 & _). rewrite R1 in H1. rewrite R2 in H2.
  split; [rewrite H1|rewrite H2]; clear.
  - match goal with |- (if ?b then _ else Some (num_text ?u)) = _ => let b' := eval vm_compute in b in change b with b'; replace u with (f_of_N 15) by (vm_compute; reflexivity) end. reflexivity.
  - match goal with |- (if ?b then _ else Some (num_text ?u)) = _ => let b' := eval vm_compute in b in change b with b'; replace u with (f_of_N 20) by (vm_compute; reflexivity) end. reflexivity.
Qed.
