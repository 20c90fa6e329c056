(** C95: from the calls on a constant-memory sheet to the look of a cell in the file. *)
From Coq Require Import Permutation Lia.
From Verif Require Import Base SMap F64 Fmt_Model Xml_Model Xml_Spec Xml_Read Xml_Tree Ref_Spec Sst_Model Cells_Model Cells_Spec Cells_Proofs Cells_Proofs2 Cells_Inv Cells_Save Cells_Hist Props_Cells Reg_Model Reg_Proofs
  Const_Spec Const_Proofs Const_Sim Const_Run Props_Const
  Styles_Model Rich_Model Rich_Proofs SheetXml_Model SheetXml_Spec SheetXml_Proofs5 SheetXml_Proofs6 Props_SheetXml
  FmtOps_Model Color_Spec StylesXml_Model StylesXml_Spec StylesXml_Proofs StylesXml_Proofs2 StylesXml_Proofs3 StylesXml_Proofs5 E2E_Proofs Props_StylesXml Props_EndToEnd
  Stream_Model Stream_Spec Props_Stream Stream_From.

(** In the worksheet part [sheet_text], with shared strings [items], cell (r, c) is
    written once; its value is [v] and its style number selects, in the styles part
    [styles_text], the look [look]. *)
Definition looks_in (styles_text : str) (read_num : str -> option f64) (items : list node) (sheet_text : str) (r c : N) (v : value) (look : rstyle) : Prop :=
  exists rows f number styles_doc, read_sheet_data items sheet_text = Some rows /\ cells_at rows r c = [(f, number)] /\ value_read read_num (fun i => i) v f /\
    read_document styles_text = Some styles_doc /\ read_style styles_doc number = Some look.

Section File.
  (** The sheet, in either low-memory mode: [rg] are the formats the workbook had when it
      was added, [before] the strings; [later] and [after] the formats and strings that
      came afterwards from the rest of the workbook. *)
  Variables (inl gs : bool) (rg later dxfs : list Format) (link comments : bool) (before after : list str).
  Variables (num_text : f64 -> str) (read_num : str -> option f64) (m : ovf) (calls : list (op * bool)) (x14 : bool) (entries : list (str * N)).
  Let ops := map fst calls.
  Let final := end_state inl gs rg before calls.
  Definition file_formats : list Format := xfs (end_state inl gs rg before calls) ++ later.
  Definition file_styles : str := styles_part file_formats dxfs link comments.
  Hypothesis low : inl || gs = true.
  Hypothesis first : nth_error rg 0 = Some format_default.
  Hypothesis few : N.of_nat (length file_formats + length dxfs) <= 65000.
  Hypothesis good : Forall format_texts (rg ++ later ++ dxfs) /\ Forall made (flat_map op_formats ops).
  (** The workbook's flag for the hyperlink cell style, from a scan of all formats (src/workbook.rs:2058-2066). *)
  Hypothesis flagged : link = existsb link_format file_formats.
  Hypothesis display : number_display num_text read_num.
  Hypothesis readable : Forall op_readable ops.
  Hypothesis strings_before : Forall string_ok before.
  Hypothesis strings_after : Forall string_ok after.
  Hypothesis table_order : Permutation entries (strings (last_table inl gs rg before after calls)).
  Hypothesis ordered : row_ordered (start rg) 0 ops.

  Lemma file_texts : Forall format_texts (file_formats ++ dxfs).
  Proof.
    destruct good as [G Gm]. apply Forall_app in G as [G1 G]. apply Forall_app in G as [G2 G3]. apply Forall_app. split; [|exact G3]. apply Forall_app. split; [|exact G2].
    apply (run_fp format_texts merge_texts (map fst calls) (new_streamed inl gs rg before)).
    - eapply Forall_impl; [|exact Gm]. apply made_texts.
    - split; [exact G1|]. split; intros k o f [].
  Qed.
  Let doc : node := node_of (styles_root file_formats dxfs link comments).
  Lemma file_styles_read : read_document file_styles = Some doc.
  Proof. apply document_reads. apply styles_wx; [exact few|exact file_texts]. Qed.
  Lemma selected_looks style chain : nth_error file_formats (N.to_nat style) = Some (format_of chain) -> calls_ok (forallb attr_char) chain = true ->
    read_style doc style = Some (style_asked chain).
  Proof.
    intros S Ok. destruct (calls_style chain Ok) as [Fo E]. rewrite <- E, <- (N2Nat.id style). apply style_reads; [exact few| |exact S|exact Fo].
    intros f Hf Hl. rewrite flagged. apply existsb_exists. exists f. split; assumption.
  Qed.
  Lemma same_formats : xfs (run (start rg) ops) = xfs final.
  Proof.
    pose proof (run_sim ops _ _ 0 (sim_start inl gs rg (table_before before) sst_new low) (std_new rg sst_new first) eq_refl eq_refl ordered) as H.
    symmetry. exact (a_xfs _ _ (i_alike _ _ H)).
  Qed.
  (** The parts of the file. *)
  Definition streamed_read (P : list node -> str -> Prop) : Prop :=
    exists text part attrs items, streamed_text num_text m (new_streamed inl gs rg before) calls x14 = Some text /\
      shared_strings_part (last_table inl gs rg before after calls) entries = Some part /\ read_document part = Some (Elem (lit "sst") attrs items) /\ P items text.
  Lemma shown_as r c v s chain : Cells_Spec.shown (sheet_rows (run (start rg) ops) (table_before before) (fun i => i)) r c = [(v, s)] ->
    nth_error (xfs (run (start rg) ops)) (N.to_nat s) = Some (format_of chain) -> calls_ok (forallb attr_char) chain = true ->
    streamed_read (fun items text => looks_in file_styles read_num items text r c v (style_asked chain)).
  Proof.
    intros S Se Ok. destruct (C94_streamed_text_shows_the_standard_sheet num_text read_num m inl gs rg before after calls x14 entries display readable strings_before strings_after table_order low first ordered)
      as (text & part & attrs & items & rows & T1 & T2 & T3 & T4 & T5).
    specialize (T5 r c). unfold start in S. fold ops in T5. rewrite S in T5. inversion T5 as [|? [f st] ? ? [V1 V2] F2]; subst. inversion F2; subst. cbn [fst snd] in *. subst st.
    exists text, part, attrs, items. split; [exact T1|]. split; [exact T2|]. split; [exact T3|].
    exists rows, f, s, doc. split; [exact T4|]. split; [now symmetry|]. split; [exact V1|]. split; [exact file_styles_read|]. apply selected_looks; [|exact Ok].
    unfold file_formats. rewrite same_formats in Se. change (xfs final) with (xfs (end_state inl gs rg before calls)) in Se. rewrite nth_error_app1; [exact Se|]. apply nth_error_Some. congruence.
  Qed.

  (** C95: a cell written with a format: the file has the value and the look asked for. *)
  Theorem C95_written_cell_reads_back_partial pre o post w1 r c v chain :
    ops = pre ++ o :: post -> step (run (start rg) pre) o = (w1, None) ->
    writes (run (start rg) pre) o r c = Some v -> v <> VBlank ->
    gives_format o r c = Some (format_of chain) -> format_of chain <> format_default -> calls_ok (forallb attr_char) chain = true ->
    is_range_format o = false -> untouched w1 post r c ->
    streamed_read (fun items text => looks_in file_styles read_num items text r c v (style_asked chain)).
  Proof.
    intros Eo E Hv Hb Hf Hne Ok Hr Hu.
    destruct (own_format_from rg first pre o post w1 r c (format_of chain) (table_before before) (fun i => i)) as (v' & s & S & _ & Se); try assumption.
    { intros i Hi Ez. rewrite <- Eo in Hi. subst i. pose proof (d_reg _ (proj1 (std_run ops (start rg) (std_new rg sst_new first)))) as R. unfold reg0 in R. change (N.to_nat 0) with 0%nat in Hi. congruence. }
    destruct (last_write_from rg first pre o post w1 r c v (table_before before) (fun i => i) E Hv Hb (untouched_undisturbed post w1 r c Hu)) as [s' S'].
    assert (Y : [(v', s)] = [(v, s')]) by (rewrite <- S, <- S'; reflexivity). assert (v' = v) by congruence. subst v'.
    rewrite <- Eo in S, Se. apply (shown_as r c v s chain S Se Ok).
  Qed.
  (** A cell without a format in a formatted row. *)
  Theorem C95_cell_of_formatted_row_partial pre o post w1 r c v chain a b :
    ops = pre ++ o :: post -> step (run (start rg) pre) o = (w1, None) -> is_write o = true -> writes (run (start rg) pre) o r c = Some v -> v <> VBlank ->
    write_format o = None -> untouched w1 post r c ->
    existsb (formats_row r) pre = false \/ existsb (formats_col c) pre = false ->
    ops = a ++ SetRowFormat r (format_of chain) :: b -> existsb (formats_row r) b = false -> r < 1048576 ->
    format_of chain <> format_default -> calls_ok (forallb attr_char) chain = true ->
    streamed_read (fun items text => looks_in file_styles read_num items text r c v (style_asked chain)).
  Proof.
    intros Eo E Hw Hv Hb Hf Hu Hn Hl Hlast Hr Hne Ok. rewrite Eo in Hl.
    destruct (row_next_from rg first pre o post w1 r c v (format_of chain) a b (table_before before) (fun i => i) E Hw Hv Hb Hf Hu Hn Hl Hlast Hr Hne) as (s & S & Se).
    rewrite <- Eo in S, Se. apply (shown_as r c v s chain S Se Ok).
  Qed.
  (** A cell without a format in a formatted column of an unformatted row. *)
  Theorem C95_cell_of_formatted_column_partial pre o post w1 r c v chain a b :
    ops = pre ++ o :: post -> step (run (start rg) pre) o = (w1, None) -> is_write o = true -> writes (run (start rg) pre) o r c = Some v -> v <> VBlank ->
    write_format o = None -> untouched w1 post r c -> existsb (formats_row r) ops = false ->
    ops = a ++ SetColumnFormat c (format_of chain) :: b -> existsb (formats_col c) b = false -> c < 16384 ->
    format_of chain <> format_default -> calls_ok (forallb attr_char) chain = true ->
    streamed_read (fun items text => looks_in file_styles read_num items text r c v (style_asked chain)).
  Proof.
    intros Eo E Hw Hv Hb Hf Hu Hn Hl Hlast Hr Hne Ok. rewrite Eo in Hl, Hn.
    destruct (column_last_from rg first pre o post w1 r c v (format_of chain) a b (table_before before) (fun i => i) E Hw Hv Hb Hf Hu Hn Hl Hlast Hr Hne) as (s & S & Se).
    rewrite <- Eo in S, Se. apply (shown_as r c v s chain S Se Ok).
  Qed.
  (** A cell without any format has the default look. *)
  Theorem C95_plain_cell_reads_back pre o post w1 r c v :
    ops = pre ++ o :: post -> step (run (start rg) pre) o = (w1, None) -> is_write o = true -> writes (run (start rg) pre) o r c = Some v -> v <> VBlank ->
    write_format o = None -> untouched w1 post r c -> existsb (formats_row r) ops = false -> existsb (formats_col c) ops = false ->
    streamed_read (fun items text => looks_in file_styles read_num items text r c v (style_asked [])).
  Proof.
    intros Eo E Hw Hv Hb Hf Hu Hn Hm. rewrite Eo in Hn, Hm.
    pose proof (default_from rg first pre o post w1 r c v (table_before before) (fun i => i)) as S.
    assert (S2 : Cells_Spec.shown (sheet_rows (run (start rg) (pre ++ o :: post)) (table_before before) (fun i => i)) r c = [(v, 0)]) by (apply S; assumption).
    rewrite <- Eo in S2. apply (shown_as r c v 0 [] S2); [|reflexivity].
    exact (d_reg _ (proj1 (std_run ops (start rg) (std_new rg sst_new first)))).
  Qed.
End File.
Print Assumptions C95_written_cell_reads_back_partial.
(** A low-memory sheet added to a workbook that already had an italic format: B3 is
    bold on a red ground with two decimals, A4 in a formatted row. *)
Definition met_before : list Format := [format_default; format_of [OItalic true]].
Definition met_calls : list (op * bool) :=
  [(WriteNumber 0 0 (f_of_N 1) (Some (format_of [OItalic true])), false); (WriteNumber 2 1 (f_of_N 7) (Some (format_of red_bold)), false);
   (SetRowFormat 3 (format_of [OBold true]), true); (WriteString 3 0 (lit "x") None, true)].
Example C95_met num_text read_num m : number_display num_text read_num ->
  streamed_read false true met_before [] [] num_text m met_calls true (strings (last_table false true met_before [] [] met_calls)) (fun items text =>
    looks_in (file_styles false true met_before [format_of [OHyperlink]] [] true false [] met_calls) read_num items text 2 1 (VNumber (f_of_N 7)) (style_asked red_bold)) /\
  streamed_read false true met_before [] [] num_text m met_calls true (strings (last_table false true met_before [] [] met_calls)) (fun items text =>
    looks_in (file_styles false true met_before [format_of [OHyperlink]] [] true false [] met_calls) read_num items text 3 0 (VText (lit "x")) (style_asked [OBold true])).
Proof.
  intros D. assert (Tx : text_ok (lit "x")).
  { split; [intros c Hc; cbn in Hc; destruct Hc as [<-|[]]; repeat split; discriminate|]. intros [[r E] _]. discriminate E. }
  assert (R : Forall op_readable (map fst met_calls)) by (unfold met_calls; cbn [map fst]; repeat (apply Forall_cons; [first [exact Logic.I|exact Tx]|]); constructor).
  assert (G : Forall format_texts (met_before ++ [format_of [OHyperlink]] ++ []) /\ Forall made (flat_map op_formats (map fst met_calls))).
  { split; repeat constructor; eexists; split; reflexivity. }
  assert (O : row_ordered (start met_before) 0 (map fst met_calls)) by (cbn [map fst met_calls row_ordered]; repeat (split; [vm_compute; first [reflexivity|discriminate|exact Logic.I]|]); exact Logic.I).
  assert (Few : N.of_nat (length (file_formats false true met_before [format_of [OHyperlink]] [] met_calls) + 0) <= 65000) by (vm_compute; discriminate).
  assert (Fl : true = existsb link_format (file_formats false true met_before [format_of [OHyperlink]] [] met_calls)) by (vm_compute; reflexivity).
  split.
  - destruct (step (run (start met_before) [WriteNumber 0 0 (f_of_N 1) (Some (format_of [OItalic true]))]) (WriteNumber 2 1 (f_of_N 7) (Some (format_of red_bold)))) as [w1 e] eqn:E.
    assert (e = None) by (pose proof (f_equal snd E) as E2; vm_compute in E2; congruence). subst e.
    refine (C95_written_cell_reads_back_partial false true met_before [format_of [OHyperlink]] [] true false [] [] num_text read_num m met_calls true _
      eq_refl eq_refl Few G Fl D R (Forall_nil _) (Forall_nil _) (Permutation_refl _) O
      [WriteNumber 0 0 (f_of_N 1) (Some (format_of [OItalic true]))] (WriteNumber 2 1 (f_of_N 7) (Some (format_of red_bold))) [SetRowFormat 3 (format_of [OBold true]); WriteString 3 0 (lit "x") None]
      w1 2 1 (VNumber (f_of_N 7)) red_bold eq_refl E _ _ _ _ _ eq_refl _).
    + vm_compute. reflexivity.
    + discriminate.
    + reflexivity.
    + vm_compute. discriminate.
    + vm_compute. reflexivity.
    + cbn [untouched touches]. repeat split; left; reflexivity.
  - destruct (step (run (start met_before) (map fst (firstn 3 met_calls))) (WriteString 3 0 (lit "x") None)) as [w1 e] eqn:E.
    assert (e = None) by (pose proof (f_equal snd E) as E2; vm_compute in E2; congruence). subst e.
    refine (C95_cell_of_formatted_row_partial false true met_before [format_of [OHyperlink]] [] true false [] [] num_text read_num m met_calls true _
      eq_refl eq_refl Few G Fl D R (Forall_nil _) (Forall_nil _) (Permutation_refl _) O
      (map fst (firstn 3 met_calls)) (WriteString 3 0 (lit "x") None) [] w1 3 0 (VText (lit "x")) [OBold true] (map fst (firstn 2 met_calls)) [WriteString 3 0 (lit "x") None]
      eq_refl E eq_refl _ _ eq_refl Logic.I (or_intror eq_refl) eq_refl eq_refl _ _ _).
    + vm_compute. reflexivity.
    + discriminate.
    + reflexivity.
    + vm_compute. discriminate.
    + vm_compute. reflexivity.
Qed.
