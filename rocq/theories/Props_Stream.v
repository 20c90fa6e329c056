(** C94: the text of a sheet written in constant-memory mode read back. *)
From Verif Require Import Base SMap F64 Fmt_Model Xml_Model Xml_Spec Xml_Proofs Xml_Read Xml_Read_Proofs Xml_Tree
  Sst_Model Sst_Proofs Ref_Model Ref_Spec Ref_Proofs Cells_Model Cells_Spec Cells_Proofs Cells_Proofs2 Cells_Inv Cells_Save Cells_Hist Props_Cells
  Const_Spec Const_Proofs Const_Sim Const_Run Step_Inv Props_Const
  Rich_Model Rich_Proofs SheetXml_Model SheetXml_Spec SheetXml_Proofs SheetXml_Proofs2 SheetXml_Proofs3 SheetXml_Proofs4 SheetXml_Proofs5 SheetXml_Proofs6 SheetXml_Proofs7
  Props_SheetXml Stream_Model Stream_Spec Stream_Proofs Stream_Inv Stream_Inv2 Stream_Inv3.
From Coq Require Import Permutation.

(** A sheet made by add_worksheet_with_constant_memory ([inl]) or
    add_worksheet_with_low_memory ([gs]); [before] are the strings the workbook's table
    holds when it is made, [after] those added later by others, [calls] the calls made on
    it (each with use_x14_extensions as it was then). *)
Section Streamed.
  Variable num_text : f64 -> str.
  Variable read_num : str -> option f64.
  Variable m : ovf.
  Variables inl gs : bool.
  Variable rg : list Format.
  Variables before after : list str.
  Variable calls : list (op * bool).
  Variable x14 : bool.
  Variable entries : list (str * N).

  Definition new_streamed : ws := ws_new true inl gs rg (table_before before).
  Definition end_state : ws := run new_streamed (map fst calls).
  Definition last_table : sst := fst (sst_run (strings_table end_state) after).

  (** Whatever is called in whatever order: the text written is well formed; what is
      read from it are the cells that the sheet flushed, each where it was flushed with
      its value and style, and no others; the rows are those flushed, in that order; and
      each says the options its row had when it was flushed, without the outline. *)
  Theorem C94_streamed_sheet_reads_back :
    number_display num_text read_num -> Forall op_readable (map fst calls) -> Forall string_ok before -> Forall string_ok after ->
    Permutation entries (strings last_table) ->
    exists text part attrs items rows,
      streamed_text num_text m new_streamed calls x14 = Some text /\
      shared_strings_part last_table entries = Some part /\
      read_document part = Some (Elem (lit "sst") attrs items) /\
      (exists node, read_xml text = Some [node]) /\
      read_sheet_data items text = Some rows /\
      (forall r c, Forall2 (fun v f => value_read read_num (fun i => i) (fst v) (fst f) /\ snd f = snd v)
                 (shown (streamed_rows end_state) r c) (cells_at rows r c)) /\
      map fr_row rows = map o_row (streamed_rows end_state) /\
      Forall2 (fun e f => streamed_row_says num_text (fst (fst e)) (o_opts (snd e)) f) (file_log new_streamed calls x14) rows /\
      map snd (file_log new_streamed calls x14) = streamed_rows end_state.
  Proof.
    intros [NS NR] R B A P.
    pose proof (start_J inl gs rg before B) as J0. fold (table_before before) in J0. fold new_streamed in J0.
    destruct (j_run (map fst calls) new_streamed R J0) as [l Jl]. fold end_state in Jl. pose proof Jl as [I1 L1 _ _ _ _ Aw].
    destruct (sst_run (strings_table end_state) after) as [t2 is2] eqn:E2. destruct (sst_run_inv after _ l t2 is2 I1 E2) as (l3 & I3 & (d & ->) & _ & _ & L2).
    assert (Ef : last_table = t2) by (unfold last_table; rewrite E2; reflexivity). rewrite Ef in *. clear Ef.
    assert (Ok : Forall string_ok (l ++ d)).
    { apply Forall_forall. intros s Hs. apply L2 in Hs as [Hs|Hs]; [rewrite Forall_forall in L1; auto|rewrite Forall_forall in A; auto]. }
    pose proof (written_order_inv t2 _ entries I3 P) as WO. rewrite <- WO in Ok.
    destruct (sst_part_writes t2 entries Ok) as (part & attrs & items & S1 & S2 & S3 & S4 & S5). rewrite WO in S5.
    pose proof (log_good items new_streamed calls x14 l d (ws_new_wcells true inl gs rg _) eq_refl Jl S5) as G.
    pose proof (file_log_rows new_streamed calls x14 eq_refl) as Er.
    assert (Z : data (after_calls new_streamed calls) = [] -> notes (after_calls new_streamed calls) = [] ->
                changed_rows (after_calls new_streamed calls) = [] -> file_log new_streamed calls x14 = []).
    { intros D _ C. assert (Z : map snd (file_log new_streamed calls x14) = []) by (rewrite Er; apply flush_nothing; assumption).
      destruct (file_log new_streamed calls x14); [reflexivity|discriminate Z]. }
    destruct (streamed_writes num_text read_num m NS NR items new_streamed calls x14 G Z) as (text & rows & T1 & T2 & T3 & T4).
    exists text, part, attrs, items, rows. repeat (split; [assumption|]). fold end_state in Er. split; [|split; [|split]].
    - intros r c. change end_state with (after_calls new_streamed calls). rewrite <- Er. eapply entries_show. exact T4.
    - change end_state with (after_calls new_streamed calls). rewrite <- Er. clear - T4. induction T4 as [|e f es fs (H1 & _) T4 IH]; [reflexivity|]. cbn [map]. rewrite H1, IH. reflexivity.
    - clear - T4. induction T4 as [|e f es fs (_ & H2 & _) T4 IH]; constructor; assumption.
    - exact Er.
  Qed.
  (** No position is read twice. *)
  Theorem C94_one_cell_per_position rows r c :
    Forall2 (fun v f => value_read read_num (fun i => i) (fst v) (fst f) /\ snd f = snd v) (shown (streamed_rows end_state) r c) (cells_at rows r c) ->
    (length (cells_at rows r c) <= 1)%nat.
  Proof.
    intros F. assert (E : length (cells_at rows r c) = length (shown (streamed_rows end_state) r c)) by (induction F; cbn; congruence).
    rewrite E. apply C19_streamed_cell_at_most_once.
  Qed.
End Streamed.
Print Assumptions C94_streamed_sheet_reads_back.

(** Filled in row order, the text shows what a sheet in standard mode, given the same
    calls, is asked to show: same cells, same values, same styles. *)
Theorem C94_streamed_text_shows_the_standard_sheet num_text read_num m inl gs rg before after calls x14 entries :
  number_display num_text read_num -> Forall op_readable (map fst calls) -> Forall string_ok before -> Forall string_ok after ->
  Permutation entries (strings (last_table inl gs rg before after calls)) ->
  inl || gs = true -> nth_error rg 0 = Some format_default -> row_ordered (ws_new false false false rg sst_new) 0 (map fst calls) ->
  exists text part attrs items rows,
    streamed_text num_text m (new_streamed inl gs rg before) calls x14 = Some text /\
    shared_strings_part (last_table inl gs rg before after calls) entries = Some part /\
    read_document part = Some (Elem (lit "sst") attrs items) /\
    read_sheet_data items text = Some rows /\
    forall r c, Forall2 (fun v f => value_read read_num (fun i => i) (fst v) (fst f) /\ snd f = snd v)
      (shown (sheet_rows (run (ws_new false false false rg sst_new) (map fst calls)) (table_before before) (fun i => i)) r c) (cells_at rows r c).
Proof.
  intros ND R B A P M Rg O.
  destruct (C94_streamed_sheet_reads_back num_text read_num m inl gs rg before after calls x14 entries ND R B A P)
    as (text & part & attrs & items & rows & T1 & T2 & T3 & _ & T4 & T5 & _).
  exists text, part, attrs, items, rows. repeat (split; [assumption|]). intros r c. specialize (T5 r c). unfold end_state, new_streamed in T5.
  rewrite (C18_streamed_cells_equal_standard_cells inl gs rg (table_before before) sst_new (table_before before) (map fst calls) r c M Rg O) in T5. exact T5.
Qed.

(** A value written by a successful call and not changed afterwards is the one cell
    read at its position. *)
Theorem C94_last_write_reads_back num_text read_num m inl gs before after pre o xo post w1 r c v x14 entries :
  let calls := pre ++ (o, xo) :: post in
  number_display num_text read_num -> Forall op_readable (map fst calls) -> Forall string_ok before -> Forall string_ok after ->
  Permutation entries (strings (last_table inl gs [format_default] before after calls)) ->
  inl || gs = true -> row_ordered ws_standard 0 (map fst calls) ->
  step (run ws_standard (map fst pre)) o = (w1, None) -> writes (run ws_standard (map fst pre)) o r c = Some v -> v <> VBlank ->
  undisturbed w1 (map fst post) r c ->
  exists text part attrs items rows f style,
    streamed_text num_text m (new_streamed inl gs [format_default] before) calls x14 = Some text /\
    shared_strings_part (last_table inl gs [format_default] before after calls) entries = Some part /\
    read_document part = Some (Elem (lit "sst") attrs items) /\
    read_sheet_data items text = Some rows /\
    cells_at rows r c = [(f, style)] /\ value_read read_num (fun i => i) v f.
Proof.
  intros calls ND R B A P M O E Hv Hb Hu.
  destruct (C94_streamed_text_shows_the_standard_sheet num_text read_num m inl gs [format_default] before after calls x14 entries ND R B A P M eq_refl O)
    as (text & part & attrs & items & rows & T1 & T2 & T3 & T4 & T5).
  destruct (C15_last_write_wins (map fst pre) o (map fst post) w1 r c v (table_before before) (fun i => i) E Hv Hb Hu) as [style S].
  specialize (T5 r c). unfold calls in T5. rewrite map_app in T5. cbn [map fst] in T5. unfold ws_standard in S. rewrite S in T5.
  inversion T5 as [|? [f st] ? ? [V1 V2] F2]; subst. inversion F2; subst. cbn [fst snd] in *.
  exists text, part, attrs, items, rows, f, st. repeat (split; [assumption|]). split; [congruence|assumption].
Qed.
Print Assumptions C94_last_write_reads_back.

(** ** A case *)
Definition demo_streamed : list (op * bool) :=
  [(WriteString 0 0 (lit "x & <y>") None, false); (WriteRich 0 1 demo_rich (lit "a") None, false); (SetRowHidden 2, false);
   (WriteString 2 1 (lit "_x0041_") None, false); (WriteBool 2 0 true None, true);
   (WriteFormula 3 1 {| f_text := lit "A1&""<"""; f_result := lit "#N/A"; f_dynamic := false |} None [], true); (SetRowHeight 5 (f_of_N 30), true)].
Example C94_witness_inline : exists text part items rows,
  let d := fun _ : f64 => lit "30" in
  streamed_text d Debug (new_streamed true false [format_default] []) demo_streamed true = Some text /\
  shared_strings_part (last_table true false [format_default] [] [lit "other"] demo_streamed) (strings (last_table true false [format_default] [] [lit "other"] demo_streamed)) = Some part /\
  read_document part = Some (Elem (lit "sst") [(lit "xmlns", lit "http://schemas.openxmlformats.org/spreadsheetml/2006/main"); (lit "count", lit "1"); (lit "uniqueCount", lit "1")] items) /\
  read_sheet_data items text = Some rows /\
  cells_at rows 0 0 = [(FText (lit "x & <y>"), 0)] /\ cells_at rows 2 1 = [(FText (lit "_x0041_"), 0)] /\ cells_at rows 2 0 = [(FBool true, 0)] /\
  cells_at rows 3 1 = [(FFormula (lit "A1&""<""") None (RError (lit "#N/A")), 0)] /\
  map fr_row rows = [0; 2; 3; 5] /\ map fr_hidden rows = [false; true; false; false] /\ map fr_height rows = [None; None; None; Some (lit "30")].
Proof. do 4 eexists. cbv zeta. repeat (split; [vm_compute; reflexivity|]). vm_compute. reflexivity. Qed.
Example C94_witness_row_ordered : row_ordered ws_standard 0 (map fst demo_streamed).
Proof. cbn [map fst demo_streamed row_ordered]. repeat (split; [vm_compute; first [reflexivity|discriminate|exact Logic.I]|]). exact Logic.I. Qed.

(** FINDING: the outline of a constant-memory sheet is not written. The call to group
    rows succeeds in both modes; in the standard text the row reads back at level 1, in
    the streamed text at level 0. *)
From Verif Require Import Sheet_Model.
Theorem C94_outline_refuted : exists w w' text text' rows rows',
  let d := fun _ : f64 => lit "15" in
  group_rows ws_standard 0 0 false = (w, None) /\ group_rows (new_streamed true false [format_default] []) 0 0 false = (w', None) /\
  sheet_data_text d Debug (fun i => i) w (fun i => i) false = Some text /\ read_sheet_data [] text = Some rows /\ map fr_level rows = [1] /\
  streamed_text d Debug w' [] false = Some text' /\ read_sheet_data [] text' = Some rows' /\ map fr_level rows' = [0].
Proof. do 6 eexists. cbv zeta. repeat (split; [vm_compute; reflexivity|]). vm_compute. reflexivity. Qed.
