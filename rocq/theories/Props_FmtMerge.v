(** C88: merging formats, and the format of a cell where a formatted row and a formatted column cross. *)
From Coq Require Import Permutation Lia.
From Verif Require Import Base SMap F64 Fmt_Model Xml_Model Xml_Spec Xml_Read Xml_Tree Ref_Spec Sst_Model Cells_Model Cells_Spec Cells_Proofs Cells_Proofs2 Cells_Inv Cells_Save Cells_Hist Props_Cells Reg_Model Reg_Proofs Props_Reg
  Styles_Model Rich_Model Rich_Proofs SheetXml_Model SheetXml_Spec SheetXml_Proofs5 SheetXml_Proofs6 Props_SheetXml
  FmtOps_Model Color_Spec StylesXml_Model StylesXml_Spec StylesXml_Proofs StylesXml_Proofs2 StylesXml_Proofs3 StylesXml_Proofs5 E2E_Proofs Props_StylesXml FmtMerge_Proofs Props_EndToEnd.

(** Precedence is given to the properties of the primary format that have been set: merging the formats made by
    the calls [a] and [b] is making one format by the calls [b] followed by the calls [a].  Proved when every
    call of [a] gives its property another value than that of a new format, and the second is not a hyperlink format. *)
Theorem C88_merge_is_later_calls_partial a b : forallb sets a = true -> any_link b = false ->
  format_merge (format_of a) (format_of b) = format_of (b ++ a).
Proof.
  intros S L. apply merge_calls; [exact S|]. destruct (is_hyperlink (font (format_of b))) eqn:E; [|reflexivity]. apply link_of in E. unfold any_link in L. congruence.
Qed.
(** So the look of the merged format is that asked for by all the calls in that order. *)
Theorem C88_merged_look_partial a b : forallb sets a = true -> any_link b = false -> calls_ok (forallb attr_char) (b ++ a) = true ->
  format_style (format_merge (format_of a) (format_of b)) = style_asked (b ++ a).
Proof. intros S L Ok. rewrite C88_merge_is_later_calls_partial by assumption. apply calls_style, Ok. Qed.
Example C88_merge_met : let a := [OFontColor (CRGB 24832); OBold true; OAlign 2] in let b := [OFontColor (CRGB 10223622); OItalic true; OBackground (CRGB 255); OBold true; OBold false] in
  forallb sets a = true /\ any_link b = false /\ calls_ok (forallb attr_char) (b ++ a) = true /\
  s_bold (style_asked (b ++ a)) = true /\ s_italic (style_asked (b ++ a)) = true /\ s_fill (style_asked (b ++ a)) = FSolid (Some (RRgb 255)).
Proof. vm_compute. repeat split; reflexivity. Qed.

(** Laws, for all formats. *)
Theorem C88_merge_with_new_format f : format_merge f format_default = f.
Proof. apply merge_right. Qed.
Theorem C88_merge_into_new_format_partial f : is_hyperlink (font f) = false -> format_merge format_default f = f.
Proof. apply merge_left. Qed.
Theorem C88_merge_idempotent f : format_merge f f = f.
Proof. apply merge_same. Qed.
Theorem C88_merge_associative a b c : format_merge (format_merge a b) c = format_merge a (format_merge b c).
Proof. apply merge_assoc. Qed.

(** A hyperlink format merged into a new one: the look is kept but it is no hyperlink format any more. *)
Theorem C88_hyperlink_lost_refuted : format_merge format_default format_hyperlink <> format_hyperlink /\
  is_hyperlink (font (format_merge format_default format_hyperlink)) = false /\ underline (font (format_merge format_default format_hyperlink)) = 1.
Proof. repeat split; discriminate. Qed.
(** A property set to the value it has in a new format counts as not set: the secondary format decides. *)
Theorem C88_explicit_default_refuted :
  s_size (style_asked ([OFontSize (lit "20")] ++ [OFontSize (lit "11")])) = lit "11" /\ s_size (format_style (format_merge (format_of [OFontSize (lit "11")]) (format_of [OFontSize (lit "20")]))) = lit "20" /\
  s_bold (style_asked ([OBold true] ++ [OBold false])) = false /\ s_bold (format_style (format_merge (format_of [OBold false]) (format_of [OBold true]))) = true /\
  s_locked (style_asked ([OLocked false] ++ [OLocked true])) = true /\ s_locked (format_style (format_merge (format_of [OLocked true]) (format_of [OLocked false]))) = false.
Proof. vm_compute. repeat split; reflexivity. Qed.
(** The number format code of the primary format loses against a built-in format of the secondary one. *)
Theorem C88_number_format_refuted :
  s_number (style_asked ([ONumIndex 9] ++ [ONumFormat (lit "0.000")])) = NCode (lit "0.000") /\
  s_number (format_style (format_merge (format_of [ONumFormat (lit "0.000")]) (format_of [ONumIndex 9]))) = NBuiltin 9.
Proof. vm_compute. split; reflexivity. Qed.

(** ** Crossing row and column formats *)
(** Calls that configure row r, or column c, in any way. *)
Definition row_call (r : N) (o : op) : bool := match o with SetRowHeight k _ | SetRowFormat k _ | SetRowHidden k => k =? r | _ => false end.
Definition col_call (c : N) (o : op) : bool := match o with SetColumnWidth k _ _ | SetColumnFormat k _ | SetColumnHidden k => k =? c | _ => false end.

Lemma step_no_row w o r : std w -> row_call r o = false -> get r (changed_rows w) = None -> get r (changed_rows (fst (step w o))) = None.
Proof.
  intros H R E. destruct (step w o) as [w' e] eqn:S. cbn [fst]. destruct (is_write o) eqn:Ew.
  { destruct (write_opts w o w' e H Ew S) as [A _ _ _ _ _ _]. now rewrite A. }
  assert (D : forall w r c w1 b, check_dimensions w r c = (w1, b) -> changed_rows w1 = changed_rows w) by (intros; eapply check_same; eassumption).
  assert (G : forall w f w1 i, reg w f = (w1, i) -> changed_rows w1 = changed_rows w).
  { intros u f u1 i Er. unfold reg in Er. destruct (format_xf_index (xfs u) f). assert (X : upd_xfs u l = u1) by congruence. now rewrite <- X. }
  assert (I : forall w r c i, changed_rows (insert_cell_format w r c i) = changed_rows w) by (intros; apply icf_opts).
  destruct o; try discriminate Ew; cbn [step row_call] in S, R.
  - unfold set_cell_format in S. destruct (check_dimensions w row col) as [w1 b] eqn:E1. destruct (negb b); [assert (w' = w1) by congruence; subst; now rewrite (D _ _ _ _ _ E1)|].
    destruct (reg w1 f) as [w2 i] eqn:E2. assert (X : w' = insert_cell_format w2 row col i) by congruence. rewrite X, I, (G _ _ _ _ E2), (D _ _ _ _ _ E1). exact E.
  - unfold set_range_format in S. destruct (_ || _); [congruence|]. destruct (_ || _); [congruence|]. destruct (reg w f) as [w2 i] eqn:E2.
    assert (X : w' = fold_left (fun w p => insert_cell_format w (fst p) (snd p) i) (range_cells fr fc lr lc) w2) by congruence. rewrite X.
    destruct (icf_fold_frame i (range_cells fr fc lr lc) w2) as [t Ht]. unfold icf_fold in Ht. rewrite Ht. cbn [changed_rows upd_data]. rewrite (G _ _ _ _ E2). exact E.
  - assert (X : w' = clear_cell w row col) by congruence. rewrite X. unfold clear_cell. destruct (check_dimensions_only row col); [destruct (get row (data w))|]; exact E.
  - assert (X : w' = clear_cell_format w row col) by congruence. rewrite X. unfold clear_cell_format, update_cell_format. destruct (check_dimensions_only row col); [destruct (get row (data w)) as [cs|]; [destruct (get col cs) as [[]|]|]|]; exact E.
  - assert (X : w' = set_formula_result w row col result) by congruence. rewrite X. unfold set_formula_result. cbv zeta. destruct (get _ (data w)) as [cs|]; [destruct (get col cs) as [[[]]|]|]; exact E.
  - unfold set_row_height, set_row_hidden in S. destruct (feq h fzero); (destruct (check_dimensions w row _) as [w1 b] eqn:E1; destruct (negb b); [assert (w' = w1) by congruence; subst; now rewrite (D _ _ _ _ _ E1)|]);
      match type of S with (?x, _) = _ => assert (X : w' = x) by congruence end; rewrite X; cbn [changed_rows upd_rows]; rewrite get_ins, R, (D _ _ _ _ _ E1); exact E.
  - unfold set_row_format in S. destruct (check_dimensions w row _) as [w1 b] eqn:E1. destruct (negb b); [assert (w' = w1) by congruence; subst; now rewrite (D _ _ _ _ _ E1)|].
    destruct (reg w1 f) as [w2 i] eqn:E2. match type of S with (?x, _) = _ => assert (X : w' = x) by congruence end. rewrite X. cbn [changed_rows upd_rows]. rewrite get_ins, R, (G _ _ _ _ E2), (D _ _ _ _ _ E1). exact E.
  - unfold set_row_hidden in S. destruct (check_dimensions w row _) as [w1 b] eqn:E1; destruct (negb b); [assert (w' = w1) by congruence; subst; now rewrite (D _ _ _ _ _ E1)|].
    match type of S with (?x, _) = _ => assert (X : w' = x) by congruence end; rewrite X; cbn [changed_rows upd_rows]; rewrite get_ins, R, (D _ _ _ _ _ E1); exact E.
  - unfold set_row_unhidden in S. destruct (check_dimensions w row _) as [w1 b] eqn:E1; destruct (negb b); [assert (w' = w1) by congruence; subst; now rewrite (D _ _ _ _ _ E1)|].
    rewrite <- (D _ _ _ _ _ E1) in E. destruct (get row (changed_rows w1)) as [o|] eqn:Er; [|congruence].
    match type of S with (?x, _) = _ => assert (X : w' = x) by congruence end; rewrite X; cbn [changed_rows upd_rows]. rewrite get_ins. destruct (N.eqb_spec row r) as [->|]; [congruence|exact E].
  - unfold set_column_width_internal, set_column_hidden, store_column_width in S. destruct (feq width fzero), (Cells_Model.COL_MAX <=? col); match type of S with (?x, _) = _ => assert (X : w' = x) by congruence end; rewrite X; exact E.
  - unfold set_column_format in S. destruct (check_dimensions w _ col) as [w1 b] eqn:E1. destruct (negb b); [assert (w' = w1) by congruence; subst; now rewrite (D _ _ _ _ _ E1)|].
    destruct (reg w1 f) as [w2 i] eqn:E2. match type of S with (?x, _) = _ => assert (X : w' = x) by congruence end. rewrite X. cbn [changed_rows upd_cols]. rewrite (G _ _ _ _ E2), (D _ _ _ _ _ E1). exact E.
  - unfold set_column_hidden in S. destruct (Cells_Model.COL_MAX <=? col); match type of S with (?x, _) = _ => assert (X : w' = x) by congruence end; rewrite X; exact E.
  - unfold insert_note in S. destruct (check_dimensions w row col) as [w1 b] eqn:E1. destruct (negb b); [assert (w' = w1) by congruence; subst; now rewrite (D _ _ _ _ _ E1)|].
    destruct (_ <? text_len); match type of S with (?x, _) = _ => assert (X : w' = x) by congruence end; rewrite X; cbn [changed_rows upd_notes]; now rewrite (D _ _ _ _ _ E1).
  - match type of S with (?x, _) = _ => assert (X : w' = x) by congruence end; rewrite X; exact E.
  - match type of S with (?x, _) = _ => assert (X : w' = x) by congruence end; rewrite X; exact E.
  - match type of S with (?x, _) = _ => assert (X : w' = x) by congruence end; rewrite X; exact E.
  - match type of S with (?x, _) = _ => assert (X : w' = x) by congruence end; rewrite X; exact E.
  - match type of S with (?x, _) = _ => assert (X : w' = x) by congruence end; rewrite X; destruct (fle h fzero); exact E.
Qed.
Lemma step_no_col w o c : std w -> col_call c o = false -> get c (changed_cols w) = None -> get c (changed_cols (fst (step w o))) = None.
Proof.
  intros H R E. destruct (step w o) as [w' e] eqn:S. cbn [fst]. destruct (is_write o) eqn:Ew.
  { destruct (write_opts w o w' e H Ew S) as [_ A _ _ _ _ _]. now rewrite A. }
  assert (D : forall w r c w1 b, check_dimensions w r c = (w1, b) -> changed_cols w1 = changed_cols w) by (intros; eapply check_same; eassumption).
  assert (G : forall w f w1 i, reg w f = (w1, i) -> changed_cols w1 = changed_cols w).
  { intros u f u1 i Er. unfold reg in Er. destruct (format_xf_index (xfs u) f). assert (X : upd_xfs u l = u1) by congruence. now rewrite <- X. }
  assert (I : forall w r c i, changed_cols (insert_cell_format w r c i) = changed_cols w) by (intros; apply icf_opts).
  destruct o; try discriminate Ew; cbn [step col_call] in S, R.
  - unfold set_cell_format in S. destruct (check_dimensions w row col) as [w1 b] eqn:E1. destruct (negb b); [assert (w' = w1) by congruence; subst; now rewrite (D _ _ _ _ _ E1)|].
    destruct (reg w1 f) as [w2 i] eqn:E2. assert (X : w' = insert_cell_format w2 row col i) by congruence. rewrite X, I, (G _ _ _ _ E2), (D _ _ _ _ _ E1). exact E.
  - unfold set_range_format in S. destruct (_ || _); [congruence|]. destruct (_ || _); [congruence|]. destruct (reg w f) as [w2 i] eqn:E2.
    assert (X : w' = fold_left (fun w p => insert_cell_format w (fst p) (snd p) i) (range_cells fr fc lr lc) w2) by congruence. rewrite X.
    destruct (icf_fold_frame i (range_cells fr fc lr lc) w2) as [t Ht]. unfold icf_fold in Ht. rewrite Ht. cbn [changed_cols upd_data]. rewrite (G _ _ _ _ E2). exact E.
  - assert (X : w' = clear_cell w row col) by congruence. rewrite X. unfold clear_cell. destruct (check_dimensions_only row col); [destruct (get row (data w))|]; exact E.
  - assert (X : w' = clear_cell_format w row col) by congruence. rewrite X. unfold clear_cell_format, update_cell_format. destruct (check_dimensions_only row col); [destruct (get row (data w)) as [cs|]; [destruct (get col cs) as [[]|]|]|]; exact E.
  - assert (X : w' = set_formula_result w row col result) by congruence. rewrite X. unfold set_formula_result. cbv zeta. destruct (get _ (data w)) as [cs|]; [destruct (get col cs) as [[[]]|]|]; exact E.
  - unfold set_row_height, set_row_hidden in S. destruct (feq h fzero); (destruct (check_dimensions w row _) as [w1 b] eqn:E1; destruct (negb b); [assert (w' = w1) by congruence; subst; now rewrite (D _ _ _ _ _ E1)|]);
      match type of S with (?x, _) = _ => assert (X : w' = x) by congruence end; rewrite X; cbn [changed_cols upd_rows]; rewrite (D _ _ _ _ _ E1); exact E.
  - unfold set_row_format in S. destruct (check_dimensions w row _) as [w1 b] eqn:E1. destruct (negb b); [assert (w' = w1) by congruence; subst; now rewrite (D _ _ _ _ _ E1)|].
    destruct (reg w1 f) as [w2 i] eqn:E2. match type of S with (?x, _) = _ => assert (X : w' = x) by congruence end. rewrite X. cbn [changed_cols upd_rows]. rewrite (G _ _ _ _ E2), (D _ _ _ _ _ E1). exact E.
  - unfold set_row_hidden in S. destruct (check_dimensions w row _) as [w1 b] eqn:E1; destruct (negb b); [assert (w' = w1) by congruence; subst; now rewrite (D _ _ _ _ _ E1)|].
    match type of S with (?x, _) = _ => assert (X : w' = x) by congruence end; rewrite X; cbn [changed_cols upd_rows]; rewrite (D _ _ _ _ _ E1); exact E.
  - unfold set_row_unhidden in S. destruct (check_dimensions w row _) as [w1 b] eqn:E1; destruct (negb b); [assert (w' = w1) by congruence; subst; now rewrite (D _ _ _ _ _ E1)|].
    destruct (get row (changed_rows w1)) as [o|] eqn:Er; match type of S with (?x, _) = _ => assert (X : w' = x) by congruence end; rewrite X; cbn [changed_cols upd_rows]; rewrite (D _ _ _ _ _ E1); exact E.
  - unfold set_column_width_internal, set_column_hidden, store_column_width in S. destruct (feq width fzero), (Cells_Model.COL_MAX <=? col); match type of S with (?x, _) = _ => assert (X : w' = x) by congruence end; rewrite X; cbn [changed_cols upd_cols]; rewrite ?get_ins, ?R; exact E.
  - unfold set_column_format in S. destruct (check_dimensions w _ col) as [w1 b] eqn:E1. destruct (negb b); [assert (w' = w1) by congruence; subst; now rewrite (D _ _ _ _ _ E1)|].
    destruct (reg w1 f) as [w2 i] eqn:E2. match type of S with (?x, _) = _ => assert (X : w' = x) by congruence end. rewrite X. cbn [changed_cols upd_cols]. rewrite get_ins, R, (G _ _ _ _ E2), (D _ _ _ _ _ E1). exact E.
  - unfold set_column_hidden in S. destruct (Cells_Model.COL_MAX <=? col); match type of S with (?x, _) = _ => assert (X : w' = x) by congruence end; rewrite X; cbn [changed_cols upd_cols]; rewrite ?get_ins, ?R; exact E.
  - unfold insert_note in S. destruct (check_dimensions w row col) as [w1 b] eqn:E1. destruct (negb b); [assert (w' = w1) by congruence; subst; now rewrite (D _ _ _ _ _ E1)|].
    destruct (_ <? text_len); match type of S with (?x, _) = _ => assert (X : w' = x) by congruence end; rewrite X; cbn [changed_cols upd_notes]; now rewrite (D _ _ _ _ _ E1).
  - match type of S with (?x, _) = _ => assert (X : w' = x) by congruence end; rewrite X; exact E.
  - match type of S with (?x, _) = _ => assert (X : w' = x) by congruence end; rewrite X; exact E.
  - match type of S with (?x, _) = _ => assert (X : w' = x) by congruence end; rewrite X; exact E.
  - match type of S with (?x, _) = _ => assert (X : w' = x) by congruence end; rewrite X; exact E.
  - match type of S with (?x, _) = _ => assert (X : w' = x) by congruence end; rewrite X; destruct (fle h fzero); exact E.
Qed.
Lemma run_no_row ops r : forall w, std w -> existsb (row_call r) ops = false -> get r (changed_rows w) = None -> get r (changed_rows (run w ops)) = None.
Proof.
  induction ops as [|o ops IH]; intros w H R E; [exact E|]. cbn [existsb] in R. apply orb_false_iff in R as [R1 R2]. rewrite run_cons.
  pose proof (step_no_row w o r H R1 E) as E1. destruct (step w o) as [w1 e] eqn:S. cbn [fst] in *. apply IH; [|exact R2|exact E1]. apply (std_step _ _ _ _ H S).
Qed.
Lemma run_no_col ops c : forall w, std w -> existsb (col_call c) ops = false -> get c (changed_cols w) = None -> get c (changed_cols (run w ops)) = None.
Proof.
  induction ops as [|o ops IH]; intros w H R E; [exact E|]. cbn [existsb] in R. apply orb_false_iff in R as [R1 R2]. rewrite run_cons.
  pose proof (step_no_col w o c H R1 E) as E1. destruct (step w o) as [w1 e] eqn:S. cbn [fst] in *. apply IH; [|exact R2|exact E1]. apply (std_step _ _ _ _ H S).
Qed.
Lemma row_format_held ops a b r f : ops = a ++ SetRowFormat r f :: b -> r < 1048576 -> existsb (row_call r) a = false -> existsb (formats_row r) b = false -> row_fmt (run ws_standard ops) r = Some f.
Proof.
  intros -> Hr Ha Hb. rewrite run_app, run_cons. destruct (std_run a ws_standard std_start) as [H0 M0]. pose proof (run_no_row a r ws_standard std_start Ha eq_refl) as Z.
  destruct (step (run ws_standard a) (SetRowFormat r f)) as [w1 e] eqn:E. cbn [fst]. destruct (std_step _ _ _ _ H0 E) as [H1 F].
  unfold row_fmt. rewrite (row_info_run b r w1 H1 (none_formats_row _ _ Hb)).
  assert (e = None) as ->.
  { cbn [step] in E. unfold set_row_format in E. destruct (check_dimensions (run ws_standard a) r _) as [w2 bb] eqn:E2.
    destruct bb; cbn [negb] in E; [destruct (reg w2 f); apply pair_equal_spec in E as [_ <-]; reflexivity|].
    exfalso. apply check_dimensions_spec in E2 as (_ & _ & _ & _ & _ & Fb & _). destruct (Fb eq_refl) as [Hl _]. apply Hl.
    split; [exact Hr|]. unfold get_min_col. destruct (N.eqb_spec (first_col (run ws_standard a)) Cells_Model.COL_MAX) as [|Hn]; [reflexivity|].
    pose proof (m_fc _ _ M0) as L. cbn [ws_standard ws_new first_col] in L. lia. }
  pose proof (proj1 (step_rc _ _ _ _ H0 E) r) as R. cbn [sets_row_format] in R. rewrite N.eqb_refl in R. destruct R as [_ R]. rewrite Z in R. exact R.
Qed.
Lemma col_format_held ops a b c f : ops = a ++ SetColumnFormat c f :: b -> c < 16384 -> existsb (col_call c) a = false -> existsb (formats_col c) b = false -> col_fmt (run ws_standard ops) c = Some f.
Proof.
  intros -> Hr Ha Hb. rewrite run_app, run_cons. destruct (std_run a ws_standard std_start) as [H0 M0]. pose proof (run_no_col a c ws_standard std_start Ha eq_refl) as Z.
  destruct (step (run ws_standard a) (SetColumnFormat c f)) as [w1 e] eqn:E. cbn [fst]. destruct (std_step _ _ _ _ H0 E) as [H1 F].
  unfold col_fmt. rewrite (col_info_run b c w1 H1 (none_formats_col _ _ Hb)).
  assert (e = None) as ->.
  { cbn [step] in E. unfold set_column_format in E. destruct (check_dimensions (run ws_standard a) _ c) as [w2 bb] eqn:E2.
    destruct bb; cbn [negb] in E; [destruct (reg w2 f); apply pair_equal_spec in E as [_ <-]; reflexivity|].
    exfalso. apply check_dimensions_spec in E2 as (_ & _ & _ & _ & _ & Fb & _). destruct (Fb eq_refl) as [Hl _]. apply Hl.
    split; [|exact Hr]. unfold get_min_row. destruct (N.eqb_spec (first_row (run ws_standard a)) Cells_Model.ROW_MAX) as [|Hn]; [reflexivity|].
    pose proof (m_fr _ _ M0) as L. cbn [ws_standard ws_new first_row] in L. lia. }
  pose proof (proj2 (step_rc _ _ _ _ H0 E) c) as R. cbn [sets_col_format] in R. rewrite N.eqb_refl in R. destruct R as [_ R]. rewrite Z in R. exact R.
Qed.

(** A cell written without a format where a formatted row and column cross: its style is the merge of the two,
    the row's having precedence. *)
Lemma crossing_cell pre o post w1 r c v rf cf t g :
  step (run ws_standard pre) o = (w1, None) -> is_write o = true -> writes (run ws_standard pre) o r c = Some v ->
  v <> VBlank -> write_format o = None -> untouched w1 post r c ->
  row_fmt (run ws_standard pre) r = Some rf -> col_fmt (run ws_standard pre) c = Some cf -> rf <> format_default ->
  let w := run ws_standard (pre ++ o :: post) in
  exists i, Cells_Spec.shown (sheet_rows w t g) r c = [(v, g i)] /\ nth_error (xfs w) (N.to_nat i) = Some (format_merge rf cf).
Proof.
  intros E Hw Hv Hb Hf Hu Hr Hc Hne. cbv zeta. rewrite run_app, run_cons, E. cbn [fst].
  destruct (std_run pre ws_standard std_start) as [H0 _].
  pose proof (write_effect _ _ _ _ (d_cm _ H0) Hw E) as HE. cbn in HE.
  destruct (e_val _ _ _ _ HE r c v Hv) as (k & x & Hk & Hcv & Hx & _ & Hcov).
  rewrite Hf in Hx. cbn in Hx. rewrite crossing_fmt, Hr, Hc in Hx.
  destruct (std_step _ _ _ _ H0 E) as [H1 F]. destruct (std_run post w1 H1) as [H2 M2].
  pose proof (untouched_run post r c w1 H1 Hu) as P. rewrite Hk in P.
  assert (Hx0 : x <> 0).
  { intros ->. pose proof (d_reg _ H1) as R. unfold reg0 in R. change (N.to_nat 0) with 0%nat in Hx. apply (merge_nondefault rf cf Hne). congruence. }
  pose proof (sheet_shown (run w1 post) t g r c H2) as S. rewrite P in S. cbv zeta in S. rewrite effective_info in S.
  destruct (N.eqb_spec x 0) as [|_]; [contradiction|]. destruct (N.eqb_spec x 0) as [|_]; [contradiction|].
  apply (covers_meta _ _ _ _ M2) in Hcov as [[A B] _]. apply N.leb_le in A, B. rewrite A, B in S. cbn [andb] in S.
  exists x. split; [rewrite S, Hcv; destruct v; congruence || reflexivity|]. eapply prefix_nth; [apply M2|exact Hx].
Qed.

Section Crossing.
  Variables (hist : list (list op)) (registered dxfs : list Format) (iter : list (Format * N)) (comments : bool).
  Hypothesis order : Permutation iter (fst (saved_registry hist registered dxfs)).
  Hypothesis few : N.of_nat (length (xf_formats_of iter) + length dxfs) <= 65000.
  Hypothesis good : Forall made (registered ++ dxfs ++ flat_map op_formats (concat hist)).
  Variables (num_text : f64 -> str) (read_num : str -> option f64) (m : ovf) (image_id : N -> N) (before after : list str) (k : nat) (ops : list op) (x14 : bool) (entries : list (str * N)).
  Hypothesis kth : nth_error hist k = Some ops.
  Hypothesis display : number_display num_text read_num.
  Hypothesis readable : Forall op_readable ops.
  Hypothesis strings_before : Forall string_ok before.
  Hypothesis strings_after : Forall string_ok after.
  Hypothesis table_order : Permutation entries (strings (final_table before after ops)).

  (** In the file: the value, with the look of the column's calls overridden by the row's. *)
  Theorem C88_crossing_reads_back_partial pre o post w1 r c v rowcalls colcalls a b a' b' :
    ops = pre ++ o :: post -> step (run ws_standard pre) o = (w1, None) -> is_write o = true -> writes (run ws_standard pre) o r c = Some v -> v <> VBlank ->
    write_format o = None -> untouched w1 post r c ->
    pre = a ++ SetRowFormat r (format_of rowcalls) :: b -> existsb (row_call r) a = false -> existsb (formats_row r) b = false -> r < 1048576 ->
    pre = a' ++ SetColumnFormat c (format_of colcalls) :: b' -> existsb (col_call c) a' = false -> existsb (formats_col c) b' = false -> c < 16384 ->
    format_of rowcalls <> format_default -> forallb sets rowcalls = true -> any_link colcalls = false -> calls_ok (forallb attr_char) (colcalls ++ rowcalls) = true ->
    parts_read hist registered dxfs num_text m image_id before after k ops x14 entries
      (fun items text => cell_looks hist registered dxfs iter comments read_num image_id items text r c v (style_asked (colcalls ++ rowcalls))).
  Proof.
    intros Eo E Hw Hv Hb Hf Hu Hpr Har Hbr Hr Hpc Hac Hbc Hc Hne Hs Hl Ok. pose proof kth as Hk. rewrite Eo in Hk.
    destruct (remap hist registered (sheets_link hist dxfs) iter order k _ Hk) as [R0 R].
    pose proof (row_format_held _ _ _ _ _ Hpr Hr Har Hbr) as Rf. pose proof (col_format_held _ _ _ _ _ Hpc Hc Hac Hbc) as Cf.
    destruct (crossing_cell pre o post w1 r c v _ _ (table_before before) (style_map hist registered dxfs k) E Hw Hv Hb Hf Hu Rf Cf Hne) as (i & S & Hi).
    apply (shown_looks hist registered dxfs iter comments order few good num_text read_num m image_id before after k ops x14 entries display readable strings_before strings_after table_order r c v (style_map hist registered dxfs k i) (colcalls ++ rowcalls)); [rewrite Eo; exact S| |exact Ok].
    rewrite <- (C88_merge_is_later_calls_partial rowcalls colcalls Hs Hl). exact (R i _ Hi).
  Qed.
End Crossing.

(** A row height set before the row's format: the crossing cell loses the column's part. *)
Definition crossing_of (ops : list op) : option Format :=
  match Cells_Spec.shown (sheet_rows (run ws_standard ops) sst_new (fun i => i)) 1 2 with
  | [(_, i)] => nth_error (xfs (run ws_standard ops)) (N.to_nat i) | _ => None end.
Definition row_bold := format_of [OBold true]. Definition col_italic := format_of [OItalic true].
Theorem C88_height_before_format_refuted :
  crossing_of [SetRowFormat 1 row_bold; SetRowHeight 1 (f_of_N 30); SetColumnFormat 2 col_italic; WriteNumber 1 2 (f_of_N 1) None] = Some (format_of [OItalic true; OBold true]) /\
  crossing_of [SetRowHeight 1 (f_of_N 30); SetRowFormat 1 row_bold; SetColumnFormat 2 col_italic; WriteNumber 1 2 (f_of_N 1) None] = Some (format_of [OBold true]).
Proof. split; vm_compute; reflexivity. Qed.
(** The formats set after the cell was written: the row's alone applies. *)
Theorem C88_formats_after_write_refuted :
  crossing_of [WriteNumber 1 2 (f_of_N 1) None; SetRowFormat 1 row_bold; SetColumnFormat 2 col_italic] = Some (format_of [OBold true]).
Proof. vm_compute; reflexivity. Qed.
Definition cross_pre : list op := [SetRowFormat 1 row_bold; SetRowHeight 1 (f_of_N 30); SetColumnWidth 3 (f_of_N 9) false; SetColumnFormat 2 col_italic].
Definition cross_met : list (list op) :=
  [cross_pre ++ [WriteNumber 1 2 (f_of_N 7) None; WriteNumber 1 3 (f_of_N 8) None]].
Lemma cross_good : Forall made ([] ++ [] ++ flat_map op_formats (concat cross_met)).
Proof. repeat constructor; [exists [OBold true]|exists [OItalic true]]; split; reflexivity. Qed.
Lemma cross_few : N.of_nat (length (xf_formats_of (fst (saved_registry cross_met [] []))) + 0) <= 65000. Proof. vm_compute. discriminate. Qed.
Example C88_crossing_met num_text read_num m image_id : number_display num_text read_num ->
  parts_read cross_met [] [] num_text m image_id [] [] 0 (nth 0 cross_met []) false [] (fun items text =>
    cell_looks cross_met [] [] (fst (saved_registry cross_met [] [])) false read_num image_id items text 1 2 (VNumber (f_of_N 7)) (style_asked [OItalic true; OBold true])) /\
  s_bold (style_asked [OItalic true; OBold true]) = true /\ s_italic (style_asked [OItalic true; OBold true]) = true.
Proof.
  intros D. split; [|vm_compute; split; reflexivity].
  apply (C88_crossing_reads_back_partial cross_met [] [] (fst (saved_registry cross_met [] [])) false (Permutation_refl _) cross_few cross_good num_text read_num m image_id [] [] 0 (nth 0 cross_met []) false []
    eq_refl D) with (pre := cross_pre) (o := WriteNumber 1 2 (f_of_N 7) None) (post := [WriteNumber 1 3 (f_of_N 8) None]) (w1 := fst (step (run ws_standard cross_pre) (WriteNumber 1 2 (f_of_N 7) None)))
    (a := []) (b := [SetRowHeight 1 (f_of_N 30); SetColumnWidth 3 (f_of_N 9) false; SetColumnFormat 2 col_italic])
    (a' := [SetRowFormat 1 row_bold; SetRowHeight 1 (f_of_N 30); SetColumnWidth 3 (f_of_N 9) false]) (b' := []) (rowcalls := [OBold true]) (colcalls := [OItalic true]).
  - repeat constructor.
  - constructor.
  - constructor.
  - vm_compute. constructor.
  - reflexivity.
  - vm_compute. reflexivity.
  - reflexivity.
  - vm_compute. reflexivity.
  - discriminate.
  - reflexivity.
  - split; [now left|exact I].
  - reflexivity.
  - reflexivity.
  - reflexivity.
  - reflexivity.
  - reflexivity.
  - reflexivity.
  - reflexivity.
  - reflexivity.
  - discriminate.
  - reflexivity.
  - reflexivity.
  - vm_compute. reflexivity.
Qed.
