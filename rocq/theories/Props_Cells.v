(** Properties C15, C16, C17, C19 (standard mode), C27, C45: the cell store. *)
From Verif Require Import Base SMap F64 Fmt_Model Sst_Model Cells_Model Cells_Spec Cells_Proofs Cells_Proofs2
  Cells_Inv Cells_Save Cells_Hist.

(** Style maps used at save time send only the default style to 0. *)
Definition keeps_styles (g : N -> N) : Prop := forall i, i <> 0 -> g i <> 0.

(** ** C15 *)

(** After any history, a successful call that writes [v] into (r, c), followed
    by any calls that do not successfully write, clear or set the result of that
    cell, leaves exactly [v] at (r, c) in the saved file, exactly once. *)
Theorem C15_last_write_wins pre o post w1 r c v t g :
  step (run ws_standard pre) o = (w1, None) -> writes (run ws_standard pre) o r c = Some v -> v <> VBlank ->
  undisturbed w1 post r c ->
  exists style, shown (sheet_rows (run ws_standard (pre ++ o :: post)) t g) r c = [(v, style)].
Proof.
  intros E Hv Hb Hu. rewrite run_app, run_cons, E. cbn [fst].
  destruct (std_run pre ws_standard std_start) as [H0 _].
  destruct (std_step _ _ _ _ H0 E) as [H1 F].
  destruct (sf_write _ _ _ _ F eq_refl r c v Hv) as (k & x & Hk & Hc).
  destruct (sf_cov _ _ _ _ F eq_refl r c v Hv) as [Hcov _].
  destruct (std_run post w1 H1) as [H2 M2].
  pose proof (undisturbed_run post r c w1 H1 Hu) as P. rewrite Hk in P. destruct P as [x' P].
  pose proof (sheet_shown (run w1 post) t g r c H2) as S. rewrite P, Hc in S. cbv zeta in S. rewrite S.
  apply (covers_meta _ _ _ _ M2) in Hcov as [[A B] _]. apply N.leb_le in A, B. rewrite A, B. cbn [andb].
  eexists. destruct v; try reflexivity. congruence.
Qed.

(** A blank written with a format is shown as a blank, or not at all (when no
    visible style results); never as something else. *)
Theorem C15_last_blank_wins pre o post w1 r c t g :
  step (run ws_standard pre) o = (w1, None) -> writes (run ws_standard pre) o r c = Some VBlank ->
  undisturbed w1 post r c ->
  let s := shown (sheet_rows (run ws_standard (pre ++ o :: post)) t g) r c in
  s = [] \/ exists style, s = [(VBlank, style)].
Proof.
  intros E Hv Hu. rewrite run_app, run_cons, E. cbn [fst].
  destruct (std_run pre ws_standard std_start) as [H0 _].
  destruct (std_step _ _ _ _ H0 E) as [H1 F].
  destruct (sf_write _ _ _ _ F eq_refl r c _ Hv) as (k & x & Hk & Hc).
  destruct (std_run post w1 H1) as [H2 M2].
  pose proof (undisturbed_run post r c w1 H1 Hu) as P. rewrite Hk in P. destruct P as [x' P].
  pose proof (sheet_shown (run w1 post) t g r c H2) as S. rewrite P, Hc in S. cbv zeta in S |- *. rewrite S.
  destruct (_ && _); [|auto]. destruct (0 <? _); eauto.
Qed.

(** A cell no call ever mentioned successfully is not in the file. *)
Theorem C15_untouched_cell_is_absent ops r c t g :
  untouched ws_standard ops r c -> shown (sheet_rows (run ws_standard ops) t g) r c = [].
Proof.
  intros Hu. destruct (std_run ops ws_standard std_start) as [H _].
  pose proof (untouched_run ops r c ws_standard std_start Hu) as P.
  pose proof (sheet_shown _ t g r c H) as S. rewrite P in S. exact S.
Qed.

(** A cleared cell is not in the file, whatever it held before. *)
Theorem C15_cleared_cell_is_absent pre post r c t g :
  in_limits r c -> untouched (run ws_standard (pre ++ [ClearCell r c])) post r c ->
  shown (sheet_rows (run ws_standard (pre ++ ClearCell r c :: post)) t g) r c = [].
Proof.
  intros Hl Hu. change (ClearCell r c :: post) with ([ClearCell r c] ++ post). rewrite app_assoc, run_app.
  destruct (std_run (pre ++ [ClearCell r c]) ws_standard std_start) as [H _].
  destruct (std_run post _ H) as [H2 _].
  assert (Hnone : table_get r c (data (run ws_standard (pre ++ [ClearCell r c]))) = None).
  { rewrite run_app, run_cons. change (run (fst (step (run ws_standard pre) (ClearCell r c))) []) with (clear_cell (run ws_standard pre) r c).
    destruct (std_run pre ws_standard std_start) as [H0 _].
    destruct (clear_cell_frame (run ws_standard pre) r c) as (d & Ed & _ & Hd).
    rewrite Ed. fields. rewrite Hd by apply H0. rewrite here_refl.
    destruct Hl. unfold check_dimensions_only. replace (r <? ROW_MAX) with true by lia. replace (c <? COL_MAX) with true by lia. reflexivity. }
  pose proof (sheet_shown _ t g r c H2) as S. rewrite (untouched_run post r c _ H Hu), Hnone in S. exact S.
Qed.

(** A call on other cells changes neither the contents nor the explicit format
    of (r, c); a failed call changes no cell at all. *)
Theorem C15_other_cells_unaffected ops o r c :
  let w := run ws_standard ops in
  touches o r c = false \/ snd (step w o) <> None ->
  table_get r c (data (fst (step w o))) = table_get r c (data w).
Proof.
  cbv zeta. intros Ho. destruct (std_run ops ws_standard std_start) as [H _].
  destruct (step (run ws_standard ops) o) as [w' e] eqn:E. cbn [fst snd] in *.
  destruct (std_step _ _ _ _ H E) as [_ F].
  destruct Ho as [Ho|Ho]; [apply F; assumption|]. rewrite (sf_err _ _ _ _ F Ho). reflexivity.
Qed.

(** The result of a formula can be replaced afterwards, keeping the formula. *)
Theorem C15_set_formula_result pre o post w1 r c text res new t g :
  step (run ws_standard pre) o = (w1, None) -> writes (run ws_standard pre) o r c = Some (VFormula text res) ->
  undisturbed (fst (step w1 (SetFormulaResult r c new))) post r c ->
  exists style, shown (sheet_rows (run ws_standard (pre ++ o :: SetFormulaResult r c new :: post)) t g) r c
    = [(VFormula text new, style)].
Proof.
  intros E Hv Hu. rewrite run_app, !run_cons, E. cbn [fst step] in *.
  destruct (std_run pre ws_standard std_start) as [H0 _].
  destruct (std_step _ _ _ _ H0 E) as [H1 F].
  destruct (sf_write _ _ _ _ F eq_refl r c _ Hv) as (k & x & Hk & Hc).
  destruct (sf_cov _ _ _ _ F eq_refl r c _ Hv) as [Hcov _].
  set (w2 := set_formula_result w1 r c new) in *.
  assert (E2 : step w1 (SetFormulaResult r c new) = (w2, None)) by reflexivity.
  destruct (std_step _ _ _ _ H1 E2) as [H2 F2].
  destruct (std_run post w2 H2) as [H3 M3].
  pose proof (undisturbed_run post r c w2 H2 Hu) as P.
  destruct (set_formula_result_spec w1 r c new (d_cm _ H1) (d_ok _ H1)) as (d & Ed & _ & Hd).
  assert (Hw2 : table_get r c (data w2) = Some (CFormula text new, x)).
  { unfold w2. rewrite Ed. fields. rewrite Hd, here_refl, Hk. destruct k; try discriminate. injection Hc as -> _. reflexivity. }
  rewrite Hw2 in P. destruct P as [x' P].
  pose proof (sheet_shown (run w2 post) t g r c H3) as S. rewrite P in S. cbv zeta in S. rewrite S.
  apply (covers_meta _ _ _ _ (sf_meta _ _ _ _ F2)) in Hcov. apply (covers_meta _ _ _ _ M3) in Hcov as [[A B] _].
  apply N.leb_le in A, B. rewrite A, B. cbn. eauto.
Qed.

(** Non-vacuity: overwriting, formatting and unrelated calls in between. *)
Example C15_witness :
  let pre := [WriteString 3 2 (lit "old") None; WriteNumber 0 0 (f_of_N 7) None] in
  let o := WriteNumber 3 2 (f_of_N 42) None in
  let post := [SetCellFormat 3 2 format_hyperlink; WriteString 3 3 (lit "x") None; WriteBool 3 20000 true None] in
  let w1 := fst (step (run ws_standard pre) o) in
  snd (step (run ws_standard pre) o) = None /\ undisturbed w1 post 3 2 /\
  shown (sheet_rows (run ws_standard (pre ++ o :: post)) sst_new (fun i => i)) 3 2 = [(VNumber (f_of_N 42), 1)].
Proof. vm_compute. repeat split; auto. Qed.

(** ** C16 *)

(** The used range never shrinks. *)
Theorem C16_used_range_never_shrinks ops o r c :
  covers (run ws_standard ops) r c -> covers (fst (step (run ws_standard ops) o)) r c.
Proof.
  intros Hc. destruct (std_run ops ws_standard std_start) as [H _].
  destruct (step (run ws_standard ops) o) as [w' e] eqn:E. destruct (std_step _ _ _ _ H E) as [_ F].
  eapply covers_meta; [apply F|exact Hc].
Qed.

Definition no_range_format (ops : list op) : Prop := forall o, In o ops -> is_range_format o = false.

Lemma all_covered ops : forall w, std w -> no_range_format ops ->
  (forall r c x, table_get r c (data w) = Some x -> covers w r c) ->
  forall r c x, table_get r c (data (run w ops)) = Some x -> covers (run w ops) r c.
Proof.
  induction ops as [|o ops IH]; intros w H Hn Hc; [exact Hc|]. rewrite run_cons. destruct (step w o) as [w' e] eqn:E.
  destruct (std_step _ _ _ _ H E) as [H' F]. cbn [fst]. apply IH; [assumption|intros ? ?; apply Hn; right; assumption|].
  intros r c x Hx. destruct (sf_new _ _ _ _ F r c x Hx) as [Ho|[_ Ho]].
  - destruct (table_get r c (data w)) as [y|] eqn:Ey; [|congruence]. eapply covers_meta; [apply F|]. eapply Hc. exact Ey.
  - apply Ho. apply Hn. left. reflexivity.
Qed.

(** Full statement (false, see the two refutations below): after every history
    every stored cell is inside the written <dimension> range, and is emitted.
    Proved for histories without set_range_format, and outside the special case
    in which row 1 is used from A to XFD and nothing else is. *)
Theorem C16_cells_within_dimension_partial ops r c k x :
  let w := run ws_standard ops in
  no_range_format ops -> table_get r c (data w) = Some (k, x) ->
  covers w r c /\
  (~ (first_row w = 0 /\ first_col w = 0 /\ last_row w = 0 /\ last_col w = 16383) ->
   exists fr fc lr lc, dimension_ref w = Some (fr, fc, lr, lc) /\ fr <= r <= lr /\ fc <= c <= lc) /\
  (contents k <> VBlank -> forall t g, exists style, shown (sheet_rows w t g) r c = [(contents k, style)]).
Proof.
  cbv zeta. intros Hn Hx. destruct (std_run ops ws_standard std_start) as [H _].
  assert (Hc : covers (run ws_standard ops) r c).
  { eapply all_covered; [apply std_start|exact Hn| |exact Hx]. intros ? ? ? Hd. discriminate. }
  split; [exact Hc|]. set (w := run ws_standard ops) in *. destruct Hc as [[A1 A2] [B1 B2]]. split.
  - intros Hs. exists (first_row w), (first_col w), (last_row w), (last_col w). split; [|auto].
    unfold dimension_ref.
    pose proof (d_cells w H) as (HC & _ & _). unfold table_get in Hx. destruct (get r (data w)) as [cs|] eqn:Er; [|discriminate].
    pose proof (all_cols_get _ _ _ _ _ _ (all_table_get _ _ _ _ HC Er) Hx) as [[L1 L2] _].
    clearbody w. unfold ROW_MAX, COL_MAX in *.
    destruct (_ && _) eqn:E1; [exfalso; apply Hs; lia|].
    assert (negb (first_row w =? 1048576) = true) as -> by lia. reflexivity.
  - intros Hb t g. pose proof (sheet_shown w t g r c H) as S. rewrite Hx in S. cbv zeta in S. rewrite S.
    apply N.leb_le in A1, A2. rewrite A1, A2. cbn [andb]. destruct (contents k); try congruence; eauto.
Qed.
Example C16_witness :
  let ops := [WriteNumber 4 3 (f_of_N 1) None; WriteString 2 9 (lit "x") None; SetRowHeight 7 (f_of_N 30)] in
  no_range_format ops /\ dimension_ref (run ws_standard ops) = Some (2, 3, 7, 9).
Proof. split; [intros o Ho; repeat destruct Ho as [<-|Ho]; try reflexivity; destruct Ho|vm_compute; reflexivity]. Qed.

(** FINDING: cells formatted with set_range_format outside the range used so far
    are neither counted in <dimension> nor written at all. *)
Theorem C16_refuted_range_format :
  exists ops f, let w := run ws_standard ops in
    In (SetRangeFormat 5 5 6 6 f) ops /\ f <> format_default /\
    (exists k x, table_get 5 5 (data w) = Some (k, x) /\ nth_error (xfs w) (N.to_nat x) = Some f) /\
    dimension_ref w = Some (0, 0, 0, 0) /\
    shown (sheet_rows w sst_new (fun i => i)) 5 5 = [].
Proof.
  exists [WriteNumber 0 0 (f_of_N 1) None; SetRangeFormat 5 5 6 6 format_hyperlink], format_hyperlink.
  split; [right; left; reflexivity|]. split; [discriminate|]. split; [do 2 eexists; vm_compute; split; reflexivity|].
  split; vm_compute; reflexivity.
Qed.
(** FINDING: using A1 and XFD1 (row 1, first and last column) is reported as the
    single cell "A1". *)
Theorem C16_refuted_full_first_row :
  exists ops, let w := run ws_standard ops in
    dimension_ref w = None /\ shown (sheet_rows w sst_new (fun i => i)) 0 16383 <> [].
Proof.
  exists [WriteNumber 0 0 (f_of_N 1) None; WriteNumber 0 16383 (f_of_N 2) None]. vm_compute. split; [reflexivity|discriminate].
Qed.

(** ** C17 *)

(** The cells a call names. *)
Definition corners (o : op) : list (N * N) :=
  match o with
  | WriteNumber r c _ _ | WriteDateTime r c _ _ | WriteString r c _ _ | WriteRich r c _ _ _ | WriteBool r c _ _
  | WriteBlank r c _ | WriteFormula r c _ _ _ | SetCellFormat r c _ | InsertNote r c _ => [(r, c)]
  | WriteArray fr fc lr lc _ _ _ _ | SetRangeFormat fr fc lr lc _ => [(fr, fc); (lr, lc)]
  | _ => []
  end.
(** Writing the empty text without a format is no write at all. *)
Definition silent (o : op) : bool :=
  match o with WriteString _ _ [] None | WriteRich _ _ [] _ None => true | _ => false end.

Lemma check_dimensions_out w r c : ~ in_limits r c -> check_dimensions w r c = (w, false).
Proof.
  intros H. unfold check_dimensions, in_limits in *. destruct (N.leb_spec ROW_MAX r); [reflexivity|].
  destruct (N.leb_spec COL_MAX c); [reflexivity|]. exfalso. apply H. auto.
Qed.

(** In every state and mode, a call naming a cell outside the sheet fails with
    RowColumnLimit and changes no cell; a call naming a single cell changes
    nothing whatsoever. *)
Theorem C17_out_of_limits_rejected w o r c :
  In (r, c) (corners o) -> ~ in_limits r c -> silent o = false ->
  exists w', step w o = (w', Some RowColumnLimit) /\
    data w' = data w /\ write_ahead w' = write_ahead w /\ flushed w' = flushed w /\
    (corners o = [(r, c)] -> w' = w).
Proof.
  intros Hin Hl Hs.
  assert (HB : forall f, store_blank w r c f = (w, Some RowColumnLimit))
    by (intros; unfold store_blank; rewrite check_dimensions_out by assumption; reflexivity).
  destruct o; cbn [corners] in Hin; try contradiction; cbn [step].
  1-7, 9: destruct Hin as [[= -> ->]|[]]; exists w; (split; [|auto]).
  - unfold store_number_type. rewrite check_dimensions_out by assumption. reflexivity.
  - unfold store_number_type. rewrite check_dimensions_out by assumption. reflexivity.
  - unfold store_string. destruct s; [destruct f; [apply HB|discriminate]|].
    rewrite check_dimensions_out by assumption. reflexivity.
  - unfold store_rich_string. destruct s; [destruct f; [apply HB|discriminate]|].
    rewrite check_dimensions_out by assumption. reflexivity.
  - unfold store_boolean. rewrite check_dimensions_out by assumption. reflexivity.
  - apply HB.
  - unfold store_formula, store_array_formula. destruct (f_dynamic fm); rewrite check_dimensions_out by assumption; reflexivity.
  - unfold set_cell_format. rewrite check_dimensions_out by assumption. reflexivity.
  - unfold store_array_formula. destruct (check_dimensions w fr fc) as [w1 b1] eqn:E1.
    pose proof (check_dimensions_spec _ _ _ _ _ E1) as (M1 & _ & D1 & _ & _ & F1 & _).
    destruct b1; cbn [negb].
    + destruct (check_dimensions w1 lr lc) as [w2 b2] eqn:E2.
      pose proof (check_dimensions_spec _ _ _ _ _ E2) as (M2 & _ & D2 & _ & L2 & _ & _).
      assert (b2 = false) as ->.
      { destruct b2; [|reflexivity]. exfalso. destruct Hin as [[= -> ->]|[[= -> ->]|[]]]; [|auto].
        rewrite check_dimensions_out in E1 by assumption. discriminate. }
      cbn [negb]. exists w2. split; [reflexivity|]. destruct M1, M2. split; [congruence|]. split; [congruence|]. split; [congruence|discriminate].
    + exists w1. split; [reflexivity|]. destruct (F1 eq_refl) as [_ ->]. auto.
  - exists w. split; [|auto]. unfold set_range_format.
    assert (negb (check_dimensions_only fr fc) || negb (check_dimensions_only lr lc) = true) as ->; [|reflexivity].
    unfold check_dimensions_only, in_limits in *. destruct Hin as [[= -> ->]|[[= -> ->]|[]]]; lia.
  - destruct Hin as [[= -> ->]|[]]. exists w. split; [|auto]. unfold insert_note. rewrite check_dimensions_out by assumption. reflexivity.
Qed.

(** Row and column settings out of the limits fail and change nothing. *)
Theorem C17_row_out_of_limits_rejected w r : 1048576 <= r ->
  (forall h, step w (SetRowHeight r h) = (w, Some RowColumnLimit)) /\
  (forall f, step w (SetRowFormat r f) = (w, Some RowColumnLimit)) /\
  step w (SetRowHidden r) = (w, Some RowColumnLimit) /\ step w (SetRowUnhidden r) = (w, Some RowColumnLimit).
Proof.
  intros H. assert (Hl : forall c, ~ in_limits r c) by (intros c [A _]; unfold ROW_MAX in A; lia).
  cbn [step]. unfold set_row_height, set_row_format, set_row_hidden, set_row_unhidden.
  rewrite check_dimensions_out by apply Hl. split; [intros h; destruct (feq h fzero); reflexivity|auto].
Qed.
Theorem C17_column_out_of_limits_rejected w c : 16384 <= c ->
  (forall x a, step w (SetColumnWidth c x a) = (w, Some RowColumnLimit)) /\
  (forall f, step w (SetColumnFormat c f) = (w, Some RowColumnLimit)) /\
  step w (SetColumnHidden c) = (w, Some RowColumnLimit).
Proof.
  intros H. assert (Hl : forall r, ~ in_limits r c) by (intros r [_ A]; unfold COL_MAX in A; lia).
  assert (E : COL_MAX <=? c = true) by (unfold COL_MAX; lia).
  cbn [step]. unfold set_column_width_internal, set_column_format, set_column_hidden.
  rewrite check_dimensions_out by apply Hl. rewrite E. split; [intros x a; destruct (feq x fzero); reflexivity|auto].
Qed.

(** Over-long text is rejected and no cell changes, in every state and mode. *)
Theorem C17_long_text_rejected w r c s f : in_limits r c -> 32767 < char_count s ->
  exists w', step w (WriteString r c s f) = (w', Some MaxStringLength) /\
    data w' = data w /\ write_ahead w' = write_ahead w /\ flushed w' = flushed w.
Proof.
  intros Hl Hs. cbn [step]. unfold store_string. destruct s as [|ch s']; [cbn in Hs; lia|]. set (s := ch :: s') in *.
  destruct (check_dimensions w r c) as [w1 b] eqn:E. pose proof (check_dimensions_spec _ _ _ _ _ E) as (M & _ & D & _ & _ & Fb & _).
  destruct b; [|destruct (Fb eq_refl); contradiction]. cbn [negb].
  assert (MAX_STRING_LEN <? char_count s = true) as -> by (unfold MAX_STRING_LEN; lia).
  exists w1. destruct M. auto.
Qed.

(** After every history, in every mode, every cell held in memory or already
    streamed is inside the sheet and no text exceeds Excel's limit. *)
Definition text_fits (v : value) : Prop :=
  match v with VText s | VRich s => char_count s <= 32767 | _ => True end.
Lemma cell_inv_facts inl gs r c k : cell_inv inl gs r c k -> r < 1048576 /\ c < 16384 /\ text_fits (contents k).
Proof.
  intros [[A B] H]. unfold ROW_MAX, COL_MAX, MAX_STRING_LEN in *. split; [assumption|]. split; [assumption|].
  destruct k as [| |s [i|]| | | | |s raw [i|]| |]; cbn; try exact I; apply H.
Qed.
Theorem C17_stored_cells_within_limits cmem inl gs reg0 t0 ops r c k x :
  table_get r c (data (run (ws_new cmem inl gs reg0 t0) ops)) = Some (k, x) ->
  r < 1048576 /\ c < 16384 /\ text_fits (contents k).
Proof.
  intros H. destruct (run_keeps ops _ (ws_new_wcells cmem inl gs reg0 t0)) as [(HC & _ & _) _].
  unfold table_get in H. destruct (get r _) as [cs|] eqn:Er; [|discriminate].
  eapply cell_inv_facts. exact (all_cols_get _ _ _ _ _ _ (all_table_get _ _ _ _ HC Er) H).
Qed.
Lemma shown_in rows r c v s : In (v, s) (shown rows r c) ->
  exists o cs k, In o rows /\ o_row o = r /\ o_cells o = Some cs /\ In (c, k, s) cs /\ contents k = v.
Proof.
  unfold shown. rewrite in_flat_map. intros (o & Ho & H). unfold row_at in H. destruct (N.eqb_spec (o_row o) r) as [E|]; [|destruct H].
  destruct (o_cells o) as [cs|] eqn:Ec; [|destruct H]. rewrite in_flat_map in H. destruct H as ([[c' k] x] & Hin & H).
  unfold cell_at in H. destruct (N.eqb_spec c' c) as [->|]; [|destruct H]. destruct H as [[= <- <-]|[]]. exists o, cs, k. auto.
Qed.
Theorem C17_streamed_cells_within_limits inl gs reg0 t0 ops r c v s :
  In (v, s) (shown (streamed_rows (run (ws_new true inl gs reg0 t0) ops)) r c) ->
  r < 1048576 /\ c < 16384 /\ text_fits v.
Proof.
  intros H. destruct (run_keeps ops _ (ws_new_wcells true inl gs reg0 t0)) as [HC _].
  apply (flush_last_row_all) in HC as (_ & _ & HC).
  apply shown_in in H as (o & cs & k & Ho & <- & Hc & Hin & <-).
  eapply cell_inv_facts. exact (HC o cs c k s Ho Hc Hin).
Qed.
Example C17_witness :
  ~ in_limits 1048576 0 /\ in_limits 1048575 16383 /\
  snd (step ws_standard (WriteNumber 1048575 16383 (f_of_N 1) None)) = None /\
  shown (streamed_rows (run (ws_new true true true [format_default] sst_new) [WriteNumber 2 3 (f_of_N 1) None])) 2 3 = [(VNumber (f_of_N 1), 0)].
Proof.
  split; [intros [H _]; unfold ROW_MAX in H; lia|]. split; [split; reflexivity|]. split; [reflexivity|vm_compute; reflexivity].
Qed.
(** FINDING: a rejected over-long text still enlarges the used range. *)
Theorem C17_refuted_rejected_text_grows_range : exists s,
  32767 < char_count s /\ snd (step ws_standard (WriteString 9 9 s None)) = Some MaxStringLength /\
  dimension_ref (fst (step ws_standard (WriteString 9 9 s None))) = Some (9, 9, 9, 9).
Proof. exists (repeat 97 32768). split; [vm_compute; reflexivity|]. split; vm_compute; reflexivity. Qed.
(** FINDING: so does a rejected array formula. *)
Theorem C17_refuted_rejected_array_grows_range : exists fm,
  let o := WriteArray 0 0 1048576 0 fm None false [] in
  snd (step ws_standard o) = Some RowColumnLimit /\ dimension_ref (fst (step ws_standard o)) = Some (0, 0, 0, 0).
Proof. exists {| f_text := []; f_result := []; f_dynamic := false |}. vm_compute. auto. Qed.
(** FINDING: writing an empty string beyond the limits is accepted silently. *)
Theorem C17_refuted_empty_text_out_of_range :
  step ws_standard (WriteString 2000000 0 [] None) = (ws_standard, None).
Proof. reflexivity. Qed.

(** ** C45 *)

(** No numeric or date cell of the file is non-finite, in either mode. *)
Definition number_finite (v : value) : Prop :=
  match v with VNumber x | VDateTime x => finite x | _ => True end.
Lemma cell_inv_finite inl gs r c k : cell_inv inl gs r c k -> number_finite (contents k).
Proof. intros [_ H]. destruct k; cbn; try exact I; exact H. Qed.
Theorem C45_file_numbers_are_finite ops t g r c v s :
  In (v, s) (shown (sheet_rows (run ws_standard ops) t g) r c) -> number_finite v.
Proof.
  intros Hin. destruct (std_run ops ws_standard std_start) as [H _].
  pose proof (sheet_shown _ t g r c H) as S. destruct (table_get r c _) as [[k x]|] eqn:Ek; [|rewrite S in Hin; destruct Hin].
  cbv zeta in S. rewrite S in Hin. pose proof (d_cells _ H) as (HC & _ & _).
  unfold table_get in Ek. destruct (get r (data (run ws_standard ops))) as [cs|] eqn:Er; [|discriminate].
  pose proof (cell_inv_finite _ _ _ _ _ (all_cols_get _ _ _ _ _ _ (all_table_get _ _ _ _ HC Er) Ek)) as HF.
  destruct (_ && _); [|destruct Hin].
  destruct (contents k); cbn in HF; try (destruct Hin as [[= <- _]|[]]; exact HF).
  destruct (0 <? _); [|destruct Hin]. destruct Hin as [[= <- _]|[]]. exact I.
Qed.
Theorem C45_streamed_numbers_are_finite inl gs reg0 t0 ops r c v s :
  In (v, s) (shown (streamed_rows (run (ws_new true inl gs reg0 t0) ops)) r c) -> number_finite v.
Proof.
  intros H. destruct (run_keeps ops _ (ws_new_wcells true inl gs reg0 t0)) as [HC _].
  apply (flush_last_row_all) in HC as (_ & _ & HC).
  apply shown_in in H as (o & cs & k & Ho & <- & Hc & Hin & <-).
  eapply cell_inv_finite. exact (HC o cs c k s Ho Hc Hin).
Qed.
(** What is written instead: the configured text; finite numbers are unchanged. *)
Theorem C45_number_cell_shows pre x f post w1 r c t g v :
  let w := run ws_standard pre in
  step w (WriteNumber r c x f) = (w1, None) -> undisturbed w1 post r c ->
  v = match x with
      | S754_nan => VText (nan_text w)
      | S754_infinity false => VText (inf_text w)
      | S754_infinity true => VText (neg_inf_text w)
      | _ => VNumber x end ->
  v <> VText [] ->
  exists style, shown (sheet_rows (run ws_standard (pre ++ WriteNumber r c x f :: post)) t g) r c = [(v, style)].
Proof.
  cbv zeta. intros E Hu Hv Hne. apply C15_last_write_wins with (w1 := w1); [exact E| |intros Hbad; rewrite Hbad in Hv; clear -Hv; destruct x as [|[|]| |]; discriminate Hv|exact Hu].
  cbn [writes]. rewrite here_refl. unfold number_value, special_text.
  destruct x as [|[|]| |]; subst v; try reflexivity; unfold text_value;
    match goal with |- context [match ?s with [] => _ | _ => _ end] => destruct s; [congruence|destruct f; reflexivity] end.
Qed.
Example C45_witness :
  shown (sheet_rows (run ws_standard [WriteNumber 0 0 S754_nan None; WriteDateTime 0 1 (S754_infinity true) None]) sst_new (fun i => i)) 0 0
    = [(VText (lit "NAN"), 0)] /\
  shown (sheet_rows (run ws_standard [WriteNumber 0 0 S754_nan None; WriteDateTime 0 1 (S754_infinity true) None]) sst_new (fun i => i)) 0 1
    = [(VText (lit "-INF"), 0)].
Proof. vm_compute. auto. Qed.

(** ** C19, standard mode *)
Definition increasing (l : list N) : Prop := StronglySorted N.lt l.

Lemma range_incl_sorted a b : increasing (range_incl a b).
Proof.
  unfold range_incl, increasing. generalize (N.to_nat (b + 1 - a)). intros n. generalize 0%nat.
  induction n as [|n IH]; intros k; cbn [seq map]; constructor; [apply IH|].
  rewrite Forall_forall. intros x Hx. apply in_map_iff in Hx as (i & <- & Hi). apply in_seq in Hi. lia.
Qed.
Lemma flat_map_sorted {A} (key : A -> N) (f : N -> list A) l :
  increasing l -> (forall x a, In a (f x) -> key a = x) -> (forall x, (length (f x) <= 1)%nat) ->
  increasing (map key (flat_map f l)).
Proof.
  intros Hs Hk H1. induction l as [|x l IH]; [constructor|]. inversion Hs as [|? ? Hs' Hf]; subst.
  cbn [flat_map]. rewrite map_app. pose proof (H1 x) as L. pose proof (Hk x) as K.
  destruct (f x) as [|a [|]]; cbn [length map app] in *; [apply IH; assumption| |lia].
  constructor; [apply IH; assumption|]. rewrite Forall_forall in *. intros y Hy. apply in_map_iff in Hy as (b & <- & Hb).
  apply in_flat_map in Hb as (z & Hz & Hb). rewrite (K a (or_introl eq_refl)), (Hk z b Hb). apply Hf. assumption.
Qed.
Lemma emit_cells_sorted w g ro cs : ok cs -> increasing (map (fun x => fst (fst x)) (flat_map (emit_cell w g ro) cs)).
Proof.
  unfold ok, increasing. induction cs as [|[j x] cs IH]; intros H; [constructor|]. cbn [keys map fst] in H.
  inversion H as [|? ? Hs Hf]; subst. cbn [flat_map]. rewrite map_app.
  assert (HL : emit_cell w g ro (j, x) = [] \/ exists k e, emit_cell w g ro (j, x) = [(j, k, e)]).
  { destruct x as [k xf]. unfold emit_cell. destruct k as [| |s [i|]| | | | |s raw [i|]| |]; eauto. destruct (0 <? _); eauto. }
  destruct HL as [->|(k & e & ->)]; cbn [map app]; [auto|]. constructor; [auto|].
  rewrite Forall_forall in *. intros y Hy. apply in_map_iff in Hy as (b & <- & Hb).
  apply in_flat_map in Hb as ([j' x'] & Hz & Hb). apply emit_cell_col in Hb. cbn [fst] in *. rewrite Hb.
  apply Hf. apply (in_map fst) in Hz. exact Hz.
Qed.
(** Rows come out in strictly increasing order, and the cells of each row in
    strictly increasing column order. *)
Theorem C19_standard_rows_and_cells_ordered ops t g :
  let rows := sheet_rows (run ws_standard ops) t g in
  increasing (map o_row rows) /\
  forall o cs, In o rows -> o_cells o = Some cs -> increasing (map (fun x => fst (fst x)) cs).
Proof.
  cbv zeta. destruct (std_run ops ws_standard std_start) as [H _]. set (w := run ws_standard ops) in *. clearbody w.
  destruct (saved_spec w t (d_ok w H) (d_flag w H)) as [Hok _]. unfold sheet_rows. generalize (saved w t) Hok. clear. intros w Hok.
  unfold write_data_table. split.
  - apply flat_map_sorted; [apply range_incl_sorted| |].
    + intros x a Ha. unfold emit_row in Ha. destruct (get x (data w)); [|destruct (match get x (changed_rows w) with Some _ => true | None => mem x (notes w) end)];
        try (destruct Ha as [<-|[]]; reflexivity). destruct Ha.
    + intros x. unfold emit_row. destruct (get x (data w)); [|destruct (match get x (changed_rows w) with Some _ => true | None => mem x (notes w) end)]; cbn; lia.
  - intros o cs Hin Hc. apply in_flat_map in Hin as (x & _ & Ha). unfold emit_row in Ha. destruct (get x (data w)) as [cs'|] eqn:E.
    + destruct Ha as [<-|[]]. injection Hc as <-. apply emit_cells_sorted. apply Hok in E. exact E.
    + destruct (match get x (changed_rows w) with Some _ => true | None => mem x (notes w) end); [|destruct Ha].
      destruct Ha as [<-|[]]. discriminate.
Qed.
Example C19_standard_witness :
  map o_row (sheet_rows (run ws_standard [WriteNumber 9 1 (f_of_N 1) None; WriteNumber 2 5 (f_of_N 1) None; WriteNumber 2 3 (f_of_N 1) None]) sst_new (fun i => i)) = [2; 9].
Proof. vm_compute. reflexivity. Qed.

(** ** C27 *)

(** General form: a cell's own (non-default) format, given by the last call that mentions the
    cell, is the one the written style index selects. *)
Lemma own_format_general pre o post w1 r c f t g :
  (forall i, nth_error (xfs (run ws_standard (pre ++ o :: post))) (N.to_nat i) = Some f -> g i <> 0) ->
  step (run ws_standard pre) o = (w1, None) -> gives_format o r c = Some f -> f <> format_default ->
  is_range_format o = false -> untouched w1 post r c ->
  let w := run ws_standard (pre ++ o :: post) in
  exists v i, shown (sheet_rows w t g) r c = [(v, g i)] /\ i <> 0 /\ nth_error (xfs w) (N.to_nat i) = Some f.
Proof.
  intros Hg E Hf Hne Hrf Hu. cbv zeta. rewrite run_app, run_cons, E in *. cbn [fst] in *.
  destruct (std_run pre ws_standard std_start) as [H0 _].
  destruct (std_step _ _ _ _ H0 E) as [H1 F].
  destruct (sf_fmt _ _ _ _ F eq_refl (d_reg _ H0) r c f Hf Hne) as (k & x & Hk & Hx).
  assert (Hcov : covers w1 r c).
  { destruct (is_write o) eqn:Ew.
    - destruct (gives_writes (run ws_standard pre) o r c f Ew Hf) as [_ (v & Hv)].
      destruct (sf_cov _ _ _ _ F eq_refl r c v Hv). assumption.
    - destruct o; try discriminate; cbn [gives_format] in Hf. destruct (here row col r c) eqn:EH; [|discriminate].
      apply here_true in EH as [-> ->]. cbn [step] in E. apply set_cell_format_spec in E; [|apply H0].
      destruct E as (w2 & i & _ & _ & _ & _ & Hc & ->).
      destruct (insert_cell_format_frame w2 row col i) as [d ->]. exact Hc. }
  destruct (std_run post w1 H1) as [H2 M2].
  pose proof (untouched_run post r c w1 H1 Hu) as P. rewrite Hk in P.
  assert (Hx0 : x <> 0).
  { intros ->. pose proof (d_reg _ H1) as R. unfold reg0 in R. change (N.to_nat 0) with 0%nat in Hx. congruence. }
  pose proof (sheet_shown (run w1 post) t g r c H2) as S. rewrite P in S. cbv zeta in S. rewrite effective_info in S.
  destruct (N.eqb_spec x 0) as [|_]; [contradiction|]. destruct (N.eqb_spec x 0) as [|_]; [contradiction|].
  apply (covers_meta _ _ _ _ M2) in Hcov as [[A B] _]. apply N.leb_le in A, B. rewrite A, B in S. cbn [andb] in S.
  assert (Hx' : nth_error (xfs (run w1 post)) (N.to_nat x) = Some f) by (eapply prefix_nth; [apply M2|exact Hx]).
  exists (contents k), x. split; [|split; [assumption|exact Hx']].
  rewrite S. destruct (contents k); try reflexivity. pose proof (Hg x Hx'). destruct (N.ltb_spec 0 (g x)); [reflexivity|lia].
Qed.

(** A cell's own (non-default) format, given by the last call that mentions the
    cell, is the one the written style index selects. *)
Theorem C27_own_format_wins pre o post w1 r c f t g :
  keeps_styles g ->
  step (run ws_standard pre) o = (w1, None) -> gives_format o r c = Some f -> f <> format_default ->
  is_range_format o = false -> untouched w1 post r c ->
  let w := run ws_standard (pre ++ o :: post) in
  exists v i, shown (sheet_rows w t g) r c = [(v, g i)] /\ i <> 0 /\ nth_error (xfs w) (N.to_nat i) = Some f.
Proof.
  intros Hg E Hf Hne Hrf Hu. apply (own_format_general pre o post w1 r c f t g); try assumption.
  intros i Hi. apply Hg. intros ->. destruct (std_run (pre ++ o :: post) ws_standard std_start) as [HS _].
  pose proof (d_reg _ HS) as R. unfold reg0 in R. change (N.to_nat 0) with 0%nat in Hi. congruence.
Qed.

(** Calls that configure a row or a column format. *)
Definition formats_row (r : N) (o : op) : bool := match sets_row_format r o with Some _ => true | None => false end.
Definition formats_col (c : N) (o : op) : bool := match sets_col_format c o with Some _ => true | None => false end.
Lemma none_formats_row r ops : existsb (formats_row r) ops = false -> forall o, In o ops -> sets_row_format r o = None.
Proof.
  intros H o Ho. destruct (sets_row_format r o) eqn:E; [|reflexivity]. exfalso.
  assert (existsb (formats_row r) ops = true); [|congruence]. apply existsb_exists. exists o. unfold formats_row. rewrite E. auto.
Qed.
Lemma none_formats_col c ops : existsb (formats_col c) ops = false -> forall o, In o ops -> sets_col_format c o = None.
Proof.
  intros H o Ho. destruct (sets_col_format c o) eqn:E; [|reflexivity]. exfalso.
  assert (existsb (formats_col c) ops = true); [|congruence]. apply existsb_exists. exists o. unfold formats_col. rewrite E. auto.
Qed.

(** The style of a cell written without a format of its own, at a moment when
    its row and column do not both have formats. *)
Lemma plain_cell pre o post w1 r c v t g :
  step (run ws_standard pre) o = (w1, None) -> is_write o = true -> writes (run ws_standard pre) o r c = Some v ->
  v <> VBlank -> write_format o = None ->
  existsb (formats_row r) pre = false \/ existsb (formats_col c) pre = false ->
  untouched w1 post r c ->
  let w := run ws_standard (pre ++ o :: post) in
  let e := if row_xf w r =? 0 then col_xf w c else row_xf w r in
  shown (sheet_rows w t g) r c = [(v, if e =? 0 then 0 else g e)].
Proof.
  intros E Hw Hv Hb Hf Hn Hu. cbv zeta. rewrite run_app, run_cons, E. cbn [fst].
  destruct (std_run pre ws_standard std_start) as [H0 _].
  pose proof (write_effect _ _ _ _ (d_cm _ H0) Hw E) as HE. cbn in HE.
  destruct (e_val _ _ _ _ HE r c v Hv) as (k & x & Hk & Hc & Hx & _ & Hcov).
  assert (crossing_format (run ws_standard pre) r c = None) as HX.
  { rewrite crossing_fmt. unfold row_fmt, col_fmt. destruct Hn as [Hn|Hn].
    - rewrite (row_info_run pre r ws_standard std_start (none_formats_row _ _ Hn)). cbn. destruct (snd _); reflexivity.
    - rewrite (col_info_run pre c ws_standard std_start (none_formats_col _ _ Hn)). reflexivity. }
  rewrite Hf in Hx. cbn in Hx. rewrite HX in Hx. subst x.
  destruct (std_step _ _ _ _ H0 E) as [H1 F]. destruct (std_run post w1 H1) as [H2 M2].
  pose proof (untouched_run post r c w1 H1 Hu) as P. rewrite Hk in P.
  pose proof (sheet_shown (run w1 post) t g r c H2) as S. rewrite P in S. cbv zeta in S. rewrite effective_info in S. cbn [N.eqb] in S.
  apply (covers_meta _ _ _ _ M2) in Hcov as [[A B] _]. apply N.leb_le in A, B. rewrite A, B in S. cbn [andb] in S.
  rewrite S, Hc. destruct v; congruence || reflexivity.
Qed.

Lemma last_row_format ops a b r f : ops = a ++ SetRowFormat r f :: b -> r < 1048576 ->
  existsb (formats_row r) b = false -> nth_error (xfs (run ws_standard ops)) (N.to_nat (row_xf (run ws_standard ops) r)) = Some f.
Proof.
  intros -> Hr Hb. rewrite run_app, run_cons. destruct (std_run a ws_standard std_start) as [H0 _].
  destruct (step (run ws_standard a) (SetRowFormat r f)) as [w1 e] eqn:E. cbn [fst].
  destruct (std_step _ _ _ _ H0 E) as [H1 F]. destruct (std_run b w1 H1) as [H2 M2].
  unfold row_xf. rewrite (row_info_run b r w1 H1 (none_formats_row _ _ Hb)).
  assert (e = None) as ->.
  { cbn [step] in E. unfold set_row_format in E. destruct (check_dimensions (run ws_standard a) r _) as [w2 bb] eqn:E2.
    destruct bb; cbn [negb] in E; [destruct (reg w2 f); apply pair_equal_spec in E as [_ <-]; reflexivity|].
    exfalso. apply check_dimensions_spec in E2 as (_ & _ & _ & _ & _ & Fb & _). destruct (Fb eq_refl) as [Hl _]. apply Hl.
    split; [exact Hr|]. unfold get_min_col. destruct (N.eqb_spec (first_col (run ws_standard a)) COL_MAX) as [|Hn]; [reflexivity|].
    destruct (std_run a ws_standard std_start) as [_ M0]. pose proof (m_fc _ _ M0) as L. cbn [ws_standard ws_new first_col] in L. lia. }
  pose proof (proj1 (step_rc _ _ _ _ H0 E) r) as R. cbn [sets_row_format] in R. rewrite N.eqb_refl in R.
  eapply prefix_nth; [apply M2|apply R].
Qed.
Lemma last_col_format ops a b c f : ops = a ++ SetColumnFormat c f :: b -> c < 16384 ->
  existsb (formats_col c) b = false -> nth_error (xfs (run ws_standard ops)) (N.to_nat (col_xf (run ws_standard ops) c)) = Some f.
Proof.
  intros -> Hr Hb. rewrite run_app, run_cons. destruct (std_run a ws_standard std_start) as [H0 _].
  destruct (step (run ws_standard a) (SetColumnFormat c f)) as [w1 e] eqn:E. cbn [fst].
  destruct (std_step _ _ _ _ H0 E) as [H1 F]. destruct (std_run b w1 H1) as [H2 M2].
  unfold col_xf. rewrite (col_info_run b c w1 H1 (none_formats_col _ _ Hb)).
  assert (e = None) as ->.
  { cbn [step] in E. unfold set_column_format in E. destruct (check_dimensions (run ws_standard a) _ c) as [w2 bb] eqn:E2.
    destruct bb; cbn [negb] in E; [destruct (reg w2 f); apply pair_equal_spec in E as [_ <-]; reflexivity|].
    exfalso. apply check_dimensions_spec in E2 as (_ & _ & _ & _ & _ & Fb & _). destruct (Fb eq_refl) as [Hl _]. apply Hl.
    split; [|exact Hr]. unfold get_min_row. destruct (N.eqb_spec (first_row (run ws_standard a)) ROW_MAX) as [|Hn]; [reflexivity|].
    destruct (std_run a ws_standard std_start) as [_ M0]. pose proof (m_fr _ _ M0) as L. cbn [ws_standard ws_new first_row] in L. lia. }
  pose proof (proj2 (step_rc _ _ _ _ H0 E) c) as R. cbn [sets_col_format] in R. rewrite N.eqb_refl in R.
  eapply prefix_nth; [apply M2|apply R].
Qed.

(** Otherwise the row's current format applies, whether it was set before or
    after the cell was written. *)
Theorem C27_row_format_next pre o post w1 r c v f a b t g :
  step (run ws_standard pre) o = (w1, None) -> is_write o = true -> writes (run ws_standard pre) o r c = Some v ->
  v <> VBlank -> write_format o = None -> untouched w1 post r c ->
  existsb (formats_row r) pre = false \/ existsb (formats_col c) pre = false ->
  pre ++ o :: post = a ++ SetRowFormat r f :: b -> existsb (formats_row r) b = false ->
  r < 1048576 -> f <> format_default ->
  let w := run ws_standard (pre ++ o :: post) in
  exists i, shown (sheet_rows w t g) r c = [(v, g i)] /\ nth_error (xfs w) (N.to_nat i) = Some f.
Proof.
  intros E Hw Hv Hb Hf Hu Hn Hl Hlast Hr Hne. cbv zeta.
  pose proof (plain_cell pre o post w1 r c v t g E Hw Hv Hb Hf Hn Hu) as P. cbv zeta in P.
  pose proof (last_row_format _ a b r f Hl Hr Hlast) as L.
  set (w := run ws_standard (pre ++ o :: post)) in *.
  assert (Hx : row_xf w r <> 0).
  { intros E0. rewrite E0 in L. destruct (std_run (pre ++ o :: post) ws_standard std_start) as [HS _]. pose proof (d_reg _ HS) as R.
    unfold reg0 in R. fold w in R. change (N.to_nat 0) with 0%nat in L. congruence. }
  apply N.eqb_neq in Hx. rewrite Hx in P. rewrite Hx in P. exists (row_xf w r). auto.
Qed.
(** Otherwise the column's current format applies. *)
Theorem C27_column_format_last pre o post w1 r c v f a b t g :
  step (run ws_standard pre) o = (w1, None) -> is_write o = true -> writes (run ws_standard pre) o r c = Some v ->
  v <> VBlank -> write_format o = None -> untouched w1 post r c ->
  existsb (formats_row r) (pre ++ o :: post) = false ->
  pre ++ o :: post = a ++ SetColumnFormat c f :: b -> existsb (formats_col c) b = false ->
  c < 16384 -> f <> format_default ->
  let w := run ws_standard (pre ++ o :: post) in
  exists i, shown (sheet_rows w t g) r c = [(v, g i)] /\ nth_error (xfs w) (N.to_nat i) = Some f.
Proof.
  intros E Hw Hv Hb Hf Hu Hn Hl Hlast Hr Hne. cbv zeta.
  assert (Hn' : existsb (formats_row r) pre = false \/ existsb (formats_col c) pre = false).
  { left. rewrite existsb_app in Hn. apply orb_false_iff in Hn. apply Hn. }
  pose proof (plain_cell pre o post w1 r c v t g E Hw Hv Hb Hf Hn' Hu) as P. cbv zeta in P.
  pose proof (last_col_format _ a b c f Hl Hr Hlast) as L.
  set (w := run ws_standard (pre ++ o :: post)) in *.
  assert (Hx : col_xf w c <> 0).
  { intros E0. rewrite E0 in L. destruct (std_run (pre ++ o :: post) ws_standard std_start) as [HS _]. pose proof (d_reg _ HS) as R.
    unfold reg0 in R. fold w in R. change (N.to_nat 0) with 0%nat in L. congruence. }
  assert (Hr0 : row_xf w r = 0).
  { unfold w, row_xf. rewrite (row_info_run _ r ws_standard std_start (none_formats_row _ _ Hn)). reflexivity. }
  rewrite Hr0 in P. cbn [N.eqb] in P. apply N.eqb_neq in Hx. rewrite Hx in P. exists (col_xf w c). auto.
Qed.
(** Otherwise the default style 0 is written. *)
Theorem C27_default_otherwise pre o post w1 r c v t g :
  step (run ws_standard pre) o = (w1, None) -> is_write o = true -> writes (run ws_standard pre) o r c = Some v ->
  v <> VBlank -> write_format o = None -> untouched w1 post r c ->
  existsb (formats_row r) (pre ++ o :: post) = false -> existsb (formats_col c) (pre ++ o :: post) = false ->
  shown (sheet_rows (run ws_standard (pre ++ o :: post)) t g) r c = [(v, 0)].
Proof.
  intros E Hw Hv Hb Hf Hu Hn Hm.
  assert (Hn' : existsb (formats_row r) pre = false \/ existsb (formats_col c) pre = false).
  { left. rewrite existsb_app in Hn. apply orb_false_iff in Hn. apply Hn. }
  pose proof (plain_cell pre o post w1 r c v t g E Hw Hv Hb Hf Hn' Hu) as P. cbv zeta in P.
  assert (Hr0 : row_xf (run ws_standard (pre ++ o :: post)) r = 0).
  { unfold row_xf. rewrite (row_info_run _ r ws_standard std_start (none_formats_row _ _ Hn)). reflexivity. }
  assert (Hc0 : col_xf (run ws_standard (pre ++ o :: post)) c = 0).
  { unfold col_xf. rewrite (col_info_run _ c ws_standard std_start (none_formats_col _ _ Hm)). reflexivity. }
  rewrite Hr0, Hc0 in P. exact P.
Qed.
Example C27_witness :
  let ops := [SetColumnFormat 2 format_hyperlink; WriteNumber 5 2 (f_of_N 1) None; WriteNumber 5 3 (f_of_N 1) None] in
  let w := run ws_standard ops in
  shown (sheet_rows w sst_new (fun i => i)) 5 2 = [(VNumber (f_of_N 1), 1)] /\
  nth_error (xfs w) 1 = Some format_hyperlink /\
  shown (sheet_rows w sst_new (fun i => i)) 5 3 = [(VNumber (f_of_N 1), 0)].
Proof. vm_compute. auto. Qed.

(** FINDING: where a formatted row and column cross, a cell written without a
    format gets the merge of the two formats, but using the row format that was
    set first: after the row format has been changed, the cell still shows the
    old one. *)
Definition bold_format : Format :=
  {| num_format := []; num_format_index := 0;
     font := {| bold := true; italic := false; underline := 0; font_name := lit "Calibri"; font_size := lit "11";
                font_color := CDefault; strikethrough := false; script := 0; family := 2; charset := 0;
                scheme := lit "minor"; condense := false; extend := false; is_hyperlink := false |};
     alignment := align_default; borders := border_default; fill := fill_default; hidden := false; locked := true;
     checkbox := false; quote_prefix := false |}.
Definition italic_format : Format :=
  {| num_format := []; num_format_index := 0;
     font := {| bold := false; italic := true; underline := 0; font_name := lit "Calibri"; font_size := lit "11";
                font_color := CDefault; strikethrough := false; script := 0; family := 2; charset := 0;
                scheme := lit "minor"; condense := false; extend := false; is_hyperlink := false |};
     alignment := align_default; borders := border_default; fill := fill_default; hidden := false; locked := true;
     checkbox := false; quote_prefix := false |}.
Definition decimal_format : Format :=
  {| num_format := lit "0.00"; num_format_index := 0; font := font_default;
     alignment := align_default; borders := border_default; fill := fill_default; hidden := false; locked := true;
     checkbox := false; quote_prefix := false |}.
Theorem C27_refuted_stale_row_format :
  let ops := [SetRowFormat 1 bold_format; SetColumnFormat 2 decimal_format; SetRowFormat 1 italic_format;
              WriteNumber 1 2 (f_of_N 1) None] in
  let w := run ws_standard ops in
  exists i f, shown (sheet_rows w sst_new (fun i => i)) 1 2 = [(VNumber (f_of_N 1), i)] /\
    nth_error (xfs w) (N.to_nat i) = Some f /\ bold (font f) = true /\ italic (font f) = false.
Proof. exists 4. eexists. vm_compute. repeat split; reflexivity. Qed.
