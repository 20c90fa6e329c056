(** An invariant of every cell held or already streamed by a worksheet, in every
    mode (standard, low memory, constant memory), after every history of calls. *)
From Verif Require Import Base SMap F64 Fmt_Model Sst_Model Cells_Model Cells_Spec Cells_Proofs Cells_Proofs2.

Definition finite (x : f64) : Prop := is_nan x = false /\ is_inf x = false.

(** What every stored cell satisfies. *)
Definition cell_inv (inl gs : bool) (r c : N) (k : cell) : Prop :=
  in_limits r c /\
  match k with
  | CNumber x | CDateTime x => finite x
  | CError _ => True
  | CInline s => inl = true /\ char_count s <= MAX_STRING_LEN
  | CString s (Some _) => gs = true /\ char_count s <= MAX_STRING_LEN
  | CString s None => gs = false /\ inl = false /\ char_count s <= MAX_STRING_LEN
  | CRich s _ (Some _) => gs = true /\ char_count s <= MAX_STRING_LEN
  | CRich s _ None => gs = false /\ char_count s <= MAX_STRING_LEN
  | _ => True
  end.

Section Inv.
Variable P : N -> N -> cell -> Prop.

Definition all_cols (r : N) (cs : smap (cell * N)) : Prop := forall c k x, In (c, (k, x)) cs -> P r c k.
Definition all_table (t : table) : Prop := forall r cs, In (r, cs) t -> all_cols r cs.
Definition all_rows (l : list orow) : Prop :=
  forall o cs c k x, In o l -> o_cells o = Some cs -> In (c, k, x) cs -> P (o_row o) c k.
Definition all_cells (w : ws) : Prop := all_table (data w) /\ all_table (write_ahead w) /\ all_rows (flushed w).

Lemma In_ins {V} k (v : V) j u m : In (k, v) (ins j u m) -> (k = j /\ v = u) \/ In (k, v) m.
Proof.
  induction m as [|[i x] m IH]; cbn [ins].
  - intros [[= -> ->]|[]]. auto.
  - destruct (j <? i); [|destruct (j =? i)].
    + intros [[= -> ->]|H]; auto.
    + intros [[= -> ->]|H]; [auto|right; right; assumption].
    + intros [H|H]; [right; left; assumption|]. destruct (IH H); [auto|right; right; assumption].
Qed.
Lemma In_del {V} k (v : V) j m : In (k, v) (del j m) -> In (k, v) m.
Proof.
  induction m as [|[i x] m IH]; cbn [del]; [auto|].
  destruct (i =? j); [right; assumption|]. intros [|]; [left; assumption|right; auto].
Qed.

Lemma all_cols_ins r c k x cs : P r c k -> all_cols r cs -> all_cols r (ins c (k, x) cs).
Proof. intros Hp H c' k' x' Hin. apply In_ins in Hin as [[-> [= -> ->]]|Hin]; [assumption|eapply H; exact Hin]. Qed.
Lemma all_table_ins r cs t : all_cols r cs -> all_table t -> all_table (ins r cs t).
Proof. intros Hc H r' cs' Hin. apply In_ins in Hin as [[-> ->]|Hin]; [assumption|apply H; assumption]. Qed.
Lemma all_table_get r cs t : all_table t -> get r t = Some cs -> all_cols r cs.
Proof. intros H E. apply H. apply get_In. assumption. Qed.
Lemma all_cols_get r c k x cs : all_cols r cs -> get c cs = Some (k, x) -> P r c k.
Proof. intros H E. eapply H. apply get_In. exact E. Qed.
Lemma all_cols_one r c k x : P r c k -> all_cols r [(c, (k, x))].
Proof. intros Hp c' k' x' [[= <- <- <-]|[]]. assumption. Qed.
Lemma all_table_insert r c k x t : P r c k -> all_table t -> all_table (table_insert r c (k, x) t).
Proof.
  intros Hp H. unfold table_insert. destruct (get r t) as [cs|] eqn:E; apply all_table_ins; auto.
  - apply all_cols_ins; [assumption|]. eapply all_table_get; eassumption.
  - apply all_cols_one. assumption.
Qed.

Lemma all_rows_app a b : all_rows a -> all_rows b -> all_rows (a ++ b).
Proof. intros Ha Hb o cs c k x Hin. apply in_app_or in Hin as [|]; [eapply Ha|eapply Hb]; eassumption. Qed.

Lemma emit_constant_in w ro cs c k e : In (c, k, e) (flat_map (emit_cell_constant w ro) cs) ->
  exists x, In (c, (k, x)) cs.
Proof.
  rewrite in_flat_map. intros ([c' [k' x]] & Hin & H). exists x. unfold emit_cell_constant in H.
  destruct k' as [| |? [|]| | | | | | |]; cbn in H;
    try (destruct (0 <? _) eqn:E0; cbn in H); try contradiction; destruct H as [H|[]]; injection H as <- <- _; assumption.
Qed.

Lemma flush_data_row_all w n : all_cells w -> all_cells (flush_data_row w n).
Proof.
  intros (Hd & Hw & Hf). unfold flush_data_row. split; [|split]; fields.
  - destruct (get n (write_ahead w)) as [cs|] eqn:E; [|intros r cs []].
    intros r cs' [[= <- <-]|[]]. eapply all_table_get; eassumption.
  - intros r cs Hin. apply In_del in Hin. apply Hw. assumption.
  - apply all_rows_app; [assumption|].
    destruct (get (current_row w) (data w)) as [cs|] eqn:E; [|destruct (get (current_row w) (changed_rows w))].
    + intros o cs' c k x [<-|[]] Hc Hin. cbn in Hc |- *. injection Hc as <-.
      apply emit_constant_in in Hin as (x' & Hin). exact (all_table_get _ _ _ Hd E c k x' Hin).
    + intros o cs' c k x [<-|[]] Hc Hin. discriminate.
    + intros o cs' c k x [].
Qed.
Lemma flush_fold_all l : forall w, all_cells w -> all_cells (fold_left flush_data_row l w).
Proof. induction l as [|n l IH]; intros w H; [exact H|]. apply IH. apply flush_data_row_all. assumption. Qed.
Lemma flush_to_row_all w n : all_cells w -> all_cells (flush_to_row w n).
Proof. intros H. unfold flush_to_row. apply flush_data_row_all. apply flush_fold_all. assumption. Qed.
Lemma flush_last_row_all w : all_cells w -> all_cells (flush_last_row w).
Proof. intros H. unfold flush_last_row. apply flush_fold_all. assumption. Qed.

Lemma upd_data_all w t : all_cells w -> all_table t -> all_cells (upd_data w t).
Proof. intros (H1 & H2 & H3) Ht. split; [exact Ht|split; assumption]. Qed.

Lemma insert_cell_all w r c k x : P r c k -> all_cells w -> all_cells (insert_cell w r c (k, x)).
Proof.
  intros Hp H. unfold insert_cell. destruct (constant_memory w).
  - destruct (r <? current_row w); [assumption|]. destruct ((current_row w <? r) && writing_ahead w).
    + destruct H as (H1 & H2 & H3). split; [assumption|]. split; [|assumption]. fields. apply all_table_insert; assumption.
    + destruct (current_row w <? r).
      * pose proof (flush_to_row_all w r H) as H'. apply upd_data_all; [assumption|]. apply all_table_insert; [assumption|apply H'].
      * apply upd_data_all; [assumption|]. apply all_table_insert; [assumption|apply H].
  - apply upd_data_all; [assumption|]. apply all_table_insert; [assumption|apply H].
Qed.
End Inv.

(** Calls that keep the cells and the mode. *)
Definition same_cells (w w' : ws) : Prop :=
  data w' = data w /\ write_ahead w' = write_ahead w /\ flushed w' = flushed w /\
  inline_strings w' = inline_strings w /\ global_sst w' = global_sst w.
Lemma same_cells_trans a b c : same_cells a b -> same_cells b c -> same_cells a c.
Proof. intros (?&?&?&?&?) (?&?&?&?&?). repeat split; congruence. Qed.
Lemma meta_same w w' : meta w w' -> data w' = data w -> same_cells w w'.
Proof. intros [] Hd. repeat split; assumption. Qed.

Definition wcells (w : ws) : Prop := all_cells (cell_inv (inline_strings w) (global_sst w)) w.
Definition mode (w w' : ws) : Prop := inline_strings w' = inline_strings w /\ global_sst w' = global_sst w.

Lemma wcells_same w w' : same_cells w w' -> wcells w -> wcells w'.
Proof.
  intros (H1 & H2 & H3 & H4 & H5) (A & B & C). unfold wcells. rewrite H4, H5.
  split; [rewrite H1; exact A|]. split; [rewrite H2; exact B|rewrite H3; exact C].
Qed.

Lemma flush_data_row_mode w n : mode w (flush_data_row w n).
Proof. split; reflexivity. Qed.
Lemma flush_fold_mode l : forall w, mode w (fold_left flush_data_row l w).
Proof.
  induction l as [|n l IH]; intros w; [split; reflexivity|]. cbn [fold_left].
  destruct (IH (flush_data_row w n)) as [A B]. split; [exact A|exact B].
Qed.
Lemma insert_cell_mode w r c x : mode w (insert_cell w r c x).
Proof.
  unfold insert_cell. destruct (constant_memory w); [|split; reflexivity].
  destruct (r <? current_row w); [split; reflexivity|].
  destruct ((current_row w <? r) && writing_ahead w); [split; reflexivity|].
  destruct (current_row w <? r); [|split; reflexivity].
  unfold flush_to_row. destruct (flush_fold_mode (sort_dedup (filter (fun r0 => r0 <? r) (keys (write_ahead w)) ++ filter (fun r0 => (current_row w <? r0) && (r0 <? r)) (keys (changed_rows w)))) w) as [A B].
  split; fields; [exact A|exact B].
Qed.

Lemma wcells_insert w0 w r c k x : same_cells w0 w -> wcells w0 ->
  cell_inv (inline_strings w0) (global_sst w0) r c k -> wcells (insert_cell w r c (k, x)).
Proof.
  intros Hs H Hk. pose proof (wcells_same w0 w Hs H) as H'. destruct Hs as (_ & _ & _ & H4 & H5).
  unfold wcells in *. destruct (insert_cell_mode w r c (k, x)) as [-> ->]. apply insert_cell_all; [|assumption].
  rewrite H4, H5. assumption.
Qed.

Definition keeps (w w' : ws) : Prop := wcells w -> wcells w' /\ mode w w'.
Lemma keeps_trans a b c : keeps a b -> keeps b c -> keeps a c.
Proof. intros H1 H2 Ha. destruct (H1 Ha) as [Hb [M1 M2]]. destruct (H2 Hb) as [Hc [M3 M4]]. split; [assumption|]. split; congruence. Qed.
Lemma keeps_same w w' : same_cells w w' -> keeps w w'.
Proof. intros H Hw. split; [eapply wcells_same; eassumption|]. destruct H as (_&_&_&?&?). split; assumption. Qed.
Lemma keeps_insert w0 w r c k x : same_cells w0 w -> (cell_inv (inline_strings w0) (global_sst w0) r c k) ->
  keeps w0 (insert_cell w r c (k, x)).
Proof.
  intros Hs Hk Hw. split; [eapply wcells_insert; eassumption|].
  destruct (insert_cell_mode w r c (k, x)) as [A B]. destruct Hs as (_&_&_&?&?). split; congruence.
Qed.

Lemma check_dims_same w r c w' b : check_dimensions w r c = (w', b) -> same_cells w w' /\ (b = true -> in_limits r c).
Proof. intros H. apply check_dimensions_spec in H as (A & _ & B & _ & C & _). split; [apply meta_same; assumption|assumption]. Qed.
Lemma cell_xf_same w r c f w' i : cell_xf w r c f = (w', i) -> same_cells w w'.
Proof. intros H. apply cell_xf_spec in H as (A & _ & B & _). apply meta_same; assumption. Qed.
Lemma reg_same w f w' i : reg w f = (w', i) -> same_cells w w'.
Proof. intros H. apply reg_spec in H as (A & _ & B & _). apply meta_same; assumption. Qed.
Lemma row_col_same w r c w' i : row_col_format w r c = (w', i) -> same_cells w w'.
Proof. exact (cell_xf_same w r c None w' i). Qed.
Lemma upd_sst_same w t l : same_cells w (upd_sst w t l).
Proof. repeat split. Qed.

Ltac dims w r c H := let S := fresh "S" in let L := fresh "L" in
  destruct (check_dimensions w r c) as [?w ?b] eqn:?E; 
  match goal with E : check_dimensions w r c = _ |- _ => apply check_dims_same in E as [S L] end.

Lemma store_blank_keeps w r c f : keeps w (fst (store_blank w r c f)).
Proof.
  unfold store_blank. destruct (check_dimensions w r c) as [w1 b] eqn:E. apply check_dims_same in E as [S L].
  destruct b; cbn [negb fst]; [|apply keeps_same; assumption].
  destruct (reg w1 f) as [w2 i] eqn:E2. apply reg_same in E2.
  assert (S2 : same_cells w w2) by (eapply same_cells_trans; eassumption).
  destruct (i =? 0).
  - destruct (row_col_format w2 r c) as [w3 j] eqn:E3. apply row_col_same in E3. cbn [fst].
    apply keeps_insert; [eapply same_cells_trans; eassumption|]. split; [auto|exact I].
  - apply keeps_insert; [assumption|]. split; [auto|exact I].
Qed.

Lemma store_string_keeps w r c s f : keeps w (fst (store_string w r c s f)).
Proof.
  unfold store_string. destruct s as [|ch s'].
  { destruct f; [apply store_blank_keeps|]. apply keeps_same. repeat split. }
  set (s := ch :: s'). clearbody s.
  destruct (check_dimensions w r c) as [w1 b] eqn:E. apply check_dims_same in E as [S L].
  destruct b; cbn [negb fst]; [|apply keeps_same; assumption]. specialize (L eq_refl).
  destruct (N.ltb_spec MAX_STRING_LEN (char_count s)) as [Hl|Hl]; [apply keeps_same; assumption|].
  destruct (cell_xf w1 r c f) as [w2 i] eqn:E2. apply cell_xf_same in E2.
  assert (S2 : same_cells w w2) by (eapply same_cells_trans; eassumption).
  pose proof S2 as (_ & _ & _ & Ei & Eg).
  destruct (inline_strings w2) eqn:EI; [|destruct (global_sst w2) eqn:EG].
  - apply keeps_insert; [assumption|]. split; [assumption|]. split; [congruence|assumption].
  - destruct (shared_string_index (strings_table w2) s) as [t id]. cbn [fst].
    apply keeps_insert; [eapply same_cells_trans; [exact S2|apply upd_sst_same]|].
    split; [assumption|]. split; [congruence|assumption].
  - cbn [fst]. apply keeps_insert; [eapply same_cells_trans; [exact S2|apply upd_sst_same]|].
    split; [assumption|]. split; [congruence|]. split; [congruence|assumption].
Qed.

Lemma store_rich_keeps w r c s raw f : keeps w (fst (store_rich_string w r c s raw f)).
Proof.
  unfold store_rich_string. destruct s as [|ch s'].
  { destruct f; [apply store_blank_keeps|]. apply keeps_same. repeat split. }
  set (s := ch :: s'). clearbody s.
  destruct (check_dimensions w r c) as [w1 b] eqn:E. apply check_dims_same in E as [S L].
  destruct b; cbn [negb fst]; [|apply keeps_same; assumption]. specialize (L eq_refl).
  destruct (N.ltb_spec MAX_STRING_LEN (char_count s)) as [Hl|Hl]; [apply keeps_same; assumption|].
  destruct (cell_xf w1 r c f) as [w2 i] eqn:E2. apply cell_xf_same in E2.
  assert (S2 : same_cells w w2) by (eapply same_cells_trans; eassumption).
  pose proof S2 as (_ & _ & _ & Ei & Eg).
  assert (HF : forall w3 id, same_cells w w3 -> cell_inv (inline_strings w) (global_sst w) r c (CRich s raw id) ->
    keeps w (let w4 := insert_cell w3 r c (CRich s raw id, i) in
             if inline_strings w4 then w4 else upd_sst w4 (strings_table w4) true)).
  { intros w3 id S3 Hc. cbv zeta. pose proof (keeps_insert w w3 r c (CRich s raw id) i S3 Hc) as HK.
    destruct (inline_strings (insert_cell w3 r c (CRich s raw id, i))); [exact HK|]. eapply keeps_trans; [exact HK|]. apply keeps_same. apply upd_sst_same. }
  destruct (global_sst w2) eqn:EG.
  - destruct (shared_string_index (strings_table w2) s) as [t id]. cbn [fst].
    apply HF; [eapply same_cells_trans; [exact S2|apply upd_sst_same]|]. split; [assumption|]. split; [congruence|assumption].
  - cbn [fst]. apply HF; [assumption|]. split; [assumption|]. split; [congruence|assumption].
Qed.

Lemma store_number_keeps w r c x f d : keeps w (fst (store_number_type w r c x f d)).
Proof.
  unfold store_number_type.
  destruct (check_dimensions w r c) as [w1 b] eqn:E. apply check_dims_same in E as [S L].
  destruct b; cbn [negb fst]; [|apply keeps_same; assumption]. specialize (L eq_refl).
  assert (HS : forall s, keeps w (fst (store_string w1 r c s f))).
  { intros s. eapply keeps_trans; [apply keeps_same; exact S|apply store_string_keeps]. }
  destruct (is_nan x) eqn:EN; [apply HS|]. destruct (is_inf x) eqn:EI; [destruct (feq x _); apply HS|].
  destruct (cell_xf w1 r c f) as [w2 i] eqn:E2. apply cell_xf_same in E2. cbn [fst].
  apply keeps_insert; [eapply same_cells_trans; eassumption|]. split; [assumption|].
  destruct d; split; assumption.
Qed.

Lemma store_boolean_keeps w r c v f : keeps w (fst (store_boolean w r c v f)).
Proof.
  unfold store_boolean. destruct (check_dimensions w r c) as [w1 b] eqn:E. apply check_dims_same in E as [S L].
  destruct b; cbn [negb fst]; [|apply keeps_same; assumption].
  destruct (cell_xf w1 r c f) as [w2 i] eqn:E2. apply cell_xf_same in E2. cbn [fst].
  apply keeps_insert; [eapply same_cells_trans; eassumption|]. split; [auto|exact I].
Qed.

Lemma write_zeros_keeps cells f : forall w, keeps w (fst (write_zeros w cells f)).
Proof.
  induction cells as [|[r c] cells IH]; intros w; cbn [write_zeros]; [apply keeps_same; repeat split|].
  pose proof (store_number_keeps w r c fzero f false) as H.
  destruct (store_number_type w r c fzero f false) as [w1 [e|]]; [exact H|]. eapply keeps_trans; [exact H|apply IH].
Qed.

Lemma store_array_keeps w fr fc lr lc fm f d g : keeps w (fst (store_array_formula w fr fc lr lc fm f d g)).
Proof.
  unfold store_array_formula.
  destruct (check_dimensions w fr fc) as [w1 b] eqn:E. apply check_dims_same in E as [S L].
  destruct b; cbn [negb fst]; [|apply keeps_same; assumption].
  destruct (check_dimensions w1 lr lc) as [w2 b] eqn:E2. apply check_dims_same in E2 as [S2 L2].
  assert (S3 : same_cells w w2) by (eapply same_cells_trans; eassumption).
  destruct b; cbn [negb fst]; [|apply keeps_same; assumption].
  destruct ((lr <? fr) || (lc <? fc)); [apply keeps_same; assumption|].
  destruct (cell_xf w2 fr fc f) as [w3 i] eqn:E3. apply cell_xf_same in E3.
  cbv zeta. set (w4 := insert_cell w3 fr fc _).
  assert (K4 : keeps w w4). { apply keeps_insert; [eapply same_cells_trans; eassumption|]. split; [auto|exact I]. }
  clearbody w4.
  pose proof (write_zeros_keeps (map (fun c => (fr, c)) (range_incl (fc + 1) lc)) f w4) as K5.
  destruct (write_zeros w4 _ f) as [w5 [e|]]; cbn [fst] in K5; [eapply keeps_trans; eassumption|].
  set (w6 := if constant_memory w5 then upd_ahead w5 true else w5).
  assert (K6 : keeps w w6).
  { eapply keeps_trans; [exact K4|]. eapply keeps_trans; [exact K5|]. apply keeps_same. unfold w6.
    destruct (constant_memory w5); repeat split. }
  clearbody w6.
  pose proof (write_zeros_keeps (flat_map (fun r => map (fun c => (r, c)) (range_incl fc lc)) (range_incl (fr + 1) lr)) f w6) as K7.
  destruct (write_zeros w6 _ f) as [w7 [e|]]; cbn [fst] in K7; [eapply keeps_trans; eassumption|]. cbn [fst].
  eapply keeps_trans; [exact K6|]. eapply keeps_trans; [exact K7|]. apply keeps_same.
  destruct (constant_memory w7); repeat split.
Qed.

Lemma store_formula_keeps w r c fm f g : keeps w (fst (store_formula w r c fm f g)).
Proof.
  unfold store_formula. destruct (f_dynamic fm); [apply store_array_keeps|].
  destruct (check_dimensions w r c) as [w1 b] eqn:E. apply check_dims_same in E as [S L].
  destruct b; cbn [negb fst]; [|apply keeps_same; assumption].
  destruct (cell_xf w1 r c f) as [w2 i] eqn:E2. apply cell_xf_same in E2. cbn [fst].
  apply keeps_insert; [eapply same_cells_trans; eassumption|]. split; [auto|exact I].
Qed.

Lemma upd_data_keeps w t : (wcells w -> all_table (cell_inv (inline_strings w) (global_sst w)) t) -> keeps w (upd_data w t).
Proof. intros H Hw. split; [|split; reflexivity]. apply (upd_data_all _ w t Hw). auto. Qed.

Lemma icf_keeps w r c xf : in_limits r c -> keeps w (insert_cell_format w r c xf).
Proof.
  intros L. unfold insert_cell_format. destruct (get r (data w)) as [cs|] eqn:E.
  - destruct (get c cs) as [[k x]|] eqn:Ec; apply upd_data_keeps; intros (Hd & _ & _);
      (apply all_table_ins; [|assumption]; apply all_cols_ins; [|eapply all_table_get; eassumption]).
    + eapply all_cols_get; [eapply all_table_get; eassumption|exact Ec].
    + split; [assumption|exact I].
  - destruct (0 <? xf); [|apply keeps_same; repeat split]. apply upd_data_keeps. intros (Hd & _ & _).
    apply all_table_ins; [|assumption]. apply all_cols_one. split; [assumption|exact I].
Qed.

Lemma step_keeps w o : keeps w (fst (step w o)).
Proof.
  destruct (is_option_call o) eqn:Eo.
  { destruct (step w o) as [w' e] eqn:E. destruct (option_call w o w' e Eo E). cbn [fst].
    apply keeps_same. apply meta_same; assumption. }
  destruct o; try discriminate Eo; cbn [step fst].
  - apply store_number_keeps.
  - apply store_number_keeps.
  - apply store_string_keeps.
  - apply store_rich_keeps.
  - apply store_boolean_keeps.
  - apply store_blank_keeps.
  - apply store_formula_keeps.
  - apply store_array_keeps.
  - unfold set_cell_format. destruct (check_dimensions w row col) as [w1 b] eqn:E. apply check_dims_same in E as [S L].
    destruct b; cbn [negb fst]; [|apply keeps_same; assumption].
    destruct (reg w1 f) as [w2 i] eqn:E2. apply reg_same in E2. cbn [fst].
    eapply keeps_trans; [apply keeps_same; eapply same_cells_trans; eassumption|]. apply icf_keeps. auto.
  - unfold set_range_format.
    destruct (negb (check_dimensions_only fr fc) || negb (check_dimensions_only lr lc)) eqn:E1; [apply keeps_same; repeat split|].
    destruct ((lr <? fr) || (lc <? fc)) eqn:E3; [apply keeps_same; repeat split|].
    destruct (reg w f) as [w2 i] eqn:E2. apply reg_same in E2. cbn [fst].
    eapply keeps_trans; [apply keeps_same; exact E2|].
    assert (HL : forall r c, In (r, c) (range_cells fr fc lr lc) -> in_limits r c).
    { intros r c Hin. apply in_rect_cells in Hin. unfold check_dimensions_only, in_limits in *. lia. }
    revert HL. generalize (range_cells fr fc lr lc) w2. clear.
    induction l as [|[r c] l IH]; intros w HL; cbn [fold_left fst snd]; [apply keeps_same; repeat split|].
    eapply keeps_trans; [apply icf_keeps; apply HL; left; reflexivity|]. apply IH. intros; apply HL; right; assumption.
  - unfold clear_cell. destruct (check_dimensions_only row col); [|apply keeps_same; repeat split].
    destruct (get row (data w)) as [cs|] eqn:E; [|apply keeps_same; repeat split].
    apply upd_data_keeps. intros (Hd & _ & _). apply all_table_ins; [|assumption].
    intros c k x Hin. apply In_del in Hin. exact (all_table_get _ _ _ _ Hd E c k x Hin).
  - unfold clear_cell_format, update_cell_format. destruct (check_dimensions_only row col); [|apply keeps_same; repeat split].
    destruct (get row (data w)) as [cs|] eqn:E; [destruct (get col cs) as [[k x]|] eqn:Ec|]; try solve [apply keeps_same; repeat split].
    apply upd_data_keeps. intros (Hd & _ & _).
    apply all_table_ins; [|assumption]; apply all_cols_ins; [|eapply all_table_get; eassumption].
    eapply all_cols_get; [eapply all_table_get; eassumption|exact Ec].
  - unfold set_formula_result. set (r := if constant_memory w then current_row w else row). clearbody r.
    destruct (get r (data w)) as [cs|] eqn:E; [destruct (get col cs) as [[k x]|] eqn:Ec|]; try solve [apply keeps_same; repeat split].
    assert (HK : forall k', (cell_inv (inline_strings w) (global_sst w) r col k -> cell_inv (inline_strings w) (global_sst w) r col k') ->
      keeps w (upd_data w (ins r (ins col (k', x) cs) (data w)))).
    { intros k' Hk. apply upd_data_keeps. intros (Hd & _ & _).
      apply all_table_ins; [|assumption]; apply all_cols_ins; [|eapply all_table_get; eassumption].
      apply Hk. eapply all_cols_get; [eapply all_table_get; eassumption|exact Ec]. }
    destruct k; try solve [apply keeps_same; repeat split]; apply HK; intros [A B]; split; auto.
Qed.

Lemma run_app w a b : run w (a ++ b) = run (run w a) b.
Proof. unfold run. apply fold_left_app. Qed.
Lemma run_cons w o b : run w (o :: b) = run (fst (step w o)) b.
Proof. reflexivity. Qed.

Lemma run_keeps ops : forall w, keeps w (run w ops).
Proof.
  induction ops as [|o ops IH]; intros w; [apply keeps_same; repeat split|].
  rewrite run_cons. eapply keeps_trans; [apply step_keeps|apply IH].
Qed.

Lemma ws_new_wcells cmem inl gs rg t : wcells (ws_new cmem inl gs rg t).
Proof. split; [intros ? ? []|split; [intros ? ? []|intros ? ? ? ? ? []]]. Qed.
