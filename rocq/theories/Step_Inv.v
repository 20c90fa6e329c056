(** A rule for invariants of the cell store, in any mode: it is enough that the
    invariant survives inserting a cell and rewriting a row of the table. *)
From Verif Require Import Base SMap F64 Fmt_Model Sst_Model Cells_Model Cells_Spec Cells_Proofs Cells_Proofs2
  Cells_Inv Cells_Save Const_Proofs Const_Sim Const_Run.

Lemma core_meta w w' : meta w w' -> data w' = data w -> core w w'.
Proof. intros [] D. split; assumption. Qed.

Section Inv.
Variable I : ws -> Prop.
Hypothesis Icore : forall w w', core w w' -> I w -> I w'.
Hypothesis Iinsert : forall w r c x, I w -> I (insert_cell w r c x).
Hypothesis Iahead : forall w b, I w -> I (upd_ahead w b).
Hypothesis Iins : forall w r cs, I w -> (forall old, get r (data w) = Some old -> ok old -> ok cs) -> (get r (data w) = None -> ok cs) -> I (upd_data w (ins r cs (data w))).

Lemma inv_cd w r c : I w -> I (fst (check_dimensions w r c)).
Proof.
  intros H. destruct (check_dimensions w r c) as [w' b] eqn:E. apply check_dimensions_spec in E as (M & _ & D & _).
  apply (Icore w); [apply core_meta; assumption|assumption].
Qed.
Lemma inv_reg w f : I w -> I (fst (reg w f)).
Proof.
  intros H. destruct (reg w f) as [w' b] eqn:E. apply reg_spec in E as (M & _ & D & _).
  apply (Icore w); [apply core_meta; assumption|assumption].
Qed.
Lemma inv_xf w r c f : I w -> I (fst (cell_xf w r c f)).
Proof.
  intros H. destruct (cell_xf w r c f) as [w' b] eqn:E. apply cell_xf_spec in E as (M & _ & D & _).
  apply (Icore w); [apply core_meta; assumption|assumption].
Qed.
Lemma inv_rcf w r c : I w -> I (fst (row_col_format w r c)).
Proof. exact (inv_xf w r c None). Qed.
Lemma inv_sst w t l : I w -> I (upd_sst w t l).
Proof. intros H. apply (Icore w); [split; reflexivity|assumption]. Qed.

Ltac cd w r c H := let X := fresh "X" in pose proof (inv_cd w r c H) as X; destruct (check_dimensions w r c) as [?w ?b]; cbn [fst] in X;
   match goal with |- context [negb ?b] => destruct b; cbn [negb fst]; [|exact X] end.
Ltac xf w r c f H := let X := fresh "X" in pose proof (inv_xf w r c f H) as X; destruct (cell_xf w r c f) as [?w ?i]; cbn [fst] in X.

Lemma inv_blank w r c f : I w -> I (fst (store_blank w r c f)).
Proof.
  intros H. unfold store_blank. cd w r c H. pose proof (inv_reg w0 f X) as X2. destruct (reg w0 f) as [w2 i]. cbn [fst] in X2.
  destruct (i =? 0); [|apply Iinsert; assumption]. pose proof (inv_rcf w2 r c X2) as X3. destruct (row_col_format w2 r c) as [w3 j]. apply Iinsert. exact X3.
Qed.
Lemma inv_string w r c s f : I w -> I (fst (store_string w r c s f)).
Proof.
  intros H. destruct s as [|a s]; [cbn [store_string]; destruct f; [apply inv_blank|]; assumption|]. unfold store_string. cd w r c H.
  destruct (_ <? _); [exact X|]. xf w0 r c f X. destruct (inline_strings w1); [apply Iinsert; assumption|].
  destruct (global_sst w1); [|apply Iinsert, inv_sst; assumption]. destruct (shared_string_index _ _). apply Iinsert, inv_sst. assumption.
Qed.
Lemma inv_rich w r c s raw f : I w -> I (fst (store_rich_string w r c s raw f)).
Proof.
  intros H. destruct s as [|a s]; [cbn [store_rich_string]; destruct f; [apply inv_blank|]; assumption|]. unfold store_rich_string. cd w r c H.
  destruct (_ <? _); [exact X|]. xf w0 r c f X.
  assert (G : forall w3 k, I w3 -> I (let w4 := insert_cell w3 r c (k, i) in if inline_strings w4 then w4 else upd_sst w4 (strings_table w4) true)).
  { intros w3 k H3. cbv zeta. destruct (inline_strings _); [|apply inv_sst]; apply Iinsert; assumption. }
  destruct (global_sst w1); [destruct (shared_string_index _ _)|]; cbn [fst]; apply G; [apply inv_sst|]; assumption.
Qed.
Lemma inv_number w r c x f d : I w -> I (fst (store_number_type w r c x f d)).
Proof.
  intros H. unfold store_number_type. cd w r c H. destruct (is_nan x); [apply inv_string; assumption|].
  destruct (is_inf x); [destruct (feq _ _); apply inv_string; assumption|]. xf w0 r c f X. apply Iinsert. assumption.
Qed.
Lemma inv_boolean w r c b f : I w -> I (fst (store_boolean w r c b f)).
Proof. intros H. unfold store_boolean. cd w r c H. xf w0 r c f X. apply Iinsert. assumption. Qed.
Lemma inv_zeros cells f : forall w, I w -> I (fst (write_zeros w cells f)).
Proof.
  induction cells as [|[r c] cells IH]; intros w H; cbn [write_zeros]; [assumption|]. pose proof (inv_number w r c fzero f false H) as X.
  destruct (store_number_type w r c fzero f false) as [w1 [e|]]; [exact X|]. apply IH. exact X.
Qed.
Lemma inv_array w fr fc lr lc fm f d g : I w -> I (fst (store_array_formula w fr fc lr lc fm f d g)).
Proof.
  intros H. unfold store_array_formula. cd w fr fc H. cd w0 lr lc X. destruct (_ || _); [assumption|]. xf w1 fr fc f X0. cbv zeta.
  set (w3 := insert_cell w2 fr fc _). assert (X3 : I w3) by (apply Iinsert; assumption). clearbody w3.
  pose proof (inv_zeros (map (fun c => (fr, c)) (range_incl (fc + 1) lc)) f w3 X3) as X4. destruct (write_zeros w3 _ f) as [w4 [e|]]; [exact X4|]. cbn [fst] in X4.
  set (w5 := if constant_memory w4 then upd_ahead w4 true else w4). assert (X5 : I w5) by (unfold w5; destruct (constant_memory w4); [apply Iahead|]; assumption). clearbody w5.
  pose proof (inv_zeros (flat_map (fun r => map (fun c => (r, c)) (range_incl fc lc)) (range_incl (fr + 1) lr)) f w5 X5) as X6.
  destruct (write_zeros w5 _ f) as [w6 [e|]]; [exact X6|]. cbn [fst] in *. destruct (constant_memory w6); [apply Iahead|]; assumption.
Qed.
Lemma inv_formula w r c fm f g : I w -> I (fst (store_formula w r c fm f g)).
Proof.
  intros H. unfold store_formula. destruct (f_dynamic fm); [apply inv_array; assumption|]. cd w r c H. xf w0 r c f X. apply Iinsert. assumption.
Qed.
Lemma inv_icf w r c x : I w -> I (insert_cell_format w r c x).
Proof.
  intros H. unfold insert_cell_format. destruct (get r (data w)) as [cs|] eqn:E.
  - destruct (get c cs) as [[k y]|]; apply Iins; rewrite ?E; try assumption; try discriminate; intros old [= <-] Ho; apply ins_ok; assumption.
  - destruct (0 <? x); [|assumption]. apply Iins; rewrite ?E; try assumption; try discriminate. intros _. constructor; constructor.
Qed.

Lemma step_inv w o : I w -> I (fst (step w o)).
Proof.
  intros H. destruct (is_option_call o) eqn:Eo.
  { destruct (step w o) as [w' e] eqn:E. apply (Icore w); [|assumption]. eapply option_core; eassumption. }
  destruct o; try discriminate Eo; cbn [step fst].
  - apply inv_number; assumption.
  - apply inv_number; assumption.
  - apply inv_string; assumption.
  - apply inv_rich; assumption.
  - apply inv_boolean; assumption.
  - apply inv_blank; assumption.
  - apply inv_formula; assumption.
  - apply inv_array; assumption.
  - unfold set_cell_format. cd w row col H. pose proof (inv_reg w0 f X) as X2. destruct (reg w0 f) as [w2 i]. apply inv_icf. exact X2.
  - unfold set_range_format. destruct (_ || _); [assumption|]. destruct (_ || _); [assumption|].
    pose proof (inv_reg w f H) as X2. destruct (reg w f) as [w2 i]. cbn [fst] in *. revert X2. generalize (range_cells fr fc lr lc) w2.
    induction l as [|p l IH]; intros w3 H3; cbn [fold_left]; [assumption|]. apply IH, inv_icf. assumption.
  - unfold clear_cell. destruct (check_dimensions_only row col); [|assumption]. destruct (get row (data w)) as [cs|] eqn:E; [|assumption].
    apply Iins; rewrite ?E; try assumption; try discriminate. intros old [= <-] Ho. apply del_ok. assumption.
  - unfold clear_cell_format, update_cell_format. destruct (check_dimensions_only row col); [|assumption]. destruct (get row (data w)) as [cs|] eqn:E; [|assumption].
    destruct (get col cs) as [[k x]|]; [|assumption]. apply Iins; rewrite ?E; try assumption; try discriminate. intros old [= <-] Ho. apply ins_ok. assumption.
  - unfold set_formula_result. set (r := if constant_memory w then current_row w else row). destruct (get r (data w)) as [cs|] eqn:E; [|assumption].
    destruct (get col cs) as [[[] x]|]; try assumption; (apply Iins; rewrite ?E; try assumption; try discriminate; intros old [= <-] Ho; apply ins_ok; assumption).
Qed.
Lemma run_inv ops : forall w, I w -> I (run w ops).
Proof. induction ops as [|o ops IH]; intros w H; [assumption|]. rewrite run_cons. apply IH, step_inv. assumption. Qed.
End Inv.
