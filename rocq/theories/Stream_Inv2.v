(** Every readable call keeps the invariant of Stream_Inv; what the file holds. *)
From Verif Require Import Base SMap F64 Fmt_Model Xml_Model Xml_Spec Xml_Proofs Xml_Read Xml_Read_Proofs Xml_Tree
  Sst_Model Sst_Proofs Ref_Model Ref_Spec Ref_Proofs Cells_Model Cells_Spec Cells_Proofs Cells_Proofs2 Cells_Inv Cells_Save Cells_Hist
  Const_Proofs Const_Sim Const_Run Step_Inv
  Rich_Model Rich_Proofs SheetXml_Model SheetXml_Spec SheetXml_Proofs SheetXml_Proofs2 SheetXml_Proofs3 SheetXml_Proofs4 SheetXml_Proofs5 SheetXml_Proofs6
  Stream_Inv.

Definition JD (w : ws) : Prop := JE w /\ data w <> [].
Lemma JE_fr w w' : fr w w' -> JE w -> JE w'.
Proof. intros F [l H]. exists l. eapply J_fr; eassumption. Qed.

Ltac cd w r c H := let X := fresh "X" in let L := fresh "L" in
   pose proof (JE_fr _ _ (fr_cd w r c) H) as X;
   assert (L : snd (check_dimensions w r c) = true -> in_limits r c)
     by (let E := fresh in destruct (check_dimensions w r c) as [? ?] eqn:E; apply check_dimensions_spec in E; cbn [snd]; tauto);
   destruct (check_dimensions w r c) as [?w ?b]; cbn [fst snd] in X, L;
   match goal with |- context [negb ?b] => destruct b; cbn [negb fst]; [specialize (L eq_refl)|exact X] end.
Ltac xf w r c f H := let X := fresh "X" in pose proof (JE_fr _ _ (fr_xf w r c f) H) as X; destruct (cell_xf w r c f) as [?w ?i]; cbn [fst] in X.

(** Values that need no string id. *)
Definition free (k : cell) : Prop := match k with CString _ (Some _) | CError _ => False | _ => True end.
Lemma insert_free w r c k x : JE w -> value_ok (contents k) -> free k -> in_limits r c -> JD (insert_cell w r c (k, x)).
Proof.
  intros [l H] V F [L _]. destruct (J_insert l w r c k x H) as [A B]; [|exact L|split; [exists l; exact A|exact B]].
  split; [assumption|]. destruct k as [| |s [i|]| | | | | | |]; try exact I; destruct F.
Qed.

Lemma j_blank w r c f : JE w -> JE (fst (store_blank w r c f)).
Proof.
  intros H. unfold store_blank. cd w r c H. pose proof (JE_fr _ _ (fr_reg w0 f) X) as X2. destruct (reg w0 f) as [w2 i]. cbn [fst] in X2.
  destruct (i =? 0); [|apply insert_free; try assumption; exact I]. pose proof (JE_fr _ _ (fr_xf w2 r c None) X2) as X3. cbn [cell_xf] in X3.
  destruct (row_col_format w2 r c) as [w3 j]. apply insert_free; try assumption; exact I.
Qed.
Lemma text_string s : text_ok s -> string_ok s. Proof. left. assumption. Qed.
Lemma j_string w r c s f : JE w -> text_ok s -> JE (fst (store_string w r c s f)).
Proof.
  intros H T. destruct s as [|a s]; [cbn [store_string]; destruct f; [apply j_blank|]; assumption|]. unfold store_string. cd w r c H.
  destruct (_ <? _); [exact X|]. xf w0 r c f X. destruct (inline_strings w1); [apply insert_free; try assumption; exact I|].
  destruct (global_sst w1).
  - destruct (shared_string_index (strings_table w1) (a :: s)) as [t id] eqn:E. cbn [fst]. destruct X0 as [l X0].
    destruct (J_sst l w1 (a :: s) t id true X0 (text_string _ T) E) as (l' & X' & Hn). exists l'. apply J_insert; [assumption| |apply L]. split; [exact T|exact Hn].
  - cbn [fst]. apply insert_free; try assumption; [|exact I]. destruct X0 as [l X0]. exists l. apply J_flag. assumption.
Qed.
Lemma j_rich w r c s raw f : JE w -> rich_ok s -> JE (fst (store_rich_string w r c s raw f)).
Proof.
  intros H T. destruct s as [|a s]; [cbn [store_rich_string]; destruct f; [apply j_blank|]; assumption|]. unfold store_rich_string. cd w r c H.
  destruct (_ <? _); [exact X|]. xf w0 r c f X.
  assert (G : forall w3 id, JE w3 -> JE (let w4 := insert_cell w3 r c (CRich (a :: s) raw id, i) in if inline_strings w4 then w4 else upd_sst w4 (strings_table w4) true)).
  { intros w3 id H3. cbv zeta. destruct (insert_free w3 r c (CRich (a :: s) raw id) i H3 T Logic.I L) as [[l A] _].
    destruct (inline_strings _); exists l; [assumption|]. apply J_flag. assumption. }
  destruct (global_sst w1); [|apply G; assumption].
  destruct (shared_string_index (strings_table w1) (a :: s)) as [t id] eqn:E. cbn [fst]. apply G. destruct X0 as [l X0].
  destruct (J_sst l w1 (a :: s) t id (local_sst w1) X0) as (l' & X' & _); [right; exact T|exact E|]. exists l'. assumption.
Qed.
Lemma JE_texts w : JE w -> texts_ok w. Proof. intros [l H]. apply H. Qed.
Lemma j_number w r c x f d : JE w -> JE (fst (store_number_type w r c x f d)).
Proof.
  intros H. unfold store_number_type. cd w r c H. pose proof (JE_texts _ X) as T. destruct (is_nan x); [apply j_string; [assumption|apply T]|].
  destruct (is_inf x); [destruct (feq _ _); apply j_string; first [assumption|apply T]|]. xf w0 r c f X. destruct d; apply insert_free; try assumption; exact I.
Qed.
Lemma j_zeros cells f : forall w, JE w -> JE (fst (write_zeros w cells f)).
Proof.
  induction cells as [|[r c] cells IH]; intros w H; cbn [write_zeros]; [assumption|]. pose proof (j_number w r c fzero f false H) as X.
  destruct (store_number_type w r c fzero f false) as [w1 [e|]]; [exact X|]. apply IH. exact X.
Qed.
Definition formula_ok (fm : formula) (g : str) : Prop := plain_text (f_text fm) /\ (f_result fm <> [] -> result_ok (f_result fm)) /\ range_chars g.
Lemma formula_result_ok w fm g : texts_ok w -> formula_ok fm g -> result_ok (formula_result w fm).
Proof. intros T (_ & H & _). exact (result_text_ok w fm T H). Qed.
(** The table in memory never becomes empty again. *)
Lemma used_step (w : ws) : data w <> [] -> forall o, data (fst (step w o)) <> [].
Proof.
  intros H o. apply (step_inv (fun v => data v <> [])); try assumption.
  - intros a b [] Ha. congruence.
  - intros v r c x Hv. unfold insert_cell. destruct (constant_memory v); [|fields].
    + destruct (_ <? _); [assumption|]. destruct (_ && _); [fields; assumption|]. destruct (_ <? _); fields;
        unfold table_insert; destruct (get r _); (intros E; destruct (data _) as [|[a b] u] in E; cbn [ins] in E; [discriminate|destruct (r <? a); [discriminate|destruct (r =? a); discriminate]]).
    + unfold table_insert; destruct (get r _); (intros E; destruct (data _) as [|[a b] u] in E; cbn [ins] in E; [discriminate|destruct (r <? a); [discriminate|destruct (r =? a); discriminate]]).
  - intros v b Hv. exact Hv.
  - intros v r cs Hv _ _. fields. intros E. destruct (data v) as [|[a b] u]; cbn [ins] in E; [discriminate|destruct (r <? a); [discriminate|destruct (r =? a); discriminate]].
Qed.
Lemma used_number w r c x f d : data w <> [] -> data (fst (store_number_type w r c x f d)) <> [].
Proof. intros H. destruct d; [exact (used_step w H (WriteDateTime r c x f))|exact (used_step w H (WriteNumber r c x f))]. Qed.
Lemma used_zeros cells f : forall w, data w <> [] -> data (fst (write_zeros w cells f)) <> [].
Proof.
  induction cells as [|[r c] cells IH]; intros w H; cbn [write_zeros]; [assumption|]. pose proof (used_number w r c fzero f false H) as X.
  destruct (store_number_type w r c fzero f false) as [w1 [e|]]; [exact X|]. apply IH. exact X.
Qed.
Lemma JE_ahead w b : JE w -> data w <> [] -> JE (upd_ahead w b).
Proof. intros [l H] D. exists l. apply J_ahead; assumption. Qed.
Lemma j_array w fr0 fc lr lc fm f d g : JE w -> formula_ok fm g -> JE (fst (store_array_formula w fr0 fc lr lc fm f d g)).
Proof.
  intros H Fm. unfold store_array_formula. cd w fr0 fc H. cd w0 lr lc X. destruct (_ || _); [assumption|]. xf w1 fr0 fc f X0. cbv zeta.
  set (w3 := insert_cell w2 fr0 fc _). assert (X3 : JD w3).
  { apply insert_free; try assumption; [|exact I]. pose proof (formula_result_ok w2 fm g (JE_texts _ X1) Fm) as R. destruct Fm as (P & _ & Q).
    split; [assumption|]. split; assumption. }
  clearbody w3. destruct X3 as [X3 D3].
  pose proof (j_zeros (map (fun c => (fr0, c)) (range_incl (fc + 1) lc)) f w3 X3) as X4. pose proof (used_zeros (map (fun c => (fr0, c)) (range_incl (fc + 1) lc)) f w3 D3) as D4.
  destruct (write_zeros w3 _ f) as [w4 [e|]]; [exact X4|]. cbn [fst] in X4, D4.
  set (w5 := if constant_memory w4 then upd_ahead w4 true else w4). assert (X5 : JE w5 /\ data w5 <> []) by (unfold w5; destruct (constant_memory w4); [split; [apply JE_ahead|]|split]; assumption).
  clearbody w5. destruct X5 as [X5 D5].
  pose proof (j_zeros (flat_map (fun r => map (fun c => (r, c)) (range_incl fc lc)) (range_incl (fr0 + 1) lr)) f w5 X5) as X6.
  pose proof (used_zeros (flat_map (fun r => map (fun c => (r, c)) (range_incl fc lc)) (range_incl (fr0 + 1) lr)) f w5 D5) as D6.
  destruct (write_zeros w5 _ f) as [w6 [e|]]; [exact X6|]. cbn [fst] in *. destruct (constant_memory w6); [apply JE_ahead|]; assumption.
Qed.
Lemma j_formula w r c fm f g : JE w -> formula_ok fm g -> JE (fst (store_formula w r c fm f g)).
Proof.
  intros H Fm. unfold store_formula. destruct (f_dynamic fm); [apply j_array; assumption|]. cd w r c H. xf w0 r c f X.
  apply insert_free; try assumption; [|exact I]. split; [apply Fm|]. eapply formula_result_ok; [apply JE_texts; exact X0|exact Fm].
Qed.
Lemma JE_row w r cs : JE w -> (forall l, J l w -> all_cols (fine l) r cs) -> JE (upd_data w (ins r cs (data w))).
Proof. intros [l H] F. exists l. apply J_row; auto. Qed.
Lemma row_fine l w r cs : J l w -> get r (data w) = Some cs -> all_cols (fine l) r cs.
Proof. intros [_ _ (C & _) _ _ _ _] E. eapply all_table_get; eassumption. Qed.
Lemma j_icf w r c x : JE w -> JE (insert_cell_format w r c x).
Proof.
  intros H. unfold insert_cell_format. destruct (get r (data w)) as [cs|] eqn:E.
  - destruct (get c cs) as [[k y]|] eqn:E2; (apply JE_row; [assumption|]); intros l Hl; pose proof (row_fine l w r cs Hl E) as R.
    + apply all_cols_ins; [|assumption]. eapply all_cols_get; eassumption.
    + apply all_cols_ins; [|assumption]. split; exact I.
  - destruct (0 <? x); [|assumption]. apply JE_row; [assumption|]. intros l Hl. apply all_cols_one. split; exact I.
Qed.

Lemma option_frame w o w' e : is_option_call o = true -> op_readable o -> texts_ok w -> rows_in w -> step w o = (w', e) ->
  strings_table w' = strings_table w /\ texts_ok w' /\ (forall r, In r (keys (changed_rows w')) -> r < Cells_Model.ROW_MAX).
Proof.
  intros Ho R T [_ _ K _] E. pose proof fr_cd as Fc.
  assert (Dim : forall v r c v1 b, check_dimensions v r c = (v1, b) -> fr v v1 /\ (b = true -> r < Cells_Model.ROW_MAX)).
  { intros v r c v1 b Ec. pose proof (fr_cd v r c) as F. rewrite Ec in F. split; [exact F|]. intros ->. apply check_dimensions_spec in Ec as (_ & _ & _ & _ & L & _). apply L. reflexivity. }
  assert (Reg : forall v f v1 i, reg v f = (v1, i) -> fr v v1) by (intros v f v1 i Er; pose proof (fr_reg v f) as F; rewrite Er in F; exact F).
  assert (Tx : forall v v', fr v v' -> texts_ok v -> texts_ok v') by (intros v v' [_ S _]; apply texts_same; assumption).
  assert (Kx : forall v v', fr v v' -> (forall r, In r (keys (changed_rows v)) -> r < Cells_Model.ROW_MAX) -> forall r, In r (keys (changed_rows v')) -> r < Cells_Model.ROW_MAX)
    by (intros v v' [_ S _] Hk; rewrite (s_rows _ _ S); exact Hk).
  assert (Ins : forall v (row : N) (u : rowopt), (forall r, In r (keys (changed_rows v)) -> r < Cells_Model.ROW_MAX) -> row < Cells_Model.ROW_MAX ->
     forall r, In r (keys (ins row u (changed_rows v))) -> r < Cells_Model.ROW_MAX) by (intros v row u Hk Hr r Hin; apply ins_keys_In in Hin as [->|Hin]; auto).
  assert (Hid : forall row w' e, set_row_hidden w row = (w', e) -> strings_table w' = strings_table w /\ texts_ok w' /\ (forall r, In r (keys (changed_rows w')) -> r < Cells_Model.ROW_MAX)).
  { clear E Ho R w' e. intros row w' e E. unfold set_row_hidden in E. destruct (check_dimensions w row (get_min_col w)) as [w1 b] eqn:Ec. destruct (Dim _ _ _ _ _ Ec) as [F L].
    destruct b; cbn [negb] in E; apply pair_equal_spec in E as [<- _]; [|split; [apply F|split; [eapply Tx|eapply Kx]; eassumption]].
    fields. split; [apply F|]. split; [apply (texts_frame w1); try reflexivity; eapply Tx; eassumption|]. apply Ins; [eapply Kx; eassumption|auto]. }
  destruct o as [| | | | | | | | | | | | |row h|row f|row|row|col width au|col f|col|row col n|s|s|s|s|h]; try discriminate Ho; cbn [step] in E.
  - unfold set_row_height in E. destruct (feq h fzero); [exact (Hid row w' e E)|]. destruct (check_dimensions w row (get_min_col w)) as [w1 b] eqn:Ec. destruct (Dim _ _ _ _ _ Ec) as [F L].
    destruct b; cbn [negb] in E; apply pair_equal_spec in E as [<- _]; [|split; [apply F|split; [eapply Tx|eapply Kx]; eassumption]].
    fields. split; [apply F|]. split; [apply (texts_frame w1); try reflexivity; eapply Tx; eassumption|]. apply Ins; [eapply Kx; eassumption|auto].
  - unfold set_row_format in E. destruct (check_dimensions w row (get_min_col w)) as [w1 b] eqn:Ec. destruct (Dim _ _ _ _ _ Ec) as [F L].
    destruct b; cbn [negb] in E; [|apply pair_equal_spec in E as [<- _]; split; [apply F|split; [eapply Tx|eapply Kx]; eassumption]].
    destruct (reg w1 f) as [w2 i] eqn:Er. pose proof (Reg _ _ _ _ Er) as F2. apply pair_equal_spec in E as [<- _].
    fields. split; [rewrite (fr_sst _ _ F2); apply F|]. split; [apply (texts_frame w2); try reflexivity; eapply Tx; [eassumption|eapply Tx; eassumption]|]. apply Ins; [eapply Kx; [eassumption|eapply Kx; eassumption]|auto].
  - exact (Hid row w' e E).
  - unfold set_row_unhidden in E. destruct (check_dimensions w row (get_min_col w)) as [w1 b] eqn:Ec. destruct (Dim _ _ _ _ _ Ec) as [F L].
    assert (Same : strings_table w1 = strings_table w /\ texts_ok w1 /\ (forall r, In r (keys (changed_rows w1)) -> r < Cells_Model.ROW_MAX)) by (split; [apply F|split; [eapply Tx|eapply Kx]; eassumption]).
    destruct b; cbn [negb] in E; [|apply pair_equal_spec in E as [<- _]; exact Same].
    destruct (get row (changed_rows w1)) as [ro|]; apply pair_equal_spec in E as [<- _]; [|exact Same]. destruct Same as (S1 & S2 & S3).
    fields. split; [assumption|]. split; [apply (texts_frame w1); try reflexivity; assumption|]. apply Ins; auto.
  - unfold set_column_width_internal, set_column_hidden, store_column_width in E.
    destruct (feq width fzero), (COL_MAX <=? col); apply pair_equal_spec in E as [<- _]; fields; (split; [reflexivity|split; [apply (texts_frame w); try reflexivity; exact T|exact K]]).
  - unfold set_column_format in E. destruct (check_dimensions w (get_min_row w) col) as [w1 b] eqn:Ec. destruct (Dim _ _ _ _ _ Ec) as [F L].
    destruct b; cbn [negb] in E; [|apply pair_equal_spec in E as [<- _]; split; [apply F|split; [eapply Tx|eapply Kx]; eassumption]].
    destruct (reg w1 f) as [w2 i] eqn:Er. pose proof (Reg _ _ _ _ Er) as F2. apply pair_equal_spec in E as [<- _].
    fields. split; [rewrite (fr_sst _ _ F2); apply F|]. split; [apply (texts_frame w2); try reflexivity; eapply Tx; [eassumption|eapply Tx; eassumption]|].
    apply (Kx w1 w2 F2). eapply Kx; eassumption.
  - unfold set_column_hidden in E. destruct (COL_MAX <=? col); apply pair_equal_spec in E as [<- _]; fields; (split; [reflexivity|split; [apply (texts_frame w); try reflexivity; exact T|exact K]]).
  - unfold insert_note in E. destruct (check_dimensions w row col) as [w1 b] eqn:Ec. destruct (Dim _ _ _ _ _ Ec) as [F L].
    assert (Same : strings_table w1 = strings_table w /\ texts_ok w1 /\ (forall r, In r (keys (changed_rows w1)) -> r < Cells_Model.ROW_MAX)) by (split; [apply F|split; [eapply Tx|eapply Kx]; eassumption]).
    destruct b; cbn [negb] in E; [|apply pair_equal_spec in E as [<- _]; exact Same]. destruct (_ <? n); apply pair_equal_spec in E as [<- _]; [exact Same|].
    destruct Same as (S1 & S2 & S3). fields. split; [assumption|]. split; [apply (texts_frame w1); try reflexivity; assumption|assumption].
  - apply pair_equal_spec in E as [<- _]. fields. destruct T. split; [reflexivity|]. split; [split; assumption|exact K].
  - apply pair_equal_spec in E as [<- _]. fields. destruct T. split; [reflexivity|]. split; [split; assumption|exact K].
  - apply pair_equal_spec in E as [<- _]. fields. destruct T. split; [reflexivity|]. split; [split; assumption|exact K].
  - apply pair_equal_spec in E as [<- _]. fields. destruct T. split; [reflexivity|]. split; [split; assumption|exact K].
  - apply pair_equal_spec in E as [<- _]. destruct (fle h fzero); fields; (split; [reflexivity|split; [first [exact T|apply (texts_frame w); try reflexivity; exact T]|exact K]]).
Qed.

Lemma j_step w o : op_readable o -> JE w -> JE (fst (step w o)).
Proof.
  intros R H. destruct (is_option_call o) eqn:Eo.
  { destruct (step w o) as [w' e] eqn:E. cbn [fst]. destruct H as [l [A B (C1 & C2 & C3) D K O W]]. destruct (option_frame w o w' e Eo R D K E) as (F1 & F2 & F3).
    pose proof (option_core w o w' e Eo E) as []. destruct K as [K1 K2 K3 K4]. exists l. split.
    - rewrite F1. assumption.
    - assumption.
    - split; [rewrite q_data; assumption|]. split; [rewrite q_wa; assumption|rewrite q_fl; assumption].
    - assumption.
    - split; rewrite ?q_cur, ?q_wa, ?q_fl; assumption.
    - rewrite q_fl. assumption.
    - unfold awake. rewrite q_data, q_cur, q_fl, q_wa, q_ahead. assumption. }
  destruct o; try discriminate Eo; cbn [step fst]; cbn [op_readable] in R.
  - apply j_number; assumption.
  - apply j_number; assumption.
  - apply j_string; assumption.
  - apply j_rich; assumption.
  - unfold store_boolean. cd w row col H. xf w0 row col f X. apply insert_free; try assumption; exact I.
  - apply j_blank; assumption.
  - apply j_formula; assumption.
  - apply j_array; assumption.
  - unfold set_cell_format. cd w row col H. pose proof (JE_fr _ _ (fr_reg w0 f) X) as X2. destruct (reg w0 f) as [w2 i]. apply j_icf. exact X2.
  - unfold set_range_format. destruct (_ || _); [assumption|]. destruct (_ || _); [assumption|].
    pose proof (JE_fr _ _ (fr_reg w f) H) as X2. destruct (reg w f) as [w2 i]. cbn [fst] in *. revert X2. generalize (range_cells fr fc lr lc) w2.
    induction l as [|p l IH]; intros w3 H3; cbn [fold_left]; [assumption|]. apply IH, j_icf. assumption.
  - unfold clear_cell. destruct (check_dimensions_only row col); [|assumption]. destruct (get row (data w)) as [cs|] eqn:E; [|assumption].
    apply JE_row; [assumption|]. intros l Hl c k x Hin. apply In_del in Hin. eapply (row_fine l w row cs Hl E). exact Hin.
  - unfold clear_cell_format, update_cell_format. destruct (check_dimensions_only row col); [|assumption]. destruct (get row (data w)) as [cs|] eqn:E; [|assumption].
    destruct (get col cs) as [[k x]|] eqn:E2; [|assumption]. apply JE_row; [assumption|]. intros l Hl. pose proof (row_fine l w row cs Hl E) as F.
    apply all_cols_ins; [|assumption]. eapply all_cols_get; eassumption.
  - unfold set_formula_result. set (r := if constant_memory w then current_row w else row). destruct (get r (data w)) as [cs|] eqn:E; [|assumption].
    destruct (get col cs) as [[k x]|] eqn:E2; [|assumption]. destruct k as [| |s i| | |t q| | | |t q d g]; try assumption;
      (apply JE_row; [assumption|]; intros l Hl; pose proof (row_fine l w r cs Hl E) as F; apply all_cols_ins; [|assumption]);
      destruct (all_cols_get _ _ _ _ _ _ F E2) as [V _]; cbn [contents value_ok] in V; (split; [|exact I]); cbn [contents value_ok].
    + split; [apply V|assumption].
    + split; [apply V|]. split; [assumption|apply V].
Qed.
Lemma j_run ops : forall w, Forall op_readable ops -> JE w -> JE (run w ops).
Proof.
  induction ops as [|o ops IH]; intros w F H; [assumption|]. rewrite run_cons. inversion F; subst. apply IH; [assumption|]. apply j_step; assumption.
Qed.
