(** Saving a standard worksheet: every stored string gets its table index, and
    what the emitted rows show. *)
From Verif Require Import Base SMap F64 Fmt_Model Sst_Model Cells_Model Cells_Spec Cells_Proofs Cells_Proofs2 Cells_Inv.

(** ** Strings waiting for an index raise the flag that makes save assign it *)
Definition needs_id (k : cell) : bool := match k with CString _ None | CRich _ _ None => true | _ => false end.
Definition done (_ _ : N) (k : cell) : Prop := needs_id k = false.
Definition flag (w : ws) : Prop := local_sst w = true \/ all_table done (data w).
Definition kf (w w' : ws) : Prop :=
  constant_memory w = false -> flag w -> flag w' /\ constant_memory w' = false.
Lemma kf_trans a b c : kf a b -> kf b c -> kf a c.
Proof. intros H1 H2 Hm Ha. destruct (H1 Hm Ha). apply H2; assumption. Qed.
Lemma kf_same w w' : data w' = data w -> local_sst w' = local_sst w -> constant_memory w' = constant_memory w -> kf w w'.
Proof. intros H1 H2 H3 Hm Hf. split; [|congruence]. unfold flag in *. rewrite H1, H2. assumption. Qed.
Lemma kf_insert w r c k x : needs_id k = false -> kf w (insert_cell w r c (k, x)).
Proof.
  intros Hk Hm Hf. rewrite insert_standard by assumption. split; [|assumption].
  destruct Hf as [Hf|Hf]; [left; exact Hf|]. right. fields. apply all_table_insert; assumption.
Qed.
Lemma kf_true w w' : local_sst w' = true -> constant_memory w' = constant_memory w -> kf w w'.
Proof. intros H1 H2 Hm _. split; [left; assumption|congruence]. Qed.

Lemma cd_kf w r c : kf w (fst (check_dimensions w r c)).
Proof.
  unfold check_dimensions. destruct (ROW_MAX <=? r); [apply kf_same; reflexivity|].
  destruct (COL_MAX <=? c); [apply kf_same; reflexivity|]. destruct (negb _ || _); apply kf_same; reflexivity.
Qed.
Lemma reg_kf w f : kf w (fst (reg w f)).
Proof. unfold reg. destruct (format_xf_index (xfs w) f). apply kf_same; reflexivity. Qed.
Lemma rcf_kf w r c : kf w (fst (row_col_format w r c)).
Proof.
  unfold row_col_format. destruct (get c (changed_cols w)) as [co|]; [|apply kf_same; reflexivity].
  destruct (c_format co); [|apply kf_same; reflexivity]. destruct (get r (changed_rows w)) as [ro|]; [|apply kf_same; reflexivity].
  destruct (r_format ro); [apply reg_kf|apply kf_same; reflexivity].
Qed.
Lemma cell_xf_kf w r c f : kf w (fst (cell_xf w r c f)).
Proof. destruct f; [apply reg_kf|apply rcf_kf]. Qed.

Lemma store_blank_kf w r c f : kf w (fst (store_blank w r c f)).
Proof.
  unfold store_blank. pose proof (cd_kf w r c) as K. destruct (check_dimensions w r c) as [w1 b]; cbn [fst] in K.
  destruct b; cbn [negb fst]; [|exact K]. eapply kf_trans; [exact K|].
  pose proof (reg_kf w1 f) as K2. destruct (reg w1 f) as [w2 i]; cbn [fst] in K2. eapply kf_trans; [exact K2|].
  destruct (i =? 0); [|apply kf_insert; reflexivity].
  pose proof (rcf_kf w2 r c) as K3. destruct (row_col_format w2 r c) as [w3 j]; cbn [fst] in *. eapply kf_trans; [exact K3|].
  apply kf_insert; reflexivity.
Qed.
Lemma store_string_kf w r c s f : kf w (fst (store_string w r c s f)).
Proof.
  unfold store_string. destruct s as [|ch s']; [destruct f; [apply store_blank_kf|apply kf_same; reflexivity]|].
  set (s := ch :: s'). clearbody s.
  pose proof (cd_kf w r c) as K. destruct (check_dimensions w r c) as [w1 b]; cbn [fst] in K.
  destruct b; cbn [negb fst]; [|exact K]. eapply kf_trans; [exact K|].
  destruct (MAX_STRING_LEN <? char_count s); [apply kf_same; reflexivity|].
  pose proof (cell_xf_kf w1 r c f) as K2. destruct (cell_xf w1 r c f) as [w2 i]; cbn [fst] in K2. eapply kf_trans; [exact K2|].
  destruct (inline_strings w2); [apply kf_insert; reflexivity|]. destruct (global_sst w2).
  - destruct (shared_string_index (strings_table w2) s). cbn [fst]. intros Hm _.
    rewrite insert_standard by exact Hm. split; [left; reflexivity|assumption].
  - cbn [fst]. intros Hm _. rewrite insert_standard by exact Hm. split; [left; reflexivity|assumption].
Qed.
(** A low- or constant-memory sheet gives rich strings their index at once. *)
Lemma store_rich_kf w r c s raw f : (inline_strings w = true -> global_sst w = true) ->
  kf w (fst (store_rich_string w r c s raw f)).
Proof.
  intros HI.
  unfold store_rich_string. destruct s as [|ch s']; [destruct f; [apply store_blank_kf|apply kf_same; reflexivity]|].
  set (s := ch :: s'). clearbody s.
  pose proof (cd_kf w r c) as K. destruct (check_dimensions w r c) as [w1 b] eqn:E1; cbn [fst] in K.
  apply check_dims_same in E1 as [(_&_&_&I1&G1) _].
  destruct b; cbn [negb fst]; [|exact K]. eapply kf_trans; [exact K|].
  destruct (MAX_STRING_LEN <? char_count s); [apply kf_same; reflexivity|].
  pose proof (cell_xf_kf w1 r c f) as K2. destruct (cell_xf w1 r c f) as [w2 i] eqn:E2; cbn [fst] in K2. eapply kf_trans; [exact K2|].
  apply cell_xf_same in E2 as (_&_&_&I2&G2).
  destruct (global_sst w2) eqn:EG.
  - destruct (shared_string_index (strings_table w2) s) as [t id]. cbn [fst]. intros Hm Hf.
    rewrite insert_standard by exact Hm. fields.
    destruct (inline_strings w2).
    + split; [|exact Hm]. destruct Hf as [Hf|Hf]; [left; exact Hf|right; apply all_table_insert; [reflexivity|exact Hf]].
    + split; [left; reflexivity|exact Hm].
  - cbn [fst]. intros Hm Hf. rewrite insert_standard by exact Hm. fields.
    destruct (inline_strings w2) eqn:EI; [|split; [left; reflexivity|exact Hm]].
    exfalso. assert (global_sst w = true) by (apply HI; congruence). congruence.
Qed.
Lemma store_number_kf w r c x f d : kf w (fst (store_number_type w r c x f d)).
Proof.
  unfold store_number_type.
  pose proof (cd_kf w r c) as K. destruct (check_dimensions w r c) as [w1 b]; cbn [fst] in K.
  destruct b; cbn [negb fst]; [|exact K]. eapply kf_trans; [exact K|].
  destruct (is_nan x); [apply store_string_kf|]. destruct (is_inf x); [destruct (feq x _); apply store_string_kf|].
  pose proof (cell_xf_kf w1 r c f) as K2. destruct (cell_xf w1 r c f) as [w2 i]; cbn [fst] in K2. eapply kf_trans; [exact K2|].
  apply kf_insert. destruct d; reflexivity.
Qed.
Lemma store_boolean_kf w r c v f : kf w (fst (store_boolean w r c v f)).
Proof.
  unfold store_boolean.
  pose proof (cd_kf w r c) as K. destruct (check_dimensions w r c) as [w1 b]; cbn [fst] in K.
  destruct b; cbn [negb fst]; [|exact K]. eapply kf_trans; [exact K|].
  pose proof (cell_xf_kf w1 r c f) as K2. destruct (cell_xf w1 r c f) as [w2 i]; cbn [fst] in K2. eapply kf_trans; [exact K2|].
  apply kf_insert. reflexivity.
Qed.
Lemma write_zeros_kf cells f : forall w, kf w (fst (write_zeros w cells f)).
Proof.
  induction cells as [|[r c] cells IH]; intros w; cbn [write_zeros]; [apply kf_same; reflexivity|].
  pose proof (store_number_kf w r c fzero f false) as K.
  destruct (store_number_type w r c fzero f false) as [w1 [e|]]; [exact K|]. eapply kf_trans; [exact K|apply IH].
Qed.
Lemma store_array_kf w fr fc lr lc fm f d g : kf w (fst (store_array_formula w fr fc lr lc fm f d g)).
Proof.
  unfold store_array_formula.
  pose proof (cd_kf w fr fc) as K. destruct (check_dimensions w fr fc) as [w1 b]; cbn [fst] in K.
  destruct b; cbn [negb fst]; [|exact K]. eapply kf_trans; [exact K|].
  pose proof (cd_kf w1 lr lc) as K2. destruct (check_dimensions w1 lr lc) as [w2 b]; cbn [fst] in K2.
  destruct b; cbn [negb fst]; [|exact K2]. eapply kf_trans; [exact K2|].
  destruct ((lr <? fr) || (lc <? fc)); [apply kf_same; reflexivity|].
  pose proof (cell_xf_kf w2 fr fc f) as K3. destruct (cell_xf w2 fr fc f) as [w3 i]; cbn [fst] in K3. eapply kf_trans; [exact K3|].
  cbv zeta. set (w4 := insert_cell w3 fr fc _). assert (K4 : kf w3 w4) by (apply kf_insert; reflexivity). clearbody w4.
  eapply kf_trans; [exact K4|].
  pose proof (write_zeros_kf (map (fun c => (fr, c)) (range_incl (fc + 1) lc)) f w4) as K5.
  destruct (write_zeros w4 _ f) as [w5 [e|]]; cbn [fst] in K5; [exact K5|]. eapply kf_trans; [exact K5|].
  set (w6 := if constant_memory w5 then upd_ahead w5 true else w5).
  assert (K6 : kf w5 w6) by (unfold w6; destruct (constant_memory w5) eqn:E; apply kf_same; reflexivity).
  clearbody w6. eapply kf_trans; [exact K6|].
  pose proof (write_zeros_kf (flat_map (fun r => map (fun c => (r, c)) (range_incl fc lc)) (range_incl (fr + 1) lr)) f w6) as K7.
  destruct (write_zeros w6 _ f) as [w7 [e|]]; cbn [fst] in K7; [exact K7|]. eapply kf_trans; [exact K7|]. cbn [fst].
  destruct (constant_memory w7) eqn:E; apply kf_same; reflexivity.
Qed.
Lemma store_formula_kf w r c fm f g : kf w (fst (store_formula w r c fm f g)).
Proof.
  unfold store_formula. destruct (f_dynamic fm); [apply store_array_kf|].
  pose proof (cd_kf w r c) as K. destruct (check_dimensions w r c) as [w1 b]; cbn [fst] in K.
  destruct b; cbn [negb fst]; [|exact K]. eapply kf_trans; [exact K|].
  pose proof (cell_xf_kf w1 r c f) as K2. destruct (cell_xf w1 r c f) as [w2 i]; cbn [fst] in K2. eapply kf_trans; [exact K2|].
  apply kf_insert. reflexivity.
Qed.

Lemma kf_upd w t : (all_table done (data w) -> all_table done t) -> kf w (upd_data w t).
Proof. intros H Hm [Hf|Hf]; (split; [|assumption]); [left; exact Hf|right; auto]. Qed.
Lemma icf_kf w r c xf : kf w (insert_cell_format w r c xf).
Proof.
  unfold insert_cell_format. destruct (get r (data w)) as [cs|] eqn:E.
  - destruct (get c cs) as [[k x]|] eqn:Ec; apply kf_upd; intros Hd;
      (apply all_table_ins; [|assumption]; apply all_cols_ins; [|eapply all_table_get; eassumption]).
    + eapply all_cols_get; [eapply all_table_get; eassumption|exact Ec].
    + reflexivity.
  - destruct (0 <? xf); [|apply kf_same; reflexivity]. apply kf_upd. intros Hd.
    apply all_table_ins; [|assumption]. apply all_cols_one. reflexivity.
Qed.

Lemma option_call_sst w o w' e : is_option_call o = true -> step w o = (w', e) -> local_sst w' = local_sst w.
Proof.
  assert (CD : forall r c w1 b, check_dimensions w r c = (w1, b) -> local_sst w1 = local_sst w).
  { intros r c w1 b. unfold check_dimensions. destruct (ROW_MAX <=? r); [|destruct (COL_MAX <=? c); [|destruct (negb _ || _)]];
      intros H; apply pair_equal_spec in H as [<- _]; reflexivity. }
  assert (RG : forall v f v' i, reg v f = (v', i) -> local_sst v' = local_sst v).
  { intros v f v' i. unfold reg. destruct (format_xf_index (xfs v) f). intros H; apply pair_equal_spec in H as [<- _]; reflexivity. }
  intros Ho H. destruct o; try discriminate Ho; cbn [step] in H;
    unfold set_row_height, set_row_format, set_row_unhidden, set_column_format, set_column_width_internal, set_column_hidden, store_column_width, insert_note in H;
    try (destruct (feq _ fzero)); unfold set_row_hidden in H;
    try (destruct (check_dimensions _ _ _) as [w1 b] eqn:E; apply CD in E; destruct b; cbn [negb] in H);
    try (destruct (reg _ _) as [w2 i] eqn:E2; apply RG in E2);
    try (destruct (get row (changed_rows w1)));
    try (destruct (COL_MAX <=? col));
    try (destruct (_ <? text_len));
    try (destruct (fle h fzero));
    apply pair_equal_spec in H as [<- _]; fields; try congruence; reflexivity.
Qed.

Lemma step_kf w o : (inline_strings w = true -> global_sst w = true) -> kf w (fst (step w o)).
Proof.
  intros HI. destruct (is_option_call o) eqn:Eo.
  { destruct (step w o) as [w' e] eqn:E. destruct (option_call w o w' e Eo E) as [M D]. cbn [fst].
    apply kf_same; [assumption|eapply option_call_sst; eassumption|apply M]. }
  destruct o; try discriminate Eo; cbn [step fst].
  - apply store_number_kf.
  - apply store_number_kf.
  - apply store_string_kf.
  - apply store_rich_kf. assumption.
  - apply store_boolean_kf.
  - apply store_blank_kf.
  - apply store_formula_kf.
  - apply store_array_kf.
  - unfold set_cell_format. pose proof (cd_kf w row col) as K. destruct (check_dimensions w row col) as [w1 b]; cbn [fst] in K.
    destruct b; cbn [negb fst]; [|exact K]. eapply kf_trans; [exact K|].
    pose proof (reg_kf w1 f) as K2. destruct (reg w1 f) as [w2 i]; cbn [fst] in K2 |- *. eapply kf_trans; [exact K2|]. apply icf_kf.
  - unfold set_range_format. destruct (negb _ || negb _); [apply kf_same; reflexivity|].
    destruct ((lr <? fr) || (lc <? fc)); [apply kf_same; reflexivity|].
    pose proof (reg_kf w f) as K2. destruct (reg w f) as [w2 i]; cbn [fst] in K2 |- *. eapply kf_trans; [exact K2|].
    generalize (range_cells fr fc lr lc) w2. clear.
    induction l as [|[r c] l IH]; intros w; cbn [fold_left fst snd]; [apply kf_same; reflexivity|].
    eapply kf_trans; [apply icf_kf|]. apply IH.
  - unfold clear_cell. destruct (check_dimensions_only row col); [|apply kf_same; reflexivity].
    destruct (get row (data w)) as [cs|] eqn:E; [|apply kf_same; reflexivity].
    apply kf_upd. intros Hd. apply all_table_ins; [|assumption].
    intros c k x Hin. apply In_del in Hin. exact (all_table_get _ _ _ _ Hd E c k x Hin).
  - unfold clear_cell_format, update_cell_format. destruct (check_dimensions_only row col); [|apply kf_same; reflexivity].
    destruct (get row (data w)) as [cs|] eqn:E; [destruct (get col cs) as [[k x]|] eqn:Ec|]; try (apply kf_same; reflexivity).
    apply kf_upd. intros Hd.
    apply all_table_ins; [|assumption]; apply all_cols_ins; [|eapply all_table_get; eassumption].
    eapply all_cols_get; [eapply all_table_get; eassumption|exact Ec].
  - unfold set_formula_result. set (r := if constant_memory w then current_row w else row). clearbody r.
    destruct (get r (data w)) as [cs|] eqn:E; [destruct (get col cs) as [[k x]|] eqn:Ec|]; try (apply kf_same; reflexivity).
    assert (HK : forall k', needs_id k' = false -> kf w (upd_data w (ins r (ins col (k', x) cs) (data w)))).
    { intros k' Hk. apply kf_upd. intros Hd.
      apply all_table_ins; [|assumption]; apply all_cols_ins; [exact Hk|eapply all_table_get; eassumption]. }
    destruct k; try (apply kf_same; reflexivity); apply HK; reflexivity.
Qed.

Lemma run_kf ops : forall w, wcells w -> (inline_strings w = true -> global_sst w = true) -> kf w (run w ops).
Proof.
  induction ops as [|o ops IH]; intros w Hc HI; [apply kf_same; reflexivity|].
  rewrite run_cons. eapply kf_trans; [apply step_kf; assumption|].
  destruct (step_keeps w o Hc) as [Hc' [M1 M2]]. apply IH; [assumption|]. rewrite M1, M2. assumption.
Qed.

(** ** Assigning the indices *)
Definition with_id (k k' : cell) : Prop :=
  match k with
  | CString s None => exists i, k' = CString s (Some i)
  | CRich s raw None => exists i, k' = CRich s raw (Some i)
  | _ => k' = k
  end.
Lemma with_id_contents k k' : with_id k k' -> contents k' = contents k /\ needs_id k' = false.
Proof. destruct k as [| |s [i|]| | | | |s raw [i|]| |]; cbn; intros H; try (subst; auto); destruct H as [i ->]; auto. Qed.

Definition rel_cell (a b : option (cell * N)) : Prop :=
  match a, b with
  | Some (k, x), Some (k', x') => x' = x /\ with_id k k'
  | None, None => True
  | _, _ => False
  end.

Lemma assign_cells_spec cs : forall t t' cs', assign_cells t cs = (t', cs') ->
  keys cs' = keys cs /\ forall c, rel_cell (get c cs) (get c cs').
Proof.
  induction cs as [|[j [k x]] cs IH]; intros t t' cs' H; cbn [assign_cells] in H.
  - apply pair_equal_spec in H as [<- <-]. split; [reflexivity|]. intros c; exact I.
  - destruct (match k with CString s None => _ | CRich s raw None => _ | _ => _ end) as [t1 k1] eqn:E.
    destruct (assign_cells t1 cs) as [t2 r] eqn:E2. apply pair_equal_spec in H as [<- <-].
    destruct (IH _ _ _ E2) as [Hk Hg]. split; [cbn [keys map fst]; f_equal; exact Hk|].
    intros c. cbn [get]. destruct (j =? c); [|apply Hg]. cbn. split; [reflexivity|].
    destruct k as [| |s [i|]| | | | |s raw [i|]| |]; cbn;
      try (apply pair_equal_spec in E as [_ <-]; reflexivity);
      (destruct (shared_string_index t s) as [ta i]; apply pair_equal_spec in E as [_ <-]; eauto).
Qed.

Definition rel_row (a b : option (smap (cell * N))) : Prop :=
  match a, b with
  | Some cs, Some cs' => keys cs' = keys cs /\ forall c, rel_cell (get c cs) (get c cs')
  | None, None => True
  | _, _ => False
  end.
Lemma assign_rows_spec d : forall t t' d', assign_rows t d = (t', d') ->
  keys d' = keys d /\ forall r, rel_row (get r d) (get r d').
Proof.
  induction d as [|[j cs] d IH]; intros t t' d' H; cbn [assign_rows] in H.
  - apply pair_equal_spec in H as [<- <-]. split; [reflexivity|]. intros r; exact I.
  - destruct (assign_cells t cs) as [t1 cs1] eqn:E. destruct (assign_rows t1 d) as [t2 r] eqn:E2.
    apply pair_equal_spec in H as [<- <-]. destruct (IH _ _ _ E2) as [Hk Hg].
    split; [cbn [keys map fst]; f_equal; exact Hk|].
    intros r'. cbn [get]. destruct (j =? r'); [|apply Hg]. exact (assign_cells_spec cs t t1 cs1 E).
Qed.

Lemma rel_row_cell d d' r c : rel_row (get r d) (get r d') -> rel_cell (table_get r c d) (table_get r c d').
Proof. unfold table_get. destruct (get r d), (get r d'); cbn; intros H; try contradiction; [apply H|exact I]. Qed.

Lemma saved_frame w t : exists d, saved w t = upd_data w d.
Proof.
  unfold saved, update_string_table_ids. destruct (local_sst w).
  - destruct (assign_rows t (data w)) as [t' d]. exists d. reflexivity.
  - exists (data w). destruct w; reflexivity.
Qed.

Lemma rel_refl_done d : table_ok d -> all_table done d -> forall r, rel_row (get r d) (get r d).
Proof.
  intros Hok H r. destruct (get r d) as [cs|] eqn:E; [|exact I]. split; [reflexivity|].
  intros c. destruct (get c cs) as [[k x]|] eqn:Ec; [|exact I]. cbn. split; [reflexivity|].
  pose proof (all_cols_get _ _ _ _ _ _ (all_table_get _ _ _ _ H E) Ec) as Hd. unfold done in Hd.
  destruct k as [| |s [i|]| | | | |s raw [i|]| |]; cbn in *; try reflexivity; discriminate.
Qed.

Lemma saved_spec w t : table_ok (data w) -> flag w ->
  table_ok (data (saved w t)) /\ (forall r, rel_row (get r (data w)) (get r (data (saved w t)))).
Proof.
  intros Hok Hf. unfold saved, update_string_table_ids. destruct (local_sst w) eqn:EL.
  - destruct (assign_rows t (data w)) as [t' d] eqn:E. cbn [fst]. fields.
    destruct (assign_rows_spec _ _ _ _ E) as [Hk Hr]. split; [|exact Hr]. destruct Hok as [H1 H2]. split.
    + unfold ok in *. rewrite Hk. exact H1.
    + intros r cs' Hg. specialize (Hr r). rewrite Hg in Hr. destruct (get r (data w)) as [cs|] eqn:E3; [|destruct Hr].
      destruct Hr as [Hr _]. apply H2 in E3. unfold ok in *. rewrite Hr. exact E3.
  - cbn [fst]. split; [assumption|]. destruct Hf as [Hf|Hf]; [congruence|]. apply rel_refl_done; assumption.
Qed.

(** ** What the written rows show *)

Lemma flat_map_nil {A B} (f : A -> list B) l : (forall x, In x l -> f x = []) -> flat_map f l = [].
Proof.
  induction l as [|a l IH]; intros H; [reflexivity|]. cbn [flat_map].
  rewrite (H a (or_introl eq_refl)), IH; [reflexivity|]. intros; apply H; right; assumption.
Qed.
Lemma flat_map_flat {A B C} (f : B -> list C) (g : A -> list B) l :
  flat_map f (flat_map g l) = flat_map (fun x => flat_map f (g x)) l.
Proof. induction l as [|a l IH]; [reflexivity|]. cbn [flat_map]. rewrite flat_map_app, IH. reflexivity. Qed.

Lemma emit_cell_col w g ro p x : In x (emit_cell w g ro p) -> fst (fst x) = fst p.
Proof.
  destruct p as [c [k xf]]. unfold emit_cell. destruct k as [| |s [i|]| | | | |s raw [i|]| |]; cbn;
    try (destruct (0 <? _)); cbn; intros H; try contradiction; destruct H as [<-|[]]; reflexivity.
Qed.

Lemma shown_cols w g ro c cs : ok cs ->
  flat_map (cell_at c) (flat_map (emit_cell w g ro) cs) =
  match get c cs with Some x => map (fun y : N * cell * N => (contents (snd (fst y)), snd y)) (emit_cell w g ro (c, x)) | None => [] end.
Proof.
  rewrite flat_map_flat. unfold ok. induction cs as [|[j x] cs IH]; intros Hok; [reflexivity|].
  cbn [keys map fst] in Hok. inversion Hok as [|? ? Hs Hf]; subst. cbn [flat_map get].
  destruct (N.eqb_spec j c) as [->|Hne].
  - rewrite (flat_map_nil (fun x => flat_map (cell_at c) (emit_cell w g ro x)) cs), app_nil_r.
    + generalize (emit_cell_col w g ro (c, x)). generalize (emit_cell w g ro (c, x)). cbn [fst].
      induction l as [|[[c' k'] x'] l IHl]; intros Hc; [reflexivity|]. cbn [flat_map map].
      rewrite IHl by (intros; apply Hc; right; assumption).
      pose proof (Hc _ (or_introl eq_refl)) as E. cbn in E. subst c'. cbn. rewrite N.eqb_refl. reflexivity.
    + intros [c' x'] Hin. apply flat_map_nil. intros [[c2 k2] x2] Hin2. apply emit_cell_col in Hin2. cbn in Hin2 |- *. subst c2.
      destruct (N.eqb_spec c' c) as [->|]; [|reflexivity]. exfalso.
      rewrite Forall_forall in Hf. apply (in_map fst) in Hin. specialize (Hf _ Hin). cbn in Hf. lia.
  - rewrite (flat_map_nil (cell_at c)).
    + apply IH. assumption.
    + intros [[c2 k2] x2] Hin2. apply emit_cell_col in Hin2. cbn in Hin2 |- *. subst c2.
      destruct (N.eqb_spec j c); [contradiction|reflexivity].
Qed.

Lemma range_incl_nodup a b : NoDup (range_incl a b).
Proof.
  unfold range_incl. apply FinFun.Injective_map_NoDup; [intros x y H; lia|apply seq_NoDup].
Qed.

Lemma flat_map_pick {B} (f : N -> list B) r l : NoDup l -> (forall x, In x l -> x <> r -> f x = []) ->
  flat_map f l = if existsb (N.eqb r) l then f r else [].
Proof.
  induction l as [|a l IH]; intros Hn H; [reflexivity|]. inversion Hn; subst. cbn [flat_map existsb].
  destruct (N.eqb_spec r a) as [->|Hne]; cbn [orb].
  - rewrite (flat_map_nil f l), app_nil_r; [reflexivity|]. intros x Hx. apply H; [right; assumption|]. congruence.
  - rewrite (H a (or_introl eq_refl)) by congruence. cbn [app]. apply IH; [assumption|]. intros; apply H; [right; assumption|assumption].
Qed.

Lemma shown_table w g r c : table_ok (data w) ->
  shown (write_data_table w g) r c =
  if (first_row w <=? r) && (r <=? last_row w) then
    match table_get r c (data w) with
    | Some x => map (fun y : N * cell * N => (contents (snd (fst y)), snd y)) (emit_cell w g (get r (changed_rows w)) (c, x))
    | None => [] end
  else [].
Proof.
  intros Hok. unfold shown, write_data_table. rewrite flat_map_flat.
  rewrite (flat_map_pick _ r).
  - assert (existsb (N.eqb r) (range_incl (first_row w) (last_row w)) = (first_row w <=? r) && (r <=? last_row w)) as ->.
    { apply eq_true_iff_eq. rewrite existsb_exists. split.
      - intros (x & Hx & E). apply N.eqb_eq in E as <-. apply in_range_incl in Hx. lia.
      - intros H. exists r. split; [apply in_range_incl; lia|apply N.eqb_refl]. }
    destruct ((first_row w <=? r) && (r <=? last_row w)); [|reflexivity].
    unfold emit_row, table_get. destruct (get r (data w)) as [cs|] eqn:E.
    + cbn [flat_map]. unfold row_at. cbn [o_row o_cells]. rewrite N.eqb_refl, app_nil_r. apply shown_cols. apply Hok in E. assumption.
    + destruct (match get r (changed_rows w) with Some _ => true | None => mem r (notes w) end); [|reflexivity].
      cbn [flat_map]. unfold row_at. cbn. destruct (r =? r); reflexivity.
  - apply range_incl_nodup.
  - intros x _ Hx. unfold emit_row. destruct (get x (data w)) as [cs|].
    + cbn [flat_map]. unfold row_at. cbn [o_row]. destruct (N.eqb_spec x r); [contradiction|reflexivity].
    + destruct (match get x (changed_rows w) with Some _ => true | None => mem x (notes w) end); [|reflexivity].
      cbn [flat_map]. unfold row_at. cbn [o_row]. destruct (N.eqb_spec x r); [contradiction|reflexivity].
Qed.
