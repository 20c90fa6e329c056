(** No call on the cells of a sheet changes its mode (constant memory or not); the
    proofs go call by call as in Opts_Frame. *)
From Verif Require Import Base SMap F64 Fmt_Model Sst_Model Ref_Model Cells_Model Sheet_Model Sheet_Proofs.

Record modes (w w' : ws) : Prop := { k_cm : constant_memory w' = constant_memory w; k_inl : inline_strings w' = inline_strings w }.
Lemma modes_refl w : modes w w. Proof. split; reflexivity. Qed.
Lemma modes_trans a b c : modes a b -> modes b c -> modes a c.
Proof. intros [] []. split; congruence. Qed.
Ltac kr := split; reflexivity.

Lemma modes_cd w r c : modes w (fst (check_dimensions w r c)).
Proof. unfold check_dimensions. destruct (_ <=? _); [kr|]. destruct (_ <=? _); [kr|]. cbv zeta. destruct (_ || _); kr. Qed.
Lemma modes_reg w f : modes w (fst (reg w f)).
Proof. unfold reg. destruct (format_xf_index _ _). kr. Qed.
Lemma modes_rcf w r c : modes w (fst (row_col_format w r c)).
Proof.
  unfold row_col_format. repeat match goal with |- context [match ?x with _ => _ end] => destruct x end; try apply modes_reg; kr.
Qed.
Lemma modes_xf w r c f : modes w (fst (cell_xf w r c f)).
Proof. destruct f; [apply modes_reg|apply modes_rcf]. Qed.
Lemma modes_flush w n : modes w (flush_data_row w n).
Proof.
  unfold flush_data_row. repeat match goal with |- context [match ?x with _ => _ end] => destruct x end; kr.
Qed.
Lemma modes_flushes l : forall w, modes w (fold_left flush_data_row l w).
Proof. induction l as [|x l IH]; intros w; cbn [fold_left]; [kr|]. exact (modes_trans _ _ _ (modes_flush w x) (IH _)). Qed.
Lemma modes_flush_to w n : modes w (flush_to_row w n).
Proof. unfold flush_to_row. cbv zeta. exact (modes_trans _ _ _ (modes_flushes _ w) (modes_flush _ n)). Qed.
Lemma modes_insert w r c x : modes w (insert_cell w r c x).
Proof.
  unfold insert_cell. destruct (constant_memory w); [|kr]. destruct (_ <? _); [kr|]. destruct (_ && _); [kr|].
  destruct (_ <? _); [|kr]. refine (modes_trans _ _ _ (modes_flush_to w r) _). kr.
Qed.

Ltac cd w r c := let X := fresh "X" in pose proof (modes_cd w r c) as X; destruct (check_dimensions w r c) as [?w ?b]; cbn [fst] in X;
   match goal with |- context [negb ?b] => destruct b; cbn [negb fst]; [|exact X] end.
Ltac xf w r c f := let X := fresh "X" in pose proof (modes_xf w r c f) as X; destruct (cell_xf w r c f) as [?w ?i]; cbn [fst] in X.
Ltac via H := refine (modes_trans _ _ _ H _).

Lemma modes_blank w r c f : modes w (fst (store_blank w r c f)).
Proof.
  unfold store_blank. cd w r c. via X. pose proof (modes_reg w0 f) as X2. destruct (reg w0 f) as [w2 i]. cbn [fst] in X2. via X2.
  destruct (i =? 0); [|apply modes_insert]. pose proof (modes_rcf w2 r c) as X3. destruct (row_col_format w2 r c) as [w3 j]. via X3. apply modes_insert.
Qed.
Lemma modes_string w r c s f : modes w (fst (store_string w r c s f)).
Proof.
  destruct s as [|a s]; [cbn [store_string]; destruct f; [apply modes_blank|kr]|]. unfold store_string. cd w r c. via X.
  destruct (_ <? _); [kr|]. xf w0 r c f. via X0. destruct (inline_strings w1); [apply modes_insert|].
  destruct (global_sst w1); [destruct (shared_string_index _ _)|]; cbn [fst];
    (refine (modes_trans _ _ _ _ (modes_insert _ _ _ _)); kr).
Qed.
Lemma modes_rich w r c s raw f : modes w (fst (store_rich_string w r c s raw f)).
Proof.
  destruct s as [|a s]; [cbn [store_rich_string]; destruct f; [apply modes_blank|kr]|]. unfold store_rich_string. cd w r c. via X.
  destruct (_ <? _); [kr|]. xf w0 r c f. via X0.
  assert (G : forall w3 k, modes w1 w3 -> modes w1 (let w4 := insert_cell w3 r c (k, i) in if inline_strings w4 then w4 else upd_sst w4 (strings_table w4) true)).
  { intros w3 k H3. cbv zeta. via H3. destruct (inline_strings _); [apply modes_insert|]. refine (modes_trans _ _ _ (modes_insert _ _ _ _) _). kr. }
  destruct (global_sst w1); [destruct (shared_string_index _ _)|]; cbn [fst]; apply G; kr.
Qed.
Lemma modes_number w r c x f d : modes w (fst (store_number_type w r c x f d)).
Proof.
  unfold store_number_type. cd w r c. via X. destruct (is_nan x); [apply modes_string|]. destruct (is_inf x); [destruct (feq _ _); apply modes_string|].
  xf w0 r c f. via X0. apply modes_insert.
Qed.
Lemma modes_boolean w r c x f : modes w (fst (store_boolean w r c x f)).
Proof. unfold store_boolean. cd w r c. via X. xf w0 r c f. via X0. apply modes_insert. Qed.
Lemma modes_zeros cs f : forall w, modes w (fst (write_zeros w cs f)).
Proof.
  induction cs as [|[r c] cs IH]; intros w; cbn [write_zeros]; [kr|].
  pose proof (modes_number w r c fzero f false) as X. destruct (store_number_type w r c fzero f false) as [w' [e|]]; [exact X|]. via X. apply IH.
Qed.
Lemma modes_array w fr fc lr lc fm f d g : modes w (fst (store_array_formula w fr fc lr lc fm f d g)).
Proof.
  unfold store_array_formula. cd w fr fc. via X. cd w0 lr lc. via X0. destruct (_ || _); [kr|]. xf w1 fr fc f. via X1. cbv zeta.
  set (w3 := insert_cell w2 fr fc _). assert (X3 : modes w2 w3) by apply modes_insert. via X3.
  pose proof (modes_zeros (map (fun c => (fr, c)) (range_incl (fc + 1) lc)) f w3) as X4. destruct (write_zeros w3 _ f) as [w4 [e|]]; [exact X4|]. via X4.
  match goal with |- context [write_zeros ?a ?b ?c] => pose proof (modes_zeros b c a) as X5; destruct (write_zeros a b c) as [w5 [e|]] end;
    cbn [fst] in *; refine (modes_trans _ _ _ (modes_trans _ _ _ _ X5) _); repeat destruct (constant_memory _); kr.
Qed.
Lemma modes_formula w r c fm f g : modes w (fst (store_formula w r c fm f g)).
Proof. unfold store_formula. destruct (f_dynamic fm); [apply modes_array|]. cd w r c. via X. xf w0 r c f. via X0. apply modes_insert. Qed.
Lemma modes_icf w r c x : modes w (insert_cell_format w r c x).
Proof. unfold insert_cell_format. repeat match goal with |- context [match ?x with _ => _ end] => destruct x end; kr. Qed.
Lemma modes_ucf w r c x : modes w (update_cell_format w r c x).
Proof. unfold update_cell_format. repeat match goal with |- context [match ?x with _ => _ end] => destruct x end; kr. Qed.
Lemma modes_fold {A} (g : ws -> A -> ws) (Hg : forall w a, modes w (g w a)) l : forall w, modes w (fold_left g l w).
Proof. induction l as [|x l IH]; intros w; cbn [fold_left]; [kr|]. exact (modes_trans _ _ _ (Hg w x) (IH _)). Qed.

Ltac all_cases := cbv zeta; repeat match goal with |- context [match ?x with _ => _ end] => destruct x end; kr.
Lemma modes_hidden w r : modes w (fst (set_row_hidden w r)).
Proof. unfold set_row_hidden. cd w r (get_min_col w). via X. all_cases. Qed.
Lemma modes_col_hidden w c : modes w (fst (set_column_hidden w c)).
Proof. unfold set_column_hidden. destruct (_ <=? _); [kr|]. all_cases. Qed.
Lemma modes_step w o : modes w (fst (step w o)).
Proof.
  destruct o; cbn [step fst].
  - apply modes_number.
  - apply modes_number.
  - apply modes_string.
  - apply modes_rich.
  - apply modes_boolean.
  - apply modes_blank.
  - apply modes_formula.
  - apply modes_array.
  - unfold set_cell_format. cd w row col. via X. pose proof (modes_reg w0 f) as X2. destruct (reg w0 f) as [w2 i]. via X2. apply modes_icf.
  - unfold set_range_format. destruct (_ || _); [kr|]. destruct (_ || _); [kr|]. pose proof (modes_reg w f) as X2. destruct (reg w f) as [w2 i]. via X2.
    cbn [fst]. apply modes_fold. intros; apply modes_icf.
  - unfold clear_cell. repeat match goal with |- context [match ?x with _ => _ end] => destruct x end; kr.
  - unfold clear_cell_format. destruct (check_dimensions_only _ _); [apply modes_ucf|kr].
  - unfold set_formula_result. repeat match goal with |- context [match ?x with _ => _ end] => destruct x end; kr.
  - unfold set_row_height. destruct (feq _ _); [apply modes_hidden|]. cd w row (get_min_col w). via X. all_cases.
  - unfold set_row_format. cd w row (get_min_col w). via X. pose proof (modes_reg w0 f) as X2. destruct (reg w0 f) as [w2 i]. via X2. all_cases.
  - apply modes_hidden.
  - unfold set_row_unhidden. cd w row (get_min_col w). via X. all_cases.
  - unfold set_column_width_internal. destruct (feq _ _); [apply modes_col_hidden|]. destruct (_ <=? _); [kr|]. unfold store_column_width. kr.
  - unfold set_column_format. cd w (get_min_row w) col. via X. pose proof (modes_reg w0 f) as X2. destruct (reg w0 f) as [w2 i]. via X2. all_cases.
  - apply modes_col_hidden.
  - unfold insert_note. cd w row col. via X. destruct (_ <? _); kr.
  - kr.
  - kr.
  - kr.
  - kr.
  - destruct (fle _ _); kr.
Qed.
Definition is_write_op (o : op) := True.
Lemma modes_write_all l : Forall is_write_op l -> forall w, modes w (fst (write_all w l)).
Proof.
  induction 1 as [|o l Ho Hl IH]; intros w; cbn [write_all]; [kr|]. pose proof (modes_step w o) as X.
  destruct (step w o) as [w' [e|]]; [exact X|]. via X. apply IH.
Qed.
Lemma modes_ahead w b : modes w (set_writing_ahead w b).
Proof. unfold set_writing_ahead. destruct (constant_memory w); kr. Qed.

Lemma modes_table_column w t fd ld col c : modes w (fst (table_column w t fd ld col c)).
Proof.
  unfold table_column.
  set (p1 := if t_header t && _ then _ else _). assert (X1 : modes w (fst p1)) by (subst p1; destruct (_ && _); [apply modes_string|kr]).
  destruct p1 as [w1 [e|]]; [exact X1|]. cbn [fst] in X1. via X1. cbv zeta. via (modes_ahead w1 true).
  set (w2 := set_writing_ahead w1 true). set (cf := match tc_format c with Some f => f | None => _ end).
  set (p2 := if t_total t then _ else _).
  assert (X2 : modes w2 (fst p2)).
  { subst p2. destruct (t_total t); [|kr]. destruct (tc_total_label c); [|apply modes_string]. destruct (tc_total c); [apply modes_formula|kr]. }
  destruct p2 as [w3 [e|]]; [exact X2|]. cbn [fst] in X2. via X2.
  set (p3 := match tc_formula c with Some fm => _ | None => _ end).
  assert (X3 : modes w3 (fst p3)).
  { subst p3. destruct (tc_formula c); [|kr]. apply modes_write_all, Forall_forall. intros x Hx. exact I. }
  destruct p3 as [w4 [e|]]; [exact X3|]. cbn [fst] in X3 |- *. via X3.
  refine (modes_trans _ _ _ _ (modes_ahead _ false)).
  destruct (tc_format c) as [f|]; [|kr]. pose proof (modes_reg w4 f) as X5. destruct (reg w4 f) as [w5 i]. via X5.
  match goal with |- modes _ (if _ then update_cell_format ?a _ _ _ else _) => assert (X6 : modes w5 a) by (apply modes_fold; intros; apply modes_ucf) end.
  via X6. destruct (_ && _); [apply modes_ucf|kr].
Qed.
Lemma modes_table_columns t fd ld cs : forall w col, modes w (fst (table_columns w t fd ld col cs)).
Proof.
  induction cs as [|c cs IH]; intros w col; cbn [table_columns]; [kr|]. pose proof (modes_table_column w t fd ld col c) as X.
  destruct (table_column w t fd ld col c) as [w' [e|]]; [exact X|]. via X. apply IH.
Qed.

Lemma modes_merge s fr fc lr lc text f s' e : merge_range s fr fc lr lc text f = Some (s', e) -> modes (cells s) (cells s').
Proof.
  unfold merge_range. pose proof (modes_cd (cells s) fr fc) as X. destruct (check_dimensions (cells s) fr fc) as [w [|]]; cbn [negb fst] in *;
    [|intros [= <- <-]; exact X].
  pose proof (modes_cd w lr lc) as X0. destruct (check_dimensions w lr lc) as [w0 [|]]; cbn [negb fst] in *; [|intros [= <- <-]; exact (modes_trans _ _ _ X X0)].
  pose proof (modes_trans _ _ _ X X0) as X1. clear X X0 w. destruct (_ || _); [intros [= <- <-]; exact X1|]. destruct (_ && _); [intros [= <- <-]; exact X1|].
  match goal with |- context [write_all w0 ?l] => pose proof (modes_write_all l) as X2 end. 
  specialize (X2 ltac:(constructor; [exact I|apply Forall_forall; intros x Hx; apply in_map_iff in Hx as (r & <- & _); exact I]) w0).
  destruct (write_all w0 _) as [w2 [e2|]]; cbn [fst] in X2; [intros [= <- <-]; exact (modes_trans _ _ _ X1 X2)|].
  match goal with |- context [write_all (set_writing_ahead w2 true) ?l] => pose proof (modes_write_all l) as X3 end. 
  specialize (X3 ltac:(apply Forall_forall; intros x Hx; exact I) (set_writing_ahead w2 true)).
  destruct (write_all (set_writing_ahead w2 true) _) as [w3 [e2|]]; cbn [fst] in X3;
  pose proof (modes_trans _ _ _ X1 (modes_trans _ _ _ X2 (modes_trans _ _ _ (modes_ahead w2 true) X3))) as X4; [intros [= <- <-]; exact X4|].
  pose proof (modes_trans _ _ _ X4 (modes_ahead w3 false)) as X5. cbv zeta.
  destruct (claim_cells _ _ _ _); [discriminate| |]; intros [= <- <-]; exact X5.
Qed.
Lemma modes_add_table lower s fr fc lr lc t s' e : add_table lower s fr fc lr lc t = Some (s', e) -> modes (cells s) (cells s').
Proof.
  unfold add_table. destruct (_ || _); [intros [= <- <-]; kr|]. destruct (_ || _); [intros [= <- <-]; kr|].
  destruct (_ && _); [intros [= <- <-]; kr|]. destruct (name_columns _ _ _ _) as [cols|]; [|intros [= <- <-]; kr]. cbv zeta.
  cbn [t_header t_total t_autofilter]. destruct (t_total t && _); [discriminate|].
  match goal with |- context [table_columns ?w ?t ?a ?b ?c ?d] => pose proof (modes_table_columns t a b d w c) as X; destruct (table_columns w t a b c d) as [w1 [e1|]] end;
    [intros [= <- <-]; exact X|]. cbn [fst] in X.
  destruct (claim_cells _ _ _ _); [discriminate|intros [= <- <-]; exact X|].
  destruct (if t_autofilter t then _ else _) as [fcs [|]]; intros [= <- <-]; exact X.
Qed.

Lemma modes_grouped_rows l b : forall w, modes w (fst (grouped_rows w l b)).
Proof.
  induction l as [|r l IH]; intros w; cbn [grouped_rows]; [kr|]. unfold set_grouped_row.
  destruct (get r (changed_rows w)) as [o|]; [destruct (_ <? _); [kr|]|]; (eapply modes_trans; [|apply IH]; kr).
Qed.
Lemma modes_grouped_columns l b : forall w, modes w (fst (grouped_columns w l b)).
Proof.
  induction l as [|r l IH]; intros w; cbn [grouped_columns]; [kr|]. unfold set_grouped_column.
  destruct (get r (changed_cols w)) as [o|]; [destruct (_ <? _); [kr|]|]; (eapply modes_trans; [|apply IH]; kr).
Qed.
Lemma modes_group_rows w fr lr b : modes w (fst (group_rows w fr lr b)).
Proof.
  assert (S : forall w b, modes w (fst (set_grouped_rows w fr lr b))).
  { clear. intros w b. unfold set_grouped_rows. cbv zeta. pose proof (modes_cd w fr (get_min_col w)) as A.
    destruct (check_dimensions w fr (get_min_col w)) as [w1 [|]]; [|exact A]. cbn [fst negb] in *.
    pose proof (modes_cd w1 lr (get_min_col w)) as B. destruct (check_dimensions w1 lr (get_min_col w)) as [w2 [|]]; cbn [fst negb] in *;
      pose proof (modes_trans _ _ _ A B) as C; [|exact C]. destruct (lr <? fr); [exact C|]. eapply modes_trans; [exact C|apply modes_grouped_rows]. }
  unfold group_rows. destruct b; [|apply S]. unfold set_collapsed_row. pose proof (modes_cd w (lr + 1) (get_min_col w)) as A.
  destruct (check_dimensions w (lr + 1) (get_min_col w)) as [w1 [|]]; [|exact A]. cbn [negb]. cbv zeta.
  eapply modes_trans; [exact A|]. eapply modes_trans; [|apply S]. kr.
Qed.
Lemma modes_group_columns w fr lr b : modes w (fst (group_columns w fr lr b)).
Proof.
  assert (S : forall w b, modes w (fst (set_grouped_columns w fr lr b))).
  { clear. intros w b. unfold set_grouped_columns. cbv zeta. pose proof (modes_cd w (get_min_row w) fr) as A.
    destruct (check_dimensions w (get_min_row w) fr) as [w1 [|]]; [|exact A]. cbn [fst negb] in *.
    pose proof (modes_cd w1 (get_min_row w) lr) as B. destruct (check_dimensions w1 (get_min_row w) lr) as [w2 [|]]; cbn [fst negb] in *;
      pose proof (modes_trans _ _ _ A B) as C; [|exact C]. destruct (lr <? fr); [exact C|]. eapply modes_trans; [exact C|apply modes_grouped_columns]. }
  unfold group_columns. destruct b; [|apply S]. unfold set_collapsed_column. pose proof (modes_cd w (get_min_row w) (lr + 1)) as A.
  destruct (check_dimensions w (get_min_row w) (lr + 1)) as [w1 [|]]; [|exact A]. cbn [negb]. cbv zeta.
  eapply modes_trans; [exact A|]. eapply modes_trans; [|apply S]. kr.
Qed.
Lemma sstep_modes lower s o s' e : sstep lower s o = Some (s', e) -> modes (cells s) (cells s').
Proof.
  destruct o; cbn [sstep].
  - intros [= <- <-]. apply modes_step.
  - intros E. exact (modes_merge _ _ _ _ _ _ _ _ _ E).
  - intros E. exact (modes_add_table _ _ _ _ _ _ _ _ _ E).
  - intros E. apply autofilter_frame in E as (-> & _). kr.
  - intros [= <- <-]. apply modes_group_rows.
  - intros [= <- <-]. apply modes_group_columns.
  - destruct (page_breaks _ _ _ _) as [[b0 e0]|]; [|discriminate]. intros [= <- <-]. kr.
  - destruct (page_breaks _ _ _ _) as [[b0 e0]|]; [|discriminate]. intros [= <- <-]. kr.
Qed.
