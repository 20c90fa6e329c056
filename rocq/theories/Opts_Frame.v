(** Which calls leave the row and column options alone, in every mode. *)
From Verif Require Import Base SMap F64 Fmt_Model Sst_Model Ref_Model Cells_Model Sheet_Model.

Record kept (w w' : ws) : Prop := {
  k_rows : changed_rows w' = changed_rows w; k_cols : changed_cols w' = changed_cols w;
  k_rl : max_row_level w' = max_row_level w; k_cl : max_col_level w' = max_col_level w;
  k_h : default_row_height w' = default_row_height w; k_xfs : exists l, xfs w' = xfs w ++ l }.
Ltac kr := split; first [reflexivity|exists []; symmetry; apply app_nil_r].
Lemma kept_refl w : kept w w. Proof. kr. Qed.
Lemma kept_trans a b c : kept a b -> kept b c -> kept a c.
Proof. intros [A1 A2 A3 A4 A5 [la A6]] [B1 B2 B3 B4 B5 [lb B6]]. split; try congruence. exists (la ++ lb). rewrite B6, A6, app_assoc. reflexivity. Qed.

Lemma kept_cd w r c : kept w (fst (check_dimensions w r c)).
Proof. unfold check_dimensions. destruct (_ <=? _); [kr|]. destruct (_ <=? _); [kr|]. cbv zeta. destruct (_ || _); kr. Qed.
Lemma kept_reg w f : kept w (fst (reg w f)).
Proof. unfold reg, format_xf_index. destruct (fmt_find f (xfs w)); [kr|]. split; try reflexivity. exists [f]. reflexivity. Qed.
Lemma kept_rcf w r c : kept w (fst (row_col_format w r c)).
Proof.
  unfold row_col_format. repeat match goal with |- context [match ?x with _ => _ end] => destruct x end; try apply kept_reg; kr.
Qed.
Lemma kept_xf w r c f : kept w (fst (cell_xf w r c f)).
Proof. destruct f; [apply kept_reg|apply kept_rcf]. Qed.
Lemma kept_flush w n : kept w (flush_data_row w n).
Proof.
  unfold flush_data_row. repeat match goal with |- context [match ?x with _ => _ end] => destruct x end; kr.
Qed.
Lemma kept_flushes l : forall w, kept w (fold_left flush_data_row l w).
Proof. induction l as [|x l IH]; intros w; cbn [fold_left]; [kr|]. exact (kept_trans _ _ _ (kept_flush w x) (IH _)). Qed.
Lemma kept_flush_to w n : kept w (flush_to_row w n).
Proof. unfold flush_to_row. cbv zeta. exact (kept_trans _ _ _ (kept_flushes _ w) (kept_flush _ n)). Qed.
Lemma kept_insert w r c x : kept w (insert_cell w r c x).
Proof.
  unfold insert_cell. destruct (constant_memory w); [|kr]. destruct (_ <? _); [kr|]. destruct (_ && _); [kr|].
  destruct (_ <? _); [|kr]. refine (kept_trans _ _ _ (kept_flush_to w r) _). kr.
Qed.

Ltac cd w r c := let X := fresh "X" in pose proof (kept_cd w r c) as X; destruct (check_dimensions w r c) as [?w ?b]; cbn [fst] in X;
   match goal with |- context [negb ?b] => destruct b; cbn [negb fst]; [|exact X] end.
Ltac xf w r c f := let X := fresh "X" in pose proof (kept_xf w r c f) as X; destruct (cell_xf w r c f) as [?w ?i]; cbn [fst] in X.
Ltac via H := refine (kept_trans _ _ _ H _).

Lemma kept_blank w r c f : kept w (fst (store_blank w r c f)).
Proof.
  unfold store_blank. cd w r c. via X. pose proof (kept_reg w0 f) as X2. destruct (reg w0 f) as [w2 i]. cbn [fst] in X2. via X2.
  destruct (i =? 0); [|apply kept_insert]. pose proof (kept_rcf w2 r c) as X3. destruct (row_col_format w2 r c) as [w3 j]. via X3. apply kept_insert.
Qed.
Lemma kept_string w r c s f : kept w (fst (store_string w r c s f)).
Proof.
  destruct s as [|a s]; [cbn [store_string]; destruct f; [apply kept_blank|kr]|]. unfold store_string. cd w r c. via X.
  destruct (_ <? _); [kr|]. xf w0 r c f. via X0. destruct (inline_strings w1); [apply kept_insert|].
  destruct (global_sst w1); [destruct (shared_string_index _ _)|]; cbn [fst];
    (refine (kept_trans _ _ _ _ (kept_insert _ _ _ _)); kr).
Qed.
Lemma kept_rich w r c s raw f : kept w (fst (store_rich_string w r c s raw f)).
Proof.
  destruct s as [|a s]; [cbn [store_rich_string]; destruct f; [apply kept_blank|kr]|]. unfold store_rich_string. cd w r c. via X.
  destruct (_ <? _); [kr|]. xf w0 r c f. via X0.
  assert (G : forall w3 k, kept w1 w3 -> kept w1 (let w4 := insert_cell w3 r c (k, i) in if inline_strings w4 then w4 else upd_sst w4 (strings_table w4) true)).
  { intros w3 k H3. cbv zeta. via H3. destruct (inline_strings _); [apply kept_insert|]. refine (kept_trans _ _ _ (kept_insert _ _ _ _) _). kr. }
  destruct (global_sst w1); [destruct (shared_string_index _ _)|]; cbn [fst]; apply G; kr.
Qed.
Lemma kept_number w r c x f d : kept w (fst (store_number_type w r c x f d)).
Proof.
  unfold store_number_type. cd w r c. via X. destruct (is_nan x); [apply kept_string|]. destruct (is_inf x); [destruct (feq _ _); apply kept_string|].
  xf w0 r c f. via X0. apply kept_insert.
Qed.
Lemma kept_boolean w r c x f : kept w (fst (store_boolean w r c x f)).
Proof. unfold store_boolean. cd w r c. via X. xf w0 r c f. via X0. apply kept_insert. Qed.
Lemma kept_zeros cs f : forall w, kept w (fst (write_zeros w cs f)).
Proof.
  induction cs as [|[r c] cs IH]; intros w; cbn [write_zeros]; [kr|].
  pose proof (kept_number w r c fzero f false) as X. destruct (store_number_type w r c fzero f false) as [w' [e|]]; [exact X|]. via X. apply IH.
Qed.
Lemma kept_array w fr fc lr lc fm f d g : kept w (fst (store_array_formula w fr fc lr lc fm f d g)).
Proof.
  unfold store_array_formula. cd w fr fc. via X. cd w0 lr lc. via X0. destruct (_ || _); [kr|]. xf w1 fr fc f. via X1. cbv zeta.
  set (w3 := insert_cell w2 fr fc _). assert (X3 : kept w2 w3) by apply kept_insert. via X3.
  pose proof (kept_zeros (map (fun c => (fr, c)) (range_incl (fc + 1) lc)) f w3) as X4. destruct (write_zeros w3 _ f) as [w4 [e|]]; [exact X4|]. via X4.
  match goal with |- context [write_zeros ?a ?b ?c] => pose proof (kept_zeros b c a) as X5; destruct (write_zeros a b c) as [w5 [e|]] end;
    cbn [fst] in *; refine (kept_trans _ _ _ (kept_trans _ _ _ _ X5) _); repeat destruct (constant_memory _); kr.
Qed.
Lemma kept_formula w r c fm f g : kept w (fst (store_formula w r c fm f g)).
Proof. unfold store_formula. destruct (f_dynamic fm); [apply kept_array|]. cd w r c. via X. xf w0 r c f. via X0. apply kept_insert. Qed.
Lemma kept_icf w r c x : kept w (insert_cell_format w r c x).
Proof. unfold insert_cell_format. repeat match goal with |- context [match ?x with _ => _ end] => destruct x end; kr. Qed.
Lemma kept_ucf w r c x : kept w (update_cell_format w r c x).
Proof. unfold update_cell_format. repeat match goal with |- context [match ?x with _ => _ end] => destruct x end; kr. Qed.
Lemma kept_fold {A} (g : ws -> A -> ws) (Hg : forall w a, kept w (g w a)) l : forall w, kept w (fold_left g l w).
Proof. induction l as [|x l IH]; intros w; cbn [fold_left]; [kr|]. exact (kept_trans _ _ _ (Hg w x) (IH _)). Qed.

Definition is_options (o : op) : bool :=
  match o with
  | SetRowHeight _ _ | SetRowFormat _ _ | SetRowHidden _ | SetRowUnhidden _
  | SetColumnWidth _ _ _ | SetColumnFormat _ _ | SetColumnHidden _ | SetDefaultRowHeight _ => true
  | _ => false end.
Lemma kept_step w o : is_options o = false -> kept w (fst (step w o)).
Proof.
  destruct o; cbn [is_options step fst]; intros H; try discriminate.
  - apply kept_number.
  - apply kept_number.
  - apply kept_string.
  - apply kept_rich.
  - apply kept_boolean.
  - apply kept_blank.
  - apply kept_formula.
  - apply kept_array.
  - unfold set_cell_format. cd w row col. via X. pose proof (kept_reg w0 f) as X2. destruct (reg w0 f) as [w2 i]. via X2. apply kept_icf.
  - unfold set_range_format. destruct (_ || _); [kr|]. destruct (_ || _); [kr|]. pose proof (kept_reg w f) as X2. destruct (reg w f) as [w2 i]. via X2.
    cbn [fst]. apply kept_fold. intros; apply kept_icf.
  - unfold clear_cell. repeat match goal with |- context [match ?x with _ => _ end] => destruct x end; kr.
  - unfold clear_cell_format. destruct (check_dimensions_only _ _); [apply kept_ucf|kr].
  - unfold set_formula_result. repeat match goal with |- context [match ?x with _ => _ end] => destruct x end; kr.
  - unfold insert_note. cd w row col. via X. destruct (_ <? _); kr.
  - kr.
  - kr.
  - kr.
  - kr.
Qed.
Definition is_write_op (o : op) := is_options o = false.
Lemma kept_write_all l : Forall is_write_op l -> forall w, kept w (fst (write_all w l)).
Proof.
  induction 1 as [|o l Ho Hl IH]; intros w; cbn [write_all]; [kr|]. pose proof (kept_step w o Ho) as X.
  destruct (step w o) as [w' [e|]]; [exact X|]. via X. apply IH.
Qed.
Lemma kept_ahead w b : kept w (set_writing_ahead w b).
Proof. unfold set_writing_ahead. destruct (constant_memory w); kr. Qed.

Lemma kept_table_column w t fd ld col c : kept w (fst (table_column w t fd ld col c)).
Proof.
  unfold table_column.
  set (p1 := if t_header t && _ then _ else _). assert (X1 : kept w (fst p1)) by (subst p1; destruct (_ && _); [apply kept_string|kr]).
  destruct p1 as [w1 [e|]]; [exact X1|]. cbn [fst] in X1. via X1. cbv zeta. via (kept_ahead w1 true).
  set (w2 := set_writing_ahead w1 true). set (cf := match tc_format c with Some f => f | None => _ end).
  set (p2 := if t_total t then _ else _).
  assert (X2 : kept w2 (fst p2)).
  { subst p2. destruct (t_total t); [|kr]. destruct (tc_total_label c); [|apply kept_string]. destruct (tc_total c); [apply kept_formula|kr]. }
  destruct p2 as [w3 [e|]]; [exact X2|]. cbn [fst] in X2. via X2.
  set (p3 := match tc_formula c with Some fm => _ | None => _ end).
  assert (X3 : kept w3 (fst p3)).
  { subst p3. destruct (tc_formula c); [|kr]. apply kept_write_all, Forall_forall. intros x Hx. apply in_map_iff in Hx as (r & <- & _). reflexivity. }
  destruct p3 as [w4 [e|]]; [exact X3|]. cbn [fst] in X3 |- *. via X3.
  refine (kept_trans _ _ _ _ (kept_ahead _ false)).
  destruct (tc_format c) as [f|]; [|kr]. pose proof (kept_reg w4 f) as X5. destruct (reg w4 f) as [w5 i]. via X5.
  match goal with |- kept _ (if _ then update_cell_format ?a _ _ _ else _) => assert (X6 : kept w5 a) by (apply kept_fold; intros; apply kept_ucf) end.
  via X6. destruct (_ && _); [apply kept_ucf|kr].
Qed.
Lemma kept_table_columns t fd ld cs : forall w col, kept w (fst (table_columns w t fd ld col cs)).
Proof.
  induction cs as [|c cs IH]; intros w col; cbn [table_columns]; [kr|]. pose proof (kept_table_column w t fd ld col c) as X.
  destruct (table_column w t fd ld col c) as [w' [e|]]; [exact X|]. via X. apply IH.
Qed.

Lemma kept_merge s fr fc lr lc text f s' e : merge_range s fr fc lr lc text f = Some (s', e) -> kept (cells s) (cells s').
Proof.
  unfold merge_range. pose proof (kept_cd (cells s) fr fc) as X. destruct (check_dimensions (cells s) fr fc) as [w [|]]; cbn [negb fst] in *;
    [|intros [= <- <-]; exact X].
  pose proof (kept_cd w lr lc) as X0. destruct (check_dimensions w lr lc) as [w0 [|]]; cbn [negb fst] in *; [|intros [= <- <-]; exact (kept_trans _ _ _ X X0)].
  pose proof (kept_trans _ _ _ X X0) as X1. clear X X0 w. destruct (_ || _); [intros [= <- <-]; exact X1|]. destruct (_ && _); [intros [= <- <-]; exact X1|].
  match goal with |- context [write_all w0 ?l] => pose proof (kept_write_all l) as X2 end. 
  specialize (X2 ltac:(constructor; [reflexivity|apply Forall_forall; intros x Hx; apply in_map_iff in Hx as (r & <- & _); reflexivity]) w0).
  destruct (write_all w0 _) as [w2 [e2|]]; cbn [fst] in X2; [intros [= <- <-]; exact (kept_trans _ _ _ X1 X2)|].
  match goal with |- context [write_all (set_writing_ahead w2 true) ?l] => pose proof (kept_write_all l) as X3 end. 
  specialize (X3 ltac:(apply Forall_forall; intros x Hx; apply in_map_iff in Hx as (r & <- & _); reflexivity) (set_writing_ahead w2 true)).
  destruct (write_all (set_writing_ahead w2 true) _) as [w3 [e2|]]; cbn [fst] in X3;
  pose proof (kept_trans _ _ _ X1 (kept_trans _ _ _ X2 (kept_trans _ _ _ (kept_ahead w2 true) X3))) as X4; [intros [= <- <-]; exact X4|].
  pose proof (kept_trans _ _ _ X4 (kept_ahead w3 false)) as X5. cbv zeta.
  destruct (claim_cells _ _ _ _); [discriminate| |]; intros [= <- <-]; exact X5.
Qed.
Lemma kept_add_table lower s fr fc lr lc t s' e : add_table lower s fr fc lr lc t = Some (s', e) -> kept (cells s) (cells s').
Proof.
  unfold add_table. destruct (_ || _); [intros [= <- <-]; kr|]. destruct (_ || _); [intros [= <- <-]; kr|].
  destruct (_ && _); [intros [= <- <-]; kr|]. destruct (name_columns _ _ _ _) as [cols|]; [|intros [= <- <-]; kr]. cbv zeta.
  cbn [t_header t_total t_autofilter]. destruct (t_total t && _); [discriminate|].
  match goal with |- context [table_columns ?w ?t ?a ?b ?c ?d] => pose proof (kept_table_columns t a b d w c) as X; destruct (table_columns w t a b c d) as [w1 [e1|]] end;
    [intros [= <- <-]; exact X|]. cbn [fst] in X.
  destruct (claim_cells _ _ _ _); [discriminate|intros [= <- <-]; exact X|].
  destruct (if t_autofilter t then _ else _) as [fcs [|]]; intros [= <- <-]; exact X.
Qed.
