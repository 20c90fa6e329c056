(** Rows with options stay inside the sheet (used for C36). *)
From Verif Require Import Base SMap SortLib F64 Fmt_Model Sst_Model Cells_Model Cells_Proofs Sheet_Model Sheet_Spec Opts_Frame Sheet_Proofs Sheet_Proofs2 Sheet_Proofs3.

Definition rows_lim (w : ws) : Prop := forall r o, get r (changed_rows w) = Some o -> r < 1048576.
Lemma lim_krw w w' : krw w w' -> rows_lim w -> rows_lim w'.
Proof. intros [B _] H r o. rewrite B. apply H. Qed.
Lemma lim_kept w w' : kept w w' -> rows_lim w -> rows_lim w'.
Proof. intros K. exact (lim_krw _ _ (kept_krw _ _ K)). Qed.
Lemma lim_ins w r o l : rows_lim w -> r < 1048576 -> rows_lim (upd_rows w (ins r o (changed_rows w)) l).
Proof. intros H Hr q o'. cbn. rewrite get_ins. destruct (N.eqb_spec r q) as [<-|]; [intros _; exact Hr|apply H]. Qed.

Ltac rowdim w r := let K := fresh "K" in let E := fresh "E" in
  pose proof (kept_cd w r (get_min_col w)) as K; destruct (check_dimensions w r (get_min_col w)) as [?w [|]] eqn:E;
  cbn [fst negb] in K |- *; [|exact (lim_kept _ _ K ltac:(assumption))]; apply cd_limits in E as [E _].

Lemma lim_step w o : rows_lim w -> rows_lim (fst (step w o)).
Proof.
  intros H.
  assert (Hh : forall row, rows_lim (fst (set_row_hidden w row))).
  { intros row. unfold set_row_hidden. rowdim w row. cbv zeta. cbn [fst]. apply lim_ins; [exact (lim_kept _ _ K H)|exact E]. }
  destruct (is_options o) eqn:E.
  2: { exact (lim_kept _ _ (kept_step w o E) H). }
  destruct (match o with SetColumnWidth _ _ _ | SetColumnFormat _ _ | SetColumnHidden _ | SetDefaultRowHeight _ => true | _ => false end) eqn:Q.
  { exact (lim_krw _ _ (cols_krw w o E Q) H). }
  destruct o; try discriminate; cbn [step].
  - unfold set_row_height. destruct (feq h fzero); [apply Hh|]. rowdim w row. cbv zeta. cbn [fst]. apply lim_ins; [exact (lim_kept _ _ K H)|exact E0].
  - unfold set_row_format. rowdim w row. pose proof (kept_reg w0 f) as K2. destruct (reg w0 f) as [w2 i]. cbn [fst] in *. cbv zeta. cbn [fst].
    apply lim_ins; [exact (lim_kept _ _ K2 (lim_kept _ _ K H))|exact E0].
  - apply Hh.
  - unfold set_row_unhidden. rowdim w row. destruct (get row (changed_rows w0)) as [o|] eqn:G; cbn [fst]; [|exact (lim_kept _ _ K H)].
    apply lim_ins; [exact (lim_kept _ _ K H)|exact E0].
Qed.
Lemma lim_grouped l b : Forall (fun r => r < 1048576) l -> forall w, rows_lim w -> rows_lim (fst (grouped_rows w l b)).
Proof.
  induction 1 as [|r l Hr Hl IH]; intros w H; cbn [grouped_rows]; [exact H|]. unfold set_grouped_row.
  destruct (get r (changed_rows w)) as [o|]; [destruct (_ <? _); [exact H|]|]; apply IH; apply lim_ins; assumption.
Qed.
Lemma lim_set_grouped w fr lr b : rows_lim w -> rows_lim (fst (set_grouped_rows w fr lr b)).
Proof.
  intros H. unfold set_grouped_rows. cbv zeta. pose proof (kept_cd w fr (get_min_col w)) as K.
  destruct (check_dimensions w fr (get_min_col w)) as [w1 [|]]; cbn [fst negb] in *; [|exact (lim_kept _ _ K H)].
  pose proof (kept_cd w1 lr (get_min_col w)) as K2. destruct (check_dimensions w1 lr (get_min_col w)) as [w2 [|]] eqn:E; cbn [fst negb] in *;
    pose proof (lim_kept _ _ K2 (lim_kept _ _ K H)) as H2; [|exact H2].
  apply cd_limits in E as [E _]. destruct (lr <? fr); [exact H2|]. apply lim_grouped; [|exact H2].
  apply Forall_forall. intros x Hx. apply in_range_incl in Hx. lia.
Qed.
Lemma lim_group w fr lr b : rows_lim w -> rows_lim (fst (group_rows w fr lr b)).
Proof.
  intros H. unfold group_rows. destruct b; [|apply lim_set_grouped; exact H].
  assert (H1 : rows_lim (fst (set_collapsed_row w (lr + 1)))).
  { unfold set_collapsed_row. rowdim w (lr + 1). cbv zeta. cbn [fst]. apply lim_ins; [exact (lim_kept _ _ K H)|exact E]. }
  destruct (set_collapsed_row w (lr + 1)) as [w1 [e|]]; [exact H1|]. apply lim_set_grouped. exact H1.
Qed.
Lemma lim_sstep lower s o s' e : opts_ok s -> rows_lim (cells s) -> sstep lower s o = Some (s', e) -> rows_lim (cells s').
Proof.
  intros O H. destruct o; cbn [sstep].
  - intros [= <- <-]. apply lim_step, H.
  - intros E. exact (lim_kept _ _ (kept_merge _ _ _ _ _ _ _ _ _ E) H).
  - intros E. exact (lim_kept _ _ (kept_add_table _ _ _ _ _ _ _ _ _ E) H).
  - intros E. apply autofilter_frame in E as (-> & _). exact H.
  - intros [= <- <-]. apply lim_group, H.
  - unfold lift. destruct (group_columns (cells s) fc lc collapsed) as [w1 e1] eqn:E. intros [= <- <-]. cbn [cells with_cells fst snd option_map].
    destruct O as [A B]. apply (group_columns_spec _ _ _ _ _ _ A) in E as (_ & K & _). exact (lim_krw _ _ K H).
  - destruct (page_breaks _ _ _ _) as [[b0 e0]|]; [|discriminate]. intros [= <- <-]. exact H.
  - destruct (page_breaks _ _ _ _) as [[b0 e0]|]; [|discriminate]. intros [= <- <-]. exact H.
Qed.
Lemma lim_run lower ops : forall s s', opts_ok s -> rows_lim (cells s) -> srun lower s ops = Some s' -> rows_lim (cells s').
Proof.
  induction ops as [|o ops IH]; intros s s' O H; cbn [srun]; [intros [= <-]; exact H|].
  destruct (sstep lower s o) as [[s1 e]|] eqn:E; [|discriminate]. apply IH; [exact (proj1 (sstep_opts lower s o s1 e O E))|].
  exact (lim_sstep lower s o s1 e O H E).
Qed.
