(** Histories: what the accepted calls said is what is stored, in every mode. *)
From Verif Require Import Base Note_Spec SMap F64 Fmt_Model Sst_Model Ref_Model Opts_Spec Cells_Model Cells_Proofs Sheet_Model Sheet_Spec Opts_Frame Sheet_Proofs Sheet_Proofs2 Sheet_Proofs3 Props_Group Opts_Hist Opts_Hist2 Opts_Hist3.

Definition told (w : ws) (h : list sop) : Prop := (forall c, col_told w c h) /\ (forall r, row_told w r h).
Lemma cell_col_step w o c h : col_told w c h ->
  col_told (fst (step w o)) c (match snd (step w o) with None => h ++ [SCell o] | Some _ => h end).
Proof.
  intros T. assert (Q : about_col c (SCell o) = false -> get c (changed_cols (fst (step w o))) = get c (changed_cols w) ->
     col_told (fst (step w o)) c (match snd (step w o) with None => h ++ [SCell o] | Some _ => h end)).
  { intros A E. destruct (snd (step w o)); [exact (rejected_col w _ c h E (grows_step w o) T)|exact (quiet_col w _ c h _ E (grows_step w o) A T)]. }
  destruct (is_options o) eqn:O.
  2:{ apply Q; [destruct o; try discriminate O; reflexivity|]. rewrite (k_cols _ _ (kept_step w o O)). reflexivity. }
  destruct (match o with SetColumnWidth _ _ _ | SetColumnFormat _ _ | SetColumnHidden _ => false | _ => true end) eqn:R.
  { destruct (rows_kc w o O R) as [K _]. apply Q; [destruct o; try discriminate R; reflexivity|]. rewrite K. reflexivity. }
  clear Q. destruct o; try discriminate R; cbn [step].
  - destruct (width_told w col width autofit c h T) as [[A B]|[A B]]; [rewrite B; exact A|]. destruct (snd _); [exact B|contradiction].
  - destruct (format_told w col f c h T) as [[A B]|[A B]]; [rewrite B; exact A|]. destruct (snd _); [exact B|contradiction].
  - destruct (hidden_told w col c h (SCell (SetColumnHidden col))) as [[A B]|[A B]]; try reflexivity; [discriminate|exact T|rewrite B; exact A|].
    destruct (snd _); [exact B|contradiction].
Qed.
Lemma cell_row_step w o r h : row_told w r h ->
  row_told (fst (step w o)) r (match snd (step w o) with None => h ++ [SCell o] | Some _ => h end).
Proof.
  intros T. assert (Q : about_row r (SCell o) = false -> shows_row r (SCell o) = false -> quiet_default (SCell o) = true ->
     krw w (fst (step w o)) -> default_row_height (fst (step w o)) = default_row_height w ->
     row_told (fst (step w o)) r (match snd (step w o) with None => h ++ [SCell o] | Some _ => h end)).
  { intros A S D [K _] H. assert (E : get r (changed_rows (fst (step w o))) = get r (changed_rows w)) by (rewrite K; reflexivity).
    destruct (snd (step w o)); [exact (rejected_row w _ r h E H (grows_step w o) T)|exact (quiet_row w _ r h _ E H (grows_step w o) A S D T)]. }
  destruct (is_options o) eqn:O.
  2:{ pose proof (kept_step w o O) as K. apply Q; [destruct o; try discriminate O; reflexivity..|exact (kept_krw _ _ K)|apply K]. }
  destruct (match o with SetColumnWidth _ _ _ | SetColumnFormat _ _ | SetColumnHidden _ => true | _ => false end) eqn:R.
  { apply Q; [destruct o; try discriminate R; reflexivity..| |].
    - apply cols_krw; [exact O|]. destruct o; try discriminate R; reflexivity.
    - destruct o; try discriminate R; cbn [step].
      + unfold set_column_width_internal, set_column_hidden. destruct (feq width fzero); destruct (Cells_Model.COL_MAX <=? col); reflexivity.
      + unfold set_column_format. pose proof (kept_cd w (get_min_row w) col) as K. destruct (check_dimensions w (get_min_row w) col) as [w1 [|]]; [|apply K].
        cbn [negb fst] in *. pose proof (kept_reg w1 f) as K2. destruct (reg w1 f) as [w2 i]. exact (k_h _ _ (kept_trans _ _ _ K K2)).
      + unfold set_column_hidden. destruct (Cells_Model.COL_MAX <=? col); reflexivity. }
  assert (G : forall res call, row_after w r h call res -> row_told (fst res) r (match snd res with None => h ++ [call] | Some _ => h end)).
  { intros res call [[A B]|[A B]]; [rewrite A; exact B|]. destruct (snd res); [exact B|contradiction]. }
  clear Q. destruct o; try discriminate O; try discriminate R; cbn [step].
  - apply G. destruct (feq h0 fzero) eqn:Z; [|apply row_height_told; assumption].
    unfold set_row_height. rewrite Z. apply row_hidden_told; [split; [reflexivity|exact Z]|exact T].
  - apply G, row_format_told, T.
  - apply G, row_hidden_told; [reflexivity|exact T].
  - apply G, row_shown_told, T.
  - pose proof (default_told w h0 r h T) as D. cbn [step] in D. destruct (fle h0 fzero); exact D.
Qed.
Lemma told_kept w w' h o e : kept w w' -> match o with SCell _ | SGroupRows _ _ _ | SGroupColumns _ _ _ => False | _ => True end -> told w h ->
  told w' (match e : option serror with None => h ++ [o] | Some _ => h end).
Proof.
  intros K O [C R]. assert (G : grows w w') by exact (kept_grows _ _ K). split; intros k.
  - assert (E : get k (changed_cols w') = get k (changed_cols w)) by (rewrite (k_cols _ _ K); reflexivity).
    destruct e; [exact (rejected_col w w' k h E G (C k))|apply (quiet_col w w' k h o E G); [destruct o; try contradiction; reflexivity|apply C]].
  - assert (E : get k (changed_rows w') = get k (changed_rows w)) by (rewrite (k_rows _ _ K); reflexivity).
    destruct e; [exact (rejected_row w w' k h E (k_h _ _ K) G (R k))|apply (quiet_row w w' k h o E (k_h _ _ K) G); try (destruct o; try contradiction; reflexivity); apply R].
Qed.
Lemma told_step lower s o s' e h : opts_ok s -> sstep lower s o = Some (s', e) -> (is_group o = true -> e = None) -> told (cells s) h ->
  told (cells s') (match e with None => h ++ [o] | Some _ => h end).
Proof.
  intros OO E Hg T. destruct o; cbn [sstep] in E.
  - unfold lift in E. assert (E1 : s' = with_cells s (fst (step (cells s) o))) by congruence. assert (E2 : e = option_map SE (snd (step (cells s) o))) by congruence.
    subst s' e. cbn [cells with_cells]. destruct T as [C R]. split; intros k; [pose proof (cell_col_step (cells s) o k h (C k)) as X|pose proof (cell_row_step (cells s) o k h (R k)) as X];
      destruct (snd (step (cells s) o)); exact X.
  - eapply told_kept; [exact (kept_merge _ _ _ _ _ _ _ _ _ E)|exact Logic.I|exact T].
  - eapply told_kept; [exact (kept_add_table _ _ _ _ _ _ _ _ _ E)|exact Logic.I|exact T].
  - apply autofilter_frame in E as (-> & _). eapply told_kept; [exact (kept_refl _)|exact Logic.I|exact T].
  - specialize (Hg eq_refl). subst e. unfold lift in E. destruct (group_rows (cells s) fr lr collapsed) as [w1 e1] eqn:G. cbn [fst snd] in E.
    destruct e1; [discriminate E|]. assert (E1 : s' = with_cells s w1) by congruence. subst s'. cbn [cells with_cells]. destruct T as [C R].
    split; intros k; [|exact (group_rows_told _ _ _ _ _ _ _ G (R k))]. pose proof (proj1 (group_rows_more _ _ _ _ _ _ G)) as M.
    assert (X : get k (changed_cols w1) = get k (changed_cols (cells s))).
    { assert (Y : changed_cols w1 = changed_cols (cells s)); [|rewrite Y; reflexivity]. exact (proj1 (proj1 (proj2 (group_rows_spec _ _ _ _ _ _ (oo_r _ OO) G)))). }
    exact (quiet_col _ _ _ _ (SGroupRows fr lr collapsed) X M eq_refl (C k)).
  - specialize (Hg eq_refl). subst e. unfold lift in E. destruct (group_columns (cells s) fc lc collapsed) as [w1 e1] eqn:G. cbn [fst snd] in E.
    destruct e1; [discriminate E|]. assert (E1 : s' = with_cells s w1) by congruence. subst s'. cbn [cells with_cells]. destruct T as [C R].
    split; intros k; [exact (group_cols_told _ _ _ _ _ _ _ G (C k))|]. destruct (group_columns_more _ _ _ _ _ _ G) as (M & D & _).
    assert (X : get k (changed_rows w1) = get k (changed_rows (cells s))).
    { assert (Y : changed_rows w1 = changed_rows (cells s)); [|rewrite Y; reflexivity]. exact (proj1 (proj1 (proj2 (group_columns_spec _ _ _ _ _ _ (oo_c _ OO) G)))). }
    exact (quiet_row _ _ _ _ (SGroupColumns fc lc collapsed) X D M eq_refl eq_refl eq_refl (R k)).
  - destruct (page_breaks _ _ _ _) as [[b0 e0]|]; [|discriminate E]. assert (E1 : cells s' = cells s) by (cbn in E; injection E as <- _; reflexivity).
    rewrite E1. eapply told_kept; [exact (kept_refl _)|exact Logic.I|exact T].
  - destruct (page_breaks _ _ _ _) as [[b0 e0]|]; [|discriminate E]. assert (E1 : cells s' = cells s) by (cbn in E; injection E as <- _; reflexivity).
    rewrite E1. eapply told_kept; [exact (kept_refl _)|exact Logic.I|exact T].
Qed.
Lemma told_run lower ops : forall s s' h, opts_ok s -> srun lower s ops = Some s' -> groups_accepted lower s ops -> told (cells s) h -> told (cells s') (h ++ ok_calls lower s ops).
Proof.
  induction ops as [|o ops IH]; intros s s' h; cbn [srun groups_accepted ok_calls].
  - intros _ E _ T. assert (s' = s) by congruence. subst s'. rewrite app_nil_r. exact T.
  - intros OO E (s1 & e & E1 & Hg & Hr) T. rewrite E1 in E |- *. pose proof (told_step lower s o s1 e h OO E1 Hg T) as T1.
    pose proof (IH s1 s' _ (proj1 (sstep_opts lower s o s1 e OO E1)) E Hr T1) as T2. destruct e; [exact T2|]. rewrite <- app_assoc in T2. exact T2.
Qed.
Lemma told_new cmem inl gsst regs t : told (cells (sheet_new (ws_new cmem inl gsst regs t))) [].
Proof. split; intros k; split; reflexivity. Qed.
