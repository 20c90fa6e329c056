(** The rows found in the file, against the rows that calls configured. *)
From Verif Require Import Base SMap F64 Fmt_Model Xml_Model Xml_Spec Xml_Proofs Xml_Read Note_Spec Ref_Model Cells_Model Cells_Spec Cells_Proofs Cells_Proofs2 Cells_Inv Cells_Save Cells_Hist Props_Cells
  SheetXml_Model SheetXml_Spec SheetXml_Proofs4 Sheet_Model Sheet_Spec Opts_Frame Sheet_Proofs Sheet_Proofs2 Sheet_Proofs3 Sheet_Hist Sheet_Hist2 Sheet_Hist3 Sheet_Hist4 Sheet_Hist5 Props_Group Opts_Spec Opts_Hist Opts_Hist2 Opts_Hist3 Opts_Hist4.
Open Scope N_scope.

(** ** Configured rows are inside the used range of rows *)
Definition rows_within (w : ws) : Prop := forall r, get r (changed_rows w) <> None -> first_row w <= r <= last_row w.
Definition inside (w : ws) (r : N) : Prop := first_row w <= r <= last_row w.
Lemma inside_meta w w' r : meta w w' -> inside w r -> inside w' r.
Proof. intros M [A B]. pose proof (m_fr _ _ M). pose proof (m_lr _ _ M). unfold inside. lia. Qed.
Lemma within_same w w' : changed_rows w' = changed_rows w -> meta w w' -> rows_within w -> rows_within w'.
Proof. intros E M H r Hr. rewrite E in Hr. exact (inside_meta _ _ r M (H r Hr)). Qed.
Lemma cd_inside w r c w1 : constant_memory w = false -> check_dimensions w r c = (w1, true) -> inside w1 r /\ first_row w1 <= first_row w /\ last_row w <= last_row w1 /\ constant_memory w1 = false.
Proof.
  unfold check_dimensions. intros C. rewrite C. cbn [negb orb]. destruct (_ <=? _); [discriminate|]. destruct (_ <=? _); [discriminate|]. cbv zeta.
  intros H. match type of H with (?a, _) = _ => assert (w1 = a) by congruence end. subst w1. unfold inside. cbn [first_row last_row upd_dims constant_memory]. repeat split; [lia..|exact C].
Qed.
Definition wider (w w' : ws) : Prop := first_row w' <= first_row w /\ last_row w <= last_row w'.
Lemma cd_wider w r c : wider w (fst (check_dimensions w r c)).
Proof.
  unfold check_dimensions, wider. destruct (_ <=? _); [cbn [fst]; lia|]. destruct (_ <=? _); [cbn [fst]; lia|]. cbv zeta. destruct (_ || _); cbn [fst first_row last_row upd_dims]; lia.
Qed.
Lemma within_kept w w' : changed_rows w' = changed_rows w -> wider w w' -> rows_within w -> rows_within w'.
Proof. intros E [A B] H r Hr. rewrite E in Hr. specialize (H r Hr). lia. Qed.
Lemma within_ins w k o l : inside w k -> rows_within w -> rows_within (upd_rows w (ins k o (changed_rows w)) l).
Proof.
  intros I H r. cbn [changed_rows upd_rows first_row last_row]. rewrite get_ins. destruct (N.eqb_spec k r) as [<-|_]; [intros _; exact I|apply H].
Qed.
Lemma within_reg w f : rows_within w -> rows_within (fst (reg w f)).
Proof. unfold reg. destruct (format_xf_index (xfs w) f). exact (fun H => H). Qed.
Lemma reg_dims w f w' i : reg w f = (w', i) -> first_row w' = first_row w /\ last_row w' = last_row w.
Proof. unfold reg. destruct (format_xf_index (xfs w) f). intros H. assert (w' = upd_xfs w l) by congruence. subst. split; reflexivity. Qed.
Ltac enter w k := pose proof (cd_inside w k (get_min_col w)) as CI; pose proof (kept_cd w k (get_min_col w)) as KC; pose proof (cd_wider w k (get_min_col w)) as CW;
  destruct (check_dimensions w k (get_min_col w)) as [? [|]] eqn:?; cbn [negb fst] in *; [|exact (within_kept _ _ (k_rows _ _ KC) CW ltac:(assumption))].
Lemma within_hidden w k : constant_memory w = false -> rows_within w -> rows_within (fst (set_row_hidden w k)).
Proof.
  intros C H. unfold set_row_hidden. enter w k. destruct (CI w0 C eq_refl) as (I & _). apply within_ins; [exact I|exact (within_kept _ _ (k_rows _ _ KC) CW H)].
Qed.
Lemma within_options w o : constant_memory w = false -> is_options o = true -> rows_within w -> meta w (fst (step w o)) -> rows_within (fst (step w o)).
Proof.
  intros C O H M. destruct (match o with SetColumnWidth _ _ _ | SetColumnFormat _ _ | SetColumnHidden _ | SetDefaultRowHeight _ => true | _ => false end) eqn:R.
  { exact (within_same w _ (proj1 (cols_krw w o O R)) M H). }
  destruct o as [| | | | | | | | | | | | |row u|row f|row|row| | | | | | | | |]; try discriminate O; try discriminate R; cbn [step] in *.
  - unfold set_row_height. destruct (feq u fzero); [exact (within_hidden w row C H)|]. enter w row. destruct (CI w0 C eq_refl) as (I & _).
    apply within_ins; [exact I|exact (within_kept _ _ (k_rows _ _ KC) CW H)].
  - unfold set_row_format. enter w row. destruct (CI w0 C eq_refl) as (I & _). pose proof (within_kept _ _ (k_rows _ _ KC) CW H) as W.
    pose proof (within_reg w0 f W) as W2. destruct (reg w0 f) as [w2 i] eqn:R0. cbn [fst] in *. apply reg_dims in R0 as [R1 R2]. apply within_ins; [unfold inside; rewrite R1, R2; exact I|exact W2].
  - exact (within_hidden w row C H).
  - unfold set_row_unhidden. enter w row. destruct (CI w0 C eq_refl) as (I & _). pose proof (within_kept _ _ (k_rows _ _ KC) CW H) as W.
    destruct (get row (changed_rows w0)); cbn [fst]; [apply within_ins; [exact I|exact W]|exact W].
Qed.
Lemma within_grouped l b : forall w, (forall r, In r l -> inside w r) -> rows_within w -> rows_within (fst (grouped_rows w l b)).
Proof.
  induction l as [|r l IH]; intros w I H; cbn [grouped_rows]; [exact H|]. unfold set_grouped_row.
  destruct (get r (changed_rows w)) as [o|]; [destruct (_ <? _); [exact H|]|];
    (apply IH; [intros k Hk; exact (I k (or_intror Hk))|apply within_ins; [apply I; left; reflexivity|exact H]]).
Qed.
Lemma within_groups w fr lr b : constant_memory w = false -> rows_within w -> rows_within (fst (group_rows w fr lr b)).
Proof.
  assert (G : forall w b, constant_memory w = false -> rows_within w -> rows_within (fst (set_grouped_rows w fr lr b))).
  { clear. intros w b C H. unfold set_grouped_rows. cbv zeta. generalize (get_min_col w) as mc. intros mc.
    pose proof (cd_inside w fr mc) as CI. pose proof (kept_cd w fr mc) as KC. pose proof (cd_wider w fr mc) as CW.
    destruct (check_dimensions w fr mc) as [w1 [|]]; cbn [negb fst] in *; [|exact (within_kept _ _ (k_rows _ _ KC) CW H)].
    pose proof (within_kept _ _ (k_rows _ _ KC) CW H) as H1. destruct (CI w1 C eq_refl) as (I1 & _ & _ & C1).
    pose proof (cd_inside w1 lr mc) as CI2. pose proof (kept_cd w1 lr mc) as KC2. pose proof (cd_wider w1 lr mc) as CW2.
    destruct (check_dimensions w1 lr mc) as [w2 [|]]; cbn [negb fst] in *; [|exact (within_kept _ _ (k_rows _ _ KC2) CW2 H1)].
    pose proof (within_kept _ _ (k_rows _ _ KC2) CW2 H1) as H2. destruct (CI2 w2 C1 eq_refl) as (I2 & W1 & W2 & _).
    destruct (lr <? fr); [exact H2|]. apply within_grouped; [|exact H2]. intros r Hr. apply in_range_incl in Hr. unfold inside in *. lia. }
  intros C H. unfold group_rows. destruct b; [|exact (G w false C H)]. unfold set_collapsed_row.
  pose proof (cd_inside w (lr + 1) (get_min_col w)) as CI. pose proof (kept_cd w (lr + 1) (get_min_col w)) as KC. pose proof (cd_wider w (lr + 1) (get_min_col w)) as CW.
  destruct (check_dimensions w (lr + 1) (get_min_col w)) as [w1 [|]]; cbn [negb fst] in *; [|exact (within_kept _ _ (k_rows _ _ KC) CW H)].
  destruct (CI w1 C eq_refl) as (I1 & _ & _ & C1). cbv zeta. apply G; [exact C1|]. apply within_ins; [exact I1|exact (within_kept _ _ (k_rows _ _ KC) CW H)].
Qed.
Lemma within_sstep lower s o s' e : opts_ok s -> std (cells s) -> sstep lower s o = Some (s', e) -> rows_within (cells s) -> rows_within (cells s').
Proof.
  intros OO S E H. destruct (sstep_std lower _ _ _ _ S E) as (_ & M & _). destruct o; cbn [sstep] in E.
  - unfold lift in E. assert (s' = with_cells s (fst (step (cells s) o))) by congruence. subst s'. cbn [cells with_cells] in *.
    destruct (is_options o) eqn:O; [exact (within_options _ _ (d_cm _ S) O H M)|exact (within_same _ _ (k_rows _ _ (kept_step _ _ O)) M H)].
  - exact (within_same _ _ (k_rows _ _ (kept_merge _ _ _ _ _ _ _ _ _ E)) M H).
  - exact (within_same _ _ (k_rows _ _ (kept_add_table _ _ _ _ _ _ _ _ _ E)) M H).
  - apply autofilter_frame in E as (-> & _). exact H.
  - unfold lift in E. assert (s' = with_cells s (fst (group_rows (cells s) fr lr collapsed))) by congruence. subst s'. exact (within_groups _ _ _ _ (d_cm _ S) H).
  - unfold lift in E. destruct (group_columns (cells s) fc lc collapsed) as [w1 e1] eqn:G. assert (s' = with_cells s w1) by (cbn in E; congruence). subst s'. cbn [cells with_cells] in *.
    apply (within_same (cells s)); [|exact M|exact H]. exact (proj1 (proj1 (proj2 (group_columns_spec _ _ _ _ _ _ (oo_c _ OO) G)))).
  - destruct (page_breaks _ _ _ _) as [[b0 e0]|]; [|discriminate E]. assert (E1 : cells s' = cells s) by (cbn in E; injection E as <- _; reflexivity). rewrite E1. exact H.
  - destruct (page_breaks _ _ _ _) as [[b0 e0]|]; [|discriminate E]. assert (E1 : cells s' = cells s) by (cbn in E; injection E as <- _; reflexivity). rewrite E1. exact H.
Qed.
Lemma within_run lower ops : forall s s', opts_ok s -> std (cells s) -> srun lower s ops = Some s' -> rows_within (cells s) -> rows_within (cells s').
Proof.
  induction ops as [|o ops IH]; intros s s' OO S; cbn [srun]; [intros H; assert (s' = s) by congruence; subst; auto|].
  destruct (sstep lower s o) as [[s1 e]|] eqn:E; [|discriminate]. intros H W.
  exact (IH s1 s' (proj1 (sstep_opts lower s o s1 e OO E)) (proj1 (sstep_std lower _ _ _ _ S E)) H (within_sstep _ _ _ _ _ OO S E W)).
Qed.

(** ** The rows written *)
Lemma rows_written w t g r : rows_within w -> get r (changed_rows w) <> None -> In r (map o_row (sheet_rows w t g)).
Proof.
  intros W Hr. destruct (saved_frame w t) as [d E]. unfold sheet_rows. rewrite E. unfold write_data_table. apply in_map_iff.
  assert (X : exists a, In a (emit_row (upd_data w d) g r) /\ o_row a = r).
  { unfold emit_row. cbn [data upd_data changed_rows]. destruct (get r d); [eexists; split; [left; reflexivity|reflexivity]|].
    destruct (get r (changed_rows w)); [|contradiction]. eexists; split; [left; reflexivity|reflexivity]. }
  destruct X as (a & A & B). exists a. split; [exact B|]. apply in_flat_map. exists r. split; [|exact A]. apply in_range_incl. exact (W r Hr).
Qed.
Lemma rows_increase w t g : increasing (map o_row (sheet_rows w t g)).
Proof.
  unfold sheet_rows. generalize (saved w t). clear. intros w. unfold write_data_table. apply flat_map_sorted; [apply range_incl_sorted| |].
  - intros x a Ha. unfold emit_row in Ha. destruct (get x (data w)); [|destruct (match get x (changed_rows w) with Some _ => true | None => mem x (notes w) end)];
      try (destruct Ha as [<-|[]]; reflexivity). destruct Ha.
  - intros x. unfold emit_row. destruct (get x (data w)); [|destruct (match get x (changed_rows w) with Some _ => true | None => mem x (notes w) end)]; cbn; lia.
Qed.

(** ** A row has a height of its own exactly when an accepted call was about it *)
Lemma told_height_known r h : forall s, fst (fold_left (next_height r) h s) = None <-> fst s = None /\ existsb (about_row r) h = false.
Proof.
  induction h as [|o h IH]; intros [own d]; cbn [fold_left existsb]; [cbn [fst]; tauto|]. rewrite IH. clear IH.
  assert (X : fst (next_height r (own, d) o) = None <-> own = None /\ about_row r o = false).
  { unfold next_height. destruct own as [u|].
    - split; [|intros [? _]; discriminate]. destruct o as [[]| | | | | | |]; try discriminate. destruct (_ && _); discriminate.
    - assert (D : fst (if about_row r o then Some d else None, d) = None <-> None = @None f64 /\ about_row r o = false)
        by (destruct (about_row r o); cbn [fst]; split; [discriminate|intros [_ ?]; discriminate|split; reflexivity|reflexivity]).
      destruct o as [[]| | | | | | |]; try exact D.
      + cbn [fst about_row] in *. destruct (_ =? r); cbn [andb]; [destruct (negb _)|]; (split; [intros; first [discriminate|split; congruence]|intros [_ ?]; first [discriminate|congruence]]). }
  rewrite X, orb_false_iff. cbn [fst]. tauto.
Qed.
Lemma told_default_is r h : forall s, snd (fold_left (next_height r) h s) = fold_left (fun d o => match o with SCell (SetDefaultRowHeight u) => if fle u fzero then d else u | _ => d end) h (snd s).
Proof.
  induction h as [|o h IH]; intros [own d]; [reflexivity|]. cbn [fold_left]. rewrite IH. f_equal. unfold next_height. destruct o as [[]| | | | | | |]; reflexivity.
Qed.
Lemma told_default_snoc h : told_default h = fold_left (fun d o => match o with SCell (SetDefaultRowHeight u) => if fle u fzero then d else u | _ => d end) h (f_of_N 15).
Proof.
  unfold told_default. induction h as [|o h IH] using rev_ind; [reflexivity|]. rewrite last_of_snoc, fold_snoc, <- IH. destruct o as [[]| | | | | | |]; try reflexivity. destruct (fle _ _); reflexivity.
Qed.
