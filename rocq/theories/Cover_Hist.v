(** In every history on a standard worksheet, a cell that holds something lies inside the
    used range. (A cell that only has a format may not: C16.) *)
From Verif Require Import Base SMap F64 Fmt_Model Sst_Model Cells_Model Cells_Spec Cells_Inv Cells_Proofs Cells_Proofs2 Cells_Save Cells_Hist
  Sheet_Model Sheet_Proofs Opts_Frame Sheet_Hist Sheet_Hist2 Sheet_Hist3 Sheet_Hist4 Sheet_Hist5 Table_Spec.

Definition cov (w : ws) : Prop := forall r c k x, table_get r c (data w) = Some (k, x) -> k <> CBlank -> covers w r c.
Lemma cov_same w w' : meta w w' -> data w' = data w -> cov w -> cov w'.
Proof. intros M D C r c k x G Nb. rewrite D in G. exact (covers_meta _ _ _ _ M (C r c k x G Nb)). Qed.

Lemma cov_step w o w' e : std w -> step w o = (w', e) -> cov w -> cov w'.
Proof.
  intros S E C. destruct (std_step _ _ _ _ S E) as [S1 F]. intros r c k x G Nb. pose proof (sf_meta _ _ _ _ F) as M.
  destruct (alters o r c) eqn:A.
  2:{ pose proof (sf_keep _ _ _ _ F r c A) as K. unfold fmt_preserves in K. destruct (table_get r c (data w)) as [[k0 x0]|] eqn:G0.
      - destruct K as [xf K]. assert (k = k0) by congruence. subst k0. exact (covers_meta _ _ _ _ M (C r c k x0 G0 Nb)).
      - destruct K as [K|[xf K]]; congruence. }
  destruct e as [e|]; [rewrite (sf_err _ _ _ _ F) in G by discriminate; exact (covers_meta _ _ _ _ M (C r c k x G Nb))|].
  destruct (writes w o r c) as [v|] eqn:W; [exact (proj1 (sf_cov _ _ _ _ F eq_refl r c v W))|].
  destruct (is_write o) eqn:Iw.
  { pose proof (write_effect _ _ _ _ (d_cm _ S) Iw E) as X. cbn in X. rewrite (e_same _ _ _ _ X r c W) in G. exact (covers_meta _ _ _ _ M (C r c k x G Nb)). }
  destruct o; try discriminate Iw; try discriminate A; cbn [alters] in A; apply here_true in A as [-> ->]; cbn [step] in E.
  - assert (w' = clear_cell w row col) by congruence. subst w'. apply (covers_meta _ _ _ _ M). revert G. unfold clear_cell. destruct (check_dimensions_only row col); [|intros G; exact (C row col k x G Nb)].
    unfold table_get. destruct (get row (data w)) as [cs|] eqn:Gr; [|rewrite Gr; discriminate]. cbn [data upd_data]. rewrite get_ins, N.eqb_refl.
    pose proof (proj2 (d_ok _ S) row cs Gr) as Oc. rewrite get_del, N.eqb_refl by exact Oc. discriminate.
  - assert (w' = set_formula_result w row col result) by congruence. subst w'. apply (covers_meta _ _ _ _ M). revert G. unfold set_formula_result. rewrite (d_cm _ S). unfold table_get at 1.
    destruct (get row (data w)) as [cs|] eqn:Gr; [|rewrite Gr; discriminate]. destruct (get col cs) as [[k0 x0]|] eqn:Gc.
    2:{ rewrite Gr, Gc. discriminate. }
    assert (G0 : table_get row col (data w) = Some (k0, x0)) by (unfold table_get; rewrite Gr; exact Gc).
    intros G. assert (Nb0 : k0 <> CBlank). { intros ->. cbn [data] in G. rewrite Gr, Gc in G. congruence. }
    exact (C row col k0 x0 G0 Nb0).
Qed.
Lemma cov_write_all ops : Forall (fun o => is_write o = true) ops -> forall w w' e, std w -> write_all w ops = (w', e) -> cov w -> cov w'.
Proof.
  induction 1 as [|o ops Ho Hops IH]; intros w w' e S; cbn [write_all]; [intros [= <- <-]; auto|].
  destruct (step w o) as [w1 [e1|]] eqn:E; intros H C; pose proof (cov_step _ _ _ _ S E C) as C1; [assert (w' = w1) by congruence; subst; exact C1|].
  exact (IH _ _ _ (proj1 (std_step _ _ _ _ S E)) H C1).
Qed.
Lemma cov_merge s fr fc lr lc text f s' e : std (cells s) -> merge_range s fr fc lr lc text f = Some (s', e) -> cov (cells s) -> cov (cells s').
Proof.
  intros S H C. revert H. unfold merge_range.
  destruct (check_dimensions (cells s) fr fc) as [w1 ok1] eqn:E1. destruct (std_cd _ _ _ _ _ S E1) as (S1 & M1 & _ & D1). pose proof (cov_same _ _ M1 D1 C) as C1.
  destruct ok1; cbn [negb]; [|intros H; assert (s' = with_cells s w1) by congruence; subst s'; exact C1].
  destruct (check_dimensions w1 lr lc) as [w2 ok2] eqn:E2. destruct (std_cd _ _ _ _ _ S1 E2) as (S2 & M2 & _ & D2). pose proof (cov_same _ _ M2 D2 C1) as C2.
  assert (Q : forall e0, Some (with_cells s w2, e0) = Some (s', e) -> cov (cells s')) by (intros e0 H; assert (s' = with_cells s w2) by congruence; subst s'; exact C2).
  destruct ok2; cbn [negb]; [|apply Q]. destruct (_ || _); [apply Q|]. destruct (_ && _); [apply Q|]. clear Q.
  pose proof (merge_ops_writes fr fc lr lc text f) as FW. unfold merge_ops in FW. apply Forall_app in FW as [F1 F2].
  destruct (write_all w2 (WriteString fr fc text (Some f) :: map (fun c => WriteBlank fr c f) (range_incl (fc + 1) lc))) as [w3 [e3|]] eqn:E3;
    pose proof (cov_write_all _ F1 _ _ _ S2 E3 C2) as C3; [intros H; assert (s' = with_cells s w3) by congruence; subst s'; exact C3|].
  pose proof (proj1 (write_all_std _ F1 w2 w3 None S2 E3)) as S3. rewrite (ahead_std w3 true S3).
  destruct (write_all w3 (map (fun p => WriteBlank (fst p) (snd p) f) (range_cells (fr + 1) fc lr lc))) as [w4 e4] eqn:E4.
  pose proof (cov_write_all _ F2 _ _ _ S3 E4 C3) as C4. destruct e4 as [e4|]; [intros H; assert (s' = with_cells s w4) by congruence; subst s'; exact C4|].
  pose proof (proj1 (write_all_std _ F2 w3 w4 None S3 E4)) as S4. rewrite (ahead_std w4 false S4).
  cbv zeta. destruct (claim_cells _ _ _ _) as [|l|l]; [discriminate| |]; intros H; injection H as <- _; exact C4.
Qed.
Lemma cov_columns t fd ld cs : forall col w w' e, std w -> table_columns w t fd ld col cs = (w', e) -> cov w -> cov w'.
Proof.
  induction cs as [|c cs IH]; intros col w w' e S H C; cbn [table_columns] in H; [assert (w' = w) by congruence; subst; exact C|].
  rewrite (table_column_eq _ _ _ _ _ _ S) in H. destruct (write_all w (column_ops t fd ld col c)) as [w1 e1] eqn:E1.
  pose proof (cov_write_all _ (column_ops_writes t fd ld col c) _ _ _ S E1 C) as C1. pose proof (write_all_std _ (column_ops_writes t fd ld col c) w w1 e1 S E1) as (S1 & _).
  destruct e1 as [e1|]; [assert (w' = w1) by congruence; subst; exact C1|].
  destruct (restyle_spec t fd ld col c w1 S1) as (S2 & M2 & _ & i & _ & G). refine (IH _ _ _ _ S2 H _).
  intros r c' k x Hg Nb. rewrite G in Hg. apply (covers_meta _ _ _ _ M2). destruct ((c' =? col) && restyled t fd ld c r); [|exact (C1 r c' k x Hg Nb)].
  destruct (table_get r c' (data w1)) as [[k0 x0]|] eqn:G0; [|discriminate]. assert (k = k0) by congruence. subst k0. exact (C1 r c' k x0 G0 Nb).
Qed.
Lemma cov_sstep lower s o s' e : std (cells s) -> sstep lower s o = Some (s', e) -> cov (cells s) -> cov (cells s').
Proof.
  intros S E C. destruct o; cbn [sstep] in E.
  - unfold lift in E. destruct (step (cells s) o) as [w1 e1] eqn:E1. assert (s' = with_cells s w1) by (cbn in E; congruence). subst s'. exact (cov_step _ _ _ _ S E1 C).
  - exact (cov_merge _ _ _ _ _ _ _ _ _ S E C).
  - apply table_cells in E as [[-> _]|(_ & _ & _ & _ & cols & T & _ & _ & e1 & H & _)]; [exact C|]. exact (cov_columns _ _ _ _ _ _ _ _ S H C).
  - apply autofilter_frame in E as (-> & _). exact C.
  - pose proof (quiet_group_rows (cells s) fr lr collapsed) as (Q & _ & _ & _ & M). unfold lift in E. assert (s' = with_cells s (fst (group_rows (cells s) fr lr collapsed))) by congruence. subst s'.
    exact (cov_same _ _ M (proj1 Q) C).
  - pose proof (quiet_group_columns (cells s) fc lc collapsed) as (Q & _ & _ & _ & M). unfold lift in E. assert (s' = with_cells s (fst (group_columns (cells s) fc lc collapsed))) by congruence. subst s'.
    exact (cov_same _ _ M (proj1 Q) C).
  - destruct (page_breaks _ _ _ _) as [[b0 e0]|]; [|discriminate]. cbn in E. assert (s' = with_breaks s b0 (vbreaks s)) by congruence. subst s'. exact C.
  - destruct (page_breaks _ _ _ _) as [[b0 e0]|]; [|discriminate]. cbn in E. assert (s' = with_breaks s (hbreaks s) b0) by congruence. subst s'. exact C.
Qed.
