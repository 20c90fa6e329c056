(** All the columns of a table, and all the calls on a standard worksheet. *)
From Verif Require Import Base SMap F64 Fmt_Model Sst_Model Cells_Model Cells_Spec Cells_Inv Cells_Proofs Cells_Proofs2 Cells_Save Cells_Hist
  Sheet_Model Sheet_Proofs Opts_Frame Sheet_Hist Sheet_Hist2 Sheet_Hist3 Table_Spec.

Lemma column_covered t fd ld col c w w2 r :
  let top := r0 (t_range t) in let bottom := r1 (t_range t) in
  (t_total t = true -> 0 < bottom) ->
  fd = (if t_header t then top + 1 else top) -> ld = (if t_total t then bottom - 1 else bottom) ->
  (forall r o, In o (column_ops t fd ld col c) -> alters o r col = true -> (exists v, writes w o r col = Some v) -> covers w2 r col) ->
  filled_in (t_header t) (t_serde t) (t_total t) top bottom c r -> covers w2 r col.
Proof.
  intros top bottom Htot Hfd Hld H [(A & B & C & ->)|[(A & B & C)|(A & B & ->)]].
  - apply (H top (WriteString top col (tc_name c) (tc_header_format c))).
    + unfold column_ops, header_ops. rewrite A, B. left. reflexivity.
    + cbn [alters]. apply here_refl.
    + cbn [writes]. rewrite here_refl. destruct (tc_name c); [congruence|]. destruct (tc_header_format c); eexists; reflexivity.
  - destruct (tc_formula c) as [fm|] eqn:F; [|congruence].
    apply (H r (WriteFormula r col fm (Some (col_format c)) [])).
    + unfold column_ops. apply in_or_app. right. apply in_or_app. right. unfold data_ops. rewrite F.
      apply (in_map (fun r => WriteFormula r col fm (Some (col_format c)) [])). apply in_range_incl. rewrite Hfd, Hld.
      destruct (t_header t), (t_total t); try specialize (Htot eq_refl); lia.
    + cbn [alters]. apply here_refl.
    + cbn [writes]. rewrite here_refl. eexists. reflexivity.
  - destruct (tc_total_label c) as [|a l] eqn:L.
    + destruct (tc_total c) as [mk|] eqn:T; [|destruct B; congruence].
      apply (H bottom (WriteFormula bottom col (mk (tc_name c)) (Some (col_format c)) [])).
      * unfold column_ops. apply in_or_app. right. apply in_or_app. left. unfold total_ops. rewrite A, L, T. left. reflexivity.
      * cbn [alters]. apply here_refl.
      * cbn [writes]. rewrite here_refl. eexists. reflexivity.
    + apply (H bottom (WriteString bottom col (a :: l) (Some (col_format c)))).
      * unfold column_ops. apply in_or_app. right. apply in_or_app. left. unfold total_ops. rewrite A, L. left. reflexivity.
      * cbn [alters]. apply here_refl.
      * cbn [writes]. rewrite here_refl. eexists. reflexivity.
Qed.

Lemma has_format_later fs fs' x f : (exists l, fs' = fs ++ l) -> has_format fs x f -> has_format fs' x f.
Proof. intros P (k & i & E & H). exists k, i. split; [exact E|]. exact (prefix_nth _ _ _ _ P H). Qed.
Lemma column_later h s tt top bot d fs fs' c before after after' : (exists l, fs' = fs ++ l) -> (forall r, after' r = after r) ->
  column_cells h s tt top bot d fs c before after -> column_cells h s tt top bot d fs' c before after'.
Proof.
  intros P E [A1 A2 A3 A4 A5 A6 A7]. split; intros; rewrite ?E in *; auto;
    eapply has_format_later; eauto.
Qed.
Lemma column_earlier h s tt top bot d fs c before before' after : (forall r, before' r = before r) ->
  column_cells h s tt top bot d fs c before after -> column_cells h s tt top bot d fs c before' after.
Proof. intros E [A1 A2 A3 A4 A5 A6 A7]. split; auto. intros. rewrite E. auto. Qed.

Lemma write_all_frame r c' ops : Forall (fun o => is_write o = true) ops -> (forall o, In o ops -> alters o r c' = false) ->
  forall w w' e, std w -> write_all w ops = (w', e) -> table_get r c' (data w') = table_get r c' (data w).
Proof.
  induction 1 as [|o ops Ho Hops IH]; intros Ha w w' e S E; cbn [write_all] in E; [congruence|].
  destruct (step w o) as [w1 [e1|]] eqn:E1; destruct (std_step _ _ _ _ S E1) as [S1 F].
  - assert (w' = w1) by congruence. subst w'. rewrite (sf_err _ _ _ _ F); [reflexivity|discriminate].
  - rewrite (IH (fun o Ho => Ha o (or_intror Ho)) _ _ _ S1 E). apply (sf_same _ _ _ _ F). specialize (Ha o (or_introl eq_refl)).
    destruct o; try discriminate Ho; exact Ha.
Qed.
(** The calls for one column stay in that column and within the table. *)
Lemma column_ops_in t fd ld col c o r c' : In o (column_ops t fd ld col c) -> alters o r c' = true ->
  c' = col /\ (r = r0 (t_range t) \/ r = r1 (t_range t) \/ fd <= r <= ld).
Proof.
  intros Ho A. unfold column_ops in Ho. apply in_app_iff in Ho as [Ho|Ho].
  - unfold header_ops in Ho. destruct (_ && _); [|destruct Ho]. destruct Ho as [<-|[]]. apply here_row in A. tauto.
  - apply in_app_iff in Ho as [Ho|Ho].
    + unfold total_ops in Ho. destruct (t_total t); [|destruct Ho].
      destruct (tc_total_label c); [destruct (tc_total c); [|destruct Ho]|]; (destruct Ho as [<-|[]]; apply here_row in A; tauto).
    + unfold data_ops in Ho. destruct (tc_formula c); [|destruct Ho]. apply in_map_iff in Ho as (q & <- & Hq). apply here_row in A as [-> ->].
      apply in_range_incl in Hq. tauto.
Qed.
Lemma columns_frame t fd ld cs r c' : r0 (t_range t) <= r1 (t_range t) -> r0 (t_range t) <= fd -> ld <= r1 (t_range t) ->
  forall col, in_rect (r0 (t_range t)) col (r1 (t_range t)) (col + N.of_nat (length cs) - 1) r c' = false -> 
  forall w w' e, std w -> table_columns w t fd ld col cs = (w', e) ->
  table_get r c' (data w') = table_get r c' (data w).
Proof.
  intros H0 Hf Hl. induction cs as [|c cs IH]; intros col Hr w w' e S H; cbn [table_columns] in H; [congruence|].
  assert (Nr : r < r0 (t_range t) \/ r1 (t_range t) < r \/ c' < col \/ col + N.of_nat (length cs) < c').
  { unfold in_rect in Hr. cbn [length] in Hr. rewrite !andb_false_iff, !N.leb_gt in Hr. lia. }
  rewrite (table_column_eq _ _ _ _ _ _ S) in H.
  assert (Ao : forall o, In o (column_ops t fd ld col c) -> alters o r c' = false).
  { intros o Ho. destruct (alters o r c') eqn:A; [|reflexivity]. destruct (column_ops_in _ _ _ _ _ _ _ _ Ho A) as [-> Q]. lia. }
  destruct (write_all w (column_ops t fd ld col c)) as [w1 e1] eqn:E1.
  pose proof (write_all_frame r c' _ (column_ops_writes t fd ld col c) Ao _ _ _ S E1) as F1.
  pose proof (write_all_std _ (column_ops_writes t fd ld col c) w w1 e1 S E1) as (S1 & _).
  destruct e1 as [e1|]; [congruence|].
  destruct (restyle_spec t fd ld col c w1 S1) as (S2 & _ & _ & i & _ & G).
  rewrite (IH (col + 1)) with (w := restyle t fd ld col c w1) (e := e); [|unfold in_rect; rewrite !andb_false_iff, !N.leb_gt; lia|exact S2|exact H].
  rewrite G, F1. destruct ((c' =? col) && restyled t fd ld c r) eqn:Q; [|reflexivity]. exfalso.
  apply andb_true_iff in Q as [Q1 Q2]. apply N.eqb_eq in Q1. subst c'. unfold restyled in Q2. destruct (tc_format c); [|discriminate].
  apply orb_true_iff in Q2 as [Q2|Q2]; apply andb_true_iff in Q2 as [Q2 Q3]; [apply N.leb_le in Q2, Q3|apply N.eqb_eq in Q3]; lia.
Qed.

Lemma columns_spec t fd ld cs : forall col w w' e, std w -> table_columns w t fd ld col cs = (w', e) ->
  let top := r0 (t_range t) in let bottom := r1 (t_range t) in
  top <= bottom -> (t_header t = true -> top < bottom) -> (t_total t = true -> 0 < bottom) ->
  fd = (if t_header t then top + 1 else top) -> ld = (if t_total t then bottom - 1 else bottom) ->
  std w' /\ meta w w' /\ same_opts w w' /\
  (forall r c', c' < col \/ col + N.of_nat (length cs) <= c' -> table_get r c' (data w') = table_get r c' (data w)) /\
  (e = None -> forall j c, nth_error cs j = Some c ->
    column_cells (t_header t) (t_serde t) (t_total t) top bottom (default_result w) (xfs w') c
      (fun r => table_get r (col + N.of_nat j) (data w)) (fun r => table_get r (col + N.of_nat j) (data w')) /\
    forall r, filled_in (t_header t) (t_serde t) (t_total t) top bottom c r -> covers w' r (col + N.of_nat j)).
Proof.
  induction cs as [|c cs IH]; intros col w w' e S H top bottom Htb Hhead Htot Hfd Hld; cbn [table_columns] in H.
  { assert (w' = w) by congruence. subst w'. split; [exact S|]. split; [apply meta_refl|]. split; [apply same_opts_refl|]. split; [reflexivity|].
    intros _ [|j] c; discriminate. }
  rewrite (table_column_eq _ _ _ _ _ _ S) in H.
  destruct (write_all w (column_ops t fd ld col c)) as [w1 [e1|]] eqn:E1.
  { assert (w' = w1 /\ e = Some e1) as [-> ->] by (split; congruence).
    pose proof (write_all_std _ (column_ops_writes t fd ld col c) w w1 (Some e1) S E1) as (A & B & C).
    split; [exact A|]. split; [exact B|]. split; [exact C|]. split; [|discriminate].
    intros r c' Hc. revert E1. clear - S Hc.
    apply write_all_frame; [apply column_ops_writes| |exact S]. intros o Ho. destruct (alters o r c') eqn:A; [|reflexivity]. exfalso.
    destruct (column_ops_in _ _ _ _ _ _ _ _ Ho A) as [-> _]. cbn [length] in Hc. lia. }
  destruct (column_spec t fd ld col c w w1 S E1 Htb Hhead Htot Hfd Hld) as (S2 & M2 & O2 & Oth & Cc & Cov).
  set (w2 := restyle t fd ld col c w1) in *.
  destruct (IH (col + 1) w2 w' e S2 H Htb Hhead Htot Hfd Hld) as (S3 & M3 & O3 & Oth3 & Cs3).
  split; [exact S3|]. split; [exact (meta_trans _ _ _ M2 M3)|]. split; [exact (same_opts_trans _ _ _ O2 O3)|]. split.
  { intros r c' Hc. cbn [length] in Hc. rewrite Oth3 by lia. apply Oth. lia. }
  intros He j c1 Hj. destruct j as [|j]; cbn [nth_error] in Hj.
  - assert (c1 = c) by congruence. subst c1. rewrite N.add_0_r. split.
    + eapply column_later; [apply M3| |exact Cc]. intros r. apply Oth3. lia.
    + intros r Hr. eapply covers_meta; [exact M3|]. exact (column_covered t fd ld col c w w2 r Htot Hfd Hld Cov Hr).
  - destruct (Cs3 He j c1 Hj) as [A B]. replace (col + N.of_nat (Datatypes.S j)) with (col + 1 + N.of_nat j) by lia. split; [|exact B].
    destruct O2 as [_ _ _ O21 O22 O23 O24]. rewrite <- O24.
    eapply column_earlier; [|exact A]. intros r. symmetry. apply Oth. lia.
Qed.
