(** Merges and tables on a standard worksheet. *)
From Verif Require Import Base SMap F64 Fmt_Model Sst_Model Cells_Model Cells_Spec Cells_Inv Cells_Proofs Cells_Proofs2 Cells_Save Cells_Hist
  Sheet_Model Sheet_Proofs Opts_Frame Sheet_Hist.

Lemma std_cd w r c w' b : std w -> check_dimensions w r c = (w', b) -> std w' /\ meta w w' /\ same_opts w w' /\ data w' = data w.
Proof.
  intros S E. pose proof (quiet_cd w r c) as Q. rewrite E in Q. apply check_dimensions_spec in E as (A & B & C & _).
  split; [exact (std_quiet _ _ Q S)|]. auto.
Qed.

(** ** Merges *)
Definition merge_ops (fr fc lr lc : N) (text : str) (f : Format) : list op :=
  (WriteString fr fc text (Some f) :: map (fun c => WriteBlank fr c f) (range_incl (fc + 1) lc)) ++
  map (fun p => WriteBlank (fst p) (snd p) f) (range_cells (fr + 1) fc lr lc).
Lemma merge_ops_writes fr fc lr lc text f : Forall (fun o => is_write o = true) (merge_ops fr fc lr lc text f).
Proof.
  unfold merge_ops. apply Forall_app. split; [constructor; [reflexivity|]|]; apply Forall_forall; intros o Ho; apply in_map_iff in Ho as (x & <- & _); reflexivity.
Qed.
Lemma write_all_app a : forall b w, write_all w (a ++ b) = match write_all w a with (w1, None) => write_all w1 b | r => r end.
Proof.
  induction a as [|o a IH]; intros b w; cbn [app write_all]; [reflexivity|]. destruct (step w o) as [w1 [e|]]; [reflexivity|apply IH].
Qed.
Lemma merge_cells s fr fc lr lc text f s' e : std (cells s) -> merge_range s fr fc lr lc text f = Some (s', e) ->
  std (cells s') /\ meta (cells s) (cells s') /\ same_opts (cells s) (cells s') /\
  (e = None \/ e = Some SMergeOverlap ->
   exists w2, std w2 /\ data w2 = data (cells s) /\ meta (cells s) w2 /\ same_opts (cells s) w2 /\ wrote w2 (cells s') (merge_ops fr fc lr lc text f)).
Proof.
  intros S. unfold merge_range.
  destruct (check_dimensions (cells s) fr fc) as [w1 ok1] eqn:E1. destruct (std_cd _ _ _ _ _ S E1) as (S1 & M1 & O1 & D1).
  destruct ok1; cbn [negb]; [|intros [= <- <-]; cbn [cells with_cells]; split; [exact S1|]; split; [exact M1|]; split; [exact O1|]; intros [|]; discriminate].
  destruct (check_dimensions w1 lr lc) as [w2 ok2] eqn:E2. destruct (std_cd _ _ _ _ _ S1 E2) as (S2 & M2 & O2 & D2).
  pose proof (meta_trans _ _ _ M1 M2) as M12. pose proof (same_opts_trans _ _ _ O1 O2) as O12.
  destruct ok2; cbn [negb]; [|intros [= <- <-]; cbn [cells with_cells]; split; [exact S2|]; split; [exact M12|]; split; [exact O12|]; intros [|]; discriminate].
  destruct (_ || _); [intros [= <- <-]; cbn [cells with_cells]; split; [exact S2|]; split; [exact M12|]; split; [exact O12|]; intros [|]; discriminate|].
  destruct (_ && _); [intros [= <- <-]; cbn [cells with_cells]; split; [exact S2|]; split; [exact M12|]; split; [exact O12|]; intros [|]; discriminate|].
  pose proof (merge_ops_writes fr fc lr lc text f) as FW.
  pose proof (write_all_wrote _ FW w2) as WW. pose proof (write_all_std _ FW w2) as WS.
  unfold merge_ops in WW at 1, WS. rewrite write_all_app in WW, WS.
  destruct (write_all w2 (WriteString fr fc text (Some f) :: map (fun c => WriteBlank fr c f) (range_incl (fc + 1) lc))) as [w3 [e3|]] eqn:E3.
  { intros [= <- <-]. cbn [cells with_cells]. destruct (WS w3 (Some e3) S2 eq_refl) as (A & B & C). split; [exact A|].
    split; [exact (meta_trans _ _ _ M12 B)|]. split; [exact (same_opts_trans _ _ _ O12 C)|]. intros [|]; discriminate. }
  assert (S3 : std w3).
  { apply Forall_app in FW as [FW _]. exact (proj1 (write_all_std _ FW w2 w3 None S2 E3)). }
  rewrite (ahead_std w3 true S3).
  destruct (write_all w3 (map (fun p => WriteBlank (fst p) (snd p) f) (range_cells (fr + 1) fc lr lc))) as [w4 [e4|]] eqn:E4.
  { intros [= <- <-]. cbn [cells with_cells]. destruct (WS w4 (Some e4) S2 eq_refl) as (A & B & C). split; [exact A|].
    split; [exact (meta_trans _ _ _ M12 B)|]. split; [exact (same_opts_trans _ _ _ O12 C)|]. intros [|]; discriminate. }
  destruct (WS w4 None S2 eq_refl) as (A & B & C). specialize (WW w4 S2 eq_refl).
  rewrite (ahead_std w4 false A).
  assert (R : forall s'', cells s'' = w4 -> std (cells s'') /\ meta (cells s) (cells s'') /\ same_opts (cells s) (cells s'') /\
    (e = None \/ e = Some SMergeOverlap -> exists w2, std w2 /\ data w2 = data (cells s) /\ meta (cells s) w2 /\ same_opts (cells s) w2 /\ wrote w2 (cells s'') (merge_ops fr fc lr lc text f))).
  { intros s'' ->. split; [exact A|]. split; [exact (meta_trans _ _ _ M12 B)|]. split; [exact (same_opts_trans _ _ _ O12 C)|]. intros _.
    exists w2. split; [exact S2|]. split; [congruence|]. auto. }
  cbv zeta. destruct (claim_cells _ _ _ _) as [|l|l]; [discriminate|intros [= <- <-]; apply R; reflexivity|intros [= <- <-]; apply R; reflexivity].
Qed.

(** ** Tables *)
Section Column.
Variables (t : tbl) (fd ld col : N) (c : tcolumn).
Definition col_format : Format := match tc_format c with Some f => f | None => format_default end.
Definition header_ops : list op := if t_header t && negb (t_serde t) then [WriteString (r0 (t_range t)) col (tc_name c) (tc_header_format c)] else [].
Definition total_ops : list op :=
  if t_total t then
    match tc_total_label c with
    | _ :: _ => [WriteString (r1 (t_range t)) col (tc_total_label c) (Some col_format)]
    | [] => match tc_total c with Some mk => [WriteFormula (r1 (t_range t)) col (mk (tc_name c)) (Some col_format) []] | None => [] end
    end
  else [].
Definition data_ops : list op :=
  match tc_formula c with Some fm => map (fun r => WriteFormula r col fm (Some col_format) []) (range_incl fd ld) | None => [] end.
Definition column_ops : list op := header_ops ++ total_ops ++ data_ops.
Definition restyle (w : ws) : ws :=
  match tc_format c with
  | Some f =>
    let '(w, i) := reg w f in
    let w := fold_left (fun w r => update_cell_format w r col i) (range_incl fd ld) w in
    if t_total t && match tc_total c with Some _ => true | None => false end
    then update_cell_format w (r1 (t_range t)) col i else w
  | None => w end.
Lemma one_write w o : write_all w [o] = step w o.
Proof. cbn [write_all]. destruct (step w o) as [w1 [e|]]; reflexivity. Qed.
Lemma column_ops_writes : Forall (fun o => is_write o = true) column_ops.
Proof.
  unfold column_ops, header_ops, total_ops, data_ops. repeat (apply Forall_app; split).
  - destruct (_ && _); repeat constructor.
  - destruct (t_total t); [|constructor]. destruct (tc_total_label c); [destruct (tc_total c)|]; repeat constructor.
  - destruct (tc_formula c); [|constructor]. apply Forall_forall; intros o Ho; apply in_map_iff in Ho as (x & <- & _); reflexivity.
Qed.
Lemma table_column_eq w : std w ->
  table_column w t fd ld col c = match write_all w column_ops with (w', Some e) => (w', Some e) | (w', None) => (restyle w', None) end.
Proof.
  intros S. unfold table_column, column_ops. fold col_format. rewrite write_all_app.
  assert (E1 : (if t_header t && negb (t_serde t) then store_string w (r0 (t_range t)) col (tc_name c) (tc_header_format c) else (w, None)) = write_all w header_ops).
  { unfold header_ops. destruct (_ && _); [rewrite one_write; reflexivity|reflexivity]. }
  rewrite E1. clear E1. destruct (write_all w header_ops) as [w1 [e1|]] eqn:H1; [reflexivity|].
  pose proof column_ops_writes as FW. unfold column_ops in FW. apply Forall_app in FW as [F1 FW]. apply Forall_app in FW as [F2 F3].
  pose proof (proj1 (write_all_std _ F1 w w1 None S H1)) as S1. cbv zeta. rewrite (ahead_std w1 true S1), write_all_app.
  assert (E2 : (if t_total t then match tc_total_label c with
      | _ :: _ => store_string w1 (r1 (t_range t)) col (tc_total_label c) (Some col_format)
      | [] => match tc_total c with
              | Some mk => store_formula w1 (r1 (t_range t)) col (mk (tc_name c)) (Some col_format) []
              | None => (w1, None) end end else (w1, None)) = write_all w1 total_ops).
  { unfold total_ops. destruct (t_total t); [|reflexivity]. destruct (tc_total_label c); [destruct (tc_total c)|]; rewrite ?one_write; reflexivity. }
  rewrite E2. clear E2. destruct (write_all w1 total_ops) as [w2 [e2|]] eqn:H2; [reflexivity|].
  pose proof (proj1 (write_all_std _ F2 w1 w2 None S1 H2)) as S2.
  assert (E3 : (match tc_formula c with
                 | Some fm => write_all w2 (map (fun r => WriteFormula r col fm (Some col_format) []) (range_incl fd ld))
                 | None => (w2, None) end) = write_all w2 data_ops).
  { unfold data_ops. destruct (tc_formula c); reflexivity. }
  rewrite E3. clear E3. destruct (write_all w2 data_ops) as [w3 [e3|]] eqn:H3; [reflexivity|].
  pose proof (proj1 (write_all_std _ F3 w2 w3 None S2 H3)) as S3.
  fold (restyle w3). f_equal. unfold restyle. destruct (tc_format c) as [f|]; [|apply ahead_std; exact S3].
  destruct (reg w3 f) as [w4 i] eqn:R. 
  assert (S4 : std w4).
  { pose proof (reg_spec _ _ _ _ R) as (M & _). unfold set_writing_ahead. pose proof (m_cm _ _ M) as Cm.
    unfold reg in R. destruct (format_xf_index (xfs w3) f) as [l j] eqn:X. injection R as <- <-. destruct S3 as [A1 A2 A3 A4 A5 A6]. split; try assumption.
    exact (reg0_meta _ _ M A6). }
  cbv zeta. destruct (ucf_fold col i (range_incl fd ld) w4 S4) as (S5 & _). cbv zeta in S5.
  destruct (_ && _); [|apply ahead_std; exact S5]. apply ahead_std. exact (proj1 (ucf_spec _ (r1 (t_range t)) col i S5)).
Qed.
End Column.
