(** Every call on a standard worksheet: what it keeps, and which cells it can
    change. *)
From Verif Require Import Base SMap F64 Fmt_Model Sst_Model Cells_Model Cells_Spec Cells_Inv Cells_Proofs Cells_Proofs2 Cells_Save Cells_Hist
  Sheet_Model Sheet_Proofs Opts_Frame Sheet_Hist Sheet_Hist2 Sheet_Hist3 Sheet_Hist4 Table_Spec.

(** Calls that mention the cell (r, c): its contents or its format. *)
Definition stouches (o : sop) (r c : N) : bool :=
  match o with
  | SCell o => touches o r c
  | SMerge fr fc lr lc _ _ | STable fr fc lr lc _ => in_rect fr fc lr lc r c
  | _ => false
  end.

Lemma merge_ops_in fr fc lr lc text f o r c : fr <= lr -> fc <= lc -> In o (merge_ops fr fc lr lc text f) -> alters o r c = true -> in_rect fr fc lr lc r c = true.
Proof.
  intros Hr Hc Ho A. assert (fr <= r <= lr /\ fc <= c <= lc); [|unfold in_rect; rewrite !andb_true_iff, !N.leb_le; lia].
  unfold merge_ops in Ho. apply in_app_iff in Ho as [[<-|Ho]|Ho].
  - cbn [alters] in A. apply here_row in A as [-> ->]. lia.
  - apply in_map_iff in Ho as (q & <- & Hq). cbn [alters] in A. apply here_row in A as [-> ->]. apply in_range_incl in Hq. lia.
  - apply in_map_iff in Ho as ([q1 q2] & <- & Hq). cbn [alters fst snd] in A. apply here_row in A as [-> ->]. apply in_range_cells in Hq. lia.
Qed.
Lemma merge_frame s fr fc lr lc text f s' e r c : std (cells s) -> merge_range s fr fc lr lc text f = Some (s', e) -> in_rect fr fc lr lc r c = false ->
  table_get r c (data (cells s')) = table_get r c (data (cells s)).
Proof.
  intros S H Hn. revert H. unfold merge_range.
  destruct (check_dimensions (cells s) fr fc) as [w1 ok1] eqn:E1. destruct (std_cd _ _ _ _ _ S E1) as (S1 & _ & _ & D1).
  destruct ok1; cbn [negb]; [|intros H; assert (s' = with_cells s w1) by congruence; subst s'; cbn [cells with_cells]; congruence].
  destruct (check_dimensions w1 lr lc) as [w2 ok2] eqn:E2. destruct (std_cd _ _ _ _ _ S1 E2) as (S2 & _ & _ & D2).
  assert (Q : forall e0, Some (with_cells s w2, e0) = Some (s', e) -> table_get r c (data (cells s')) = table_get r c (data (cells s))).
  { intros e0 H. assert (s' = with_cells s w2) by congruence. subst s'. cbn [cells with_cells]. congruence. }
  destruct ok2; cbn [negb]; [|apply Q]. destruct (_ || _) eqn:Ord; [apply Q|]. destruct (_ && _); [apply Q|]. clear Q.
  apply orb_false_iff in Ord as [O1 O2]. apply N.ltb_ge in O1, O2.
  pose proof (merge_ops_writes fr fc lr lc text f) as FW.
  assert (Fr : forall w' e', write_all w2 (merge_ops fr fc lr lc text f) = (w', e') -> table_get r c (data w') = table_get r c (data (cells s))).
  { intros w' e' E. rewrite (write_all_frame r c _ FW) with (w := w2) (e := e'); [congruence| |exact S2|exact E].
    intros o Ho. destruct (alters o r c) eqn:A; [|reflexivity]. pose proof (merge_ops_in _ _ _ _ _ _ _ _ _ O1 O2 Ho A). congruence. }
  unfold merge_ops in Fr at 1. rewrite write_all_app in Fr. unfold merge_ops in FW.
  destruct (write_all w2 (WriteString fr fc text (Some f) :: map (fun c => WriteBlank fr c f) (range_incl (fc + 1) lc))) as [w3 [e3|]] eqn:E3.
  { intros H. assert (s' = with_cells s w3) by congruence. subst s'. cbn [cells with_cells]. exact (Fr _ _ eq_refl). }
  assert (S3 : std w3) by (apply Forall_app in FW as [FW _]; exact (proj1 (write_all_std _ FW w2 w3 None S2 E3))).
  rewrite (ahead_std w3 true S3).
  destruct (write_all w3 (map (fun p => WriteBlank (fst p) (snd p) f) (range_cells (fr + 1) fc lr lc))) as [w4 e4] eqn:E4.
  specialize (Fr _ _ eq_refl). destruct e4 as [e4|].
  { intros H. assert (s' = with_cells s w4) by congruence. subst s'. cbn [cells with_cells]. exact Fr. }
  assert (S4 : std w4) by (apply Forall_app in FW as [_ FW]; exact (proj1 (write_all_std _ FW w3 w4 None S3 E4))).
  rewrite (ahead_std w4 false S4).
  cbv zeta. destruct (claim_cells _ _ _ _) as [|l|l]; [discriminate| |]; intros H; injection H as <- _; exact Fr.
Qed.

Section Lower.
Variable lower : str -> str.

Lemma names_length hs : forall cols seen out, name_columns lower hs cols seen = Some out -> length out = length hs.
Proof.
  induction hs as [|h hs IH]; intros cols seen out; cbn [name_columns]; [intros [= <-]; reflexivity|].
  destruct (match cols with [] => (tcolumn_new, []) | c :: r => (c, r) end) as [c cols']. cbv zeta.
  destruct (existsb _ seen); [discriminate|]. destruct (name_columns lower hs cols' _) as [rest|] eqn:E; [|discriminate].
  intros [= <-]. cbn [length]. f_equal. exact (IH _ _ _ E).
Qed.
Lemma range_incl_length a b : length (range_incl a b) = N.to_nat (b + 1 - a).
Proof. unfold range_incl. rewrite map_length, seq_length. lia. Qed.

(** add_table: the cells afterwards are those of [table_columns]. *)
Lemma table_cells s fr fc lr lc t s' e : add_table lower s fr fc lr lc t = Some (s', e) ->
  (cells s' = cells s /\ e <> None) \/
  fr <= lr < 1048576 /\ fc <= lc < 16384 /\ (t_header t = true -> fr < lr) /\ (t_total t = true -> 0 < lr) /\
  exists cols T, name_columns lower (map (default_header (cells s) fr fc (t_header t)) (range_incl fc lc)) (t_columns t) [] = Some cols /\
    T = {| t_columns := cols; t_name := t_name t; t_header := t_header t; t_total := t_total t;
           t_autofilter := t_autofilter t; t_serde := t_serde t; t_range := {| r0 := fr; c0 := fc; r1 := lr; c1 := lc |} |} /\
    exists e1, table_columns (cells s) T (if t_header t then fr + 1 else fr) (if t_total t then lr - 1 else lr) fc cols = (cells s', e1) /\
    (e = None -> e1 = None /\ tables s' = tables s ++ [T]).
Proof.
  intros H. unfold add_table in H.
  destruct (_ || _) eqn:Q1; [left; assert (s' = s) by congruence; subst s'; split; [reflexivity|congruence]|].
  destruct (_ || _) eqn:Q2 in H; [left; assert (s' = s) by congruence; subst s'; split; [reflexivity|congruence]|].
  destruct (_ && _) eqn:Q3 in H; [left; assert (s' = s) by congruence; subst s'; split; [reflexivity|congruence]|].
  destruct (name_columns _ _ _ _) as [cols|] eqn:Nc; [|left; assert (s' = s) by congruence; subst s'; split; [reflexivity|congruence]].
  cbv zeta in H. cbn [t_header t_total t_autofilter] in H.
  destruct (t_total t && (lr =? 0)) eqn:Q4; [discriminate|].
  right. apply orb_false_iff in Q1 as [Q1 Q1']. apply negb_false_iff in Q1, Q1'. unfold check_dimensions_only in Q1, Q1'.
  apply andb_true_iff in Q1 as [Q11 Q12], Q1' as [Q13 Q14]. apply N.ltb_lt in Q11, Q12, Q13, Q14. unfold ROW_MAX, COL_MAX in *.
  apply orb_false_iff in Q2 as [Q21 Q22]. apply N.ltb_ge in Q21, Q22.
  split; [lia|]. split; [lia|].
  split. { intros Hh. rewrite Hh, andb_true_r in Q3. apply N.eqb_neq in Q3. lia. }
  split. { intros Ht. rewrite Ht in Q4. cbn [andb] in Q4. apply N.eqb_neq in Q4. lia. }
  eexists cols, _. split; [reflexivity|]. split; [reflexivity|].
  destruct (table_columns _ _ _ _ _ _) as [w [e1|]].
  { exists (Some e1). assert (cells s' = w /\ e = Some (SE e1)) as [-> ->] by (split; [assert (s' = with_cells s w) by congruence; subst s'; reflexivity|congruence]). split; [reflexivity|discriminate]. }
  exists None. destruct (claim_cells _ _ _ _) as [|l|l]; [discriminate| |].
  { injection H as <- <-. split; [reflexivity|discriminate]. }
  destruct (if t_autofilter t then _ else _) as [fcells [|]]; injection H as <- <-; (split; [reflexivity|]); [auto|discriminate].
Qed.
Lemma table_std s fr fc lr lc t s' e : std (cells s) -> add_table lower s fr fc lr lc t = Some (s', e) ->
  std (cells s') /\ meta (cells s) (cells s') /\
  forall r c, in_rect fr fc lr lc r c = false -> table_get r c (data (cells s')) = table_get r c (data (cells s)).
Proof.
  intros S H. apply table_cells in H as [[-> _]|(Hr & Hc & Hh & Ht & cols & T & Nc & -> & e1 & E & _)].
  { split; [exact S|]. split; [apply meta_refl|]. reflexivity. }
  pose proof (names_length _ _ _ _ Nc) as L. rewrite map_length, range_incl_length in L.
  destruct (columns_spec _ _ _ _ _ _ _ _ S E) as (A & B & _); cbn [t_range r0 r1 t_header t_total]; [lia|exact Hh|exact Ht|reflexivity|reflexivity|].
  split; [exact A|]. split; [exact B|]. intros r c Hn.
  eapply columns_frame; [..|exact S|exact E]; cbn [t_range r0 r1].
  - lia.
  - destruct (t_header t); lia.
  - destruct (t_total t); lia.
  - replace (fc + N.of_nat (length cols) - 1) with lc by lia. exact Hn.
Qed.

Lemma sstep_std s o s' e : std (cells s) -> sstep lower s o = Some (s', e) ->
  std (cells s') /\ meta (cells s) (cells s') /\
  forall r c, stouches o r c = false -> table_get r c (data (cells s')) = table_get r c (data (cells s)).
Proof.
  intros S. destruct o; cbn [sstep stouches].
  - unfold lift. destruct (step (cells s) o) as [w1 e1] eqn:E. intros H. assert (s' = with_cells s w1) by (cbn in H; congruence). subst s'.
    cbn [cells with_cells]. destruct (std_step _ _ _ _ S E) as [S1 F]. split; [exact S1|]. split; [apply F|].
    intros r c Ht. destruct e1 as [e1|]; [rewrite (sf_err _ _ _ _ F); [reflexivity|discriminate]|]. apply (sf_same _ _ _ _ F). exact Ht.
  - intros H. pose proof (merge_cells _ _ _ _ _ _ _ _ _ S H) as (A & B & _). split; [exact A|]. split; [exact B|].
    intros r c Hn. exact (merge_frame _ _ _ _ _ _ _ _ _ _ _ S H Hn).
  - apply table_std. exact S.
  - intros H. apply autofilter_frame in H as (E & _). rewrite E. split; [exact S|]. split; [apply meta_refl|]. reflexivity.
  - intros H. unfold lift in H. injection H as <- _. cbn [cells with_cells]. pose proof (quiet_group_rows (cells s) fr lr collapsed) as Q.
    split; [exact (std_quiet _ _ Q S)|]. destruct Q as ((D & _) & _ & _ & _ & M). split; [exact M|]. intros. rewrite D. reflexivity.
  - intros H. unfold lift in H. injection H as <- _. cbn [cells with_cells]. pose proof (quiet_group_columns (cells s) fc lc collapsed) as Q.
    split; [exact (std_quiet _ _ Q S)|]. destruct Q as ((D & _) & _ & _ & _ & M). split; [exact M|]. intros. rewrite D. reflexivity.
  - destruct (page_breaks _ _ _ _) as [[b0 e0]|]; [|discriminate]. intros H. injection H as <- _. split; [exact S|]. split; [apply meta_refl|]. reflexivity.
  - destruct (page_breaks _ _ _ _) as [[b0 e0]|]; [|discriminate]. intros H. injection H as <- _. split; [exact S|]. split; [apply meta_refl|]. reflexivity.
Qed.
Lemma srun_std ops : forall s s', std (cells s) -> srun lower s ops = Some s' ->
  std (cells s') /\ meta (cells s) (cells s') /\
  forall r c, (forall o, In o ops -> stouches o r c = false) -> table_get r c (data (cells s')) = table_get r c (data (cells s)).
Proof.
  induction ops as [|o ops IH]; intros s s' S; cbn [srun].
  { intros [= <-]. split; [exact S|]. split; [apply meta_refl|]. reflexivity. }
  destruct (sstep lower s o) as [[s1 e1]|] eqn:E; [|discriminate]. intros H.
  destruct (sstep_std _ _ _ _ S E) as (S1 & M1 & F1). destruct (IH _ _ S1 H) as (S2 & M2 & F2).
  split; [exact S2|]. split; [exact (meta_trans _ _ _ M1 M2)|]. intros r c Hn.
  rewrite F2 by (intros; apply Hn; right; assumption). apply F1. apply Hn. left. reflexivity.
Qed.
End Lower.
