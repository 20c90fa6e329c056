(** C55: what grouping rows or columns does to each row and column. *)
From Verif Require Import Base SMap F64 Fmt_Model Sst_Model Cells_Model Cells_Proofs Sheet_Model Sheet_Spec Sheet_Proofs.

(** The settings of a row (column), whether or not it was ever configured. *)
Definition row_settings (w : ws) (r : N) : rowopt :=
  match get r (changed_rows w) with
  | Some o => o
  | None => {| r_height := default_row_height w; r_xf := 0; r_level := 0; r_hidden := false; r_collapsed := false; r_format := None |} end.
Definition col_settings (w : ws) (c : N) : colopt :=
  match get c (changed_cols w) with
  | Some o => o
  | None => {| c_width := DEFAULT_COL_WIDTH; c_xf := 0; c_level := 0; c_hidden := false; c_collapsed := false; c_autofit := false; c_format := None |} end.
(** One more group around a row: one level deeper, hidden if the group is
    collapsed.  The mark of a collapsed group goes to the row after it. *)
Definition grouped_row (inside collapsed mark : bool) (o : rowopt) : rowopt :=
  {| r_height := r_height o; r_xf := r_xf o; r_level := r_level o + (if inside then 1 else 0);
     r_hidden := r_hidden o || (inside && collapsed); r_collapsed := r_collapsed o || mark; r_format := r_format o |}.
Definition grouped_col (inside collapsed mark : bool) (o : colopt) : colopt :=
  {| c_width := c_width o; c_xf := c_xf o; c_level := c_level o + (if inside then 1 else 0);
     c_hidden := c_hidden o || (inside && collapsed); c_collapsed := c_collapsed o || mark; c_autofit := c_autofit o; c_format := c_format o |}.

Lemma not_grouped_row b o : grouped_row false b false o = o.
Proof. destruct o. unfold grouped_row. cbn. rewrite N.add_0_r, !orb_false_r. reflexivity. Qed.
Lemma not_grouped_col b o : grouped_col false b false o = o.
Proof. destruct o. unfold grouped_col. cbn. rewrite N.add_0_r, !orb_false_r. reflexivity. Qed.

Lemma cd_frame w r c w' b : check_dimensions w r c = (w', b) -> (forall k, row_settings w' k = row_settings w k) /\ (forall k, col_settings w' k = col_settings w k) /\ default_row_height w' = default_row_height w.
Proof.
  unfold check_dimensions. destruct (_ <=? _); [intros H; assert (w' = w) by congruence; subst; auto|].
  destruct (_ <=? _); [intros H; assert (w' = w) by congruence; subst; auto|].
  destruct (_ || _); intros H; injection H as <- _; repeat split.
Qed.
Lemma grouped_rows_all l b : NoDup l -> forall w w', grouped_rows w l b = (w', None) ->
  (forall k, row_settings w' k = grouped_row (existsb (N.eqb k) l) b false (row_settings w k)) /\ (forall k, col_settings w' k = col_settings w k).
Proof.
  induction 1 as [|r l Hr Hl IH]; intros w w'; cbn [grouped_rows].
  { intros H. assert (w' = w) by congruence. subst w'. split; [|reflexivity]. intros k. cbn [existsb]. rewrite not_grouped_row. reflexivity. }
  destruct (set_grouped_row w r b) as [w1 [e|]] eqn:E; [discriminate|]. intros H. destruct (IH _ _ H) as [A B].
  assert (R1 : forall k, row_settings w1 k = grouped_row (k =? r) b false (row_settings w k)).
  { intros k. unfold set_grouped_row in E. unfold row_settings at 2. destruct (get r (changed_rows w)) as [o|] eqn:G.
    - destruct (7 <? r_level o + 1); [discriminate|]. injection E as <-. unfold row_settings. cbn [changed_rows upd_rows default_row_height]. rewrite get_ins, (N.eqb_sym k r).
      destruct (N.eqb_spec r k) as [<-|]; [rewrite G; unfold grouped_row; cbn [andb]; rewrite orb_false_r; reflexivity|rewrite not_grouped_row; reflexivity].
    - injection E as <-. unfold row_settings. cbn [changed_rows upd_rows default_row_height]. rewrite get_ins, (N.eqb_sym k r).
      destruct (N.eqb_spec r k) as [<-|]; [rewrite G; reflexivity|rewrite not_grouped_row; reflexivity]. }
  assert (C1 : forall k, col_settings w1 k = col_settings w k).
  { intros k. unfold set_grouped_row in E. destruct (get r (changed_rows w)); [destruct (7 <? _); [discriminate|]|]; injection E as <-; reflexivity. }
  split; [|intros k; rewrite B; apply C1]. intros k. rewrite A, R1. cbn [existsb]. destruct (N.eqb_spec k r) as [->|Hk]; cbn [orb].
  - assert (X : existsb (N.eqb r) l = false).
    { apply not_true_iff_false. intros Q. apply existsb_exists in Q as (y & Hy & Ey). apply N.eqb_eq in Ey. subst y. contradiction. }
    rewrite X, not_grouped_row. reflexivity.
  - rewrite not_grouped_row. reflexivity.
Qed.
Lemma grouped_columns_all l b : NoDup l -> forall w w', grouped_columns w l b = (w', None) ->
  (forall k, col_settings w' k = grouped_col (existsb (N.eqb k) l) b false (col_settings w k)) /\ (forall k, row_settings w' k = row_settings w k).
Proof.
  induction 1 as [|r l Hr Hl IH]; intros w w'; cbn [grouped_columns].
  { intros H. assert (w' = w) by congruence. subst w'. split; [|reflexivity]. intros k. cbn [existsb]. rewrite not_grouped_col. reflexivity. }
  destruct (set_grouped_column w r b) as [w1 [e|]] eqn:E; [discriminate|]. intros H. destruct (IH _ _ H) as [A B].
  assert (R1 : forall k, col_settings w1 k = grouped_col (k =? r) b false (col_settings w k)).
  { intros k. unfold set_grouped_column in E. unfold col_settings at 2. destruct (get r (changed_cols w)) as [o|] eqn:G.
    - destruct (7 <? c_level o + 1); [discriminate|]. injection E as <-. unfold col_settings. cbn [changed_cols upd_cols]. rewrite get_ins, (N.eqb_sym k r).
      destruct (N.eqb_spec r k) as [<-|]; [rewrite G; unfold grouped_col; cbn [andb]; rewrite orb_false_r; reflexivity|rewrite not_grouped_col; reflexivity].
    - injection E as <-. unfold col_settings. cbn [changed_cols upd_cols]. rewrite get_ins, (N.eqb_sym k r).
      destruct (N.eqb_spec r k) as [<-|]; [rewrite G; reflexivity|rewrite not_grouped_col; reflexivity]. }
  assert (C1 : forall k, row_settings w1 k = row_settings w k).
  { intros k. unfold set_grouped_column in E. destruct (get r (changed_cols w)); [destruct (7 <? _); [discriminate|]|]; injection E as <-; reflexivity. }
  split; [|intros k; rewrite B; apply C1]. intros k. rewrite A, R1. cbn [existsb]. destruct (N.eqb_spec k r) as [->|Hk]; cbn [orb].
  - assert (X : existsb (N.eqb r) l = false).
    { apply not_true_iff_false. intros Q. apply existsb_exists in Q as (y & Hy & Ey). apply N.eqb_eq in Ey. subst y. contradiction. }
    rewrite X, not_grouped_col. reflexivity.
  - rewrite not_grouped_col. reflexivity.
Qed.
Lemma in_range r a b : existsb (N.eqb r) (range_incl a b) = (a <=? r) && (r <=? b).
Proof.
  destruct (existsb (N.eqb r) (range_incl a b)) eqn:E.
  - apply existsb_exists in E as (y & Hy & E). apply N.eqb_eq in E. subst y. apply in_range_incl in Hy.
    symmetry. apply andb_true_iff. split; apply N.leb_le; lia.
  - symmetry. apply not_true_iff_false. intros H. apply andb_true_iff in H as [H1 H2]. apply N.leb_le in H1, H2.
    assert (X : existsb (N.eqb r) (range_incl a b) = true) by (apply existsb_exists; exists r; split; [apply in_range_incl; lia|apply N.eqb_refl]). congruence.
Qed.

(** An accepted group_rows(_collapsed) call, in any state of the worksheet: every
    row of the group gets one level deeper, and is hidden if the group is
    collapsed; the row after a collapsed group carries the collapsed mark; heights
    and formats, all other rows, and all columns stay as they are. *)
Theorem C55_group_rows w fr lr collapsed w' : group_rows w fr lr collapsed = (w', None) ->
  fr <= lr /\
  (forall r, row_settings w' r =
     grouped_row ((fr <=? r) && (r <=? lr)) collapsed (collapsed && (r =? lr + 1)) (row_settings w r)) /\
  (forall c, col_settings w' c = col_settings w c).
Proof.
  assert (G : forall w b w', set_grouped_rows w fr lr b = (w', None) -> fr <= lr /\
    (forall r, row_settings w' r = grouped_row ((fr <=? r) && (r <=? lr)) b false (row_settings w r)) /\
    (forall c, col_settings w' c = col_settings w c)).
  { clear. intros w b w'. unfold set_grouped_rows. cbv zeta.
    destruct (check_dimensions w fr (get_min_col w)) as [w1 [|]] eqn:E1; cbn [negb]; [|discriminate]. destruct (cd_frame _ _ _ _ _ E1) as (A1 & B1 & _).
    destruct (check_dimensions w1 lr (get_min_col w)) as [w2 [|]] eqn:E2; cbn [negb]; [|discriminate]. destruct (cd_frame _ _ _ _ _ E2) as (A2 & B2 & _).
    destruct (N.ltb_spec lr fr); [discriminate|]. intros H1. destruct (grouped_rows_all _ _ (nodup_range_incl fr lr) _ _ H1) as [A3 B3].
    split; [assumption|]. split; intros k; [rewrite A3, in_range, A2, A1; reflexivity|rewrite B3, B2, B1; reflexivity]. }
  unfold group_rows. destruct collapsed; [|apply G]. unfold set_collapsed_row.
  destruct (check_dimensions w (lr + 1) (get_min_col w)) as [w1 [|]] eqn:E1; cbn [negb]; [|discriminate]. destruct (cd_frame _ _ _ _ _ E1) as (A1 & B1 & D1).
  cbv zeta. intros H. apply G in H as (H0 & A2 & B2). split; [exact H0|]. split; [|intros c; rewrite B2; apply B1].
  intros r. rewrite A2. cbn [andb].
  assert (X : forall mark o, grouped_row mark true false (grouped_row false true (r =? lr + 1) o) = grouped_row mark true (r =? lr + 1) o).
  { intros mark o. unfold grouped_row. cbn [r_height r_xf r_level r_hidden r_collapsed r_format andb]. rewrite N.add_0_r, !orb_false_r. reflexivity. }
  rewrite <- X. f_equal. rewrite <- A1. unfold row_settings. cbn [changed_rows upd_rows default_row_height]. rewrite get_ins, (N.eqb_sym r).
  destruct (N.eqb_spec (lr + 1) r) as [<-|]; [|rewrite not_grouped_row; reflexivity].
  destruct (get (lr + 1) (changed_rows w1)) as [o|]; unfold grouped_row; cbn; rewrite ?N.add_0_r, ?orb_false_r, ?orb_true_r; reflexivity.
Qed.
(** The same for columns. *)
Theorem C55_group_columns w fc lc collapsed w' : group_columns w fc lc collapsed = (w', None) ->
  fc <= lc /\
  (forall c, col_settings w' c =
     grouped_col ((fc <=? c) && (c <=? lc)) collapsed (collapsed && (c =? lc + 1)) (col_settings w c)) /\
  (forall r, row_settings w' r = row_settings w r).
Proof.
  assert (G : forall w b w', set_grouped_columns w fc lc b = (w', None) -> fc <= lc /\
    (forall r, col_settings w' r = grouped_col ((fc <=? r) && (r <=? lc)) b false (col_settings w r)) /\
    (forall c, row_settings w' c = row_settings w c)).
  { clear. intros w b w'. unfold set_grouped_columns. cbv zeta.
    destruct (check_dimensions w (get_min_row w) fc) as [w1 [|]] eqn:E1; cbn [negb]; [|discriminate]. destruct (cd_frame _ _ _ _ _ E1) as (A1 & B1 & _).
    destruct (check_dimensions w1 (get_min_row w) lc) as [w2 [|]] eqn:E2; cbn [negb]; [|discriminate]. destruct (cd_frame _ _ _ _ _ E2) as (A2 & B2 & _).
    destruct (N.ltb_spec lc fc); [discriminate|]. intros H1. destruct (grouped_columns_all _ _ (nodup_range_incl fc lc) _ _ H1) as [A3 B3].
    split; [assumption|]. split; intros k; [rewrite A3, in_range, B2, B1; reflexivity|rewrite B3, A2, A1; reflexivity]. }
  unfold group_columns. destruct collapsed; [|apply G]. unfold set_collapsed_column.
  destruct (check_dimensions w (get_min_row w) (lc + 1)) as [w1 [|]] eqn:E1; cbn [negb]; [|discriminate]. destruct (cd_frame _ _ _ _ _ E1) as (A1 & B1 & D1).
  cbv zeta. intros H. apply G in H as (H0 & A2 & B2). split; [exact H0|]. split; [|intros c; rewrite B2; apply A1].
  intros r. rewrite A2. cbn [andb].
  assert (X : forall mark o, grouped_col mark true false (grouped_col false true (r =? lc + 1) o) = grouped_col mark true (r =? lc + 1) o).
  { intros mark o. unfold grouped_col. cbn [c_width c_xf c_level c_hidden c_collapsed c_autofit c_format andb]. rewrite N.add_0_r, !orb_false_r. reflexivity. }
  rewrite <- X. f_equal. rewrite <- B1. unfold col_settings. cbn [changed_cols upd_cols]. rewrite get_ins, (N.eqb_sym r).
  destruct (N.eqb_spec (lc + 1) r) as [<-|]; [|rewrite not_grouped_col; reflexivity].
  destruct (get (lc + 1) (changed_cols w1)) as [o|]; unfold grouped_col; cbn; rewrite ?N.add_0_r, ?orb_false_r, ?orb_true_r; reflexivity.
Qed.

Example C55_example :
  exists w, group_rows ws_standard 2 4 true = (w, None) /\
  map (fun r => (r_level (row_settings w r), r_hidden (row_settings w r), r_collapsed (row_settings w r))) [1; 2; 4; 5; 6] =
    [(0, false, false); (1, true, false); (1, true, false); (0, false, true); (0, false, false)].
Proof. eexists. split; vm_compute; reflexivity. Qed.
Print Assumptions C55_group_rows.
Print Assumptions C55_group_columns.
