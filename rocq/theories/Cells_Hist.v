(** Histories of calls on a standard worksheet, and the file they produce. *)
From Verif Require Import Base SMap F64 Fmt_Model Sst_Model Cells_Model Cells_Spec Cells_Proofs Cells_Proofs2 Cells_Inv Cells_Save.

(** Reachable states of a standard worksheet. *)
Record std (w : ws) : Prop := {
  d_cm : constant_memory w = false; d_ok : table_ok (data w); d_flag : flag w; d_cells : wcells w;
  d_inl : inline_strings w = false; d_reg : reg0 w }.

Lemma std_start : std ws_standard.
Proof.
  split; try reflexivity.
  - apply table_ok_nil.
  - right. intros ? ? [].
  - apply ws_new_wcells.
Qed.

Lemma std_step w o w' e : std w -> step w o = (w', e) -> std w' /\ step_facts w o w' e.
Proof.
  intros [H1 H2 H3 H4 H5 H6] H. pose proof (step_standard w o w' e H1 H2 H) as F. split; [|exact F].
  assert (HI : inline_strings w = true -> global_sst w = true) by congruence.
  pose proof (step_kf w o HI H1 H3) as [K1 K2]. pose proof (step_keeps w o H4) as [K3 [K4 K5]].
  rewrite H in *. cbn [fst] in *. split; auto.
  - apply F.
  - congruence.
  - eapply reg0_meta; [apply F|assumption].
Qed.
Lemma std_run ops : forall w, std w -> std (run w ops) /\ meta w (run w ops).
Proof.
  induction ops as [|o ops IH]; intros w H; [auto|]. rewrite run_cons. destruct (step w o) as [w' e] eqn:E.
  destruct (std_step w o w' e H E) as [H' F]. destruct (IH w' H') as [A B]. split; [exact A|].
  eapply meta_trans; [apply F|exact B].
Qed.

Lemma undisturbed_run ops r c : forall w, std w -> undisturbed w ops r c ->
  fmt_preserves (table_get r c (data w)) (table_get r c (data (run w ops))).
Proof.
  induction ops as [|o ops IH]; intros w H Hu; [apply fmt_preserves_refl|]. rewrite run_cons. cbn [undisturbed] in Hu.
  destruct (step w o) as [w' e] eqn:E. cbn [fst snd] in *. destruct Hu as [Ho Hu].
  destruct (std_step w o w' e H E) as [H' F]. eapply fmt_preserves_trans; [|apply IH; assumption].
  destruct Ho as [Ho|Ho]; [apply F; assumption|]. rewrite (sf_err _ _ _ _ F Ho). apply fmt_preserves_refl.
Qed.
Lemma untouched_run ops r c : forall w, std w -> untouched w ops r c ->
  table_get r c (data (run w ops)) = table_get r c (data w).
Proof.
  induction ops as [|o ops IH]; intros w H Hu; [reflexivity|]. rewrite run_cons. cbn [untouched] in Hu.
  destruct (step w o) as [w' e] eqn:E. cbn [fst snd] in *. destruct Hu as [Ho Hu].
  destruct (std_step w o w' e H E) as [H' F]. rewrite (IH w' H' Hu).
  destruct Ho as [Ho|Ho]; [apply F; assumption|]. rewrite (sf_err _ _ _ _ F Ho). reflexivity.
Qed.

(** ** The file *)
Lemma saved_dims w t : first_row (saved w t) = first_row w /\ last_row (saved w t) = last_row w /\
  first_col (saved w t) = first_col w /\ last_col (saved w t) = last_col w /\
  changed_rows (saved w t) = changed_rows w /\ changed_cols (saved w t) = changed_cols w /\ notes (saved w t) = notes w /\ xfs (saved w t) = xfs w.
Proof. destruct (saved_frame w t) as [d ->]. repeat split. Qed.

Lemma sheet_shown w t g r c : std w ->
  match table_get r c (data w) with
  | None => shown (sheet_rows w t g) r c = []
  | Some (k, x) =>
    let e := effective_xf w x (get r (changed_rows w)) c in
    let s := if e =? 0 then 0 else g e in
    shown (sheet_rows w t g) r c =
    if (first_row w <=? r) && (r <=? last_row w) then
      match contents k with VBlank => if 0 <? s then [(VBlank, s)] else [] | v => [(v, s)] end
    else []
  end.
Proof.
  intros H. unfold sheet_rows. destruct (saved_spec w t (d_ok w H) (d_flag w H)) as [Hok Hr].
  destruct (saved_dims w t) as (E1 & E2 & E3 & E4 & E5 & E6 & _ & _).
  rewrite shown_table by assumption. rewrite E1, E2, E5. specialize (Hr r). apply (rel_row_cell _ _ r c) in Hr.
  pose proof (d_cells w H) as (HC & _ & _).
  destruct (table_get r c (data w)) as [[k x]|] eqn:Ek.
  2: { destruct (table_get r c (data (saved w t))) as [[k' x']|]; [destruct Hr|]. destruct (_ && _); reflexivity. }
  assert (Hk : match k with CInline _ => False | _ => True end).
  { unfold table_get in Ek. destruct (get r (data w)) as [cs|] eqn:Er; [|discriminate].
    pose proof (all_cols_get _ _ _ _ _ _ (all_table_get _ _ _ _ HC Er) Ek) as [_ Hk].
    rewrite (d_inl w H) in Hk. destruct k; try exact I. destruct Hk. discriminate. }
  destruct (table_get r c (data (saved w t))) as [[k' x']|]; [|destruct Hr]. destruct Hr as [-> Hid].
  cbv zeta. destruct (_ && _); [|reflexivity]. unfold emit_cell.
  assert (effective_xf (saved w t) x (get r (changed_rows w)) c = effective_xf w x (get r (changed_rows w)) c) as ->.
  { unfold effective_xf. rewrite E6. reflexivity. }
  destruct k as [| |s [i|]| | | | |s raw [i|]| |]; cbn in Hid; try contradiction; subst; cbn; try reflexivity.
  - destruct (0 <? _); reflexivity.
  - destruct Hid as [i ->]. reflexivity.
  - destruct Hid as [i ->]. reflexivity.
Qed.

(** ** Formats of rows and columns *)
Definition row_info (w : ws) (r : N) : N * option Format :=
  match get r (changed_rows w) with Some o => (r_xf o, r_format o) | None => (0, None) end.
Definition col_info (w : ws) (c : N) : N * option Format :=
  match get c (changed_cols w) with Some o => (c_xf o, c_format o) | None => (0, None) end.
Definition row_xf (w : ws) (r : N) : N := fst (row_info w r).
Definition col_xf (w : ws) (c : N) : N := fst (col_info w c).
Definition row_fmt (w : ws) (r : N) : option Format := snd (row_info w r).
Definition col_fmt (w : ws) (c : N) : option Format := snd (col_info w c).

Lemma write_opts w o w' e : std w -> is_write o = true -> step w o = (w', e) -> same_opts w w'.
Proof.
  intros H Hw E. pose proof (write_effect w o w' e (d_cm w H) Hw E) as HE. destruct e; [apply HE|apply HE].
Qed.

Definition rc_facts (w w' : ws) (o : op) (e : option error) : Prop :=
  (forall r, match sets_row_format r o, e with
             | Some f, None => nth_error (xfs w') (N.to_nat (row_xf w' r)) = Some f /\
                 row_fmt w' r = match get r (changed_rows w) with Some o => r_format o | None => Some f end
             | _, _ => row_info w' r = row_info w r end) /\
  (forall c, match sets_col_format c o, e with
             | Some f, None => nth_error (xfs w') (N.to_nat (col_xf w' c)) = Some f /\
                 col_fmt w' c = match get c (changed_cols w) with Some o => c_format o | None => Some f end
             | _, _ => col_info w' c = col_info w c end).

Lemma rc_same w w' o e : changed_rows w' = changed_rows w -> changed_cols w' = changed_cols w ->
  (e = None -> forall k, sets_row_format k o = None /\ sets_col_format k o = None) -> rc_facts w w' o e.
Proof.
  intros H1 H2 H3. split; intros k; unfold row_xf, col_xf, row_fmt, col_fmt, row_info, col_info; rewrite ?H1, ?H2; destruct e; try (destruct (_ k o); reflexivity).
  - destruct (H3 eq_refl k) as [-> _]. reflexivity.
  - destruct (H3 eq_refl k) as [_ ->]. reflexivity.
Qed.

Lemma icf_opts w r c i : changed_rows (insert_cell_format w r c i) = changed_rows w /\ changed_cols (insert_cell_format w r c i) = changed_cols w.
Proof. destruct (insert_cell_format_frame w r c i) as [t ->]. split; reflexivity. Qed.

Lemma step_rc w o w' e : std w -> step w o = (w', e) -> rc_facts w w' o e.
Proof.
  intros H E. destruct (is_write o) eqn:Ew.
  { destruct (write_opts w o w' e H Ew E). apply rc_same; auto. intros _ k; destruct o; try discriminate; split; reflexivity. }
  destruct o; try discriminate Ew; cbn [step] in E.
  - unfold set_cell_format in E. by_dim E. destruct H1 as [A1 A2 _ _ _ _ _]. destruct b; cbn [negb] in E.
    + by_reg E. match goal with X : same_opts w1 w2 |- _ => destruct X as [B1 B2 _ _ _ _ _] end.
      apply pair_equal_spec in E as [<- _]. destruct (icf_opts w2 row col i) as [C1 C2].
      apply rc_same; [congruence|congruence|intros; split; reflexivity].
    + apply pair_equal_spec in E as [<- _]. apply rc_same; [assumption|assumption|intros; split; reflexivity].
  - apply rc_same; [| |intros; split; reflexivity]; unfold set_range_format in E;
      destruct (negb _ || negb _); try (apply pair_equal_spec in E as [<- _]; reflexivity);
      destruct ((lr <? fr) || (lc <? fc)); try (apply pair_equal_spec in E as [<- _]; reflexivity);
      by_reg E; destruct H1; apply pair_equal_spec in E as [<- _];
      destruct (icf_fold_frame i (range_cells fr fc lr lc) w2) as [t Ht]; unfold icf_fold in Ht; rewrite Ht; fields; assumption.
  - apply pair_equal_spec in E as [<- <-]. apply rc_same; [| |intros; split; reflexivity];
      unfold clear_cell; destruct (check_dimensions_only row col); [destruct (get row (data w))| |destruct (get row (data w))|]; reflexivity.
  - apply pair_equal_spec in E as [<- <-]. apply rc_same; [| |intros; split; reflexivity];
      unfold clear_cell_format, update_cell_format; destruct (check_dimensions_only row col); try reflexivity; (destruct (get row (data w)) as [cs|]; [destruct (get col cs) as [[]|]|]); reflexivity.
  - apply pair_equal_spec in E as [<- <-]. apply rc_same; [| |intros; split; reflexivity];
      unfold set_formula_result; (destruct (get _ (data w)) as [cs|]; [destruct (get col cs) as [[[]]|]|]); reflexivity.
  - unfold set_row_height, set_row_hidden in E. destruct (feq h fzero); by_dim E; destruct H1; destruct b; cbn [negb] in E;
      apply pair_equal_spec in E as [<- <-]; split; intros k; unfold row_xf, col_xf, row_fmt, col_fmt, row_info, col_info; cbn [sets_row_format sets_col_format]; fields;
      rewrite ?s_cols, ?s_rows; try reflexivity; rewrite ?get_ins; destruct (N.eqb_spec row k) as [->|]; try reflexivity; destruct (get k (changed_rows w)); reflexivity.
  - unfold set_row_format in E. by_dim E; destruct H1; destruct b; cbn [negb] in E; [by_reg E; match goal with X : same_opts _ _ |- _ => destruct X end|];
      apply pair_equal_spec in E as [<- <-]; split; intros k; unfold row_xf, col_xf, row_fmt, col_fmt, row_info, col_info; cbn [sets_row_format sets_col_format]; fields;
      rewrite ?s_cols0, ?s_cols, ?s_rows0, ?s_rows; try reflexivity.
    + rewrite get_ins. destruct (N.eqb_spec row k) as [->|]; [|reflexivity]. destruct (get k (changed_rows w)); cbn; split; assumption || reflexivity.
    + destruct (row =? k); reflexivity.
  - unfold set_row_hidden in E. by_dim E; destruct H1; destruct b; cbn [negb] in E;
      apply pair_equal_spec in E as [<- <-]; split; intros k; unfold row_xf, col_xf, row_fmt, col_fmt, row_info, col_info; cbn [sets_row_format sets_col_format]; fields;
      rewrite ?s_cols, ?s_rows; try reflexivity; rewrite ?get_ins; destruct (N.eqb_spec row k) as [->|]; try reflexivity; destruct (get k (changed_rows w)); reflexivity.
  - unfold set_row_unhidden in E. by_dim E; destruct H1; destruct b; cbn [negb] in E; [destruct (get row (changed_rows w1)) eqn:Er|];
      apply pair_equal_spec in E as [<- <-]; split; intros k; unfold row_xf, col_xf, row_fmt, col_fmt, row_info, col_info; cbn [sets_row_format sets_col_format]; fields;
      rewrite ?s_cols, ?s_rows in *; try reflexivity; rewrite ?get_ins; destruct (N.eqb_spec row k) as [->|]; try reflexivity; rewrite ?Er; reflexivity.
  - unfold set_column_width_internal, set_column_hidden, store_column_width in E.
    destruct (feq width fzero), (COL_MAX <=? col); apply pair_equal_spec in E as [<- <-]; split; intros k; unfold row_xf, col_xf, row_fmt, col_fmt, row_info, col_info;
      cbn [sets_row_format sets_col_format]; fields; try reflexivity; rewrite ?get_ins; (destruct (N.eqb_spec col k) as [->|]; [|reflexivity]);
      destruct (get k (changed_cols w)); try reflexivity.
    destruct (autofit && negb (c_autofit _)); [destruct (fgt _ (c_width _))|]; reflexivity.
  - unfold set_column_format in E. by_dim E; destruct H1; destruct b; cbn [negb] in E; [by_reg E; match goal with X : same_opts _ _ |- _ => destruct X end|];
      apply pair_equal_spec in E as [<- <-]; split; intros k; unfold row_xf, col_xf, row_fmt, col_fmt, row_info, col_info; cbn [sets_row_format sets_col_format]; fields;
      rewrite ?s_cols0, ?s_cols, ?s_rows0, ?s_rows; try reflexivity.
    + rewrite get_ins. destruct (N.eqb_spec col k) as [->|]; [|reflexivity]. destruct (get k (changed_cols w)); cbn; split; assumption || reflexivity.
    + destruct (col =? k); reflexivity.
  - unfold set_column_hidden in E.
    destruct (COL_MAX <=? col); apply pair_equal_spec in E as [<- <-]; split; intros k; unfold row_xf, col_xf, row_fmt, col_fmt, row_info, col_info;
      cbn [sets_row_format sets_col_format]; fields; try reflexivity; rewrite ?get_ins; (destruct (N.eqb_spec col k) as [->|]; [|reflexivity]);
      destruct (get k (changed_cols w)); reflexivity.
  - unfold insert_note in E. by_dim E; destruct H1; destruct b; cbn [negb] in E; [destruct (_ <? text_len)|];
      apply pair_equal_spec in E as [<- <-]; apply rc_same; fields; auto; intros; split; reflexivity.
  - apply pair_equal_spec in E as [<- <-]. apply rc_same; try reflexivity. intros; split; reflexivity.
  - apply pair_equal_spec in E as [<- <-]. apply rc_same; try reflexivity. intros; split; reflexivity.
  - apply pair_equal_spec in E as [<- <-]. apply rc_same; try reflexivity. intros; split; reflexivity.
  - apply pair_equal_spec in E as [<- <-]. apply rc_same; try reflexivity. intros; split; reflexivity.
  - apply pair_equal_spec in E as [<- <-]. destruct (fle h fzero); apply rc_same; try reflexivity; intros; split; reflexivity.
Qed.

Lemma row_info_run ops r : forall w, std w -> (forall o, In o ops -> sets_row_format r o = None) -> row_info (run w ops) r = row_info w r.
Proof.
  induction ops as [|o ops IH]; intros w H Hn; [reflexivity|]. rewrite run_cons. destruct (step w o) as [w' e] eqn:E.
  pose proof (std_step w o w' e H E) as [H' _]. cbn [fst]. rewrite (IH w' H') by (intros; apply Hn; right; assumption).
  pose proof (proj1 (step_rc w o w' e H E) r) as F. rewrite (Hn o (or_introl eq_refl)) in F. exact F.
Qed.
Lemma col_info_run ops c : forall w, std w -> (forall o, In o ops -> sets_col_format c o = None) -> col_info (run w ops) c = col_info w c.
Proof.
  induction ops as [|o ops IH]; intros w H Hn; [reflexivity|]. rewrite run_cons. destruct (step w o) as [w' e] eqn:E.
  pose proof (std_step w o w' e H E) as [H' _]. cbn [fst]. rewrite (IH w' H') by (intros; apply Hn; right; assumption).
  pose proof (proj2 (step_rc w o w' e H E) c) as F. rewrite (Hn o (or_introl eq_refl)) in F. exact F.
Qed.

Lemma crossing_fmt w r c : crossing_format w r c =
  match col_fmt w c, row_fmt w r with Some cf, Some rf => Some (format_merge rf cf) | _, _ => None end.
Proof.
  unfold crossing_format, col_fmt, row_fmt, col_info, row_info. destruct (get c (changed_cols w)) as [co|]; [|reflexivity].
  destruct (get r (changed_rows w)) as [ro|]; [|cbn; destruct (c_format co); reflexivity].
  cbn. destruct (c_format co), (r_format ro); reflexivity.
Qed.
Lemma effective_info w x r c : effective_xf w x (get r (changed_rows w)) c =
  if x =? 0 then if row_xf w r =? 0 then col_xf w c else row_xf w r else x.
Proof.
  unfold effective_xf, row_xf, col_xf, row_info, col_info. destruct (N.eqb_spec x 0) as [->|Hx].
  - destruct (get r (changed_rows w)) as [o|]; cbn [fst].
    + destruct (r_xf o =? 0); [|reflexivity]. destruct (get c (changed_cols w)); reflexivity.
    + cbn [N.eqb]. destruct (get c (changed_cols w)); reflexivity.
  - destruct (N.eqb_spec x 0); [contradiction|reflexivity].
Qed.
