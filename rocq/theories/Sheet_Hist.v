(** Histories of calls on a standard worksheet that include merges, tables,
    groups and filters. *)
From Verif Require Import Base SMap F64 Fmt_Model Sst_Model Cells_Model Cells_Spec Cells_Inv Cells_Proofs Cells_Proofs2 Cells_Save Cells_Hist
  Sheet_Model Sheet_Proofs Opts_Frame.

(** Same cells, formats and mode. *)
Definition quiet (w w' : ws) : Prop :=
  same_cells w w' /\ constant_memory w' = constant_memory w /\ local_sst w' = local_sst w /\ xfs w' = xfs w /\ meta w w'.
Lemma quiet_refl w : quiet w w. Proof. split; [repeat split|]. repeat (split; [reflexivity|]). apply meta_refl. Qed.
Lemma quiet_trans a b c : quiet a b -> quiet b c -> quiet a c.
Proof. intros (A & B & C & D & E) (A' & B' & C' & D' & E'). split; [exact (same_cells_trans _ _ _ A A')|]. repeat (split; [congruence|]). exact (meta_trans _ _ _ E E'). Qed.
Lemma std_quiet w w' : quiet w w' -> std w -> std w'.
Proof.
  intros (A & B & C & D & _) [H1 H2 H3 H4 H5 H6]. pose proof A as (E1 & E2 & E3 & E4 & E5). split.
  - congruence.
  - rewrite E1. exact H2.
  - unfold flag in *. rewrite E1, C. exact H3.
  - exact (wcells_same _ _ A H4).
  - congruence.
  - unfold reg0 in *. rewrite D. exact H6.
Qed.
Lemma quiet_cd w r c : quiet w (fst (check_dimensions w r c)).
Proof.
  assert (M : meta w (fst (check_dimensions w r c))).
  { destruct (check_dimensions w r c) as [w' b] eqn:E. apply check_dimensions_spec in E. apply E. }
  revert M. unfold check_dimensions. destruct (_ <=? _); [intros; apply quiet_refl|]. destruct (_ <=? _); [intros; apply quiet_refl|].
  destruct (_ || _); intros M; (split; [repeat split|]); repeat (split; [reflexivity|]); exact M.
Qed.
Lemma quiet_rows w m l : quiet w (upd_rows w m l).
Proof. split; [repeat split|]. repeat (split; [reflexivity|]). pose proof (meta_refl w) as []. split; assumption. Qed.
Lemma quiet_cols w m l : quiet w (upd_cols w m l).
Proof. split; [repeat split|]. repeat (split; [reflexivity|]). pose proof (meta_refl w) as []. split; assumption. Qed.

Lemma quiet_grouped_rows l b : forall w, quiet w (fst (grouped_rows w l b)).
Proof.
  induction l as [|r l IH]; intros w; cbn [grouped_rows]; [apply quiet_refl|]. unfold set_grouped_row.
  destruct (get r (changed_rows w)) as [o|]; [destruct (_ <? _); [apply quiet_refl|]|]; (eapply quiet_trans; [apply quiet_rows|apply IH]).
Qed.
Lemma quiet_grouped_columns l b : forall w, quiet w (fst (grouped_columns w l b)).
Proof.
  induction l as [|r l IH]; intros w; cbn [grouped_columns]; [apply quiet_refl|]. unfold set_grouped_column.
  destruct (get r (changed_cols w)) as [o|]; [destruct (_ <? _); [apply quiet_refl|]|]; (eapply quiet_trans; [apply quiet_cols|apply IH]).
Qed.
Lemma quiet_group_rows w fr lr b : quiet w (fst (group_rows w fr lr b)).
Proof.
  assert (S : forall w b, quiet w (fst (set_grouped_rows w fr lr b))).
  { clear. intros w b. unfold set_grouped_rows. cbv zeta. pose proof (quiet_cd w fr (get_min_col w)) as A.
    destruct (check_dimensions w fr (get_min_col w)) as [w1 [|]]; [|exact A]. cbn [fst negb] in *.
    pose proof (quiet_cd w1 lr (get_min_col w)) as B. destruct (check_dimensions w1 lr (get_min_col w)) as [w2 [|]]; cbn [fst negb] in *;
      pose proof (quiet_trans _ _ _ A B) as C; [|exact C]. destruct (lr <? fr); [exact C|]. eapply quiet_trans; [exact C|apply quiet_grouped_rows]. }
  unfold group_rows. destruct b; [|apply S]. unfold set_collapsed_row. pose proof (quiet_cd w (lr + 1) (get_min_col w)) as A.
  destruct (check_dimensions w (lr + 1) (get_min_col w)) as [w1 [|]]; [|exact A]. cbn [negb]. cbv zeta.
  eapply quiet_trans; [exact A|]. eapply quiet_trans; [|apply S]. apply quiet_rows.
Qed.
Lemma quiet_group_columns w fr lr b : quiet w (fst (group_columns w fr lr b)).
Proof.
  assert (S : forall w b, quiet w (fst (set_grouped_columns w fr lr b))).
  { clear. intros w b. unfold set_grouped_columns. cbv zeta. pose proof (quiet_cd w (get_min_row w) fr) as A.
    destruct (check_dimensions w (get_min_row w) fr) as [w1 [|]]; [|exact A]. cbn [fst negb] in *.
    pose proof (quiet_cd w1 (get_min_row w) lr) as B. destruct (check_dimensions w1 (get_min_row w) lr) as [w2 [|]]; cbn [fst negb] in *;
      pose proof (quiet_trans _ _ _ A B) as C; [|exact C]. destruct (lr <? fr); [exact C|]. eapply quiet_trans; [exact C|apply quiet_grouped_columns]. }
  unfold group_columns. destruct b; [|apply S]. unfold set_collapsed_column. pose proof (quiet_cd w (get_min_row w) (lr + 1)) as A.
  destruct (check_dimensions w (get_min_row w) (lr + 1)) as [w1 [|]]; [|exact A]. cbn [negb]. cbv zeta.
  eapply quiet_trans; [exact A|]. eapply quiet_trans; [|apply S]. apply quiet_cols.
Qed.

(** ** A sequence of writes *)
Lemma writes_same w w' o : same_opts w w' -> forall r c, writes w' o r c = writes w o r c.
Proof.
  intros [_ _ _ A B C D] r c. destruct o; cbn [writes]; try reflexivity; destruct (here _ _ r c); try reflexivity;
    unfold number_value, special_text, result_text; rewrite ?A, ?B, ?C, ?D; reflexivity.
Qed.
Record wrote (w w' : ws) (ops : list op) : Prop := {
  wr_std : std w';
  wr_meta : meta w w';
  wr_opts : same_opts w w';
  wr_same : forall r c, (forall o, In o ops -> alters o r c = false) -> table_get r c (data w') = table_get r c (data w);
  wr_val : forall a o b r c v, ops = a ++ o :: b -> (forall o', In o' b -> alters o' r c = false) -> writes w o r c = Some v ->
    exists k x, table_get r c (data w') = Some (k, x) /\ contents k = v /\ fmt_ok w w' r c (write_format o) x /\ covers w' r c /\ in_limits r c }.
Lemma write_all_std ops : Forall (fun o => is_write o = true) ops -> forall w w' e, std w -> write_all w ops = (w', e) ->
  std w' /\ meta w w' /\ same_opts w w'.
Proof.
  induction 1 as [|o ops Ho Hops IH]; intros w w' e S; cbn [write_all]; [intros [= <- <-]; auto|].
  destruct (step w o) as [w1 [e1|]] eqn:E; destruct (std_step _ _ _ _ S E) as [S1 F]; pose proof (write_opts _ _ _ _ S Ho E) as O1.
  - intros [= <- <-]. split; [exact S1|]. split; [apply F|exact O1].
  - intros H. destruct (IH _ _ _ S1 H) as (A & B & C). split; [exact A|]. split; [exact (meta_trans _ _ _ (sf_meta _ _ _ _ F) B)|exact (same_opts_trans _ _ _ O1 C)].
Qed.
Lemma write_all_wrote ops : Forall (fun o => is_write o = true) ops -> forall w w', std w -> write_all w ops = (w', None) -> wrote w w' ops.
Proof.
  induction 1 as [|o ops Ho Hops IH]; intros w w' S; cbn [write_all].
  { intros [= <-]. split; auto. intros a o b r c v E. destruct a; discriminate. }
  destruct (step w o) as [w1 [e1|]] eqn:E; [discriminate|]. intros H.
  destruct (std_step _ _ _ _ S E) as [S1 F]. pose proof (write_opts _ _ _ _ S Ho E) as O1.
  destruct (IH _ _ S1 H) as [A B C D V]. pose proof (write_effect w o w1 None (d_cm _ S) Ho E) as X. cbn in X.
  split.
  - exact A.
  - exact (meta_trans _ _ _ (sf_meta _ _ _ _ F) B).
  - exact (same_opts_trans _ _ _ O1 C).
  - intros r c Hn. rewrite D by (intros; apply Hn; right; assumption). apply (sf_same _ _ _ _ F).
    specialize (Hn o (or_introl eq_refl)). destruct o; try discriminate Ho; exact Hn.
  - intros a o' b r c v Eo Hb Hv. destruct a as [|a0 a]; cbn [app] in Eo.
    + injection Eo as <- <-. destruct (e_val _ _ _ _ X r c v Hv) as (k & x & G1 & G2 & G3 & G4 & G5).
      exists k, x. rewrite (D r c Hb). split; [exact G1|]. split; [exact G2|]. split; [exact (fmt_ok_later _ _ _ _ _ _ _ B G3)|].
      split; [exact (covers_meta _ _ _ _ B G5)|exact G4].
    + injection Eo as <- ->. destruct (V a o' b r c v eq_refl Hb) as (k & x & G1 & G2 & G3 & G4 & G5).
      { rewrite (writes_same _ _ _ O1). exact Hv. }
      exists k, x. split; [exact G1|]. split; [exact G2|]. split; [|split; [exact G4|exact G5]].
      exact (fmt_ok_earlier _ _ _ _ _ _ _ (sf_meta _ _ _ _ F) O1 G3).
Qed.
Lemma ahead_std w b : std w -> set_writing_ahead w b = w.
Proof. intros S. unfold set_writing_ahead. rewrite (d_cm _ S). reflexivity. Qed.

(** ** Changing the format of stored cells *)
Lemma ucf_spec w r c i : std w ->
  let w' := update_cell_format w r c i in
  std w' /\ meta w w' /\ same_opts w w' /\
  forall r' c', table_get r' c' (data w') =
    if here r c r' c' then match table_get r c (data w) with Some (k, _) => Some (k, i) | None => None end else table_get r' c' (data w).
Proof.
  intros S. cbv zeta. unfold update_cell_format. destruct (get r (data w)) as [cs|] eqn:E; [destruct (get c cs) as [[k x]|] eqn:Ec|].
  - pose proof (proj2 (d_ok _ S) r cs E) as Hcs. pose proof (d_cells _ S) as (Hd & Hwa & Hfl). split; [|split; [|split; [split; reflexivity|]]].
    + split.
      * exact (d_cm _ S).
      * fields. apply table_ok_ins; [exact (d_ok _ S)|]. apply ins_ok. exact Hcs.
      * destruct (d_flag _ S) as [Fl|Fl]; [left; exact Fl|right]. fields. apply all_table_ins; [|exact Fl]. apply all_cols_ins; [|exact (all_table_get _ _ _ _ Fl E)].
        exact (all_cols_get _ _ _ _ _ _ (all_table_get _ _ _ _ Fl E) Ec).
      * split; [|split; [exact Hwa|exact Hfl]]. fields. apply all_table_ins; [|exact Hd]. apply all_cols_ins; [|exact (all_table_get _ _ _ _ Hd E)].
        exact (all_cols_get _ _ _ _ _ _ (all_table_get _ _ _ _ Hd E) Ec).
      * exact (d_inl _ S).
      * exact (d_reg _ S).
    + apply upd_data_meta. apply meta_refl.
    + intros r' c'. fields. rewrite table_get_ins_row. unfold here. destruct (N.eqb_spec r r') as [<-|]; cbn [andb]; [|reflexivity].
      rewrite get_ins. unfold table_get. rewrite E, Ec. reflexivity.
  - split; [exact S|]. split; [apply meta_refl|]. split; [apply same_opts_refl|]. intros r' c'. destruct (here r c r' c') eqn:EH; [|reflexivity].
    apply here_true in EH as [<- <-]. unfold table_get. rewrite E, Ec. reflexivity.
  - split; [exact S|]. split; [apply meta_refl|]. split; [apply same_opts_refl|]. intros r' c'. destruct (here r c r' c') eqn:EH; [|reflexivity].
    apply here_true in EH as [<- <-]. unfold table_get. rewrite E. reflexivity.
Qed.
Lemma ucf_fold c i l : forall w, std w ->
  let w' := fold_left (fun w r => update_cell_format w r c i) l w in
  std w' /\ meta w w' /\ same_opts w w' /\
  forall r' c', table_get r' c' (data w') =
    if (c' =? c) && existsb (N.eqb r') l then match table_get r' c' (data w) with Some (k, _) => Some (k, i) | None => None end else table_get r' c' (data w).
Proof.
  induction l as [|r l IH]; intros w S; cbn [fold_left existsb]; cbv zeta.
  - split; [exact S|]. split; [apply meta_refl|]. split; [apply same_opts_refl|]. intros. rewrite andb_false_r. reflexivity.
  - destruct (ucf_spec w r c i S) as (A & B & C & D). destruct (IH _ A) as (A' & B' & C' & D'). cbv zeta in *.
    split; [exact A'|]. split; [exact (meta_trans _ _ _ B B')|]. split; [exact (same_opts_trans _ _ _ C C')|].
    intros r' c'. rewrite D', !D. unfold here.
    destruct (N.eqb_spec c' c) as [->|Hc]; cbn [andb].
    2:{ destruct (N.eqb_spec c c') as [->|]; [congruence|]. rewrite andb_false_r. reflexivity. }
    rewrite N.eqb_refl, andb_true_r. destruct (N.eqb_spec r r') as [<-|Hr].
    + rewrite N.eqb_refl. cbn [orb]. destruct (table_get r c (data w)) as [[k x]|]; destruct (existsb _ l); reflexivity.
    + destruct (N.eqb_spec r' r) as [->|_]; [congruence|]. cbn [orb]. reflexivity.
Qed.

(** ** What the file shows of a stored cell *)
Lemma std_shows w t g r c k x : std w -> table_get r c (data w) = Some (k, x) -> covers w r c -> contents k <> VBlank ->
  exists s, shown (sheet_rows w t g) r c = [(contents k, s)].
Proof.
  intros S E [[A B] _] Hb. pose proof (sheet_shown w t g r c S) as H. rewrite E in H. cbv zeta in H. apply N.leb_le in A, B. rewrite A, B in H.
  cbn [andb] in H. destruct (contents k); try congruence; eexists; exact H.
Qed.
Lemma std_shows_format w t g r c k x f : std w -> (forall i, i <> 0 -> g i <> 0) -> table_get r c (data w) = Some (k, x) -> covers w r c ->
  nth_error (xfs w) (N.to_nat x) = Some f -> f <> format_default ->
  shown (sheet_rows w t g) r c = [(contents k, g x)] /\ x <> 0.
Proof.
  intros S Hg E [[A B] _] Hx Hne. pose proof (sheet_shown w t g r c S) as H. rewrite E in H. cbv zeta in H. apply N.leb_le in A, B. rewrite A, B in H.
  assert (Hx0 : x <> 0).
  { intros ->. pose proof (d_reg _ S) as R. unfold reg0 in R. change (N.to_nat 0) with 0%nat in Hx. congruence. }
  split; [|exact Hx0]. rewrite effective_info in H. destruct (N.eqb_spec x 0) as [|_]; [contradiction|]. destruct (N.eqb_spec x 0) as [|_]; [contradiction|].
  cbn [andb] in H. rewrite H. destruct (contents k); try reflexivity. specialize (Hg x Hx0). destruct (N.ltb_spec 0 (g x)); [reflexivity|lia].
Qed.
