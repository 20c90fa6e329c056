(** Row-ordered histories keep the simulation. *)
From Verif Require Import Base SMap F64 Fmt_Model Sst_Model Cells_Model Cells_Spec Cells_Proofs Cells_Proofs2
  Cells_Inv Cells_Save Cells_Hist Const_Proofs Const_Sim Const_Steps Const_Spec.

Lemma sim_upd C S t t' : sim C S -> table_ok t -> all_table emittable t -> (forall r, get r t <> None -> r = current_row C) ->
  (forall r, r <> current_row C -> get r t' = get r (data S)) ->
  (forall c, crel (table_get (current_row C) c t) (table_get (current_row C) c t')) ->
  (get (current_row C) t = None <-> get (current_row C) t' = None) ->
  (get (current_row C) (data C) <> None -> get (current_row C) t <> None) ->
  sim (upd_data C t) (upd_data S t').
Proof.
  intros [H1 H2 H3 H3' HA []] Ho He Hk Hs Hc Hp Hn. split; try assumption; [destruct HA; split; assumption|]. split; fields.
  - destruct m_stream as [K1 K2 K3 K4 [K5 K6]]. split; fields; auto.
  - assumption.
  - intros r c Hr. rewrite m_past by assumption. unfold table_get. rewrite Hs by lia. apply eshow_ext; reflexivity.
  - intros r c Hr. specialize (m_now r c Hr). unfold cdata in *. fields. destruct (N.eqb_spec r (current_row C)) as [Er|Hne]; [rewrite Er; apply Hc|].
    unfold table_get in *. rewrite Hs by assumption. exact m_now.
  - intros r Hr. specialize (m_pres r Hr). unfold cdata in *. fields. destruct (N.eqb_spec r (current_row C)) as [Er|Hne]; [rewrite Er; apply Hp|].
    rewrite Hs by assumption. exact m_pres.
  - intros Hx. apply Hn, m_ahead. exact Hx.
Qed.

Lemma cur_cell C S c : sim C S -> crel (table_get (current_row C) c (data C)) (table_get (current_row C) c (data S)).
Proof.
  intros H. pose proof (m_now C S (i_cells C S H) (current_row C) c (N.le_refl _)) as X. unfold cdata in X. rewrite N.eqb_refl in X. exact X.
Qed.
Lemma cur_row C S : sim C S -> (get (current_row C) (data C) = None <-> get (current_row C) (data S) = None).
Proof.
  intros H. pose proof (m_pres C S (i_cells C S H) (current_row C) (N.le_refl _)) as X. unfold cdata in X. rewrite N.eqb_refl in X. exact X.
Qed.

(** Replacing the current row by rows related cell by cell. *)
Lemma sim_row C S a b : sim C S -> ok a -> all_cols emittable (current_row C) a -> (forall c, crel (get c a) (get c b)) ->
  sim (upd_data C (ins (current_row C) a (data C))) (upd_data S (ins (current_row C) b (data S))).
Proof.
  intros H Ho He Hc. pose proof (m_stream C S (i_cells C S H)) as [K1 K2 K3 K4 [K5 K6]]. apply sim_upd; try assumption.
  - apply table_ok_ins; assumption.
  - apply all_table_ins; assumption.
  - intros r. rewrite get_ins. destruct (N.eqb_spec (current_row C) r); [congruence|apply K3].
  - intros r Hr. rewrite get_ins. destruct (N.eqb_spec (current_row C) r); [congruence|reflexivity].
  - intros c. unfold table_get. rewrite !get_ins, N.eqb_refl. apply Hc.
  - rewrite !get_ins, N.eqb_refl. split; discriminate.
  - rewrite get_ins, N.eqb_refl. discriminate.
Qed.
Lemma sim_rows C S a b : sim C S -> get (current_row C) (data C) = Some a -> get (current_row C) (data S) = Some b ->
  ok a /\ all_cols emittable (current_row C) a /\ forall c, crel (get c a) (get c b).
Proof.
  intros H Ea Eb. pose proof (m_stream C S (i_cells C S H)) as [K1 K2 K3 K4 [K5 K6]]. split; [|split].
  - exact (proj2 K1 _ _ Ea).
  - exact (all_table_get _ _ _ _ K5 Ea).
  - intros c. pose proof (cur_cell C S c H) as X. unfold table_get in X. rewrite Ea, Eb in X. exact X.
Qed.

Ltac two_rows H :=
  match type of H with sim ?C ?S =>
    let a := fresh "a" in let b := fresh "b" in let Ea := fresh "Ea" in let Eb := fresh "Eb" in let P := fresh "P" in
    pose proof (cur_row C S H) as P;
    destruct (get (current_row C) (data C)) as [a|] eqn:Ea; destruct (get (current_row C) (data S)) as [b|] eqn:Eb;
    [destruct (sim_rows C S a b H Ea Eb) as (Oa & Ma & Ra)
    |exfalso; assert (Some a = None) by (apply P; reflexivity); discriminate
    |exfalso; assert (Some b = None) by (apply P; reflexivity); discriminate
    |] end.

Lemma icf_sim C S c xf : sim C S -> sim (insert_cell_format C (current_row C) c xf) (insert_cell_format S (current_row C) c xf).
Proof.
  intros H. unfold insert_cell_format. two_rows H.
  - pose proof (Ra c) as Rc. destruct (get c a) as [[k x]|] eqn:Eca, (get c b) as [[k' x']|] eqn:Ecb; cbn [crel] in Rc; try contradiction.
    + destruct Rc as [Rk ->]. apply sim_row; [assumption|apply ins_ok; assumption| |].
      * apply all_cols_ins; [|assumption]. exact (all_cols_get _ _ _ _ _ _ Ma Eca).
      * intros c'. rewrite !get_ins. destruct (c =? c'); [cbn; auto|apply Ra].
    + apply sim_row; [assumption|apply ins_ok; assumption|apply all_cols_ins; [exact I|assumption]|].
      intros c'. rewrite !get_ins. destruct (c =? c'); [cbn; auto|apply Ra].
  - destruct (0 <? xf); [|assumption]. apply sim_row; [assumption|constructor; constructor|apply all_cols_one; exact I|].
    intros c'. cbn. destruct (c =? c'); cbn; auto.
Qed.

Lemma clear_sim C S c : sim C S -> table_ok (data S) -> sim (clear_cell C (current_row C) c) (clear_cell S (current_row C) c).
Proof.
  intros H HO. unfold clear_cell. destruct (check_dimensions_only (current_row C) c); [|assumption]. two_rows H; [|assumption].
  apply sim_row; [assumption|apply del_ok; assumption| |].
  - intros c' k x Hin. apply In_del in Hin. exact (Ma c' k x Hin).
  - intros c'. rewrite !get_del by (assumption || exact (proj2 HO _ _ Eb)). destruct (c =? c'); [exact I|apply Ra].
Qed.
Lemma clear_format_sim C S c : sim C S -> sim (clear_cell_format C (current_row C) c) (clear_cell_format S (current_row C) c).
Proof.
  intros H. unfold clear_cell_format, update_cell_format. destruct (check_dimensions_only (current_row C) c); [|assumption]. two_rows H; [|assumption].
  pose proof (Ra c) as Rc. destruct (get c a) as [[k x]|] eqn:Eca, (get c b) as [[k' x']|] eqn:Ecb; cbn [crel] in Rc; try contradiction; [|assumption].
  destruct Rc as [Rk ->]. apply sim_row; [assumption|apply ins_ok; assumption| |].
  - apply all_cols_ins; [|assumption]. exact (all_cols_get _ _ _ _ _ _ Ma Eca).
  - intros c'. rewrite !get_ins. destruct (c =? c'); [cbn; auto|apply Ra].
Qed.
Lemma result_sim C S c s : sim C S -> sim (set_formula_result C (current_row C) c s) (set_formula_result S (current_row C) c s).
Proof.
  intros H. unfold set_formula_result. rewrite (i_c C S H), (i_s C S H). two_rows H; [|assumption].
  pose proof (Ra c) as Rc. destruct (get c a) as [[k x]|] eqn:Eca, (get c b) as [[k' x']|] eqn:Ecb; cbn [crel] in Rc; try contradiction; [|assumption].
  destruct Rc as [Rk ->].
  destruct k, k'; cbn in Rk; try discriminate; try assumption; (apply sim_row; [assumption|apply ins_ok; assumption|apply all_cols_ins; [exact I|assumption]|]);
    (intros c'; rewrite !get_ins; destruct (c =? c'); [cbn; split; congruence|apply Ra]).
Qed.

(** Options: both sides make the same update. *)
Definition opt_frame (w w' : ws) : Prop := core w w'.

Lemma option_core w o w' e : is_option_call o = true -> step w o = (w', e) -> core w w'.
Proof.
  intros Ho H. apply option_call in H as [[] D]; [|assumption]. split; assumption.
Qed.

Lemma alike_option C S o : sim C S -> is_option_call o = true -> alike (fst (step C o)) (fst (step S o)) /\ snd (step C o) = snd (step S o).
Proof.
  intros H Ho.
  assert (D : forall r c, exists C' S' b, check_dimensions C r c = (C', b) /\ check_dimensions S r c = (S', b) /\ alike C' S' /\ sim C' S').
  { intros r c. destruct (cd_sim C S r c H) as (C' & S' & b & A & B & D & _). exists C', S', b. split; [exact A|]. split; [exact B|]. split; [apply D|exact D]. }
  pose proof (i_alike C S H) as HA. destruct HA as [A1 A2 A3 A4 A5 A6 A7 A8 A9 A10].
  assert (Mc : get_min_col C = get_min_col S) by (unfold get_min_col; rewrite A10; reflexivity).
  assert (Mr : get_min_row C = get_min_row S) by (unfold get_min_row; rewrite A9; reflexivity).
  destruct o; try discriminate Ho; cbn [step].
  - unfold set_row_height, set_row_hidden. rewrite Mc. destruct (D row (get_min_col S)) as (C' & S' & b & -> & -> & [B1 B2 B3 B4 B5 B6 B7 B8 B9 B10] & _).
    destruct (feq h fzero), b; cbn [negb fst snd]; (split; [split; fields; rewrite ?B1, ?B8; congruence|reflexivity]).
  - unfold set_row_format. rewrite Mc. destruct (D row (get_min_col S)) as (C' & S' & b & -> & -> & BA & BS).
    destruct b; cbn [negb fst snd]; [|split; [exact BA|reflexivity]].
    destruct (reg_sim C' S' f BS) as (C2 & S2 & i & -> & -> & S3 & _). destruct (i_alike _ _ S3) as [B1 B2 B3 B4 B5 B6 B7 B8 B9 B10].
    cbn [fst snd]. split; [split; fields; rewrite ?B1, ?B8; congruence|reflexivity].
  - unfold set_row_hidden. rewrite Mc. destruct (D row (get_min_col S)) as (C' & S' & b & -> & -> & [B1 B2 B3 B4 B5 B6 B7 B8 B9 B10] & _).
    destruct b; cbn [negb fst snd]; (split; [split; fields; rewrite ?B1, ?B8; congruence|reflexivity]).
  - unfold set_row_unhidden. rewrite Mc. destruct (D row (get_min_col S)) as (C' & S' & b & -> & -> & [B1 B2 B3 B4 B5 B6 B7 B8 B9 B10] & _).
    destruct b; cbn [negb fst snd]; [rewrite B1; destruct (get row (changed_rows S'))|]; cbn [fst snd]; (split; [split; fields; rewrite ?B1, ?B8; congruence|reflexivity]).
  - unfold set_column_width_internal, set_column_hidden, store_column_width. destruct (feq width fzero), (COL_MAX <=? col); cbn [fst snd];
      (split; [split; fields; rewrite ?A2; congruence|reflexivity]).
  - unfold set_column_format. rewrite Mr. destruct (D (get_min_row S) col) as (C' & S' & b & -> & -> & BA & BS).
    destruct b; cbn [negb fst snd]; [|split; [exact BA|reflexivity]].
    destruct (reg_sim C' S' f BS) as (C2 & S2 & i & -> & -> & S3 & _). destruct (i_alike _ _ S3) as [B1 B2 B3 B4 B5 B6 B7 B8 B9 B10].
    cbn [fst snd]. split; [split; fields; rewrite ?B2; congruence|reflexivity].
  - unfold set_column_hidden. destruct (COL_MAX <=? col); cbn [fst snd]; (split; [split; fields; rewrite ?A2; congruence|reflexivity]).
  - unfold insert_note. destruct (D row col) as (C' & S' & b & -> & -> & [B1 B2 B3 B4 B5 B6 B7 B8 B9 B10] & _).
    destruct b; cbn [negb fst snd]; [destruct (_ <? text_len)|]; cbn [fst snd]; (split; [split; fields; assumption|reflexivity]).
  - cbn [fst snd]. split; [split; fields; congruence|reflexivity].
  - cbn [fst snd]. split; [split; fields; congruence|reflexivity].
  - cbn [fst snd]. split; [split; fields; congruence|reflexivity].
  - cbn [fst snd]. split; [split; fields; congruence|reflexivity].
  - cbn [fst snd]. split; [|reflexivity]. destruct (fle h fzero); split; fields; congruence.
Qed.

Lemma step_sim C S o cur : sim C S -> std S -> writing_ahead C = false -> current_row C = cur -> allowed cur o ->
  both (step C o) (step S o) (advance S cur o) false.
Proof.
  intros H HS Hwa Hcur Hal.
  destruct (is_option_call o) eqn:Eo.
  { destruct (alike_option C S o H Eo) as [HA He].
    destruct (step C o) as [C' e] eqn:EC, (step S o) as [S' e'] eqn:ES. cbn [fst snd] in *. subst e'.
    pose proof (option_core C o C' e Eo EC) as QC. pose proof (option_core S o S' e Eo ES) as QS.
    assert (Hadv : advance S cur o = cur) by (destruct o; try discriminate Eo; reflexivity). rewrite Hadv.
    rewrite <- Hwa. apply (both_same C S); [|exact QC|congruence].
    eapply sim_core; [exact QC|exact QS|exact HA| |exact H].
    intros r c Hr. rewrite Hcur in Hr. destruct (step_rc S o S' e HS ES) as [R1 R2]. specialize (R1 r). specialize (R2 c).
    assert (Hrf : sets_row_format r o = None).
    { destruct o; try reflexivity. cbn [allowed] in Hal. cbn [sets_row_format]. destruct (N.eqb_spec row r); [lia|reflexivity]. }
    assert (Hcf : sets_col_format c o = None).
    { destruct o; try reflexivity. cbn [allowed] in Hal. lia. }
    rewrite Hrf in R1. rewrite Hcf in R2. unfold row_xf, col_xf. destruct e; rewrite R1, R2; auto. }
  assert (ADV : forall (v : option value) r (e : option error), match e, v with None, Some _ => r | _, _ => cur end = moved C e v r).
  { intros v r e. unfold moved, aft. rewrite Hwa, Hcur. destruct e, v; reflexivity. }
  destruct o; try discriminate Eo; cbn [allowed write_cell] in Hal; unfold advance; cbn [write_cell step writes]; rewrite ?here_refl.
  - rewrite ADV. pose proof (number_sim C S row col x f false H ltac:(lia)) as X. rewrite Hwa in X. exact X.
  - rewrite ADV. pose proof (number_sim C S row col x f true H ltac:(lia)) as X. rewrite Hwa in X. exact X.
  - rewrite ADV, <- Hwa. apply string_sim; [assumption|lia].
  - rewrite ADV, <- Hwa. apply rich_sim; [assumption|lia].
  - pose proof (boolean_sim C S row col b f H ltac:(lia)) as X. rewrite <- ADV, Hwa in X. exact X.
  - pose proof (blank_sim C S row col f H ltac:(lia)) as X. rewrite <- ADV, Hwa in X. exact X.
  - rewrite <- Hcur. apply formula_sim; [assumption|lia|assumption].
  - destruct (array_sim C S fr fc lr lc fm f dynamic range H ltac:(lia) Hwa) as [B1 B2]. rewrite <- Hcur.
    destruct (snd (store_array_formula S fr fc lr lc fm f dynamic range)) eqn:E; [exact B1|]. rewrite (B2 eq_refl). exact B1.
  - subst row. unfold set_cell_format. rewrite <- Hwa. cdim H cur col.
    + destruct (reg_sim C1 S1 f SM) as (C2 & S2 & i & -> & -> & S3 & QC2 & _). pose proof (core_trans _ _ _ QC QC2) as Q.
      assert (Ec : current_row C2 = cur) by (rewrite (q_cur _ _ Q); assumption). pose proof (icf_sim C2 S2 col i S3) as X. rewrite Ec in X.
      split; [reflexivity|]. split; [exact X|]. cbn [fst]. destruct (insert_cell_format_frame C2 cur col i) as [t ->]. fields. destruct Q. auto.
    + apply (both_same C S); auto.
  - destruct Hal.
  - subst row. pose proof (clear_sim C S col H (d_ok S HS)) as X. rewrite Hcur in X. split; [reflexivity|]. split; [exact X|]. cbn [fst].
    destruct (clear_cell_frame C cur col) as (t & -> & _). fields. auto.
  - subst row. pose proof (clear_format_sim C S col H) as X. rewrite Hcur in X. split; [reflexivity|]. split; [exact X|]. cbn [fst].
    unfold clear_cell_format, update_cell_format. destruct (check_dimensions_only cur col); [|auto].
    destruct (get cur (data C)) as [cs|]; [destruct (get col cs) as [[]|]|]; fields; auto.
  - subst row. pose proof (result_sim C S col result H) as X. rewrite Hcur in X. split; [reflexivity|]. split; [exact X|]. cbn [fst].
    unfold set_formula_result. destruct (get _ (data C)) as [cs|]; [destruct (get col cs) as [[[]]|]|]; fields; auto.
Qed.

Lemma run_sim ops : forall C S cur, sim C S -> std S -> writing_ahead C = false -> current_row C = cur -> row_ordered S cur ops ->
  sim (run C ops) (run S ops).
Proof.
  induction ops as [|o ops IH]; intros C S cur H HS Hwa Hcur Hro; [assumption|]. destruct Hro as [Hal Hro].
  rewrite !run_cons. destruct (step_sim C S o cur H HS Hwa Hcur Hal) as (B1 & B2 & B3 & B4).
  apply (IH _ _ (advance S cur o)); try assumption. destruct (step S o) as [S' e] eqn:E. apply (std_step S o S' e HS E).
Qed.

Lemma sim_start inl gs rg t t' : inl || gs = true -> sim (ws_new true inl gs rg t) (ws_new false false false rg t').
Proof.
  intros Hm. split; try reflexivity.
  - cbn. apply orb_true_iff in Hm. exact Hm.
  - split; reflexivity.
  - split; reflexivity.
  - split; cbn [current_row ws_new data flushed write_ahead writing_ahead cdata table_get get].
    + split; cbn; try apply table_ok_nil; try congruence. split; intros ? ? [].
    + intros o [].
    + intros; lia.
    + intros r c _. unfold cdata. cbn. destruct (r =? 0); exact I.
    + intros r _. unfold cdata. cbn. destruct (r =? 0); reflexivity.
    + intros [|[r Hr]]; [discriminate|]. cbn in Hr. congruence.
Qed.
