(** Constant-memory mode against standard mode: a simulation. *)
From Verif Require Import Base SMap F64 Fmt_Model Sst_Model Cells_Model Cells_Spec Cells_Proofs Cells_Proofs2
  Cells_Inv Cells_Save Cells_Hist Const_Proofs.

Definition crel (a b : option (cell * N)) : Prop :=
  match a, b with
  | None, None => True
  | Some (k, x), Some (k', x') => contents k = contents k' /\ x = x'
  | _, _ => False
  end.

(** The settings both worksheets share. *)
Record alike (C S : ws) : Prop := {
  a_rows : changed_rows C = changed_rows S; a_cols : changed_cols C = changed_cols S; a_xfs : xfs C = xfs S;
  a_nan : nan_text C = nan_text S; a_inf : inf_text C = inf_text S; a_ninf : neg_inf_text C = neg_inf_text S;
  a_res : default_result C = default_result S; a_height : default_row_height C = default_row_height S;
  a_fr : first_row C = first_row S; a_fc : first_col C = first_col S }.

Record cells_sim (C S : ws) : Prop := {
  m_stream : stream_ok C;
  m_rows : forall o, In o (flushed C) -> o_row o < current_row C;
  m_past : forall r c, r < current_row C -> shown (flushed C) r c = eshow S r c (table_get r c (data S));
  m_now : forall r c, current_row C <= r -> crel (table_get r c (cdata C r)) (table_get r c (data S));
  m_pres : forall r, current_row C <= r -> (get r (cdata C r) = None <-> get r (data S) = None);
  m_ahead : writing_ahead C = true \/ (exists r, get r (write_ahead C) <> None) -> get (current_row C) (data C) <> None }.

Record sim (C S : ws) : Prop := {
  i_c : constant_memory C = true; i_s : constant_memory S = false;
  i_mode : inline_strings C = true \/ global_sst C = true;
  i_std : inline_strings S = false /\ global_sst S = false;
  i_alike : alike C S; i_cells : cells_sim C S }.

(** ** Calls that leave the cells alone *)
Record core (w w' : ws) : Prop := {
  q_data : data w' = data w; q_wa : write_ahead w' = write_ahead w; q_cur : current_row w' = current_row w;
  q_cm : constant_memory w' = constant_memory w; q_inl : inline_strings w' = inline_strings w;
  q_gs : global_sst w' = global_sst w; q_ahead : writing_ahead w' = writing_ahead w; q_fl : flushed w' = flushed w }.
Lemma core_refl w : core w w. Proof. split; reflexivity. Qed.
Lemma core_trans a b c : core a b -> core b c -> core a c.
Proof. intros [] []. split; congruence. Qed.

Lemma stream_ok_core w w' : core w w' -> stream_ok w -> stream_ok w'.
Proof. intros [] []. split; rewrite ?q_data0, ?q_wa0, ?q_cur0; assumption. Qed.

Lemma eshow_ext w w' r c x : row_xf w' r = row_xf w r -> col_xf w' c = col_xf w c -> eshow w' r c x = eshow w r c x.
Proof.
  intros H1 H2. unfold eshow. destruct x as [[k xf]|]; [|reflexivity]. rewrite !effective_info, H1, H2. reflexivity.
Qed.

Lemma cells_sim_core C S C' S' : core C C' -> core S S' ->
  (forall r c, r < current_row C -> row_xf S' r = row_xf S r /\ col_xf S' c = col_xf S c) ->
  cells_sim C S -> cells_sim C' S'.
Proof.
  intros HC HS He []. pose proof (stream_ok_core C C' HC m_stream0). destruct HC, HS.
  split; unfold cdata in *; rewrite ?q_data0, ?q_wa0, ?q_cur0, ?q_ahead0, ?q_fl0, ?q_data1; try assumption.
  intros r c Hr. rewrite m_past0 by assumption. symmetry. apply eshow_ext; apply (He r c Hr).
Qed.
Lemma sim_core C S C' S' : core C C' -> core S S' -> alike C' S' ->
  (forall r c, r < current_row C -> row_xf S' r = row_xf S r /\ col_xf S' c = col_xf S c) ->
  sim C S -> sim C' S'.
Proof.
  intros HC HS HA He []. pose proof (cells_sim_core C S C' S' HC HS He i_cells0). destruct HC, HS.
  split; rewrite ?q_inl0, ?q_gs0, ?q_inl1, ?q_gs1, ?q_cm0, ?q_cm1; assumption.
Qed.

Lemma cd_sim C S r c : sim C S -> exists C' S' b, check_dimensions C r c = (C', b) /\ check_dimensions S r c = (S', b) /\
  sim C' S' /\ core C C' /\ same_opts S S' /\ (b = true -> in_limits r c) /\ (b = true <-> in_limits r c).
Proof.
  intros H. assert (HS : forall S' b, check_dimensions S r c = (S', b) -> same_opts S S' /\ core S S').
  { intros S' b E. unfold check_dimensions in E. destruct (ROW_MAX <=? r); [|destruct (COL_MAX <=? c)]; [| |destruct (negb _ || _)];
      apply pair_equal_spec in E as [<- _]; split; split; reflexivity. }
  assert (HC : forall C' b, check_dimensions C r c = (C', b) -> core C C').
  { intros C' b E. unfold check_dimensions in E. destruct (ROW_MAX <=? r); [|destruct (COL_MAX <=? c)]; [| |destruct (negb _ || _)];
      apply pair_equal_spec in E as [<- _]; split; reflexivity. }
  destruct (check_dimensions C r c) as [C' b] eqn:EC, (check_dimensions S r c) as [S' b'] eqn:ES.
  specialize (HS _ _ eq_refl) as [HS1 HS2]. specialize (HC _ _ eq_refl).
  assert (Hb : b' = b /\ (b = true <-> in_limits r c) /\ alike C' S').
  { destruct H as [_ _ _ _ [] _]. unfold check_dimensions in EC, ES. unfold in_limits.
    destruct (N.leb_spec ROW_MAX r); [|destruct (N.leb_spec COL_MAX c)];
      try (apply pair_equal_spec in EC as [<- <-]; apply pair_equal_spec in ES as [<- <-]; split; [reflexivity|split; [split; [discriminate|lia]|split; assumption]]).
    destruct (negb (constant_memory C) || _), (negb (constant_memory S) || _);
      apply pair_equal_spec in EC as [<- <-]; apply pair_equal_spec in ES as [<- <-];
      (split; [reflexivity|split; [split; auto|split; fields; congruence]]). }
  destruct Hb as (-> & Hb & HA). exists C', S', b. split; [reflexivity|]. split; [reflexivity|]. split; [|tauto].
  eapply sim_core; [exact HC|exact HS2|exact HA| |exact H]. intros r' c' _. destruct HS1.
  unfold row_xf, col_xf, row_info, col_info. rewrite s_rows, s_cols. auto.
Qed.

Lemma reg_sim C S f : sim C S -> exists C' S' i, reg C f = (C', i) /\ reg S f = (S', i) /\ sim C' S' /\ core C C' /\ same_opts S S'.
Proof.
  intros H. unfold reg. destruct H as [H1 H2 H3 H3' HA HC]. destruct HA. rewrite a_xfs0. destruct (format_xf_index (xfs S) f) as [l i].
  exists (upd_xfs C l), (upd_xfs S l), i. split; [reflexivity|]. split; [reflexivity|].
  assert (core C (upd_xfs C l)) by (split; reflexivity). split; [|split; [assumption|split; reflexivity]].
  apply (sim_core C S); [assumption|split; reflexivity|split; fields; congruence|intros; split; reflexivity|].
  split; auto. split; congruence.
Qed.
Lemma rcf_sim C S r c : sim C S -> exists C' S' i, row_col_format C r c = (C', i) /\ row_col_format S r c = (S', i) /\ sim C' S' /\ core C C' /\ same_opts S S'.
Proof.
  intros H. unfold row_col_format. rewrite (a_cols C S (i_alike C S H)), (a_rows C S (i_alike C S H)).
  assert (Hn : exists C' S' i, (C, 0) = (C', i) /\ (S, 0) = (S', i) /\ sim C' S' /\ core C C' /\ same_opts S S').
  { exists C, S, 0. auto using core_refl. }
  destruct (get c (changed_cols S)) as [co|]; [|exact Hn]. destruct (c_format co) as [cf|]; [|exact Hn].
  destruct (get r (changed_rows S)) as [ro|]; [|exact Hn]. destruct (r_format ro) as [rf|]; [|exact Hn].
  apply reg_sim. assumption.
Qed.
Lemma cell_xf_sim C S r c f : sim C S -> exists C' S' i, cell_xf C r c f = (C', i) /\ cell_xf S r c f = (S', i) /\ sim C' S' /\ core C C' /\ same_opts S S'.
Proof. intros H. destruct f; [apply reg_sim|apply rcf_sim]; assumption. Qed.

Lemma sst_core w t l : core w (upd_sst w t l). Proof. split; reflexivity. Qed.
Lemma sst_sim_c C S t l : sim C S -> sim (upd_sst C t l) S.
Proof. intros H. apply (sim_core C S); [split; reflexivity|apply core_refl|destruct H as [? ? ? ? [] ?]; split; assumption|auto|assumption]. Qed.
Lemma sst_sim_s C S t l : sim C S -> sim C (upd_sst S t l).
Proof. intros H. apply (sim_core C S); [apply core_refl|split; reflexivity|destruct H as [? ? ? ? [] ?]; split; assumption|auto|assumption]. Qed.

(** ** Inserting a cell *)
Definition aft (C : ws) (r : N) : N := if writing_ahead C then current_row C else r.

Lemma crel_eshow S r c a b : crel a b -> eshow S r c a = eshow S r c b.
Proof.
  destruct a as [[k x]|], b as [[k' x']|]; cbn [crel]; try contradiction; [|reflexivity]. intros [H ->].
  unfold eshow. rewrite H. reflexivity.
Qed.
Lemma sim_target C S : sim C S -> target C (fun r c => eshow S r c (table_get r c (data S))) /\ rows_le C.
Proof.
  intros [_ _ _ _ HA []]. split.
  - intros r c. unfold pending. destruct (N.leb_spec (current_row C) r) as [Hle|Hgt].
    + rewrite shown_above; [|intros o Ho; apply m_rows0 in Ho; lia]. cbn [app].
      rewrite <- (crel_eshow S r c _ _ (m_now0 r c Hle)). apply eshow_ext;
        unfold row_xf, row_info, col_xf, col_info; destruct HA; rewrite ?a_rows0, ?a_cols0; reflexivity.
    + rewrite app_nil_r. apply m_past0. assumption.
  - intros o Ho. apply m_rows0 in Ho. lia.
Qed.

Lemma flush_fields l : forall w, let w' := fold_left flush_data_row l w in
  constant_memory w' = constant_memory w /\ inline_strings w' = inline_strings w /\ global_sst w' = global_sst w /\
  writing_ahead w' = writing_ahead w /\ changed_rows w' = changed_rows w /\ changed_cols w' = changed_cols w /\ xfs w' = xfs w /\
  nan_text w' = nan_text w /\ inf_text w' = inf_text w /\ neg_inf_text w' = neg_inf_text w /\ default_result w' = default_result w /\
  default_row_height w' = default_row_height w /\ first_row w' = first_row w /\ first_col w' = first_col w /\ last_row w' = last_row w /\ last_col w' = last_col w.
Proof.
  induction l as [|n l IH]; intros w; cbn [fold_left]; [cbn; tauto|]. specialize (IH (flush_data_row w n)). cbv zeta in *.
  unfold flush_data_row in IH at 2 4 6 8 10 12 14 16 18 20 22 24 26 28 30 32. fields. exact IH.
Qed.

Lemma flush_to_row_sim C S r : sim C S -> current_row C < r -> writing_ahead C = false ->
  let C' := flush_to_row C r in
  constant_memory C' = true /\ (inline_strings C' = true \/ global_sst C' = true) /\ alike C' S /\ stream_ok C' /\ current_row C' = r /\
  writing_ahead C' = false /\ (forall o, In o (flushed C') -> o_row o < r) /\
  (forall r' c, r' < r -> shown (flushed C') r' c = eshow S r' c (table_get r' c (data S))) /\
  (forall r' c, r <= r' -> crel (table_get r' c (cdata C' r')) (table_get r' c (data S))) /\
  (forall r', r <= r' -> (get r' (cdata C' r') = None <-> get r' (data S) = None)).
Proof.
  intros H Hlt Hwa. cbv zeta. pose proof (sim_target C S H) as [HT HR]. destruct H as [H1 H2 H3 H3' HA HC].
  destruct (flush_to_row_spec C r _ (m_stream C S HC) HR Hlt HT) as (F1 & F2 & F3 & F4 & F5 & F6).
  assert (FF : exists l, flush_to_row C r = fold_left flush_data_row l C).
  { rewrite flush_to_row_eq. eexists. reflexivity. }
  destruct FF as [l FF]. pose proof (flush_fields l C) as G. cbv zeta in G. rewrite <- FF in G.
  destruct G as (G1 & G2 & G3 & G4 & G5 & G6 & G7 & G8 & G9 & G10 & G11 & G12 & G13 & G14 & _ & _).
  assert (Hrow : forall r', r <= r' -> get r' (cdata (flush_to_row C r) r') = get r' (cdata C r')).
  { intros r' Hr. unfold cdata. rewrite F3. destruct (N.eqb_spec r' (current_row C)); [lia|].
    destruct (N.eqb_spec r' r) as [->|]; [rewrite F6, N.eqb_refl; reflexivity|]. apply F5. lia. }
  split; [congruence|]. split; [rewrite G2, G3; assumption|]. split; [destruct HA; split; congruence|].
  split; [assumption|]. split; [assumption|]. split; [congruence|]. split; [assumption|]. split; [|split].
  - intros r' c Hr. rewrite <- (F2 r' c). unfold pending. rewrite F3. destruct (N.leb_spec r r'); [lia|]. symmetry. apply app_nil_r.
  - intros r' c Hr. unfold table_get at 1. rewrite Hrow by assumption. apply (m_now C S HC). lia.
  - intros r' Hr. rewrite Hrow by assumption. apply (m_pres C S HC). lia.
Qed.

Lemma get_insert_row r c x r' t : get r' (table_insert r c x t) = None <-> r <> r' /\ get r' t = None.
Proof.
  pose proof (table_insert_row r c x r' t) as H. split.
  - intros HH. split; [intros ->; apply (proj2 H); [left; reflexivity|assumption]|].
    destruct (get r' t) eqn:E; [|reflexivity]. exfalso. apply (proj2 H); [right; congruence|assumption].
  - intros [Hn HN]. destruct (get r' (table_insert r c x t)) eqn:E; [|reflexivity]. exfalso.
    destruct (proj1 H ltac:(congruence)); [contradiction|congruence].
Qed.

(** Both sides insert the same contents at (r, c) in a row not yet written out. *)
Lemma sim_data_insert C S r c k k' x : alike C S -> constant_memory C = true -> constant_memory S = false ->
  (inline_strings C = true \/ global_sst C = true) -> (inline_strings S = false /\ global_sst S = false) -> stream_ok C -> current_row C = r ->
  (forall o, In o (flushed C) -> o_row o < r) ->
  (forall r' c, r' < r -> shown (flushed C) r' c = eshow S r' c (table_get r' c (data S))) ->
  (forall r' c, r <= r' -> crel (table_get r' c (cdata C r')) (table_get r' c (data S))) ->
  (forall r', r <= r' -> (get r' (cdata C r') = None <-> get r' (data S) = None)) ->
  contents k = contents k' -> emittable r c k ->
  sim (upd_data C (table_insert r c (k, x) (data C))) (upd_data S (table_insert r c (k', x) (data S))).
Proof.
  intros HA H1 H2 H3 H3' HK Hc Hf Hp Hn Hr Hk He. split; try assumption; [destruct HA; split; assumption|].
  split; fields.
  - destruct HK as [K1 K2 K3 K4 [K5 K6]]. split; fields; try assumption.
    + apply table_insert_ok. assumption.
    + intros r' Hg. apply table_insert_row in Hg as [<-|Hg]; [congruence|]. apply K3. assumption.
    + split; [|assumption]. apply all_table_insert; [|assumption]. assumption.
  - rewrite Hc. assumption.
  - rewrite Hc. intros r' c' Hlt. rewrite table_get_insert. destruct (here r c r' c') eqn:E.
    + apply here_true in E. lia.
    + rewrite Hp by assumption. apply eshow_ext; reflexivity.
  - rewrite Hc. intros r' c' Hle. specialize (Hn r' c' Hle). unfold cdata in *. fields. rewrite Hc in *.
    rewrite (table_get_insert r c (k', x)). destruct (N.eqb_spec r' r) as [->|].
    + rewrite table_get_insert. destruct (here r c r c'); [cbn; auto|assumption].
    + destruct (here r c r' c') eqn:E; [apply here_true in E; lia|assumption].
  - rewrite Hc. intros r' Hle. specialize (Hr r' Hle). unfold cdata in *. fields. rewrite Hc in *.
    pose proof (get_insert_row r c (k', x) r' (data S)) as G1. pose proof (get_insert_row r c (k, x) r' (data C)) as G2.
    destruct (N.eqb_spec r' r) as [Er|Er]; [tauto|]. assert (r <> r') by congruence. tauto.
  - rewrite Hc. intros _ Hg. apply get_insert_row in Hg. destruct Hg. congruence.
Qed.

Lemma insert_sim C S r c k k' x : sim C S -> current_row C <= r -> contents k = contents k' -> emittable r c k ->
  let C' := insert_cell C r c (k, x) in
  sim C' (insert_cell S r c (k', x)) /\ current_row C' = aft C r /\ writing_ahead C' = writing_ahead C /\
  get (current_row C') (data C') <> None.
Proof.
  intros H Hle Hk He. cbv zeta. unfold insert_cell. rewrite (i_c C S H), (i_s C S H). unfold aft.
  destruct (N.ltb_spec r (current_row C)); [lia|].
  destruct H as [H1 H2 H3 H3' HA HC].
  destruct (N.ltb_spec (current_row C) r) as [Hlt|Hge]; cbn [andb].
  - destruct (writing_ahead C) eqn:Ew.
    + fields. split; [|split; [reflexivity|split; [assumption|apply (m_ahead C S HC); auto]]].
      split; try assumption; [destruct HA; split; assumption|]. destruct HC as [K1 K2 K3 K4 K5 K6]. split; fields.
      * destruct K1 as [A1 A2 A3 A4 [A5 A6]]. split; fields; try assumption.
        { apply table_insert_ok. assumption. }
        { intros r' Hg. apply table_insert_row in Hg as [<-|Hg]; [assumption|auto]. }
        { split; [assumption|]. apply all_table_insert; assumption. }
      * assumption.
      * intros r' c' Hr. rewrite table_get_insert. destruct (here r c r' c') eqn:E; [apply here_true in E; lia|].
        rewrite K3 by assumption. apply eshow_ext; reflexivity.
      * intros r' c' Hr. specialize (K4 r' c' Hr). unfold cdata in *. fields. rewrite (table_get_insert r c (k', x)).
        destruct (N.eqb_spec r' (current_row C)) as [->|].
        { destruct (here r c (current_row C) c') eqn:E; [apply here_true in E; lia|assumption]. }
        { rewrite table_get_insert. destruct (here r c r' c'); [cbn; auto|assumption]. }
      * intros r' Hr. specialize (K5 r' Hr). unfold cdata in *. fields.
        pose proof (get_insert_row r c (k', x) r' (data S)) as G1. pose proof (get_insert_row r c (k, x) r' (write_ahead C)) as G2.
        destruct (N.eqb_spec r' (current_row C)) as [Er|Er]; [|tauto]. assert (r <> r') by lia. tauto.
      * intros _. apply K6. auto.
    + assert (HS : sim C S) by (split; assumption).
      destruct (flush_to_row_sim C S r HS Hlt Ew) as (F1 & F2 & F3 & F4 & F5 & F6 & F7 & F8 & F9 & F10).
      fields. split; [|split; [assumption|split; [assumption|]]].
      * apply sim_data_insert; assumption.
      * rewrite F5. intros Hg. apply get_insert_row in Hg. destruct Hg. congruence.
  - assert (r = current_row C) as -> by lia. fields. split; [|split; [destruct (writing_ahead C); reflexivity|split; [reflexivity|]]].
    + destruct HC. apply sim_data_insert; try assumption. reflexivity.
    + intros Hg. apply get_insert_row in Hg. destruct Hg. congruence.
Qed.
