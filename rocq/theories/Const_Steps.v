(** Every call keeps the simulation. *)
From Verif Require Import Base SMap F64 Fmt_Model Sst_Model Cells_Model Cells_Spec Cells_Proofs Cells_Proofs2
  Cells_Inv Cells_Save Cells_Hist Const_Proofs Const_Sim.

(** Both modes return the same result, and the streaming sheet is now at row [n]. *)
Definition both (x y : ws * option error) (n : N) (wa : bool) : Prop :=
  snd x = snd y /\ sim (fst x) (fst y) /\ current_row (fst x) = n /\ writing_ahead (fst x) = wa.
Definition moved (C : ws) (e : option error) (v : option value) (r : N) : N :=
  match e, v with None, Some _ => aft C r | _, _ => current_row C end.

Lemma both_same C (S : ws) C' S' e n : sim C' S' -> core C C' -> n = current_row C -> both (C', e) (S', e) n (writing_ahead C).
Proof. intros H [] ->. split; [reflexivity|]. cbn [fst snd]. auto. Qed.
Lemma both_insert C (S : ws) C' S' r c k k' x : sim C' S' -> core C C' -> current_row C <= r -> contents k = contents k' -> emittable r c k ->
  both (insert_cell C' r c (k, x), None) (insert_cell S' r c (k', x), None) (aft C r) (writing_ahead C).
Proof.
  intros H HC Hr Hk He. destruct HC as [_ _ Q1 _ _ _ Q2 _].
  destruct (insert_sim C' S' r c k k' x H) as (A & B & D & _); [lia|assumption|assumption|].
  split; [reflexivity|]. cbn [fst snd]. unfold aft in *. rewrite Q1, Q2 in *. auto.
Qed.

Ltac cdim H r c := let C1 := fresh "C1" in let S1 := fresh "S1" in let b := fresh "b" in
  let E1 := fresh "E" in let E2 := fresh "E" in let SM := fresh "SM" in let QC := fresh "QC" in let SO := fresh "SO" in let L := fresh "L" in
  destruct (cd_sim _ _ r c H) as (C1 & S1 & b & E1 & E2 & SM & QC & SO & L & _); rewrite E1, E2; destruct b; cbn [negb].

Lemma blank_sim C S r c f : sim C S -> current_row C <= r ->
  both (store_blank C r c f) (store_blank S r c f) (moved C (snd (store_blank S r c f)) (Some VBlank) r) (writing_ahead C).
Proof.
  intros H Hr. unfold store_blank. cdim H r c; [|apply (both_same C S); auto].
  destruct (reg_sim C1 S1 f SM) as (C2 & S2 & i & -> & -> & SM2 & QC2 & SO2).
  assert (exists C3 S3 j, (if i =? 0 then row_col_format C2 r c else (C2, i)) = (C3, j) /\ (if i =? 0 then row_col_format S2 r c else (S2, i)) = (S3, j) /\
    sim C3 S3 /\ core C2 C3) as (C3 & S3 & j & -> & -> & SM3 & QC3).
  { destruct (i =? 0); [|exists C2, S2, i; auto using core_refl].
    destruct (rcf_sim C2 S2 r c SM2) as (C3 & S3 & j & A & B & D & E1 & _). exists C3, S3, j. auto. }
  cbn [snd moved]. apply (both_insert C S C3 S3); auto; [|exact I].
  eapply core_trans; [exact QC|]. eapply core_trans; eassumption.
Qed.

Lemma string_sim C S r c s f : sim C S -> current_row C <= r ->
  both (store_string C r c s f) (store_string S r c s f) (moved C (snd (store_string S r c s f)) (text_value s f) r) (writing_ahead C).
Proof.
  intros H Hr. destruct s as [|a s].
  { cbn [store_string text_value]. destruct f; [apply blank_sim; assumption|]. apply (both_same C S); auto using core_refl. }
  unfold store_string. cdim H r c; [|apply (both_same C S); auto].
  destruct (MAX_STRING_LEN <? char_count (a :: s)); [apply (both_same C S); auto|].
  destruct (cell_xf_sim C1 S1 r c f SM) as (C2 & S2 & i & -> & -> & SM2 & QC2 & SO2).
  destruct (i_std C2 S2 SM2) as [-> ->]. pose proof (i_mode C2 S2 SM2) as M.
  assert (QC' : core C C2) by (eapply core_trans; eassumption).
  destruct (inline_strings C2).
  - cbn [snd moved text_value]. apply (both_insert C S C2 (upd_sst S2 (strings_table S2) true)); auto; [apply sst_sim_s; assumption|exact I].
  - destruct M as [M|M]; [discriminate|]. rewrite M. destruct (shared_string_index (strings_table C2) (a :: s)) as [t id].
    cbn [snd moved text_value]. apply (both_insert C S (upd_sst C2 t true) (upd_sst S2 (strings_table S2) true)); auto; [|apply (core_trans _ _ _ QC'), sst_core|exact I].
    apply sst_sim_c, sst_sim_s. assumption.
Qed.

Lemma both_sst_s x S2 e n wa t l : both x (S2, e) n wa -> both x (upd_sst S2 t l, e) n wa.
Proof. intros (A & B & D & E). split; [exact A|]. split; [apply sst_sim_s; exact B|]. auto. Qed.
Lemma both_sst_c C2 (y : ws * option error) e n wa t l : both (C2, e) y n wa -> both (upd_sst C2 t l, e) y n wa.
Proof. intros (A & B & D & E). split; [exact A|]. split; [apply sst_sim_c; exact B|]. auto. Qed.

Lemma rich_sim C S r c s raw f : sim C S -> current_row C <= r ->
  both (store_rich_string C r c s raw f) (store_rich_string S r c s raw f)
    (moved C (snd (store_rich_string S r c s raw f)) (match s, f with [], None => None | [], _ => Some VBlank | _, _ => Some (VRich s) end) r) (writing_ahead C).
Proof.
  intros H Hr. destruct s as [|a s].
  { cbn [store_rich_string]. destruct f; [apply blank_sim; assumption|]. apply (both_same C S); auto using core_refl. }
  unfold store_rich_string. cdim H r c; [|apply (both_same C S); auto].
  destruct (MAX_STRING_LEN <? char_count (a :: s)); [apply (both_same C S); auto|].
  destruct (cell_xf_sim C1 S1 r c f SM) as (C2 & S2 & i & -> & -> & SM2 & QC2 & SO2).
  destruct (i_std C2 S2 SM2) as [I1 I2]. rewrite I2. assert (QC' : core C C2) by (eapply core_trans; eassumption). cbv iota beta zeta.
  assert (I1' : inline_strings (insert_cell S2 r c (CRich (a :: s) raw None, i)) = false) by (rewrite (proj1 (insert_cell_mode _ _ _ _)); exact I1).
  rewrite I1'. apply both_sst_s. cbn [snd moved].
  destruct (global_sst C2).
  - destruct (shared_string_index (strings_table C2) (a :: s)) as [t id].
    assert (B : both (insert_cell (upd_sst C2 t (local_sst C2)) r c (CRich (a :: s) raw (Some id), i), None) (insert_cell S2 r c (CRich (a :: s) raw None, i), None) (aft C r) (writing_ahead C)).
    { apply (both_insert C S); auto; [apply sst_sim_c; assumption|apply (core_trans _ _ _ QC'), sst_core|exact I]. }
    destruct (inline_strings (insert_cell (upd_sst C2 t (local_sst C2)) r c (CRich (a :: s) raw (Some id), i))); [exact B|apply both_sst_c; exact B].
  - assert (B : both (insert_cell C2 r c (CRich (a :: s) raw None, i), None) (insert_cell S2 r c (CRich (a :: s) raw None, i), None) (aft C r) (writing_ahead C)).
    { apply (both_insert C S); auto. exact I. }
    destruct (inline_strings (insert_cell C2 r c (CRich (a :: s) raw None, i))); [exact B|apply both_sst_c; exact B].
Qed.

Lemma both_core C1 C x y e v r : core C C1 -> both x y (moved C1 e v r) (writing_ahead C1) -> both x y (moved C e v r) (writing_ahead C).
Proof. intros [] H. unfold moved, aft in *. rewrite q_cur, q_ahead in H. exact H. Qed.

Definition num (d : bool) : f64 -> value := if d then VDateTime else VNumber.
Lemma number_sim C S r c x f d : sim C S -> current_row C <= r ->
  both (store_number_type C r c x f d) (store_number_type S r c x f d)
    (moved C (snd (store_number_type S r c x f d)) (number_value S (num d) x f) r) (writing_ahead C).
Proof.
  intros H Hr. unfold store_number_type. cdim H r c; [|apply (both_same C S); auto].
  assert (Hr1 : current_row C1 <= r) by (rewrite (q_cur _ _ QC); assumption).
  unfold number_value. pose proof (i_alike C1 S1 SM) as []. destruct SO.
  destruct (is_nan x) eqn:En.
  { destruct x; try discriminate En. cbn [special_text]. rewrite a_nan, <- s_nan. apply (both_core C1); [assumption|]. apply string_sim; assumption. }
  destruct (is_inf x) eqn:Ei.
  { destruct x as [|[]| |]; try discriminate Ei; cbn [special_text feq]; cbn.
    - rewrite a_ninf, <- s_ninf. apply (both_core C1); [assumption|]. apply string_sim; assumption.
    - rewrite a_inf, <- s_inf. apply (both_core C1); [assumption|]. apply string_sim; assumption. }
  assert (special_text S x = None) as -> by (destruct x as [|[]| |]; try discriminate; reflexivity).
  destruct (cell_xf_sim C1 S1 r c f SM) as (C2 & S2 & i & -> & -> & SM2 & QC2 & SO2).
  cbn [snd moved]. apply (both_insert C S); auto; [eapply core_trans; eassumption|]. destruct d; exact I.
Qed.

Lemma boolean_sim C S r c b f : sim C S -> current_row C <= r ->
  both (store_boolean C r c b f) (store_boolean S r c b f) (moved C (snd (store_boolean S r c b f)) (Some (VBool b)) r) (writing_ahead C).
Proof.
  intros H Hr. unfold store_boolean. cdim H r c; [|apply (both_same C S); auto].
  destruct (cell_xf_sim C1 S1 r c f SM) as (C2 & S2 & i & -> & -> & SM2 & QC2 & SO2).
  cbn [snd moved]. apply (both_insert C S); auto; [eapply core_trans; eassumption|exact I].
Qed.

Lemma zeros_sim cells f : forall C S n, sim C S -> current_row C = n -> (forall r c, In (r, c) cells -> in_limits r c /\ (if writing_ahead C then n <= r else n = r)) ->
  both (write_zeros C cells f) (write_zeros S cells f) n (writing_ahead C) /\ snd (write_zeros S cells f) = None.
Proof.
  induction cells as [|[r c] cells IH]; intros C S n H Hn Hin; cbn [write_zeros].
  - split; [|reflexivity]. apply (both_same C S); auto using core_refl.
  - destruct (Hin r c (or_introl eq_refl)) as [Hl Hr].
    assert (Hle : current_row C <= r) by (revert Hr; clear - Hn; destruct (writing_ahead C); lia).
    pose proof (number_sim C S r c fzero f false H Hle) as B.
    assert (Hs : snd (store_number_type S r c fzero f false) = None).
    { unfold store_number_type. destruct (cd_sim _ _ r c H) as (C1 & S1 & b & _ & E2 & _ & _ & _ & _ & Hb). rewrite E2.
      rewrite (proj2 Hb Hl). cbn. destruct (cell_xf S1 r c f). reflexivity. }
    rewrite Hs in B. destruct B as (B1 & B2 & B3 & B4).
    destruct (store_number_type C r c fzero f false) as [C1 e1] eqn:E1, (store_number_type S r c fzero f false) as [S1 e2] eqn:E2.
    cbn [fst snd] in *. subst e1 e2. cbn [moved number_value special_text] in B3. unfold aft in B3.
    assert (Hc1 : current_row C1 = n). { rewrite B3. revert Hr. clear - Hn. change (number_value S (num false) fzero f) with (Some (VNumber fzero)). cbv iota. destruct (writing_ahead C); congruence. }
    destruct (IH C1 S1 n B2 Hc1) as [D1 D2].
    { intros r' c' Hin'. rewrite B4. apply Hin. right. assumption. }
    rewrite B4 in D1. auto.
Qed.

Lemma upd_ahead_sim C S b : sim C S -> (b = true -> get (current_row C) (data C) <> None) -> sim (upd_ahead C b) S.
Proof.
  intros [H1 H2 H3 H3' HA HC] Hb. split; try assumption; [destruct HA; split; assumption|]. destruct HC. split; fields; try assumption.
  - destruct m_stream. split; assumption.
  - intros [->|Hw]; [apply Hb; reflexivity|]. apply m_ahead. right. exact Hw.
Qed.

Lemma array_sim C S fr fc lr lc fm f d g : sim C S -> current_row C <= fr -> writing_ahead C = false ->
  both (store_array_formula C fr fc lr lc fm f d g) (store_array_formula S fr fc lr lc fm f d g)
    (match snd (store_array_formula S fr fc lr lc fm f d g) with None => fr | _ => current_row C end) false /\
  (snd (store_array_formula S fr fc lr lc fm f d g) = None -> in_rect fr fc lr lc fr fc = true).
Proof.
  intros H Hr Hwa. unfold store_array_formula.
  assert (SAME : forall C' S' e, sim C' S' -> core C C' -> both (C', Some e) (S', Some e) (current_row C) false).
  { intros C' S' e HS HC. rewrite <- Hwa. apply (both_same C S); auto. }
  cdim H fr fc; [|split; [apply SAME; auto|discriminate]]. destruct (L eq_refl) as [L1 L2].
  cdim SM lr lc; [|split; [apply SAME; [auto|eapply core_trans; eassumption]|discriminate]]. destruct (L0 eq_refl) as [L3 L4].
  destruct ((lr <? fr) || (lc <? fc)) eqn:Eo; [split; [apply SAME; [auto|eapply core_trans; eassumption]|discriminate]|].
  destruct (cell_xf_sim C0 S0 fr fc f SM0) as (C2 & S2 & i & -> & -> & SM2 & QC2 & SO2).
  cbv zeta. assert (QC' : core C C2) by (eapply core_trans; [exact QC|]; eapply core_trans; eassumption).
  destruct QC' as [_ _ Q1 _ _ _ Q2 _].
  assert (formula_result C2 fm = formula_result S2 fm) as -> by (unfold formula_result; rewrite (a_res _ _ (i_alike _ _ SM2)); reflexivity).
  set (k := CArray (f_text fm) (formula_result S2 fm) (d || f_dynamic fm) g).
  destruct (insert_sim C2 S2 fr fc k k i SM2) as (A1 & A2 & A3 & A4); [lia|reflexivity|exact I|].
  set (C3 := insert_cell C2 fr fc (k, i)) in *. set (S3 := insert_cell S2 fr fc (k, i)) in *. clearbody C3 S3.
  unfold aft in A2. rewrite Q1, Q2, Hwa in *.
  destruct (zeros_sim (map (fun c => (fr, c)) (range_incl (fc + 1) lc)) f C3 S3 fr A1 A2) as [(B1 & B2 & B3 & B4) B5].
  { intros r c Hin. apply in_row_cells in Hin as [-> Hc]. rewrite A3. unfold in_limits. lia. }
  assert (Hin1 : snd (write_zeros C3 (map (fun c => (fr, c)) (range_incl (fc + 1) lc)) f) = None) by congruence.
  assert (DATA : forall cells w, get fr (data w) <> None -> writing_ahead w = false -> constant_memory w = true -> current_row w = fr ->
     (forall r c, In (r, c) cells -> r = fr) -> get fr (data (fst (write_zeros w cells f))) <> None).
  { clear. induction cells as [|[r c] cells IH]; intros w Hg Hw Hc Hn Hin; cbn [write_zeros]; [assumption|].
    assert (r = fr) as -> by (apply (Hin r c); left; reflexivity).
    assert (Z : get fr (data (fst (store_number_type w fr c fzero f false))) <> None /\ writing_ahead (fst (store_number_type w fr c fzero f false)) = false /\
       constant_memory (fst (store_number_type w fr c fzero f false)) = true /\ current_row (fst (store_number_type w fr c fzero f false)) = fr).
    { unfold store_number_type. destruct (check_dimensions w fr c) as [w1 b] eqn:E.
      apply check_dimensions_spec in E as (M & _ & D & _). destruct M. destruct b; cbn [negb]; [|cbn [fst]; rewrite D; intuition congruence].
      cbn. destruct (cell_xf w1 fr c f) as [w2 i] eqn:E2.
      assert (data w2 = data w1 /\ meta w1 w2) as [D2 M2].
      { apply cell_xf_same in E2 as SC. destruct f; cbn [cell_xf] in E2; [unfold reg in E2; destruct (format_xf_index (xfs w1) f) as [l j] eqn:Ef; apply pair_equal_spec in E2 as [<- _]; split; [reflexivity|]; apply xf_index_spec in Ef as [Ef _]; meta_tac|].
        unfold row_col_format in E2. destruct (get c (changed_cols w1)) as [co|]; [destruct (c_format co); [destruct (get fr (changed_rows w1)) as [ro|]; [destruct (r_format ro)|]|]|];
          try (apply pair_equal_spec in E2 as [<- _]; auto). unfold reg in E2. destruct (format_xf_index (xfs w1) _) as [l j] eqn:Ef; apply pair_equal_spec in E2 as [<- _]; split; [reflexivity|]; apply xf_index_spec in Ef as [Ef _]; meta_tac. }
      destruct M2. cbn [fst]. unfold insert_cell. rewrite m_cm0, m_cm, Hc, m_cur0, m_cur, Hn, N.ltb_irrefl. cbn [andb]. fields.
      split; [|split; [congruence|split; congruence]].
      intros Hx. apply get_insert_row in Hx. destruct Hx. congruence. }
    destruct (store_number_type w fr c fzero f false) as [w1 [e|]]; cbn [fst] in *; [tauto|]. destruct Z as (Z1 & Z2 & Z3 & Z4).
    apply IH; auto. intros r' c' Hi. apply (Hin r' c'). right. assumption. }
  rewrite A2 in A4. specialize (DATA (map (fun c => (fr, c)) (range_incl (fc + 1) lc)) C3 A4 A3 (i_c _ _ A1) A2
     ltac:(intros r c Hi; apply in_row_cells in Hi; tauto)).
  destruct (write_zeros C3 (map (fun c => (fr, c)) (range_incl (fc + 1) lc)) f) as [C4 e4] eqn:E4,
           (write_zeros S3 (map (fun c => (fr, c)) (range_incl (fc + 1) lc)) f) as [S4 e4'] eqn:E4'.
  cbn [fst snd] in *. subst e4 e4'. rewrite (i_c _ _ B2), (i_s _ _ B2).
  assert (SA : sim (upd_ahead C4 true) S4) by (apply upd_ahead_sim; [assumption|]; rewrite B3; auto).
  destruct (zeros_sim (flat_map (fun r => map (fun c => (r, c)) (range_incl fc lc)) (range_incl (fr + 1) lr)) f (upd_ahead C4 true) S4 fr SA) as [(D1 & D2 & D3 & D4) D5].
  { fields. assumption. }
  { intros r c Hin. apply in_flat_map in Hin as (r' & Hr' & Hin). apply in_row_cells in Hin as [-> Hc]. apply in_range_incl in Hr'.
    fields. unfold in_limits. lia. }
  destruct (write_zeros (upd_ahead C4 true) (flat_map (fun r => map (fun c => (r, c)) (range_incl fc lc)) (range_incl (fr + 1) lr)) f) as [C5 e5] eqn:E5,
           (write_zeros S4 (flat_map (fun r => map (fun c => (r, c)) (range_incl fc lc)) (range_incl (fr + 1) lr)) f) as [S5 e5'] eqn:E5'.
  cbn [fst snd] in *. subst e5 e5'. rewrite (i_c _ _ D2), (i_s _ _ D2). cbn [snd]. split.
  - split; [reflexivity|]. cbn [fst snd]. split; [apply upd_ahead_sim; [assumption|discriminate]|]. fields. auto.
  - intros _. unfold in_rect. apply orb_false_elim in Eo as [Eo1 Eo2]. apply N.ltb_ge in Eo1, Eo2.
    rewrite !(proj2 (N.leb_le _ _)) by lia. reflexivity.
Qed.

Lemma formula_sim C S r c fm f g : sim C S -> current_row C <= r -> writing_ahead C = false ->
  both (store_formula C r c fm f g) (store_formula S r c fm f g) (match snd (store_formula S r c fm f g) with None => r | _ => current_row C end) false.
Proof.
  intros H Hr Hwa. unfold store_formula. destruct (f_dynamic fm); [apply array_sim; assumption|]. rewrite <- Hwa.
  cdim H r c; [|apply (both_same C S); auto].
  destruct (cell_xf_sim C1 S1 r c f SM) as (C2 & S2 & i & -> & -> & SM2 & QC2 & SO2).
  assert (formula_result C2 fm = formula_result S2 fm) as -> by (unfold formula_result; rewrite (a_res _ _ (i_alike _ _ SM2)); reflexivity).
  cbn [snd]. replace r with (aft C r) at 3 by (unfold aft; rewrite Hwa; reflexivity).
  apply (both_insert C S); auto; [eapply core_trans; eassumption|exact I].
Qed.
