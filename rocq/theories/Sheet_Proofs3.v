From Verif Require Import Base SMap SortLib F64 Fmt_Model Sst_Model Cells_Model Cells_Proofs Sheet_Model Sheet_Spec Opts_Frame Sheet_Proofs Sheet_Proofs2.

Definition kc (w w' : ws) : Prop := changed_cols w' = changed_cols w /\ max_col_level w' = max_col_level w.
Definition krw (w w' : ws) : Prop := changed_rows w' = changed_rows w /\ max_row_level w' = max_row_level w.
Lemma kept_kc w w' : kept w w' -> kc w w'. Proof. intros []. split; assumption. Qed.
Lemma kept_krw w w' : kept w w' -> krw w w'. Proof. intros []. split; assumption. Qed.
Lemma kc_refl w : kc w w. Proof. split; reflexivity. Qed.
Lemma krw_refl w : krw w w. Proof. split; reflexivity. Qed.
Lemma kc_trans a b c : kc a b -> kc b c -> kc a c. Proof. intros [] []. split; congruence. Qed.
Lemma krw_trans a b c : krw a b -> krw b c -> krw a c. Proof. intros [] []. split; congruence. Qed.
Lemma cols_ok_kc w w' : kc w w' -> cols_ok w -> cols_ok w'.
Proof. intros [B D] []. split; unfold col_level in *; rewrite ?B, ?D; assumption. Qed.
Lemma kc_level w w' c : kc w w' -> col_level w' c = col_level w c.
Proof. intros [B D]. unfold col_level. rewrite B. reflexivity. Qed.
Lemma krw_level w w' r : krw w w' -> row_level w' r = row_level w r.
Proof. intros [B D]. unfold row_level. rewrite B. reflexivity. Qed.
Lemma lt_max c : (COL_MAX <=? c) = false -> c < 16384.
Proof. intros H. apply N.leb_gt in H. exact H. Qed.

(** *** Column calls *)
Lemma col_hidden_ok w c : cols_ok w -> cols_ok (fst (set_column_hidden w c)) /\ forall k, col_level (fst (set_column_hidden w c)) k = col_level w k.
Proof.
  intros H. unfold set_column_hidden. destruct (COL_MAX <=? c) eqn:E; [split; [exact H|reflexivity]|]. cbv zeta. cbn [fst].
  split.
  - apply cols_ok_same_level; [exact H|exact (lt_max c E)| |].
    + destruct (get c (changed_cols w)) as [o|] eqn:G; [exact (cc_w w H c o G)|exact I].
    + cbn. destruct (get c (changed_cols w)) as [o|] eqn:G; [rewrite (lvl_get w c o G)|rewrite (lvl_none w c G)]; reflexivity.
  - intros k. unfold col_level. cbn. rewrite get_ins. destruct (N.eqb_spec c k) as [<-|]; [|reflexivity].
    destruct (get c (changed_cols w)); reflexivity.
Qed.
Lemma feq_zero x : feq x fzero = false -> match x with S754_zero _ => False | _ => True end.
Proof. destruct x; try exact (fun _ => I). cbn. discriminate. Qed.
Lemma col_width_ok w c x a : cols_ok w -> cols_ok (fst (set_column_width_internal w c x a)) /\ forall k, col_level (fst (set_column_width_internal w c x a)) k = col_level w k.
Proof.
  intros H. unfold set_column_width_internal. destruct (feq x fzero) eqn:Z; [apply col_hidden_ok; exact H|].
  destruct (COL_MAX <=? c) eqn:E; [split; [exact H|reflexivity]|]. cbn [fst]. unfold store_column_width. cbv zeta.
  set (x' := if fgt x (f_of_N 255) then _ else x).
  assert (W : match x' with S754_zero _ => False | _ => True end) by (subst x'; destruct (fgt x (f_of_N 255)); [exact I|exact (feq_zero x Z)]).
  split.
  - apply cols_ok_same_level; [exact H|exact (lt_max c E)| |].
    + destruct (get c (changed_cols w)) as [o|] eqn:G; [|exact W]. destruct (a && _); [|exact W]. destruct (fgt x' _); [exact W|exact (cc_w w H c o G)].
    + destruct (get c (changed_cols w)) as [o|] eqn:G; [rewrite (lvl_get w c o G)|rewrite (lvl_none w c G); reflexivity].
      destruct (a && _); [|reflexivity]. destruct (fgt x' _); reflexivity.
  - intros k. unfold col_level. cbn. rewrite get_ins. destruct (N.eqb_spec c k) as [<-|]; [|reflexivity].
    destruct (get c (changed_cols w)); [|reflexivity]. destruct (a && _); [|reflexivity]. destruct (fgt x' _); reflexivity.
Qed.
Lemma col_format_ok w c f : cols_ok w -> cols_ok (fst (set_column_format w c f)) /\ forall k, col_level (fst (set_column_format w c f)) k = col_level w k.
Proof.
  intros H. unfold set_column_format. pose proof (kept_kc _ _ (kept_cd w (get_min_row w) c)) as K.
  destruct (check_dimensions w (get_min_row w) c) as [w1 [|]] eqn:E; cbn [fst negb] in *; [|split; [exact (cols_ok_kc _ _ K H)|intros; apply kc_level; exact K]].
  apply cd_limits in E as [_ Hc]. pose proof (kept_kc _ _ (kept_reg w1 f)) as K2. destruct (reg w1 f) as [w2 i]. cbn [fst] in *.
  pose proof (kc_trans _ _ _ K K2) as K3. apply (cols_ok_kc _ _ K3) in H. cbv zeta. split.
  - apply cols_ok_same_level; [exact H|exact Hc| |].
    + destruct (get c (changed_cols w2)) as [o|] eqn:G; [exact (cc_w w2 H c o G)|exact I].
    + destruct (get c (changed_cols w2)) as [o|] eqn:G; [rewrite (lvl_get w2 c o G)|rewrite (lvl_none w2 c G)]; reflexivity.
  - intros k. rewrite <- (kc_level w w2 k K3). unfold col_level. cbn. rewrite get_ins. destruct (N.eqb_spec c k) as [<-|]; [|reflexivity].
    destruct (get c (changed_cols w2)); reflexivity.
Qed.

(** *** Row calls leave the columns alone, column calls the rows *)
Lemma rows_kc w o : is_options o = true -> (match o with SetColumnWidth _ _ _ | SetColumnFormat _ _ | SetColumnHidden _ => false | _ => true end) = true ->
  kc w (fst (step w o)).
Proof.
  assert (Hh : forall row, kc w (fst (set_row_hidden w row))).
  { intros row. unfold set_row_hidden. pose proof (kept_kc _ _ (kept_cd w row (get_min_col w))) as K.
    destruct (check_dimensions w row (get_min_col w)) as [w1 [|]]; exact K. }
  destruct o; cbn [is_options]; intros H H'; try discriminate; cbn [step].
  - unfold set_row_height. destruct (feq h fzero); [apply Hh|]. pose proof (kept_kc _ _ (kept_cd w row (get_min_col w))) as K.
    destruct (check_dimensions w row (get_min_col w)) as [w1 [|]]; exact K.
  - unfold set_row_format. pose proof (kept_kc _ _ (kept_cd w row (get_min_col w))) as K.
    destruct (check_dimensions w row (get_min_col w)) as [w1 [|]]; [|exact K]. cbn [negb fst] in *.
    pose proof (kept_kc _ _ (kept_reg w1 f)) as K2. destruct (reg w1 f) as [w2 i]. exact (kc_trans _ _ _ K K2).
  - apply Hh.
  - unfold set_row_unhidden. pose proof (kept_kc _ _ (kept_cd w row (get_min_col w))) as K.
    destruct (check_dimensions w row (get_min_col w)) as [w1 [|]]; [|exact K]. cbn [negb]. destruct (get row (changed_rows w1)); exact K.
  - destruct (fle h fzero); split; reflexivity.
Qed.
Lemma cols_krw w o : is_options o = true -> (match o with SetColumnWidth _ _ _ | SetColumnFormat _ _ | SetColumnHidden _ | SetDefaultRowHeight _ => true | _ => false end) = true ->
  krw w (fst (step w o)).
Proof.
  assert (Hh : forall col, krw w (fst (set_column_hidden w col))).
  { intros col. unfold set_column_hidden. destruct (COL_MAX <=? col); split; reflexivity. }
  destruct o; cbn [is_options]; intros H H'; try discriminate; cbn [step].
  - unfold set_column_width_internal. destruct (feq width fzero); [apply Hh|]. destruct (COL_MAX <=? col); split; reflexivity.
  - unfold set_column_format. pose proof (kept_krw _ _ (kept_cd w (get_min_row w) col)) as K.
    destruct (check_dimensions w (get_min_row w) col) as [w1 [|]]; [|exact K]. cbn [negb fst] in *.
    pose proof (kept_krw _ _ (kept_reg w1 f)) as K2. destruct (reg w1 f) as [w2 i]. exact (krw_trans _ _ _ K K2).
  - apply Hh.
  - destruct (fle h fzero); split; reflexivity.
Qed.

Lemma cols_step w o : cols_ok w -> cols_ok (fst (step w o)) /\ forall k, col_level (fst (step w o)) k = col_level w k.
Proof.
  intros H. destruct (is_options o) eqn:E.
  - destruct (match o with SetColumnWidth _ _ _ | SetColumnFormat _ _ | SetColumnHidden _ => false | _ => true end) eqn:Q.
    + pose proof (rows_kc w o E Q) as K. split; [exact (cols_ok_kc _ _ K H)|intros; apply kc_level; exact K].
    + destruct o; try discriminate; [apply col_width_ok|apply col_format_ok|apply col_hidden_ok]; exact H.
  - pose proof (kept_kc _ _ (kept_step w o E)) as K. split; [exact (cols_ok_kc _ _ K H)|intros; apply kc_level; exact K].
Qed.

(** *** Rows *)
Record rows_ok (w : ws) : Prop := {
  rr_ok : ok (changed_rows w);
  rr_lev : forall r, row_level w r <= 7;
  rr_max : max_row_level w <= 7 /\ (forall r, 2 <= row_level w r -> row_level w r <= max_row_level w) /\
           (max_row_level w = 0 \/ exists r, max_row_level w <= row_level w r) }.
Lemma rows_ok_krw w w' : krw w w' -> rows_ok w -> rows_ok w'.
Proof. intros [B D] []. split; unfold row_level in *; rewrite ?B, ?D; assumption. Qed.
Lemma row_level_ins w r o l k : row_level (upd_rows w (ins r o (changed_rows w)) l) k = if r =? k then r_level o else row_level w k.
Proof. unfold row_level. cbn. rewrite get_ins. destruct (r =? k); reflexivity. Qed.
Lemma rows_ok_same w r o : rows_ok w -> r_level o = row_level w r ->
  rows_ok (upd_rows w (ins r o (changed_rows w)) (max_row_level w)) /\
  forall k, row_level (upd_rows w (ins r o (changed_rows w)) (max_row_level w)) k = row_level w k.
Proof.
  intros [A B (C1 & C2 & C3)] E.
  assert (L : forall k, row_level (upd_rows w (ins r o (changed_rows w)) (max_row_level w)) k = row_level w k).
  { intros k. rewrite row_level_ins. destruct (N.eqb_spec r k) as [<-|]; [exact E|reflexivity]. }
  split; [|exact L]. split.
  - cbn. apply ins_ok, A.
  - intros k. rewrite L. apply B.
  - cbn [max_row_level upd_rows]. split; [exact C1|]. split.
    + intros k. rewrite L. apply C2.
    + destruct C3 as [C3|(k & C3)]; [left; exact C3|right; exists k; rewrite L; exact C3].
Qed.
Lemma row_level_get w r o : get r (changed_rows w) = Some o -> row_level w r = r_level o.
Proof. unfold row_level. intros ->. reflexivity. Qed.
Lemma row_level_none w r : get r (changed_rows w) = None -> row_level w r = 0.
Proof. unfold row_level. intros ->. reflexivity. Qed.
Ltac rlev := match goal with |- context [match get ?r (changed_rows ?w) with _ => _ end] => let G := fresh "G" in
  destruct (get r (changed_rows w)) as [?o|] eqn:G; [rewrite (row_level_get _ _ _ G)|rewrite (row_level_none _ _ G)]; reflexivity end.

Lemma row_hidden_ok w r : rows_ok w -> rows_ok (fst (set_row_hidden w r)) /\ forall k, row_level (fst (set_row_hidden w r)) k = row_level w k.
Proof.
  intros H. unfold set_row_hidden. pose proof (kept_krw _ _ (kept_cd w r (get_min_col w))) as K.
  destruct (check_dimensions w r (get_min_col w)) as [w1 [|]]; cbn [fst negb] in *; pose proof (rows_ok_krw _ _ K H) as H1;
    [|split; [exact H1|intros; apply krw_level; exact K]]. cbv zeta.
  edestruct (rows_ok_same w1 r) as [A B]; [exact H1| |split; [exact A|]].
  - rlev.
  - intros k. cbn [fst]. rewrite B. apply krw_level; exact K.
Qed.
Lemma rows_step w o : rows_ok w -> rows_ok (fst (step w o)) /\ forall k, row_level (fst (step w o)) k = row_level w k.
Proof.
  intros H. destruct (is_options o) eqn:E.
  2: { pose proof (kept_krw _ _ (kept_step w o E)) as K. split; [exact (rows_ok_krw _ _ K H)|intros; apply krw_level; exact K]. }
  destruct (match o with SetColumnWidth _ _ _ | SetColumnFormat _ _ | SetColumnHidden _ | SetDefaultRowHeight _ => true | _ => false end) eqn:Q.
  { pose proof (cols_krw w o E Q) as K. split; [exact (rows_ok_krw _ _ K H)|intros; apply krw_level; exact K]. }
  destruct o; try discriminate; cbn [step].
  - unfold set_row_height. destruct (feq h fzero); [apply row_hidden_ok; exact H|]. pose proof (kept_krw _ _ (kept_cd w row (get_min_col w))) as K.
    destruct (check_dimensions w row (get_min_col w)) as [w1 [|]]; cbn [fst negb] in *; pose proof (rows_ok_krw _ _ K H) as H1;
      [|split; [exact H1|intros; apply krw_level; exact K]]. cbv zeta.
    edestruct (rows_ok_same w1 row) as [A B]; [exact H1| |split; [exact A|]]; [rlev|]. intros k. cbn [fst]. rewrite B. apply krw_level; exact K.
  - unfold set_row_format. pose proof (kept_krw _ _ (kept_cd w row (get_min_col w))) as K.
    destruct (check_dimensions w row (get_min_col w)) as [w1 [|]]; cbn [fst negb] in *; pose proof (rows_ok_krw _ _ K H) as H1;
      [|split; [exact H1|intros; apply krw_level; exact K]].
    pose proof (kept_krw _ _ (kept_reg w1 f)) as K2. destruct (reg w1 f) as [w2 i]. cbn [fst] in *. pose proof (krw_trans _ _ _ K K2) as K3.
    pose proof (rows_ok_krw _ _ K3 H) as H2. cbv zeta.
    edestruct (rows_ok_same w2 row) as [A B]; [exact H2| |split; [exact A|]]; [rlev|]. intros k. cbn [fst]. rewrite B. apply krw_level; exact K3.
  - apply row_hidden_ok; exact H.
  - unfold set_row_unhidden. pose proof (kept_krw _ _ (kept_cd w row (get_min_col w))) as K.
    destruct (check_dimensions w row (get_min_col w)) as [w1 [|]]; cbn [fst negb] in *; pose proof (rows_ok_krw _ _ K H) as H1;
      [|split; [exact H1|intros; apply krw_level; exact K]].
    destruct (get row (changed_rows w1)) as [o|] eqn:G; [|split; [exact H1|intros; apply krw_level; exact K]].
    edestruct (rows_ok_same w1 row) as [A B]; [exact H1| |split; [exact A|]]; [rewrite (row_level_get _ _ _ G); reflexivity|]. intros k. cbn [fst]. rewrite B. apply krw_level; exact K.
Qed.

(** *** Grouping *)
Lemma grouped_row_spec w r b w' e : rows_ok w -> set_grouped_row w r b = (w', e) -> rows_ok w' /\ kc w w' /\
  ((e = None /\ forall k, row_level w' k = row_level w k + (if r =? k then 1 else 0)) \/ (e = Some MaxGroupLevel /\ w' = w /\ row_level w r = 7)).
Proof.
  intros [A B (C1 & C2 & C3)]. unfold set_grouped_row. destruct (get r (changed_rows w)) as [o|] eqn:G.
  - pose proof (B r) as Br. rewrite (row_level_get _ _ _ G) in *. destruct (N.ltb_spec 7 (r_level o + 1)) as [H7|H7].
    + intros [= <- <-]. split; [split; auto|]. split; [apply kc_refl|]. right. repeat split. lia.
    + intros [= <- <-].
      assert (L : forall k, row_level (upd_rows w (ins r {| r_height := r_height o; r_xf := r_xf o; r_level := r_level o + 1; r_hidden := r_hidden o || b; r_collapsed := r_collapsed o; r_format := r_format o |} (changed_rows w)) (N.max (r_level o + 1) (max_row_level w))) k = row_level w k + (if r =? k then 1 else 0)).
      { intros k. rewrite row_level_ins. cbn. destruct (N.eqb_spec r k) as [<-|]; [rewrite (row_level_get _ _ _ G); reflexivity|lia]. }
      split; [split|split; [split; reflexivity|left; split; [reflexivity|exact L]]].
      * cbn. apply ins_ok, A.
      * intros k. rewrite L. specialize (B k). destruct (N.eqb_spec r k) as [<-|]; [rewrite (row_level_get _ _ _ G); lia|lia].
      * cbn [max_row_level upd_rows]. split; [lia|]. split.
        -- intros k. rewrite L. specialize (C2 k). destruct (N.eqb_spec r k) as [<-|]; [rewrite (row_level_get _ _ _ G) in *; lia|lia].
        -- right. destruct (N.le_gt_cases (r_level o + 1) (max_row_level w)) as [Hm|Hm].
           ++ destruct C3 as [C3|(k & C3)]; [lia|]. exists k. rewrite L. lia.
           ++ exists r. rewrite L, N.eqb_refl, (row_level_get _ _ _ G). lia.
  - intros [= <- <-]. pose proof (row_level_none _ _ G) as G0.
    assert (L : forall k, row_level (upd_rows w (ins r {| r_height := default_row_height w; r_xf := 0; r_level := 1; r_hidden := b; r_collapsed := false; r_format := None |} (changed_rows w)) (max_row_level w)) k = row_level w k + (if r =? k then 1 else 0)).
    { intros k. rewrite row_level_ins. cbn. destruct (N.eqb_spec r k) as [<-|]; lia. }
    split; [split|split; [split; reflexivity|left; split; [reflexivity|exact L]]].
    + cbn. apply ins_ok, A.
    + intros k. rewrite L. specialize (B k). destruct (N.eqb_spec r k) as [<-|]; lia.
    + cbn [max_row_level upd_rows]. split; [lia|]. split.
      * intros k. rewrite L. specialize (C2 k). destruct (N.eqb_spec r k) as [<-|]; lia.
      * destruct C3 as [C3|(k & C3)]; [left; exact C3|right; exists k; rewrite L; lia].
Qed.
Fixpoint count (k : N) (l : list N) : N := match l with [] => 0 | x :: r => (if x =? k then 1 else 0) + count k r end.
Lemma count_range a b k : count k (range_incl a b) = if (a <=? k) && (k <=? b) then 1 else 0.
Proof.
  assert (G : forall l, NoDup l -> count k l = if existsb (N.eqb k) l then 1 else 0).
  { induction 1 as [|x l Hx Hn IH]; cbn [count existsb]; [reflexivity|]. rewrite IH. destruct (N.eqb_spec x k) as [->|Hne].
    - rewrite N.eqb_refl. cbn. destruct (existsb (N.eqb k) l) eqn:E; [|reflexivity]. apply existsb_exists in E as (y & Hy & E). apply N.eqb_eq in E. subst. contradiction.
    - destruct (N.eqb_spec k x); [congruence|reflexivity]. }
  rewrite (G _ (nodup_range_incl a b)). destruct (existsb (N.eqb k) (range_incl a b)) eqn:E.
  - apply existsb_exists in E as (y & Hy & E). apply N.eqb_eq in E. subst y. apply in_range_incl in Hy.
    destruct (N.leb_spec a k); [|lia]. destruct (N.leb_spec k b); [reflexivity|lia].
  - destruct ((a <=? k) && (k <=? b)) eqn:Q; [|reflexivity]. apply andb_true_iff in Q as [Q1 Q2]. apply N.leb_le in Q1, Q2.
    assert (existsb (N.eqb k) (range_incl a b) = true); [|congruence]. apply existsb_exists. exists k. split; [apply in_range_incl; lia|apply N.eqb_refl].
Qed.
Lemma grouped_rows_spec b l : forall w w' e, rows_ok w -> grouped_rows w l b = (w', e) -> rows_ok w' /\ kc w w' /\
  (e = None -> forall k, row_level w' k = row_level w k + count k l).
Proof.
  induction l as [|r l IH]; intros w w' e H; cbn [grouped_rows count].
  - intros [= <- <-]. split; [exact H|]. split; [apply kc_refl|]. intros _ k. lia.
  - destruct (set_grouped_row w r b) as [w1 e1] eqn:E. apply (grouped_row_spec w r b w1 e1 H) in E as (H1 & K1 & C).
    destruct C as [(-> & L)|(-> & -> & _)].
    + intros E. apply (IH w1 w' e H1) in E as (H2 & K2 & L2). split; [exact H2|]. split; [exact (kc_trans _ _ _ K1 K2)|].
      intros He k. rewrite (L2 He), L. lia.
    + intros [= <- <-]. split; [exact H|]. split; [exact K1|]. discriminate.
Qed.
Lemma set_grouped_rows_spec w fr lr b w' e : rows_ok w -> set_grouped_rows w fr lr b = (w', e) -> rows_ok w' /\ kc w w' /\
  (e = None -> forall k, row_level w' k = row_level w k + (if (fr <=? k) && (k <=? lr) then 1 else 0)).
Proof.
  intros H. unfold set_grouped_rows. cbv zeta. pose proof (kept_cd w fr (get_min_col w)) as K.
  destruct (check_dimensions w fr (get_min_col w)) as [w1 [|]]; cbn [fst negb] in *;
    [|intros [= <- <-]; split; [exact (rows_ok_krw _ _ (kept_krw _ _ K) H)|split; [exact (kept_kc _ _ K)|discriminate]]].
  pose proof (kept_cd w1 lr (get_min_col w)) as K2. destruct (check_dimensions w1 lr (get_min_col w)) as [w2 [|]]; cbn [fst negb] in *;
    pose proof (kept_trans _ _ _ K K2) as K3;
    [|intros [= <- <-]; split; [exact (rows_ok_krw _ _ (kept_krw _ _ K3) H)|split; [exact (kept_kc _ _ K3)|discriminate]]].
  destruct (lr <? fr); [intros [= <- <-]; split; [exact (rows_ok_krw _ _ (kept_krw _ _ K3) H)|split; [exact (kept_kc _ _ K3)|discriminate]]|].
  intros E. apply grouped_rows_spec in E as (H2 & K4 & L); [|exact (rows_ok_krw _ _ (kept_krw _ _ K3) H)].
  split; [exact H2|]. split; [exact (kc_trans _ _ _ (kept_kc _ _ K3) K4)|]. intros He k. rewrite (L He k), count_range. f_equal. apply krw_level, kept_krw, K3.
Qed.
Lemma collapsed_row_spec w r w' e : rows_ok w -> set_collapsed_row w r = (w', e) -> rows_ok w' /\ kc w w' /\ forall k, row_level w' k = row_level w k.
Proof.
  intros H. unfold set_collapsed_row. pose proof (kept_cd w r (get_min_col w)) as K.
  destruct (check_dimensions w r (get_min_col w)) as [w1 [|]]; cbn [fst negb] in *; pose proof (rows_ok_krw _ _ (kept_krw _ _ K) H) as H1;
    [|intros [= <- <-]; split; [exact H1|split; [exact (kept_kc _ _ K)|intros; apply krw_level, kept_krw, K]]]. cbv zeta.
  intros [= <- <-]. edestruct (rows_ok_same w1 r) as [A B]; [exact H1| |split; [exact A|split]]; [rlev| |].
  - exact (kept_kc _ _ K).
  - intros k. rewrite B. apply krw_level, kept_krw, K.
Qed.
Lemma group_rows_spec w fr lr b w' e : rows_ok w -> group_rows w fr lr b = (w', e) -> rows_ok w' /\ kc w w' /\
  (e = None -> forall k, row_level w' k = row_level w k + (if (fr <=? k) && (k <=? lr) then 1 else 0)).
Proof.
  intros H. unfold group_rows. destruct b; [|apply set_grouped_rows_spec; exact H].
  destruct (set_collapsed_row w (lr + 1)) as [w1 [e1|]] eqn:E; apply (collapsed_row_spec w _ _ _ H) in E as (H1 & K1 & L1).
  - intros [= <- <-]. split; [exact H1|]. split; [exact K1|discriminate].
  - intros E2. apply (set_grouped_rows_spec w1 fr lr true w' e H1) in E2 as (H2 & K2 & L2). split; [exact H2|].
    split; [exact (kc_trans _ _ _ K1 K2)|]. intros He k. rewrite (L2 He k), L1. reflexivity.
Qed.

(** columns, in the same way *)
Lemma col_level_ins w r o l k : col_level (upd_cols w (ins r o (changed_cols w)) l) k = if r =? k then c_level o else col_level w k.
Proof. unfold col_level. cbn. rewrite get_ins. destruct (r =? k); reflexivity. Qed.
Lemma grouped_column_spec w c b w' e : cols_ok w -> c < 16384 -> set_grouped_column w c b = (w', e) -> cols_ok w' /\ krw w w' /\
  ((e = None /\ forall k, col_level w' k = col_level w k + (if c =? k then 1 else 0)) \/ (e = Some MaxGroupLevel /\ w' = w /\ col_level w c = 7)).
Proof.
  intros H Hc. unfold set_grouped_column. destruct (get c (changed_cols w)) as [o|] eqn:G.
  - pose proof (cc_lev w H c o G) as B. destruct (N.ltb_spec 7 (c_level o + 1)) as [H7|H7].
    + intros [= <- <-]. split; [exact H|]. split; [apply krw_refl|]. right. rewrite (lvl_get _ _ _ G). repeat split. lia.
    + intros [= <- <-]. split; [|split; [split; reflexivity|left; split; [reflexivity|]]].
      * pose proof (max_le7 w H). apply cols_ok_ins; try assumption; cbn [c_level]; try lia; [exact (cc_w w H c o G)|rewrite (lvl_get _ _ _ G); lia].
      * intros k. rewrite col_level_ins. cbn. destruct (N.eqb_spec c k) as [<-|]; [rewrite (lvl_get _ _ _ G); reflexivity|lia].
  - intros [= <- <-]. pose proof (lvl_none _ _ G) as G0. split; [|split; [split; reflexivity|left; split; [reflexivity|]]].
    + pose proof (max_le7 w H). apply cols_ok_ins; try assumption; cbn [c_level]; try lia. exact I.
    + intros k. rewrite col_level_ins. cbn. destruct (N.eqb_spec c k) as [<-|]; lia.
Qed.
Lemma grouped_columns_spec b l : Forall (fun c => c < 16384) l -> forall w w' e, cols_ok w -> grouped_columns w l b = (w', e) -> cols_ok w' /\ krw w w' /\
  (e = None -> forall k, col_level w' k = col_level w k + count k l).
Proof.
  induction 1 as [|r l Hr Hl IH]; intros w w' e H; cbn [grouped_columns count].
  - intros [= <- <-]. split; [exact H|]. split; [apply krw_refl|]. intros _ k. lia.
  - destruct (set_grouped_column w r b) as [w1 e1] eqn:E. apply (grouped_column_spec w r b w1 e1 H Hr) in E as (H1 & K1 & C).
    destruct C as [(-> & L)|(-> & -> & _)].
    + intros E. apply (IH w1 w' e H1) in E as (H2 & K2 & L2). split; [exact H2|]. split; [exact (krw_trans _ _ _ K1 K2)|].
      intros He k. rewrite (L2 He), L. lia.
    + intros [= <- <-]. split; [exact H|]. split; [exact K1|]. discriminate.
Qed.
Lemma set_grouped_columns_spec w fc lc b w' e : cols_ok w -> set_grouped_columns w fc lc b = (w', e) -> cols_ok w' /\ krw w w' /\
  (e = None -> forall k, col_level w' k = col_level w k + (if (fc <=? k) && (k <=? lc) then 1 else 0)).
Proof.
  intros H. unfold set_grouped_columns. cbv zeta. pose proof (kept_cd w (get_min_row w) fc) as K.
  destruct (check_dimensions w (get_min_row w) fc) as [w1 [|]]; cbn [fst negb] in *;
    [|intros [= <- <-]; split; [exact (cols_ok_kc _ _ (kept_kc _ _ K) H)|split; [exact (kept_krw _ _ K)|discriminate]]].
  pose proof (kept_cd w1 (get_min_row w) lc) as K2. destruct (check_dimensions w1 (get_min_row w) lc) as [w2 [|]] eqn:El; cbn [fst negb] in *;
    pose proof (kept_trans _ _ _ K K2) as K3;
    [|intros [= <- <-]; split; [exact (cols_ok_kc _ _ (kept_kc _ _ K3) H)|split; [exact (kept_krw _ _ K3)|discriminate]]].
  apply cd_limits in El as [_ El].
  destruct (lc <? fc); [intros [= <- <-]; split; [exact (cols_ok_kc _ _ (kept_kc _ _ K3) H)|split; [exact (kept_krw _ _ K3)|discriminate]]|].
  intros E. apply grouped_columns_spec in E as (H2 & K4 & L);
    [|apply Forall_forall; intros x Hx; apply in_range_incl in Hx; lia|exact (cols_ok_kc _ _ (kept_kc _ _ K3) H)].
  split; [exact H2|]. split; [exact (krw_trans _ _ _ (kept_krw _ _ K3) K4)|]. intros He k. rewrite (L He k), count_range. f_equal. apply kc_level, kept_kc, K3.
Qed.
Lemma collapsed_column_spec w c w' e : cols_ok w -> set_collapsed_column w c = (w', e) -> cols_ok w' /\ krw w w' /\ forall k, col_level w' k = col_level w k.
Proof.
  intros H. unfold set_collapsed_column. pose proof (kept_cd w (get_min_row w) c) as K.
  destruct (check_dimensions w (get_min_row w) c) as [w1 [|]] eqn:E; cbn [fst negb] in *; pose proof (cols_ok_kc _ _ (kept_kc _ _ K) H) as H1;
    [|intros [= <- <-]; split; [exact H1|split; [exact (kept_krw _ _ K)|intros; apply kc_level, kept_kc, K]]]. cbv zeta.
  apply cd_limits in E as [_ E]. intros [= <- <-]. split; [|split; [exact (kept_krw _ _ K)|]].
  - apply cols_ok_same_level; [exact H1|exact E| |].
    + destruct (get c (changed_cols w1)) as [o|] eqn:G; [exact (cc_w w1 H1 c o G)|exact I].
    + destruct (get c (changed_cols w1)) as [o|] eqn:G; [rewrite (lvl_get _ _ _ G)|rewrite (lvl_none _ _ G)]; reflexivity.
  - intros k. rewrite col_level_ins, <- (kc_level w w1 k (kept_kc _ _ K)). destruct (N.eqb_spec c k) as [<-|]; [|reflexivity].
    destruct (get c (changed_cols w1)) as [o|] eqn:G; [rewrite (lvl_get _ _ _ G)|rewrite (lvl_none _ _ G)]; reflexivity.
Qed.
Lemma group_columns_spec w fc lc b w' e : cols_ok w -> group_columns w fc lc b = (w', e) -> cols_ok w' /\ krw w w' /\
  (e = None -> forall k, col_level w' k = col_level w k + (if (fc <=? k) && (k <=? lc) then 1 else 0)).
Proof.
  intros H. unfold group_columns. destruct b; [|apply set_grouped_columns_spec; exact H].
  destruct (set_collapsed_column w (lc + 1)) as [w1 [e1|]] eqn:E; apply (collapsed_column_spec w _ _ _ H) in E as (H1 & K1 & L1).
  - intros [= <- <-]. split; [exact H1|]. split; [exact K1|discriminate].
  - intros E2. apply (set_grouped_columns_spec w1 fc lc true w' e H1) in E2 as (H2 & K2 & L2). split; [exact H2|].
    split; [exact (krw_trans _ _ _ K1 K2)|]. intros He k. rewrite (L2 He k), L1. reflexivity.
Qed.

(** *** Whole histories *)
Record opts_ok (s : sheet) : Prop := { oo_c : cols_ok (cells s); oo_r : rows_ok (cells s) }.
Lemma opts_kept s s' : kept (cells s) (cells s') -> opts_ok s -> opts_ok s' /\ (forall k, row_level (cells s') k = row_level (cells s) k) /\ forall k, col_level (cells s') k = col_level (cells s) k.
Proof.
  intros K [A B]. split; [split; [exact (cols_ok_kept _ _ K A)|exact (rows_ok_krw _ _ (kept_krw _ _ K) B)]|].
  split; intros k; [apply krw_level, kept_krw, K|apply kc_level, kept_kc, K].
Qed.
Lemma sstep_opts lower s o s' e : opts_ok s -> sstep lower s o = Some (s', e) -> opts_ok s' /\
  (e = None \/ is_group o = false -> (forall k, row_level (cells s') k = row_level (cells s) k + row_groups k [o]) /\
                    forall k, col_level (cells s') k = col_level (cells s) k + col_groups k [o]).
Proof.
  intros H. assert (G : forall s1, kept (cells s) (cells s1) -> is_group o = false -> opts_ok s1 /\
    (e = None \/ is_group o = false -> (forall k, row_level (cells s1) k = row_level (cells s) k + row_groups k [o]) /\ forall k, col_level (cells s1) k = col_level (cells s) k + col_groups k [o])).
  { intros s1 K Hg. destruct (opts_kept s s1 K H) as (A & B & C). split; [exact A|]. intros _.
    split; intros k; [rewrite B|rewrite C]; destruct o; try discriminate; cbn; lia. }
  destruct o; cbn [sstep].
  - intros [= <- <-]. cbn [cells with_cells]. destruct H as [A B]. destruct (cols_step (cells s) o A) as [A1 A2]. destruct (rows_step (cells s) o B) as [B1 B2].
    split; [split; assumption|]. intros _. split; intros k; [rewrite B2|rewrite A2]; cbn; lia.
  - intros E. apply G; [exact (kept_merge _ _ _ _ _ _ _ _ _ E)|reflexivity].
  - intros E. apply G; [exact (kept_add_table _ _ _ _ _ _ _ _ _ E)|reflexivity].
  - intros E. apply G; [|reflexivity]. apply autofilter_frame in E as (-> & _). apply kept_refl.
  - unfold lift. destruct (group_rows (cells s) fr lr collapsed) as [w1 e1] eqn:E. intros [= <- <-]. cbn [cells with_cells fst snd option_map].
    destruct H as [A B]. apply (group_rows_spec _ _ _ _ _ _ B) in E as (B1 & K & L). split; [split; [exact (cols_ok_kc _ _ K A)|exact B1]|].
    intros [He|He]; [|discriminate]. destruct e1; [discriminate|]. split; intros k; [rewrite (L eq_refl k); cbn; lia|].
    rewrite (kc_level _ _ k K). cbn. lia.
  - unfold lift. destruct (group_columns (cells s) fc lc collapsed) as [w1 e1] eqn:E. intros [= <- <-]. cbn [cells with_cells fst snd option_map].
    destruct H as [A B]. apply (group_columns_spec _ _ _ _ _ _ A) in E as (B1 & K & L). split; [split; [exact B1|exact (rows_ok_krw _ _ K B)]|].
    intros [He|He]; [|discriminate]. destruct e1; [discriminate|]. split; intros k; [|rewrite (L eq_refl k); cbn; lia].
    rewrite (krw_level _ _ k K). cbn. lia.
  - destruct (page_breaks _ _ _ _) as [[b0 e0]|]; [|discriminate]. intros [= <- <-]. apply G; [apply kept_refl|reflexivity].
  - destruct (page_breaks _ _ _ _) as [[b0 e0]|]; [|discriminate]. intros [= <- <-]. apply G; [apply kept_refl|reflexivity].
Qed.
Lemma opts_run lower ops : forall s s', opts_ok s -> srun lower s ops = Some s' -> opts_ok s'.
Proof.
  induction ops as [|o ops IH]; intros s s' H; cbn [srun]; [intros [= <-]; exact H|].
  destruct (sstep lower s o) as [[s1 e]|] eqn:E; [|discriminate]. apply IH. exact (proj1 (sstep_opts lower s o s1 e H E)).
Qed.
Lemma levels_run lower ops : forall s s', opts_ok s -> groups_accepted lower s ops -> srun lower s ops = Some s' ->
  (forall k, row_level (cells s') k = row_level (cells s) k + row_groups k ops) /\
  forall k, col_level (cells s') k = col_level (cells s) k + col_groups k ops.
Proof.
  induction ops as [|o ops IH]; intros s s' H; cbn [srun groups_accepted].
  - intros _ [= <-]. split; intros k; cbn; lia.
  - intros (s1 & e & E & Hg & Hr). rewrite E. intros Hs. destruct (sstep_opts lower s o s1 e H E) as [H1 L].
    assert (Q : e = None \/ is_group o = false) by (destruct (is_group o); [left; auto|right; reflexivity]).
    destruct (L Q) as [L1 L2]. destruct (IH s1 s' H1 Hr Hs) as [M1 M2].
    split; intros k; [rewrite M1, L1|rewrite M2, L2]; destruct o; cbn; lia.
Qed.
Lemma opts_new cmem inl gsst regs t : opts_ok (sheet_new (ws_new cmem inl gsst regs t)).
Proof.
  split; split; cbn; try discriminate; try constructor; unfold row_level, col_level; cbn; try lia; (split; [intros; lia|left; reflexivity]).
Qed.
