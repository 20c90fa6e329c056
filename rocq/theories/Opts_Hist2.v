(** The stored settings of rows and columns are those the accepted calls said: groups and rows. *)
From Verif Require Import Base Note_Spec SMap F64 Fmt_Model Sst_Model Ref_Model Opts_Spec Cells_Model Cells_Proofs Sheet_Model Sheet_Spec Opts_Frame Sheet_Proofs Sheet_Proofs2 Sheet_Proofs3 Props_Group Opts_Hist.

Lemma xfs_cd w r c : xfs (fst (check_dimensions w r c)) = xfs w.
Proof. unfold check_dimensions. destruct (_ <=? _); [reflexivity|]. destruct (_ <=? _); [reflexivity|]. cbv zeta. destruct (_ || _); reflexivity. Qed.

(** ** Groups of columns *)
Lemma grouped_columns_more l b : forall w w' e, grouped_columns w l b = (w', e) -> xfs w' = xfs w /\ default_row_height w' = default_row_height w /\
  (e = None -> forall k, present k (changed_cols w') = present k (changed_cols w) || existsb (N.eqb k) l).
Proof.
  induction l as [|c l IH]; intros w w' e; cbn [grouped_columns].
  { intros H. assert (w' = w) by congruence. subst w'. split; [reflexivity|]. split; [reflexivity|]. intros _ k. cbn [existsb]. rewrite orb_false_r. reflexivity. }
  assert (S : forall w1 e1, set_grouped_column w c b = (w1, e1) -> xfs w1 = xfs w /\ default_row_height w1 = default_row_height w /\ (e1 = None -> forall k, present k (changed_cols w1) = present k (changed_cols w) || (k =? c))).
  { intros w1 e1. unfold set_grouped_column, present. destruct (get c (changed_cols w)) as [o|] eqn:G.
    - cbv zeta. destruct (7 <? c_level o + 1); intros H.
      + assert (w1 = w) by congruence. subst w1. split; [reflexivity|]. split; [reflexivity|]. intros; congruence.
      + match type of H with (?x, _) = _ => assert (E : x = w1) by congruence; rewrite <- E end. split; [reflexivity|]. split; [reflexivity|]. intros _ k. cbn [changed_cols upd_cols]. rewrite get_ins, (N.eqb_sym k c).
        destruct (N.eqb_spec c k) as [<-|]; [rewrite orb_true_r; reflexivity|rewrite orb_false_r; reflexivity].
    - intros H. match type of H with (?x, _) = _ => assert (E : x = w1) by congruence; rewrite <- E end. split; [reflexivity|]. split; [reflexivity|]. intros _ k. cbn [changed_cols upd_cols]. rewrite get_ins, (N.eqb_sym k c).
      destruct (N.eqb_spec c k) as [<-|]; [rewrite orb_true_r; reflexivity|rewrite orb_false_r; reflexivity]. }
  destruct (set_grouped_column w c b) as [w1 [e1|]] eqn:E; destruct (S _ _ eq_refl) as (S1 & S2 & S3).
  - intros H. assert (w' = w1) by congruence. subst w'. split; [exact S1|]. split; [exact S2|]. intros; congruence.
  - intros H. destruct (IH _ _ _ H) as (A & B & C). split; [congruence|]. split; [congruence|]. intros He k. rewrite (C He k), (S3 eq_refl k). cbn [existsb]. rewrite <- orb_assoc. reflexivity.
Qed.
Lemma group_columns_more w fc lc b w' e : group_columns w fc lc b = (w', e) -> grows w w' /\ default_row_height w' = default_row_height w /\
  (e = None -> forall k, present k (changed_cols w') = present k (changed_cols w) || (within fc k lc || (b && (k =? lc + 1)))).
Proof.
  assert (G : forall w w' e, set_grouped_columns w fc lc b = (w', e) -> grows w w' /\ default_row_height w' = default_row_height w /\
    (e = None -> forall k, present k (changed_cols w') = present k (changed_cols w) || within fc k lc)).
  { clear. intros w w' e. unfold set_grouped_columns. cbv zeta. pose proof (kept_cd w (get_min_row w) fc) as K1.
    destruct (check_dimensions w (get_min_row w) fc) as [w1 [|]]; cbn [negb fst] in *; [|intros H; assert (w' = w1) by congruence; subst; split; [apply kept_grows, K1|split; [apply K1|intros; congruence]]].
    pose proof (kept_cd w1 (get_min_row w) lc) as K2. destruct (check_dimensions w1 (get_min_row w) lc) as [w2 [|]]; cbn [negb fst] in *; pose proof (kept_trans _ _ _ K1 K2) as K;
      [|intros H; assert (w' = w2) by congruence; subst; split; [apply kept_grows, K|split; [apply K|intros; congruence]]].
    destruct (lc <? fc); [intros H; assert (w' = w2) by congruence; subst; split; [apply kept_grows, K|split; [apply K|intros; congruence]]|].
    intros H. destruct (grouped_columns_more _ _ _ _ _ H) as (A & B & C). split; [destruct (kept_grows _ _ K) as [l E]; exists l; congruence|]. split; [rewrite B; apply K|].
    intros He k. rewrite (C He k), in_range. unfold present. rewrite (k_cols _ _ K). reflexivity. }
  unfold group_columns. destruct b; [|intros H; destruct (G _ _ _ H) as (A & B & C); split; [exact A|split; [exact B|]]; intros He k; rewrite (C He k), orb_false_r; reflexivity].
  unfold set_collapsed_column. pose proof (kept_cd w (get_min_row w) (lc + 1)) as K1. destruct (check_dimensions w (get_min_row w) (lc + 1)) as [w1 [|]]; cbn [negb fst] in *.
  2:{ intros H; assert (w' = w1) by congruence; subst; split; [apply kept_grows, K1|split; [apply K1|intros; congruence]]. }
  cbv zeta. set (w2 := upd_cols _ _ _). intros H. destruct (G _ _ _ H) as (A & B & C).
  split; [eapply grows_trans; [apply kept_grows, K1|exact A]|]. split; [rewrite B; unfold w2; cbn [default_row_height upd_cols]; apply K1|].
  intros He k. rewrite (C He k). unfold present, w2. cbn [changed_cols upd_cols]. rewrite get_ins, (k_cols _ _ K1), (N.eqb_sym k). cbn [andb]. destruct (N.eqb_spec (lc + 1) k) as [<-|].
  - rewrite !orb_true_r. reflexivity.
  - rewrite orb_false_r. reflexivity.
Qed.
Lemma group_cols_told w fc lc b w' c h : group_columns w fc lc b = (w', None) -> col_told w c h -> col_told w' c (h ++ [SGroupColumns fc lc b]).
Proof.
  intros E [T1 T2 T3 T4 T5]. destruct (group_columns_more _ _ _ _ _ _ E) as (G & _ & P). specialize (P eq_refl c).
  destruct (C55_group_columns _ _ _ _ _ E) as (_ & S & _). specialize (S c). fold (within fc c lc) in S. split; rewrite S, ?P; cbn [grouped_col c_width c_xf c_level c_hidden c_collapsed c_autofit].
  - unfold told_width in *. rewrite fold_snoc, T1. reflexivity.
  - unfold told_col_hidden in *. rewrite existsb_snoc, T2. cbn [hides_col]. rewrite (andb_comm b). reflexivity.
  - unfold told_col_level in *. rewrite fold_snoc, T3. destruct (within fc c lc); [reflexivity|apply N.add_0_r].
  - unfold told_col_collapsed in *. rewrite existsb_snoc, T4. reflexivity.
  - unfold told_col_format in *. rewrite last_of_snoc. destruct (last_of _ None h) as [f|]; [exact (grows_nth _ _ _ _ G T5)|exact T5].
Qed.

(** ** Rows *)
Record row_told (w : ws) (r : N) (h : list sop) : Prop := {
  rt_height : fold_left (next_height r) h (None, f_of_N 15) = (match get r (changed_rows w) with Some o => Some (r_height o) | None => None end, default_row_height w);
  rt_hidden : r_hidden (row_settings w r) = told_row_hidden r h;
  rt_level : r_level (row_settings w r) = told_row_level r h;
  rt_coll : r_collapsed (row_settings w r) = told_row_collapsed r h;
  rt_xf : match told_row_format r h with None => r_xf (row_settings w r) = 0 | Some f => nth_error (xfs w) (N.to_nat (r_xf (row_settings w r))) = Some f end }.
(** Settings but for the height, which of an unconfigured row is the default height. *)
Definition row_rest (w : ws) (r : N) : N * N * bool * bool := let o := row_settings w r in (r_xf o, r_level o, r_hidden o, r_collapsed o).
Lemma rest_none w r : get r (changed_rows w) = None -> row_rest w r = (0, 0, false, false).
Proof. intros E. unfold row_rest, row_settings. rewrite E. reflexivity. Qed.
Definition quiet_default (o : sop) : bool := match o with SCell (SetDefaultRowHeight _) => false | _ => true end.
Definition shows_row (r : N) (o : sop) : bool := match o with SCell (SetRowUnhidden k) => k =? r | _ => false end.
Lemma quiet_row w w' r h o : get r (changed_rows w') = get r (changed_rows w) -> default_row_height w' = default_row_height w -> grows w w' ->
  about_row r o = false -> shows_row r o = false -> quiet_default o = true -> row_told w r h -> row_told w' r (h ++ [o]).
Proof.
  intros E D G A U Q [T1 T2 T3 T4 T5].
  assert (S : row_settings w' r = row_settings w r) by (unfold row_settings; rewrite E, D; reflexivity).
  split; rewrite ?S, ?E, ?D.
  - rewrite fold_snoc, T1. unfold next_height. destruct o as [[]| | | | | | |]; try discriminate Q; rewrite ?A; try (destruct (get r (changed_rows w)); reflexivity);
      cbn [about_row] in A; rewrite A; cbn [andb]; destruct (get r (changed_rows w)); reflexivity.
  - unfold told_row_hidden in *. rewrite last_of_snoc. destruct o as [[]| | | | | | |]; try exact T2; cbn [about_row shows_row] in A, U; rewrite ?A, ?U; try exact T2.
    apply orb_false_iff in A as [A _]. rewrite A, andb_false_r. exact T2.
  - unfold told_row_level in *. rewrite fold_snoc. destruct o; try exact T3. cbn [about_row] in A. apply orb_false_iff in A as [A _]. rewrite A. exact T3.
  - unfold told_row_collapsed in *. rewrite existsb_snoc, T4. destruct o; rewrite ?orb_false_r; try reflexivity. cbn [about_row] in A. apply orb_false_iff in A as [_ A]. rewrite A, orb_false_r. reflexivity.
  - unfold told_row_format in *. rewrite last_of_snoc.
    assert (K : (match o with SCell (SetRowFormat k f) => if k =? r then Some (Some f) else None | _ => None end) = None).
    { destruct o as [[]| | | | | | |]; try reflexivity. cbn [about_row] in A. rewrite A. reflexivity. }
    rewrite K. destruct (last_of _ None h) as [f|]; [exact (grows_nth _ _ _ _ G T5)|exact T5].
Qed.
Lemma rejected_row w w' r h : get r (changed_rows w') = get r (changed_rows w) -> default_row_height w' = default_row_height w -> grows w w' -> row_told w r h -> row_told w' r h.
Proof.
  intros E D G [T1 T2 T3 T4 T5]. assert (S : row_settings w' r = row_settings w r) by (unfold row_settings; rewrite E, D; reflexivity).
  split; rewrite ?S, ?E, ?D; try assumption. destruct (told_row_format r h); [exact (grows_nth _ _ _ _ G T5)|exact T5].
Qed.
Lemma default_told w d r h : row_told w r h -> row_told (fst (step w (SetDefaultRowHeight d))) r (h ++ [SCell (SetDefaultRowHeight d)]).
Proof.
  intros [T1 T2 T3 T4 T5]. unfold step. match goal with |- row_told ?x _ _ => set (w' := x) end.
  assert (X : changed_rows w' = changed_rows w /\ xfs w' = xfs w /\ default_row_height w' = if fle d fzero then default_row_height w else d) by (unfold w'; destruct (fle d fzero); repeat split).
  destruct X as (X1 & X2 & X3).
  assert (S : r_hidden (row_settings w' r) = r_hidden (row_settings w r) /\ r_level (row_settings w' r) = r_level (row_settings w r) /\
              r_collapsed (row_settings w' r) = r_collapsed (row_settings w r) /\ r_xf (row_settings w' r) = r_xf (row_settings w r)).
  { unfold row_settings. rewrite X1. destruct (get r (changed_rows w)); repeat split. }
  destruct S as (S1 & S2 & S3 & S4). split; rewrite ?S1, ?S2, ?S3, ?S4, ?X1, ?X2, ?X3.
  - rewrite fold_snoc, T1. reflexivity.
  - unfold told_row_hidden in *. rewrite last_of_snoc. exact T2.
  - unfold told_row_level in *. rewrite fold_snoc. exact T3.
  - unfold told_row_collapsed in *. rewrite existsb_snoc, T4, orb_false_r. reflexivity.
  - unfold told_row_format in *. rewrite last_of_snoc. exact T5.
Qed.

(** One accepted call about row [k] that stores the settings [o]. *)
Definition row_update (w w' : ws) (k : N) (o : rowopt) : Prop :=
  get k (changed_rows w') = Some o /\ (forall r, r <> k -> get r (changed_rows w') = get r (changed_rows w)) /\ default_row_height w' = default_row_height w /\ grows w w'.
Lemma update_upd w w1 k o l : kept w w1 -> row_update w (upd_rows w1 (ins k o (changed_rows w1)) l) k o.
Proof.
  intros K. split; [cbn [changed_rows upd_rows]; rewrite get_ins, N.eqb_refl; reflexivity|]. split; [|split; [apply K|exact (kept_grows _ _ K)]].
  intros r Hr. cbn [changed_rows upd_rows]. rewrite get_ins, (k_rows _ _ K). destruct (N.eqb_spec k r); [congruence|reflexivity].
Qed.
Lemma told_update w w' k o r h call : row_update w w' k o -> about_row r call = (k =? r) -> shows_row r call = false -> quiet_default call = true -> is_group call = false -> row_told w r h ->
  (k = r -> fst (next_height r (match get r (changed_rows w) with Some o => Some (r_height o) | None => None end, default_row_height w) call) = Some (r_height o) /\
     r_hidden o = told_row_hidden r (h ++ [call]) /\ r_level o = r_level (row_settings w r) /\ r_collapsed o = r_collapsed (row_settings w r) /\
     match call with SCell (SetRowFormat _ f) => nth_error (xfs w') (N.to_nat (r_xf o)) = Some f | _ => r_xf o = r_xf (row_settings w r) end) ->
  row_told w' r (h ++ [call]).
Proof.
  intros (U1 & U2 & U3 & U4) A V Q NG T H. destruct (N.eqb_spec k r) as [->|Hn].
  2:{ apply (quiet_row w); try assumption. apply U2. congruence. }
  specialize (H eq_refl). destruct H as (H1 & H2 & H3 & H4 & H5). destruct T as [T1 T2 T3 T4 T5].
  assert (S : row_settings w' r = o) by (unfold row_settings; rewrite U1; reflexivity). split; rewrite ?S, ?U1, ?U3.
  - rewrite fold_snoc, T1, <- H1. destruct call as [[]| | | | | | |]; try discriminate Q; reflexivity.
  - exact H2.
  - rewrite H3, T3. unfold told_row_level. rewrite fold_snoc. destruct call; try reflexivity. discriminate NG.
  - rewrite H4, T4. unfold told_row_collapsed. rewrite existsb_snoc. destruct call; rewrite ?orb_false_r; try reflexivity. discriminate NG.
  - unfold told_row_format in *. rewrite last_of_snoc.
    assert (K : (exists f, call = SCell (SetRowFormat r f)) \/ (match call with SCell (SetRowFormat k f) => if k =? r then Some (Some f) else None | _ => None end) = None /\ forall j f, call <> SCell (SetRowFormat j f)).
    { destruct call as [[]| | | | | | |]; try (right; split; [reflexivity|intros; discriminate]). cbn [about_row] in A. left. exists f. apply N.eqb_eq in A. subst row. reflexivity. }
    destruct K as [[f ->]|[-> K]]; [rewrite N.eqb_refl; exact H5|].
    assert (H6 : r_xf o = r_xf (row_settings w r)) by (destruct call as [[]| | | | | | |]; try exact H5; edestruct K; reflexivity).
    rewrite H6. destruct (last_of _ None h) as [f|]; [exact (grows_nth _ _ _ _ U4 T5)|exact T5].
Qed.
