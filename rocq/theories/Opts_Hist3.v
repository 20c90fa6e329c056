(** The stored settings of rows are those the accepted calls said. *)
From Verif Require Import Base Note_Spec SMap F64 Fmt_Model Sst_Model Ref_Model Opts_Spec Cells_Model Cells_Proofs Sheet_Model Sheet_Spec Opts_Frame Sheet_Proofs Sheet_Proofs2 Sheet_Proofs3 Props_Group Opts_Hist Opts_Hist2.

Definition row_after (w : ws) (r : N) (h : list sop) (call : sop) (res : ws * option error) : Prop :=
  (snd res = None /\ row_told (fst res) r (h ++ [call])) \/ (snd res <> None /\ row_told (fst res) r h).
Lemma kept_row_told w w' r h : kept w w' -> row_told w r h -> row_told w' r h.
Proof. intros K. apply rejected_row; [rewrite (k_rows _ _ K); reflexivity|apply K|exact (kept_grows _ _ K)]. Qed.

Lemma row_height_told w k u r h : feq u fzero = false -> row_told w r h -> row_after w r h (SCell (SetRowHeight k u)) (set_row_height w k u).
Proof.
  intros Z T. unfold row_after, set_row_height. rewrite Z. pose proof (kept_cd w k (get_min_col w)) as K.
  destruct (check_dimensions w k (get_min_col w)) as [w1 [|]]; cbn [negb fst snd] in *; [|right; split; [discriminate|exact (kept_row_told _ _ _ _ K T)]].
  left. split; [reflexivity|]. cbv zeta. eapply told_update; [exact (update_upd _ _ _ _ _ K)|reflexivity..|exact T|]. intros <-.
  rewrite (k_rows _ _ K). unfold told_row_hidden. rewrite last_of_snoc, Z, andb_false_r. fold (told_row_hidden k h). rewrite <- (rt_hidden _ _ _ T).
  unfold row_settings. cbn [next_height about_row]. rewrite N.eqb_refl, Z. cbn [negb andb fst].
  destruct (get k (changed_rows w)) as [o|]; repeat split; reflexivity.
Qed.
Lemma row_hidden_told w k r h call : match call with SCell (SetRowHidden j) => j = k | SCell (SetRowHeight j u) => j = k /\ feq u fzero = true | _ => False end ->
  row_told w r h -> row_after w r h call (set_row_hidden w k).
Proof.
  intros C T. unfold row_after, set_row_hidden. pose proof (kept_cd w k (get_min_col w)) as K.
  destruct (check_dimensions w k (get_min_col w)) as [w1 [|]]; cbn [negb fst snd] in *; [|right; split; [discriminate|exact (kept_row_told _ _ _ _ K T)]].
  left. split; [reflexivity|]. cbv zeta. 
  destruct call as [[]| | | | | | |]; try contradiction.
  - destruct C as [-> Z]. eapply told_update; [exact (update_upd _ _ _ _ _ K)|reflexivity..|exact T|]. intros <-.
    rewrite (k_rows _ _ K), (k_h _ _ K). unfold told_row_hidden. rewrite last_of_snoc, N.eqb_refl, Z. cbn [andb].
    unfold row_settings. cbn [next_height about_row]. rewrite N.eqb_refl, Z. cbn [negb andb fst].
    destruct (get k (changed_rows w)) as [o|]; repeat split; reflexivity.
  - subst row. eapply told_update; [exact (update_upd _ _ _ _ _ K)|reflexivity..|exact T|]. intros <-.
    rewrite (k_rows _ _ K), (k_h _ _ K). unfold told_row_hidden. rewrite last_of_snoc, N.eqb_refl.
    unfold row_settings. cbn [next_height about_row]. rewrite N.eqb_refl. cbn [negb andb fst].
    destruct (get k (changed_rows w)) as [o|]; repeat split; reflexivity.
Qed.
Lemma row_format_told w k f r h : row_told w r h -> row_after w r h (SCell (SetRowFormat k f)) (set_row_format w k f).
Proof.
  intros T. unfold row_after, set_row_format. pose proof (kept_cd w k (get_min_col w)) as K0.
  destruct (check_dimensions w k (get_min_col w)) as [w1 [|]]; cbn [negb fst snd] in *; [|right; split; [discriminate|exact (kept_row_told _ _ _ _ K0 T)]].
  left. pose proof (kept_reg w1 f) as K1. destruct (reg w1 f) as [w2 i] eqn:R. cbn [fst snd] in *. pose proof (kept_trans _ _ _ K0 K1) as K. apply reg_nth in R.
  split; [reflexivity|]. cbv zeta. eapply told_update; [exact (update_upd _ _ _ _ _ K)|reflexivity..|exact T|]. intros <-.
  rewrite (k_rows _ _ K), (k_h _ _ K). unfold told_row_hidden. rewrite last_of_snoc. fold (told_row_hidden k h). rewrite <- (rt_hidden _ _ _ T).
  unfold row_settings. cbn [next_height about_row]. rewrite N.eqb_refl. cbn [negb andb fst xfs upd_rows].
  destruct (get k (changed_rows w)) as [o|]; repeat split; try reflexivity; exact R.
Qed.
(** Showing a row that was never configured changes nothing. *)
Lemma row_shown_told w k r h : row_told w r h -> row_after w r h (SCell (SetRowUnhidden k)) (set_row_unhidden w k).
Proof.
  intros T. unfold row_after, set_row_unhidden. pose proof (kept_cd w k (get_min_col w)) as K.
  destruct (check_dimensions w k (get_min_col w)) as [w1 [|]]; cbn [negb fst snd] in *; [|right; split; [discriminate|exact (kept_row_told _ _ _ _ K T)]].
  left. rewrite (k_rows _ _ K).
  assert (Q : forall w', get r (changed_rows w') = get r (changed_rows w) -> default_row_height w' = default_row_height w -> grows w w' ->
     (k = r -> get r (changed_rows w) = None) -> row_told w' r (h ++ [SCell (SetRowUnhidden k)])).
  { clear - T. intros w' E D G H. pose proof (rejected_row w w' r h E D G T) as [T1 T2 T3 T4 T5].
    split; try assumption.
    - rewrite fold_snoc, T1. unfold next_height. cbn [about_row]. destruct (get r (changed_rows w')); reflexivity.
    - unfold told_row_hidden in *. rewrite last_of_snoc. destruct (N.eqb_spec k r) as [e|]; [|exact T2]. unfold row_settings. rewrite E, (H e). reflexivity.
    - unfold told_row_level in *. rewrite fold_snoc. exact T3.
    - unfold told_row_collapsed in *. rewrite existsb_snoc, T4, orb_false_r. reflexivity.
    - unfold told_row_format in *. rewrite last_of_snoc. exact T5. }
  destruct (get k (changed_rows w)) as [o|] eqn:G0; cbn [fst snd]; (split; [reflexivity|]).
  2:{ apply Q; [rewrite (k_rows _ _ K); reflexivity|apply K|exact (kept_grows _ _ K)|congruence]. }
  pose proof (update_upd w w1 k {| r_height := r_height o; r_xf := r_xf o; r_level := r_level o; r_hidden := false; r_collapsed := r_collapsed o; r_format := r_format o |} (max_row_level w1) K) as U.
  rewrite (k_rows _ _ K) in U. destruct U as (U1 & U2 & U3 & U4).
  destruct (N.eq_dec k r) as [<-|Hn]; [|apply Q; [apply U2; congruence|exact U3|exact U4|contradiction]].
  set (w' := upd_rows w1 _ _) in *. destruct T as [T1 T2 T3 T4 T5].
  assert (S : row_settings w' k = {| r_height := r_height o; r_xf := r_xf o; r_level := r_level o; r_hidden := false; r_collapsed := r_collapsed o; r_format := r_format o |})
    by (unfold row_settings; rewrite U1; reflexivity).
  assert (S0 : row_settings w k = o) by (unfold row_settings; rewrite G0; reflexivity). rewrite S0, ?G0 in *.
  split; rewrite ?S, ?U1, ?U3; cbn [r_height r_xf r_level r_hidden r_collapsed].
  - rewrite fold_snoc, T1. reflexivity.
  - unfold told_row_hidden. rewrite last_of_snoc, N.eqb_refl. reflexivity.
  - unfold told_row_level in *. rewrite fold_snoc. exact T3.
  - unfold told_row_collapsed in *. rewrite existsb_snoc, T4, orb_false_r. reflexivity.
  - unfold told_row_format in *. rewrite last_of_snoc. destruct (last_of _ None h) as [f|]; [exact (grows_nth _ _ _ _ U4 T5)|exact T5].
Qed.

(** ** Row groups *)
Lemma grouped_rows_more l b : forall w w' e, grouped_rows w l b = (w', e) -> grows w w' /\ default_row_height w' = default_row_height w /\
  (e = None -> forall k, present k (changed_rows w') = present k (changed_rows w) || existsb (N.eqb k) l).
Proof.
  induction l as [|c l IH]; intros w w' e; cbn [grouped_rows].
  { intros H. assert (w' = w) by congruence. subst w'. split; [exact (grows_refl w)|]. split; [reflexivity|]. intros _ k. cbn [existsb]. rewrite orb_false_r. reflexivity. }
  assert (S : forall w1 e1, set_grouped_row w c b = (w1, e1) -> grows w w1 /\ default_row_height w1 = default_row_height w /\ (e1 = None -> forall k, present k (changed_rows w1) = present k (changed_rows w) || (k =? c))).
  { clear. intros w1 e1. unfold set_grouped_row. destruct (get c (changed_rows w)) as [o|] eqn:G; [destruct (7 <? r_level o + 1)|]; intros H;
      [assert (w1 = w) by congruence; assert (e1 = Some MaxGroupLevel) by congruence; subst; split; [exact (grows_refl w)|split; [reflexivity|discriminate]]|..];
      (match type of H with (?a, _) = _ => assert (w1 = a) by congruence end; subst w1; split; [exact (grows_refl w)|split; [reflexivity|]]; intros _ k;
       unfold present; cbn [changed_rows upd_rows]; rewrite get_ins, (N.eqb_sym k c); destruct (N.eqb_spec c k) as [<-|]; [rewrite orb_true_r; reflexivity|rewrite orb_false_r; reflexivity]). }
  destruct (set_grouped_row w c b) as [w1 [e1|]] eqn:E; destruct (S _ _ eq_refl) as (S1 & S2 & S3).
  - intros H. assert (w' = w1) by congruence. subst w'. split; [exact S1|]. split; [exact S2|]. intros; congruence.
  - intros H. destruct (IH _ _ _ H) as (A & B & C). split; [exact (grows_trans _ _ _ S1 A)|]. split; [congruence|]. intros He k. rewrite (C He k), (S3 eq_refl k). cbn [existsb]. rewrite <- orb_assoc. reflexivity.
Qed.
Lemma group_rows_more w fr lr b w' e : group_rows w fr lr b = (w', e) -> grows w w' /\ default_row_height w' = default_row_height w /\
  (e = None -> forall k, present k (changed_rows w') = present k (changed_rows w) || (within fr k lr || (b && (k =? lr + 1)))).
Proof.
  assert (G : forall w w' e, set_grouped_rows w fr lr b = (w', e) -> grows w w' /\ default_row_height w' = default_row_height w /\
    (e = None -> forall k, present k (changed_rows w') = present k (changed_rows w) || within fr k lr)).
  { clear. intros w w' e. unfold set_grouped_rows. cbv zeta. pose proof (kept_cd w fr (get_min_col w)) as K1.
    destruct (check_dimensions w fr (get_min_col w)) as [w1 [|]]; cbn [negb fst] in *; [|intros H; assert (w' = w1) by congruence; subst; split; [apply kept_grows, K1|split; [apply K1|intros; congruence]]].
    pose proof (kept_cd w1 lr (get_min_col w)) as K2. destruct (check_dimensions w1 lr (get_min_col w)) as [w2 [|]]; cbn [negb fst] in *; pose proof (kept_trans _ _ _ K1 K2) as K;
      [|intros H; assert (w' = w2) by congruence; subst; split; [apply kept_grows, K|split; [apply K|intros; congruence]]].
    destruct (lr <? fr); [intros H; assert (w' = w2) by congruence; subst; split; [apply kept_grows, K|split; [apply K|intros; congruence]]|].
    intros H. destruct (grouped_rows_more _ _ _ _ _ H) as (A & B & C). split; [exact (grows_trans _ _ _ (kept_grows _ _ K) A)|]. split; [rewrite B; apply K|].
    intros He k. rewrite (C He k), in_range. unfold present. rewrite (k_rows _ _ K). reflexivity. }
  unfold group_rows. destruct b; [|intros H; destruct (G _ _ _ H) as (A & B & C); split; [exact A|split; [exact B|]]; intros He k; rewrite (C He k), orb_false_r; reflexivity].
  unfold set_collapsed_row. pose proof (kept_cd w (lr + 1) (get_min_col w)) as K1. destruct (check_dimensions w (lr + 1) (get_min_col w)) as [w1 [|]]; cbn [negb fst] in *.
  2:{ intros H; assert (w' = w1) by congruence; subst; split; [apply kept_grows, K1|split; [apply K1|intros; congruence]]. }
  cbv zeta. set (w2 := upd_rows _ _ _). intros H. destruct (G _ _ _ H) as (A & B & C).
  split; [eapply grows_trans; [apply kept_grows, K1|exact A]|]. split; [rewrite B; unfold w2; cbn [default_row_height upd_rows]; apply K1|].
  intros He k. rewrite (C He k). unfold present, w2. cbn [changed_rows upd_rows]. rewrite get_ins, (k_rows _ _ K1), (N.eqb_sym k). cbn [andb]. destruct (N.eqb_spec (lr + 1) k) as [<-|].
  - rewrite !orb_true_r. reflexivity.
  - rewrite orb_false_r. reflexivity.
Qed.
Lemma group_rows_told w fr lr b w' r h : group_rows w fr lr b = (w', None) -> row_told w r h -> row_told w' r (h ++ [SGroupRows fr lr b]).
Proof.
  intros E [T1 T2 T3 T4 T5]. destruct (group_rows_more _ _ _ _ _ _ E) as (G & D & P). specialize (P eq_refl r).
  destruct (C55_group_rows _ _ _ _ _ E) as (_ & S & _). specialize (S r). fold (within fr r lr) in S. split; rewrite ?S, ?D; cbn [grouped_row r_height r_xf r_level r_hidden r_collapsed].
  - rewrite fold_snoc, T1. unfold next_height. cbn [about_row]. unfold present in P. unfold row_settings in S.
    destruct (get r (changed_rows w)) as [o|], (get r (changed_rows w')) as [o'|]; cbn [orb] in P; try discriminate P; try rewrite <- P; f_equal; try (rewrite S; reflexivity).
  - unfold told_row_hidden in *. rewrite last_of_snoc, T2, (andb_comm b). destruct (within fr r lr && b); [apply orb_true_r|apply orb_false_r].
  - unfold told_row_level in *. rewrite fold_snoc, T3. destruct (within fr r lr); [reflexivity|apply N.add_0_r].
  - unfold told_row_collapsed in *. rewrite existsb_snoc, T4. reflexivity.
  - unfold told_row_format in *. rewrite last_of_snoc. destruct (last_of _ None h) as [f|]; [exact (grows_nth _ _ _ _ G T5)|exact T5].
Qed.
