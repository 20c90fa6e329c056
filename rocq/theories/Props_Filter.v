(** C40 (rows hidden by an autofilter) and C50 (the filter stored in the file). *)
From Verif Require Import Base SMap F64 Fmt_Model Cells_Model Cells_Proofs Cells_Hist Date_Parse Book_Model Book_Spec
  Filter_Model Filter_Spec Filter_Proofs.
From Coq Require Import Sorted.

(** Filter conditions are built by these calls. *)
Inductive bcall := BList (v : fvalue) | BBlanks | BCustom (k : criteria) (v : fvalue) | BOr.
Definition bstep num_text (c : fcond) (b : bcall) : fcond :=
  match b with BList v => add_list_filter num_text c v | BBlanks => add_list_blanks_filter c
             | BCustom k v => add_custom_filter num_text c k v | BOr => add_custom_boolean_or c end.
Definition build num_text (l : list bcall) : fcond := fold_left (bstep num_text) l fcond_new.
Definition built_ops num_text (ops : list fop) : Prop :=
  forall col c, In (FFilterColumn col c) ops -> exists l, c = build num_text l.

(** What a condition contains after any sequence of builder calls. *)
Definition list_of num_text (l : list bcall) : list fdata :=
  flat_map (fun b => match b with BList v => [new_filter_data num_text v EqualTo] | _ => [] end) l.
Definition customs_of num_text (l : list bcall) : list fdata :=
  flat_map (fun b => match b with BCustom k v => [new_filter_data num_text v k] | _ => [] end) l.
Definition is_list_call (b : bcall) : bool := match b with BList _ | BBlanks => true | _ => false end.
Lemma build_snoc nt l b : build nt (l ++ [b]) = bstep nt (build nt l) b.
Proof. unfold build. rewrite fold_left_app. reflexivity. Qed.

Lemma customs_app nt a b : customs_of nt (a ++ b) = customs_of nt a ++ customs_of nt b.
Proof. apply flat_map_app. Qed.
Lemma list_app nt a b : list_of nt (a ++ b) = list_of nt a ++ list_of nt b.
Proof. apply flat_map_app. Qed.

Theorem C40_condition_builder nt l : let c := build nt l in
  list_values c = list_of nt l /\
  (should_match_blanks c = true <-> In BBlanks l) /\
  opt_list (custom1 c) ++ opt_list (custom2 c) = firstn 2 (customs_of nt l) /\ (custom1 c = None -> custom2 c = None) /\
  (is_list_filter c = match rev l with [] => true | b :: _ => is_list_call b end) /\
  (apply_logical_or c = false <-> exists pre k v post, l = pre ++ BCustom k v :: post /\ length (customs_of nt pre) = 1%nat /\ ~ In BOr post).
Proof.
  induction l as [|b l IH] using rev_ind.
  - cbn. repeat split; try reflexivity; try contradiction; try discriminate. intros (pre & k & v & post & E & _). destruct pre; discriminate.
  - rewrite build_snoc. set (c := build nt l) in *. clearbody c. cbv zeta in *. destruct IH as (I1 & I2 & I3 & I4 & I5 & I6).
    rewrite list_app, customs_app, rev_app_distr. cbn [rev app list_of customs_of flat_map].
    assert (Hb : In BBlanks (l ++ [b]) <-> In BBlanks l \/ b = BBlanks) by (rewrite in_app_iff; cbn; intuition).
    assert (Hor : forall x, b <> x -> True) by auto. clear Hor.
    assert (Hstep : (forall k v, b = BCustom k v -> False) -> b <> BOr ->
      ((exists pre k v post, l = pre ++ BCustom k v :: post /\ length (customs_of nt pre) = 1%nat /\ ~ In BOr post) <->
       (exists pre k v post, l ++ [b] = pre ++ BCustom k v :: post /\ length (customs_of nt pre) = 1%nat /\ ~ In BOr post))).
    { intros H1 H2. split.
      - intros (pre & k & v & post & -> & A & B). exists pre, k, v, (post ++ [b]). rewrite <- app_assoc. split; [reflexivity|]. split; [exact A|].
        rewrite in_app_iff. cbn. intuition.
      - intros (pre & k & v & post & E & A & B). destruct post as [|x post _] using rev_ind.
        + apply app_inj_tail in E as [_ ->]. exfalso. eapply H1. reflexivity.
        + rewrite app_comm_cons, app_assoc in E. apply app_inj_tail in E as [-> <-]. exists pre, k, v, post. split; [reflexivity|]. split; [exact A|].
          intros Hx. apply B, in_app_iff. left. exact Hx. }
    destruct b as [v| |k v|]; cbn [bstep].
    + cbn [add_list_filter list_values should_match_blanks custom1 custom2 is_list_filter apply_logical_or is_list_call].
      rewrite !app_nil_r, I1, I2, Hb. split; [reflexivity|]. split; [intuition discriminate|]. split; [exact I3|]. split; [exact I4|]. split; [reflexivity|].
      rewrite I6. apply Hstep; [intros; discriminate|discriminate].
    + cbn [add_list_blanks_filter list_values should_match_blanks custom1 custom2 is_list_filter apply_logical_or is_list_call].
      rewrite !app_nil_r, I1, Hb. split; [reflexivity|]. split; [intuition|]. split; [exact I3|]. split; [exact I4|]. split; [reflexivity|].
      rewrite I6. apply Hstep; [intros; discriminate|discriminate].
    + rewrite app_nil_r. unfold add_custom_filter. destruct (custom1 c) as [a1|] eqn:E1.
      * destruct (custom2 c) as [a2|] eqn:E2; cbn [list_values should_match_blanks custom1 custom2 is_list_filter apply_logical_or is_list_call];
          rewrite I1, I2, Hb; (split; [reflexivity|]); (split; [intuition discriminate|]); cbn [opt_list app] in I3.
        -- remember (customs_of nt l) as cs eqn:Ecs. destruct cs as [|y1 [|y2 cs]]; try discriminate I3. split; [cbn in *; exact I3|].
           split; [discriminate|]. split; [reflexivity|]. rewrite I6. split.
           ++ intros (pre & k' & v' & post & El & A & B). exists pre, k', v', (post ++ [BCustom k v]). rewrite El, <- app_assoc. split; [reflexivity|].
              split; [exact A|]. rewrite in_app_iff. cbn. intuition discriminate.
           ++ intros (pre & k' & v' & post & El & A & B). destruct post as [|x post _] using rev_ind.
              ** exfalso. apply app_inj_tail in El as [-> _]. rewrite <- Ecs in A. discriminate A.
              ** rewrite app_comm_cons, app_assoc in El. apply app_inj_tail in El as [-> <-]. exists pre, k', v', post. split; [reflexivity|]. split; [exact A|].
                 intros Hx. apply B, in_app_iff. left. exact Hx.
        -- remember (customs_of nt l) as cs eqn:Ecs. assert (Hc1 : cs = [a1]). { destruct cs as [|y1 [|y2 cs]]; cbn in I3; [discriminate I3|congruence|discriminate I3]. }
           rewrite Hc1. split; [reflexivity|]. split; [discriminate|]. split; [reflexivity|]. split; [|reflexivity]. intros _.
           exists l, k, v, []. split; [reflexivity|]. split; [rewrite <- Ecs, Hc1; reflexivity|intros []].
      * rewrite (I4 eq_refl) in *. cbn [list_values should_match_blanks custom1 custom2 is_list_filter apply_logical_or is_list_call].
        rewrite I1, I2, Hb. split; [reflexivity|]. split; [intuition discriminate|]. cbn [opt_list app] in I3.
        remember (customs_of nt l) as cs eqn:Ecs. assert (Hc1 : cs = []). { destruct cs as [|y1 [|y2 cs]]; cbn in I3; [reflexivity|discriminate I3..]. }
        rewrite Hc1. split; [reflexivity|]. split; [discriminate|]. split; [reflexivity|]. rewrite I6. split.
        -- intros (pre & k' & v' & post & El & A & B). exfalso. rewrite Ecs, El, customs_app in Hc1. apply app_eq_nil in Hc1 as [Hc1 _].
           rewrite Hc1 in A. discriminate.
        -- intros (pre & k' & v' & post & El & A & B). exfalso. destruct post as [|x post _] using rev_ind.
           ++ apply app_inj_tail in El as [-> _]. rewrite <- Ecs, Hc1 in A. discriminate.
           ++ rewrite app_comm_cons, app_assoc in El. apply app_inj_tail in El as [El _]. rewrite Ecs, El, customs_app in Hc1.
              apply app_eq_nil in Hc1 as [Hc1 _]. rewrite Hc1 in A. discriminate.
    + cbn [add_custom_boolean_or list_values should_match_blanks custom1 custom2 is_list_filter apply_logical_or is_list_call].
      rewrite !app_nil_r, I1, I2, Hb. split; [reflexivity|]. split; [intuition discriminate|]. split; [exact I3|]. split; [exact I4|]. split; [reflexivity|].
      split; [discriminate|]. intros (pre & k & v & post & E & A & B). exfalso. destruct post as [|x post _] using rev_ind.
      * apply app_inj_tail in E as [_ E]. discriminate.
      * rewrite app_comm_cons, app_assoc in E. apply app_inj_tail in E as [_ <-]. apply B, in_app_iff. right. left. reflexivity.
Qed.
Print Assumptions C40_condition_builder.

(** ** Histories *)
Record fstate_ok nt (ops : list fop) (s : fsheet) : Prop := {
  k_ws : exists cops, f_ws s = run ws_standard cops;
  k_name : f_name s = range_after (rev ops);
  k_good : forall fr fc lr lc, f_name s = Some (fr, fc, lr, lc) -> good4 fr fc lr lc;
  k_ok : SMap.ok (f_conds s);
  k_conds : forall col, get col (f_conds s) = condition_after (rev ops) col;
  k_built : forall col c, get col (f_conds s) = Some c -> exists l, c = build nt l;
  k_cols : forall col c, get col (f_conds s) = Some c -> in_columns col (f_name s) = true;
  k_off : f_off s = true <-> filtering_off ops;
  k_area : (forall fr fc lr lc, ~ In (FAutofilter fr fc lr lc true) ops) -> f_area s = f_name s }.

Lemma range_incl_In a b x : In x (range_incl a b) <-> a <= x <= b.
Proof.
  unfold range_incl. rewrite in_map_iff. split.
  - intros (i & <- & H). apply in_seq in H. lia.
  - intros H. exists (N.to_nat (x - a)). split; [lia|]. apply in_seq. lia.
Qed.
Lemma std_dims cops : dims_ok (run ws_standard cops).
Proof.
  destruct (std_run cops ws_standard std_start) as [_ M]. pose proof (m_fc _ _ M) as L. unfold dims_ok. exact L.
Qed.
Lemma good4b_ok fr fc lr lc : good4b fr fc lr lc = true <-> good4 fr fc lr lc.
Proof. unfold good4b, good4. rewrite !andb_true_iff, !N.leb_le, !N.ltb_lt. tauto. Qed.

Section H.
Variables (lower : str -> str) (nt : f64 -> str).
Definition hidden_by (ops : list fop) (w : ws) (r : N) : Prop :=
  ~ filtering_off ops /\ exists fr fc lr lc col c, range_after (rev ops) = Some (fr, fc, lr, lc) /\ fr < r <= lr /\
    condition_after (rev ops) col = Some c /\ ~ passes lower c (seen_in w r col).
Lemma save_step ops s : fstate_ok nt ops s -> exists l, Forall (fun r => r < ROW_MAX) l /\
  fstep lower s FSave = Some (with_ws s (run (f_ws s) (hidings l)), None) /\ (forall r, In r l <-> hidden_by ops (f_ws s) r).
Proof.
  intros K. destruct (k_ws _ _ _ K) as [cops Ew]. cbn [fstep]. unfold hide_autofilter_rows.
  assert (Hid : with_ws s (f_ws s) = s) by (destruct s; reflexivity).
  destruct (f_conds s) as [|[c0 d0] cr] eqn:Ec.
  { exists []. cbn [obind hidings map run fold_left]. rewrite Hid. split; [constructor|]. split; [reflexivity|]. intros r. split; [contradiction|].
    intros (_ & fr & fc & lr & lc & col & c & _ & _ & Hc & _). rewrite <- (k_conds _ _ _ K), Ec in Hc. discriminate. }
  destruct (f_off s) eqn:Eo.
  { exists []. cbn [obind hidings map run fold_left]. rewrite Hid. split; [constructor|]. split; [reflexivity|]. intros r. split; [contradiction|].
    intros (Hn & _). exfalso. apply Hn, (k_off _ _ _ K). exact Eo. }
  rewrite <- Ec.
  assert (Hn0 : get c0 (f_conds s) = Some d0) by (rewrite Ec; cbn [get]; rewrite N.eqb_refl; reflexivity).
  destruct (f_name s) as [[[[fr fc] lr] lc]|] eqn:En.
  2: { assert (X := k_cols _ _ _ K c0 d0 Hn0). rewrite En in X. discriminate. }
  assert (Hg := k_good _ _ _ K fr fc lr lc En). destruct Hg as (G1 & G2 & G3 & G4).
  destruct (hide_columns_run lower (range_incl (fr + 1) lr) (f_conds s) (f_ws s)) as (l & El & Hl & Il).
  { rewrite Ew. apply std_dims. }
  { apply Forall_forall. intros x Hx. apply range_incl_In in Hx. unfold ROW_MAX. lia. }
  exists l. split; [exact Hl|]. rewrite El. cbn [obind]. split; [reflexivity|]. intros r. rewrite Il, range_incl_In. unfold hidden_by.
  rewrite <- (k_name _ _ _ K), En. split.
  - intros (Hr & col & c & Hin & Hm). split; [intros X; apply (k_off _ _ _ K) in X; congruence|].
    exists fr, fc, lr, lc, col, c. split; [reflexivity|]. split; [lia|]. apply In_get in Hin; [|exact (k_ok _ _ _ K)].
    split; [rewrite <- (k_conds _ _ _ K); exact Hin|]. destruct (k_built _ _ _ K _ _ Hin) as [bl ->].
    destruct (C40_condition_builder nt bl) as (_ & _ & _ & B & _). rewrite <- (matches_ok lower _ _ _ _ B). congruence.
  - intros (_ & fr' & fc' & lr' & lc' & col & c & E & Hr & Hc & Hp). assert (fr' = fr /\ lr' = lr) as [-> ->] by (injection E; auto).
    split; [lia|]. rewrite <- (k_conds _ _ _ K) in Hc. exists col, c. split; [apply get_In; exact Hc|].
    destruct (k_built _ _ _ K _ _ Hc) as [bl ->]. destruct (C40_condition_builder nt bl) as (_ & _ & _ & B & _).
    rewrite <- (matches_ok lower _ _ _ _ B) in Hp. destruct (row_matches _ _ _ _ _); congruence.
Qed.

Lemma frun_snoc s ops o : frun lower s (ops ++ [o]) = (q <- frun lower s ops ;; x <- fstep lower q o ;; Some (fst x)).
Proof.
  revert s. induction ops as [|a ops IH]; intros s; cbn [frun app obind].
  - destruct (fstep lower s o); reflexivity.
  - destruct (fstep lower s a); cbn [obind]; [apply IH|reflexivity].
Qed.
Lemma run_app w a b : run w (a ++ b) = run (run w a) b.
Proof. apply fold_left_app. Qed.

Lemma frun_ok ops : built_ops nt ops -> exists s, frun lower (fsheet_new ws_standard) ops = Some s /\ fstate_ok nt ops s.
Proof.
  induction ops as [|o ops IH] using rev_ind; intros Hb.
  { eexists. split; [reflexivity|]. split; cbn; try discriminate; try (intros; discriminate); try reflexivity.
    - exists []. reflexivity.
    - constructor.
    - split; [discriminate|intros []]. }
  destruct IH as (s & Es & K). { intros col c Hi. apply (Hb col c). apply in_app_iff. left. exact Hi. }
  rewrite frun_snoc, Es. cbn [obind]. destruct K as [Kws Kn Kg Kok Kc Kb Kcol Koff Ka].
  assert (HoffO : filtering_off (ops ++ [o]) <-> filtering_off ops \/ o = FAutomaticOff).
  { unfold filtering_off. rewrite in_app_iff. cbn. intuition. }
  assert (HaO : (forall fr fc lr lc, ~ In (FAutofilter fr fc lr lc true) (ops ++ [o])) ->
    (forall fr fc lr lc, ~ In (FAutofilter fr fc lr lc true) ops) /\ forall fr fc lr lc, o <> FAutofilter fr fc lr lc true).
  { intros H. split; [intros fr fc lr lc Hi|intros fr fc lr lc ->]; apply (H fr fc lr lc), in_app_iff; [left; exact Hi|right; left; reflexivity]. }
  destruct o as [o|fr fc lr lc ovl|col c| |].
  - cbn [fstep obind fst]. eexists. split; [reflexivity|]. split; cbn [f_ws f_name f_conds f_off f_area with_ws]; try rewrite rev_app_distr; cbn [rev app range_after condition_after]; try assumption.
    + destruct Kws as [cops ->]. exists (cops ++ [o]). rewrite run_app. reflexivity.
    + rewrite HoffO, Koff. intuition discriminate.
    + intros H. apply Ka, HaO, H.
  - cbn [fstep]. assert (Hg : good4b fr fc lr lc = negb (negb (check_dimensions_only fr fc) || negb (check_dimensions_only lr lc)) && negb ((lr <? fr) || (lc <? fc))).
    { unfold good4b, check_dimensions_only, ROW_MAX, COL_MAX. clear.
      destruct (N.leb_spec fr lr), (N.leb_spec fc lc), (N.ltb_spec lr 1048576), (N.ltb_spec lc 16384), (N.ltb_spec fr 1048576),
        (N.ltb_spec fc 16384), (N.ltb_spec lr fr), (N.ltb_spec lc fc); cbn; try reflexivity; exfalso; lia. }
    assert (Hrej : good4b fr fc lr lc = false -> fstate_ok nt (ops ++ [FAutofilter fr fc lr lc ovl]) s).
    { intros E. split; try rewrite rev_app_distr; cbn [rev app range_after condition_after]; rewrite ?E; try assumption.
      - rewrite HoffO, Koff. intuition discriminate.
      - intros H. apply Ka, HaO, H. }
    destruct (negb (check_dimensions_only fr fc) || negb (check_dimensions_only lr lc)); [cbn [obind fst]; eexists; split; [reflexivity|]; apply Hrej; exact Hg|].
    destruct ((lr <? fr) || (lc <? fc)); [cbn [obind fst]; eexists; split; [reflexivity|]; apply Hrej; exact Hg|].
    cbn [negb andb] in Hg.
    assert (Hacc : forall area, (ovl = false -> area = Some (fr, fc, lr, lc)) ->
       fstate_ok nt (ops ++ [FAutofilter fr fc lr lc ovl]) {| f_ws := f_ws s; f_name := Some (fr, fc, lr, lc); f_area := area; f_conds := []; f_off := f_off s |}).
    { intros area Har. split; cbn [f_ws f_name f_conds f_off f_area]; try rewrite rev_app_distr; cbn [rev app range_after condition_after]; rewrite ?Hg; try assumption; try reflexivity.
      - intros a b d e E. injection E as <- <- <- <-. apply good4b_ok. exact Hg.
      - constructor.
      - intros ? ?; discriminate.
      - intros ? ?; discriminate.
      - rewrite HoffO, Koff. intuition discriminate.
      - intros H. apply Har. destruct ovl; [|reflexivity]. exfalso. apply HaO in H as [_ H]. eapply H. reflexivity. }
    destruct ovl; cbn [obind fst]; eexists; (split; [reflexivity|]); apply Hacc; intros; [discriminate|reflexivity].
  - cbn [fstep].
    assert (Hrej : has_condition c && in_columns col (f_name s) = false -> fstate_ok nt (ops ++ [FFilterColumn col c]) s).
    { intros E. split; try rewrite rev_app_distr; cbn [rev app range_after condition_after]; try assumption.
      - intros col'. rewrite <- Kn, Kc. destruct (N.eqb_spec col col') as [->|]; [|reflexivity]. cbn [andb]. rewrite E. reflexivity.
      - rewrite HoffO, Koff. intuition discriminate.
      - intros H. apply Ka, HaO, H. }
    destruct (N.leb_spec COL_MAX col) as [Hm|Hm].
    { cbn [obind fst]. eexists. split; [reflexivity|]. apply Hrej. destruct (f_name s) as [[[[fr fc] lr] lc]|]; [|apply andb_false_r].
      destruct (Kg _ _ _ _ eq_refl) as (G1 & G2 & G3 & G4). cbn [in_columns]. unfold COL_MAX in Hm. destruct (N.leb_spec col lc); [lia|]. rewrite !andb_false_r. reflexivity. }
    destruct (f_name s) as [[[[fr fc] lr] lc]|] eqn:En; [|cbn [obind fst]; eexists; split; [reflexivity|]; apply Hrej, andb_false_r].
    cbn [in_columns] in Hrej. assert (Hc2 : (fc <=? col) && (col <=? lc) = negb ((col <? fc) || (lc <? col))).
    { clear. destruct (N.leb_spec fc col), (N.leb_spec col lc), (N.ltb_spec col fc), (N.ltb_spec lc col); cbn; try reflexivity; lia. }
    rewrite Hc2 in Hrej. destruct ((col <? fc) || (lc <? col)); [cbn [obind fst]; eexists; split; [reflexivity|]; apply Hrej, andb_false_r|].
    cbn [negb] in *. rewrite andb_true_r in Hrej.
    assert (Hacc : has_condition c = true -> fstate_ok nt (ops ++ [FFilterColumn col c])
        {| f_ws := f_ws s; f_name := Some (fr, fc, lr, lc); f_area := f_area s; f_conds := ins col c (f_conds s); f_off := f_off s |}).
    { intros E. split; cbn [f_ws f_name f_conds f_off f_area]; try rewrite rev_app_distr; cbn [rev app range_after condition_after]; try assumption.
      - apply ins_ok. exact Kok.
      - intros col'. rewrite get_ins, <- Kn. destruct (N.eqb_spec col col') as [->|]; [|rewrite Kc; reflexivity].
        cbn [andb in_columns]. rewrite E, Hc2. reflexivity.
      - intros col' c' E'. rewrite get_ins in E'. destruct (N.eqb_spec col col') as [->|]; [|eapply Kb; exact E'].
        injection E' as <-. apply (Hb col' c). apply in_app_iff. right. left. reflexivity.
      - intros col' c' E'. rewrite get_ins in E'. destruct (N.eqb_spec col col') as [->|]; [exact Hc2|eapply Kcol; exact E'].
      - rewrite HoffO, Koff. intuition discriminate.
      - intros H. apply Ka, HaO, H. }
    unfold has_condition in Hacc, Hrej. destruct (list_values c), (custom1 c), (should_match_blanks c); cbn [obind fst]; eexists; (split; [reflexivity|]); auto.
  - cbn [fstep obind fst]. eexists. split; [reflexivity|]. split; cbn [f_ws f_name f_conds f_off f_area]; try rewrite rev_app_distr; cbn [rev app range_after condition_after]; try assumption.
    + split; [intros _; apply HoffO; right; reflexivity|reflexivity].
    + intros H. apply Ka, HaO, H.
  - destruct (save_step ops s) as (l & _ & El & _); [split; assumption|]. rewrite El. cbn [obind fst]. eexists. split; [reflexivity|].
    split; cbn [f_ws f_name f_conds f_off f_area with_ws]; try rewrite rev_app_distr; cbn [rev app range_after condition_after]; try assumption.
    + destruct Kws as [cops ->]. exists (cops ++ hidings l). rewrite run_app. reflexivity.
    + rewrite HoffO, Koff. intuition discriminate.
    + intros H. apply Ka, HaO, H.
Qed.

(** ** C40 *)

(** After any history of cell writes, autofilter and filter_column calls and earlier
    saves: saving succeeds and hides exactly the data rows of the filter range of
    which some filtered column fails its condition (rows already hidden stay so);
    cells, columns and the other row settings are untouched. *)
Theorem C40_rows_hidden_exactly ops : built_ops nt ops ->
  exists s s', frun lower (fsheet_new ws_standard) ops = Some s /\ fstep lower s FSave = Some (s', None) /\
    (forall r, hidden (f_ws s') r = true <-> hidden (f_ws s) r = true \/ hidden_by ops (f_ws s) r) /\
    data (f_ws s') = data (f_ws s) /\ changed_cols (f_ws s') = changed_cols (f_ws s) /\
    (forall r o, get r (changed_rows (f_ws s)) = Some o -> exists o', get r (changed_rows (f_ws s')) = Some o' /\ r_height o' = r_height o /\
       r_xf o' = r_xf o /\ r_level o' = r_level o /\ r_collapsed o' = r_collapsed o /\ r_format o' = r_format o).
Proof.
  intros Hb. destruct (frun_ok ops Hb) as (s & Es & K). destruct (save_step ops s K) as (l & Hl & El & Il). exists s. eexists. split; [exact Es|].
  split; [exact El|]. cbn [with_ws f_ws]. destruct (k_ws _ _ _ K) as [cops Ew].
  destruct (hidings_frame l (f_ws s)) as (_ & D2 & D3 & _ & D5 & D6); [rewrite Ew; apply std_dims|exact Hl|].
  split; [|auto]. intros r. rewrite D5, orb_true_iff, existsb_exists, <- Il. split.
  - intros [A|(x & Hx & E)]; [left; exact A|right]. apply N.eqb_eq in E. subst. exact Hx.
  - intros [A|A]; [left; exact A|right]. exists r. split; [exact A|apply N.eqb_refl].
Qed.
End H.
Print Assumptions C40_rows_hidden_exactly.

Definition low (s : str) : str := map ascii_lower s.
Definition ntx (x : f64) : str := lit "7".
Definition text_at r c s := FCell (WriteString r c (lit s) None).
Definition num_at r c n := FCell (WriteNumber r c (f_of_N n) None).
Definition hidden_rows (o : option fsheet) (n : nat) : list N :=
  match o with Some s => filter (hidden (f_ws s)) (map N.of_nat (seq 0 n)) | None => [] end.
Example C40_example : let ops := [text_at 0 0 "Region"; text_at 1 0 "East"; text_at 2 0 " EAST "; text_at 3 0 "West"; num_at 4 0 7;
    num_at 1 1 3; num_at 2 1 9; num_at 3 1 9; FAutofilter 0 0 5 1 false;
    FFilterColumn 0 (build ntx [BList (FText (lit "east")); BList (FNumber (f_of_N 7)); BBlanks]);
    FFilterColumn 1 (build ntx [BCustom GreaterThan (FNumber (f_of_N 2)); BCustom LessThan (FNumber (f_of_N 5))])] in
  built_ops ntx ops /\ hidden_rows (frun low (fsheet_new ws_standard) (ops ++ [FSave])) 8 = [2; 3; 4; 5].
Proof.
  cbv zeta. split; [|vm_compute; reflexivity]. intros col c H. cbn [In] in H.
  repeat (destruct H as [H|H]; [try discriminate H; injection H as <- <-; eexists; reflexivity|]). contradiction.
Qed.

(** Finding: the documented "non blanks" filter ([<> " "]) hides numeric cells. *)
Theorem C40_non_blanks_refuted : let ops := [num_at 1 0 5; FAutofilter 0 0 1 0 false; FFilterColumn 0 (build ntx [BCustom NotEqualTo (FText (lit " "))])] in
  exists s, frun low (fsheet_new ws_standard) (ops ++ [FSave]) = Some s /\ seen_in (f_ws s) 1 0 = SNum (f_of_N 5) /\ hidden (f_ws s) 1 = true.
Proof. eexists. split; [vm_compute; reflexivity|]. split; vm_compute; reflexivity. Qed.
Print Assumptions C40_non_blanks_refuted.
(** Finding: a row hidden by the first save stays hidden by the second even if its
    data was changed to match in between. *)
Theorem C40_stale_hidden_refuted : let ops := [text_at 1 0 "a"; FAutofilter 0 0 1 0 false; FFilterColumn 0 (build ntx [BList (FText (lit "b"))]);
    FSave; text_at 1 0 "b"] in
  exists s s', frun low (fsheet_new ws_standard) ops = Some s /\ fstep low s FSave = Some (s', None) /\
    ~ hidden_by low ops (f_ws s) 1 /\ hidden (f_ws s') 1 = true.
Proof.
  eexists _, _. split; [vm_compute; reflexivity|]. split; [vm_compute; reflexivity|]. split; [|vm_compute; reflexivity].
  intros (_ & fr & fc & lr & lc & col & c & Hr & _ & Hc & Hp). apply Hp. cbn [rev app text_at condition_after range_after] in Hc.
  change ((if (0 =? col) && true && in_columns col (Some (0, 0, 1, 0)) then Some (build ntx [BList (FText (lit "b"))]) else None) = Some c) in Hc.
  destruct (N.eqb_spec 0 col) as [<-|]; [|discriminate]. injection Hc as <-. left. eexists. split; [left; reflexivity|]. reflexivity.
Qed.
Print Assumptions C40_stale_hidden_refuted.

(** ** C50: the filter in the file *)

Lemma columns_ok m fc lc (conds : smap fcond) : fc <= lc -> lc < 16384 -> (forall col c, In (col, c) conds -> fc <= col <= lc) ->
  write_columns m fc conds = Some (map (fun p => (fst p - fc, write_filter_column (snd p))) conds).
Proof.
  intros H1 H2. induction conds as [|[col c] r IH]; intros H; [reflexivity|]. cbn [write_columns map fst snd].
  assert (Hc : fc <= col <= lc) by (apply (H col c); left; reflexivity).
  assert (E : sub16 m col fc = Some (col - fc)).
  { unfold sub16, wrapN. change (2 ^ Z.of_N 16)%Z with 65536%Z.
    destruct (Z.leb_spec 0 (Z.of_N col - Z.of_N fc)); [|lia]. destruct (Z.ltb_spec (Z.of_N col - Z.of_N fc) 65536); [|lia].
    cbn [andb]. f_equal. lia. }
  rewrite E. cbn [obind]. rewrite IH by (intros; eapply H; right; eassumption). reflexivity.
Qed.

(** What a <filterColumn> says, read back. *)
Definition describes (c : fcond) (e : filter_el) : Prop :=
  match e with
  | EFilters blank vals => is_list_filter c = true /\ blank = should_match_blanks c /\ vals = map d_string (list_values c)
  | ECustom cj fs => is_list_filter c = false /\ cj = negb (apply_logical_or c) /\
      length fs = length (opt_list (custom1 c) ++ opt_list (custom2 c)) /\
      forall i d f, nth_error (opt_list (custom1 c) ++ opt_list (custom2 c)) i = Some d -> nth_error fs i = Some f -> f = custom_el d
  end.
(** With no autofilter call rejected for overlapping a table: the element has the
    range in force and one filterColumn per filtered column, in increasing order,
    numbered from the first column of the range. *)
Theorem C50_autofilter_element lower nt m ops s : built_ops nt ops ->
  (forall fr fc lr lc, ~ In (FAutofilter fr fc lr lc true) ops) -> frun lower (fsheet_new ws_standard) ops = Some s ->
  match range_after (rev ops) with
  | None => write_auto_filter m s = Some None
  | Some (fr, fc, lr, lc) => exists l, write_auto_filter m s = Some (Some (fr, fc, lr, lc, l)) /\
      StronglySorted N.lt (map fst l) /\
      (forall id e, In (id, e) l -> id <= lc - fc /\ exists c, condition_after (rev ops) (fc + id) = Some c /\ describes c e) /\
      (forall col c, condition_after (rev ops) col = Some c -> fc <= col <= lc /\ exists e, In (col - fc, e) l /\ describes c e)
  end.
Proof.
  intros Hb Hno Es. destruct (frun_ok lower nt ops Hb) as (s0 & Es0 & K). assert (s0 = s) by congruence. subst s0.
  unfold write_auto_filter. rewrite (k_area _ _ _ K Hno). assert (Kn := k_name _ _ _ K). rewrite <- Kn.
  destruct (f_name s) as [[[[fr fc] lr] lc]|] eqn:En; [|reflexivity].
  destruct (k_good _ _ _ K _ _ _ _ En) as (G1 & G2 & G3 & G4).
  assert (Hcol : forall col c, In (col, c) (f_conds s) -> fc <= col <= lc).
  { intros col c Hi. apply In_get in Hi; [|exact (k_ok _ _ _ K)]. assert (X := k_cols _ _ _ K _ _ Hi). rewrite En in X. cbn [in_columns] in X.
    rewrite andb_true_iff, !N.leb_le in X. exact X. }
  rewrite (columns_ok m fc lc) by assumption. cbn [obind]. eexists. split; [reflexivity|].
  assert (Hd : forall c, describes c (write_filter_column c)).
  { intros c. unfold write_filter_column. destruct (is_list_filter c) eqn:El; cbn [describes]; [auto|]. split; [exact El|]. split; [reflexivity|].
    rewrite map_length. split; [reflexivity|]. intros i d f H1 H2. rewrite nth_error_map, H1 in H2. cbn in H2. congruence. }
  split; [|split].
  - rewrite map_map. cbn [fst]. assert (Hok := k_ok _ _ _ K). unfold SMap.ok, keys in Hok. revert Hok Hcol. clear. induction (f_conds s) as [|[c d] r IH]; intros H Hcol; [constructor|].
    cbn [map fst] in *. inversion H as [|? ? H1 H2]; subst. constructor.
    + apply IH; [exact H1|]. intros; eapply Hcol; right; eassumption.
    + apply Forall_forall. intros x Hx. apply in_map_iff in Hx as ([c' d'] & <- & Hin). cbn [fst]. rewrite Forall_forall in H2.
      assert (c < c') by (apply H2, in_map_iff; exists (c', d'); auto). assert (X := Hcol c d (or_introl eq_refl)). assert (Y := Hcol c' d' (or_intror Hin)). lia.
  - intros id e Hi. apply in_map_iff in Hi as ([col c] & E & Hin). cbn [fst snd] in E. assert (X := Hcol _ _ Hin).
    assert (E1 : col - fc = id) by congruence. assert (E2 : write_filter_column c = e) by congruence. split; [lia|]. exists c.
    replace (fc + id) with col by lia. split; [rewrite <- (k_conds _ _ _ K); apply In_get; [exact (k_ok _ _ _ K)|exact Hin]|rewrite <- E2; apply Hd].
  - intros col c Hc. rewrite <- (k_conds _ _ _ K) in Hc. apply get_In in Hc. split; [exact (Hcol _ _ Hc)|]. exists (write_filter_column c).
    split; [apply in_map_iff; exists (col, c); auto|apply Hd].
Qed.
Print Assumptions C50_autofilter_element.

(** The stored pattern means the comparison asked for, for texts without the
    wildcard characters. *)
Definition file_holds (f : option str * str) (t : str) : Prop :=
  match fst f with None => wild (snd f) t | Some o => o = lit "notEqual" /\ ~ wild (snd f) t end.
Definition is_pattern (k : criteria) : bool :=
  match k with EqualTo | NotEqualTo | BeginsWith | DoesNotBeginWith | EndsWith | DoesNotEndWith | Contains | DoesNotContain => true | _ => false end.
Lemma plain_cons c s : plain (c :: s) -> c <> 42 /\ c <> 63 /\ c <> 126 /\ plain s.
Proof. unfold plain. cbn [In]. intuition congruence. Qed.
Lemma wild_plain s : plain s -> forall p t, wild (s ++ p) t <-> exists r, t = s ++ r /\ wild p r.
Proof.
  induction s as [|c s IH]; intros Hp p t; cbn [app].
  - split; [intros H; exists t; auto|intros (r & -> & H); exact H].
  - apply plain_cons in Hp as (H1 & H2 & H3 & Hp). split.
    + intros H. inversion H; subst; try contradiction. apply IH in H9 as (r & -> & Hr); [|exact Hp]. exists r. auto.
    + intros (r & -> & Hr). apply w_char; try assumption. apply IH; [exact Hp|]. exists r. auto.
Qed.
Lemma wild_star p t : wild (42 :: p) t <-> exists a b, t = a ++ b /\ wild p b.
Proof.
  split.
  - intros H. remember (42 :: p) as q eqn:Eq. induction H as [|q t H _|q c t H IH|q c t H _|c q t H _|c q t N1 N2 N3 H _].
    + discriminate.
    + assert (q = p) by congruence. subst q. exists [], t. auto.
    + destruct (IH Eq) as (a & b & -> & Hb). exists (c :: a), b. auto.
    + discriminate.
    + discriminate.
    + exfalso. apply N1. congruence.
  - intros (a & b & -> & H). induction a as [|c a IH]; [apply w_star0; exact H|]. apply w_star. exact IH.
Qed.
Lemma wild_all t : wild [42] t.
Proof. apply wild_star. exists t, []. rewrite app_nil_r. split; [reflexivity|constructor]. Qed.
Lemma wild_nil t : wild [] t <-> t = [].
Proof. split; [intros H; inversion H; reflexivity|intros ->; constructor]. Qed.
Theorem C50_pattern_meaning d t : is_pattern (d_criteria d) = true -> plain (d_string d) ->
  (file_holds (custom_el d) t <-> text_holds (d_criteria d) t (d_string d)).
Proof.
  intros Hk Hp. unfold custom_el, file_holds, value.
  assert (E0 : forall t, wild (d_string d) t <-> t = d_string d).
  { clear t. intros t. rewrite <- (app_nil_r (d_string d)) at 1. rewrite (wild_plain _ Hp). split; [intros (r & -> & H); apply wild_nil in H; subst; apply app_nil_r|].
    intros ->. exists []. rewrite app_nil_r. split; [reflexivity|constructor]. }
  assert (E1 : wild (d_string d ++ [42]) t <-> exists r, t = d_string d ++ r).
  { rewrite (wild_plain _ Hp). split; [intros (r & H & _); eauto|intros [r H]; exists r; split; [exact H|apply wild_all]]. }
  assert (E2 : wild (42 :: d_string d) t <-> exists r, t = r ++ d_string d).
  { rewrite wild_star. split.
    - intros (a & b & -> & H). apply E0 in H. subst b. exists a. reflexivity.
    - intros [r ->]. exists r, (d_string d). split; [reflexivity|]. apply E0. reflexivity. }
  assert (E3 : wild (42 :: d_string d ++ [42]) t <-> exists p q, t = p ++ d_string d ++ q).
  { rewrite wild_star. split.
    - intros (a & b & -> & H). apply (wild_plain _ Hp) in H as (r & -> & _). eauto.
    - intros (a & b & ->). exists a, (d_string d ++ b). split; [reflexivity|]. apply (wild_plain _ Hp). exists b. split; [reflexivity|apply wild_all]. }
  assert (E0t := E0 t).
  assert (Nq : forall v (P : Prop), (wild v t <-> P) -> (file_holds (Some (lit "notEqual"), v) t <-> ~ P)).
  { intros v P E. unfold file_holds. cbn [fst snd]. rewrite E. split; [intros [_ H]; exact H|intros H; split; [reflexivity|exact H]]. }
  unfold file_holds in Nq. cbn [fst snd] in Nq.
  destruct (d_criteria d); try discriminate Hk; cbn [text_holds].
  - exact E0t.
  - apply (Nq (d_string d)). exact E0t.
  - exact E1.
  - apply (Nq (d_string d ++ [42])). exact E1.
  - exact E2.
  - apply (Nq (42 :: d_string d)). exact E2.
  - exact E3.
  - apply (Nq (42 :: d_string d ++ [42])). exact E3.
Qed.
Print Assumptions C50_pattern_meaning.
Example C50_example : let d := new_filter_data ntx (FText (lit "st")) DoesNotEndWith in
  custom_el d = (Some (lit "notEqual"), lit "*st") /\ plain (d_string d).
Proof. split; [reflexivity|]. unfold plain. cbn. intuition discriminate. Qed.
(** Finding: wildcards in the text are not quoted, so the file's filter and the
    rows hidden disagree. *)
Theorem C50_wildcards_refuted : exists d t, d_criteria d = EqualTo /\ file_holds (custom_el d) t /\ ~ text_holds EqualTo t (d_string d).
Proof.
  exists (new_filter_data ntx (FText (lit "a*")) EqualTo), (lit "ab"). split; [reflexivity|]. split; [|discriminate].
  cbn. apply w_char; try discriminate. apply wild_all.
Qed.
Print Assumptions C50_wildcards_refuted.
