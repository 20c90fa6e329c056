From Verif Require Import Base SMap SortLib F64 Fmt_Model Sst_Model Cells_Model Cells_Proofs Sheet_Model Sheet_Spec Opts_Frame.

(** ** Claims (merged ranges, tables) *)
Lemma owner_keep rs n cs : forall l l' r c i, claim_cells rs n cs l = CDone l' \/ claim_cells rs n cs l = COverlap l' ->
  owner_of r c l = Some i -> owner_of r c l' = Some i.
Proof.
  induction cs as [|[r0 c0] cs IH]; intros l l' r c i H Ho; cbn [claim_cells] in H.
  - destruct H as [H|H]; [|discriminate]. injection H as <-. exact Ho.
  - destruct (owner_of r0 c0 l) as [j|] eqn:E.
    + destruct (nth_error rs (N.to_nat j)); destruct H as [H|H]; try discriminate. injection H as <-. exact Ho.
    + apply (IH _ _ r c i H). cbn [owner_of]. destruct ((r0 =? r) && (c0 =? c)) eqn:Q; [|exact Ho].
      apply andb_true_iff in Q as [Q1 Q2]. apply N.eqb_eq in Q1, Q2. subst. congruence.
Qed.
Lemma claim_done rs n cs : forall l l', claim_cells rs n cs l = CDone l' ->
  forall r c, In (r, c) cs -> owner_of r c l' = Some n /\ owner_of r c l = None.
Proof.
  induction cs as [|[r0 c0] cs IH]; intros l l' H r c Hin; [destruct Hin|]. cbn [claim_cells] in H.
  destruct (owner_of r0 c0 l) as [j|] eqn:E; [destruct (nth_error _ _); discriminate|].
  destruct Hin as [[= -> ->]|Hin].
  - split; [|exact E]. apply (owner_keep rs n cs _ _ r c n (or_introl H)). cbn [owner_of]. rewrite !N.eqb_refl. reflexivity.
  - destruct (IH _ _ H r c Hin) as [A B]. split; [exact A|]. cbn [owner_of] in B. destruct (_ && _); [discriminate|exact B].
Qed.
Lemma claim_new rs n cs : forall l l' r c i, claim_cells rs n cs l = CDone l' \/ claim_cells rs n cs l = COverlap l' ->
  owner_of r c l' = Some i -> owner_of r c l = Some i \/ (i = n /\ In (r, c) cs).
Proof.
  induction cs as [|[r0 c0] cs IH]; intros l l' r c i H Ho; cbn [claim_cells] in H.
  - destruct H as [H|H]; [|discriminate]. injection H as <-. left; exact Ho.
  - destruct (owner_of r0 c0 l) as [j|] eqn:E.
    + destruct (nth_error rs (N.to_nat j)); destruct H as [H|H]; try discriminate. injection H as <-. left; exact Ho.
    + destruct (IH _ _ r c i H Ho) as [B|[B C]]; [|right; split; [exact B|right; exact C]].
      cbn [owner_of] in B. destruct ((r0 =? r) && (c0 =? c)) eqn:Q; [|left; exact B].
      apply andb_true_iff in Q as [Q1 Q2]. apply N.eqb_eq in Q1, Q2. subst. injection B as <-. right. split; [reflexivity|left; reflexivity].
Qed.
Lemma claim_free rs n cs : NoDup cs -> forall l, (forall r c, In (r, c) cs -> owner_of r c l = None) ->
  exists l', claim_cells rs n cs l = CDone l'.
Proof.
  induction 1 as [|[r0 c0] cs Hni Hnd IH]; intros l H; cbn [claim_cells]; [eauto|].
  rewrite (H r0 c0) by (left; reflexivity). apply IH. intros r c Hin. cbn [owner_of].
  destruct ((r0 =? r) && (c0 =? c)) eqn:Q; [|apply H; right; exact Hin].
  apply andb_true_iff in Q as [Q1 Q2]. apply N.eqb_eq in Q1, Q2. subst. contradiction.
Qed.

Lemma in_range_cells fr fc lr lc r c : In (r, c) (range_cells fr fc lr lc) <-> fr <= r <= lr /\ fc <= c <= lc.
Proof.
  unfold range_cells. rewrite in_flat_map. setoid_rewrite in_range_incl. split.
  - intros (x & Hx & H). apply in_map_iff in H as (y & [= <- <-] & Hy). apply in_range_incl in Hy. auto.
  - intros [Hr Hc]. exists r. split; [exact Hr|]. apply in_map_iff. exists c. split; [reflexivity|]. apply in_range_incl. exact Hc.
Qed.
Lemma nodup_range_incl a b : NoDup (range_incl a b).
Proof.
  unfold range_incl. apply FinFun.Injective_map_NoDup; [|apply seq_NoDup]. intros x y. lia.
Qed.
Lemma nodup_app {A} (l m : list A) : NoDup l -> NoDup m -> (forall x, In x l -> ~ In x m) -> NoDup (l ++ m).
Proof.
  induction 1 as [|x l Hx Hl IH]; intros Hm Hd; cbn [app]; [exact Hm|]. constructor.
  - rewrite in_app_iff. intros [H|H]; [contradiction|]. exact (Hd x (or_introl eq_refl) H).
  - apply IH; [exact Hm|]. intros y Hy. apply Hd. right; exact Hy.
Qed.
Lemma nodup_product {A B} (l : list A) (m : list B) : NoDup l -> NoDup m -> NoDup (flat_map (fun x => map (fun y => (x, y)) m) l).
Proof.
  intros Hl Hm. induction Hl as [|x l Hx Hl IH]; cbn [flat_map]; [constructor|].
  apply nodup_app; [|exact IH|].
  - apply FinFun.Injective_map_NoDup; [|exact Hm]. intros a b [=]. assumption.
  - intros [a b] H1 H2. apply in_map_iff in H1 as (y & [= <- <-] & _). apply in_flat_map in H2 as (z & Hz & H2).
    apply in_map_iff in H2 as (y' & [= <- <-] & _). contradiction.
Qed.
Lemma nodup_range_cells fr fc lr lc : NoDup (range_cells fr fc lr lc).
Proof. apply nodup_product; apply nodup_range_incl. Qed.

(** Every accepted range owns its cells. *)
Definition owned (k : claims) : Prop :=
  forall i R r c, nth_error (ranges k) i = Some R -> in_rng R r c -> owner_of r c (owner k) = Some (N.of_nat i).
(** Only accepted ranges own cells (true as long as nothing was rejected). *)
Definition clean (k : claims) : Prop :=
  forall r c i, owner_of r c (owner k) = Some i -> exists R, nth_error (ranges k) (N.to_nat i) = Some R /\ in_rng R r c.

Lemma owned_disjoint k : owned k -> pairwise_disjoint (ranges k).
Proof.
  intros H i j A B r c Hne HA HB [Ha Hb]. pose proof (H i A r c HA Ha). pose proof (H j B r c HB Hb). apply Hne. apply Nat2N.inj. congruence.
Qed.
Lemma owned_overlap k n cs l : owned k -> claim_cells (ranges k) n cs (owner k) = COverlap l -> owned {| ranges := ranges k; owner := l |}.
Proof. intros H E i R r c Hn Hin. cbn in *. apply (owner_keep (ranges k) n cs (owner k) l r c _ (or_intror E)). exact (H i R r c Hn Hin). Qed.
Lemma owned_done k fr fc lr lc l : owned k ->
  claim_cells (ranges k) (N.of_nat (length (ranges k))) (range_cells fr fc lr lc) (owner k) = CDone l ->
  owned {| ranges := ranges k ++ [{| r0 := fr; c0 := fc; r1 := lr; c1 := lc |}]; owner := l |}.
Proof.
  intros H E i R r c Hn Hin. cbn [ranges owner] in *. destruct (Nat.lt_ge_cases i (length (ranges k))) as [Hlt|Hge].
  - rewrite nth_error_app1 in Hn by assumption. apply (owner_keep _ _ _ _ _ r c _ (or_introl E)). exact (H i R r c Hn Hin).
  - rewrite nth_error_app2 in Hn by assumption. destruct (i - length (ranges k))%nat as [|m] eqn:D; cbn in Hn; [|destruct m; discriminate].
    injection Hn as <-. replace i with (length (ranges k)) by lia.
    apply (claim_done _ _ _ _ _ E). apply in_range_cells. unfold in_rng in Hin. cbn in Hin. tauto.
Qed.
Lemma owned_claim_done_any k fr fc lr lc l : owned k ->
  claim_cells (ranges k) (N.of_nat (length (ranges k))) (range_cells fr fc lr lc) (owner k) = CDone l ->
  owned {| ranges := ranges k; owner := l |}.
Proof.
  intros H E i R r c Hn Hin. cbn [ranges owner] in *. apply (owner_keep _ _ _ _ _ r c _ (or_introl E)). exact (H i R r c Hn Hin).
Qed.
Lemma clean_done k fr fc lr lc l : clean k ->
  claim_cells (ranges k) (N.of_nat (length (ranges k))) (range_cells fr fc lr lc) (owner k) = CDone l ->
  clean {| ranges := ranges k ++ [{| r0 := fr; c0 := fc; r1 := lr; c1 := lc |}]; owner := l |}.
Proof.
  intros H E r c i Ho. cbn [ranges owner] in *. destruct (claim_new _ _ _ _ _ r c i (or_introl E) Ho) as [B|[-> B]].
  - destruct (H r c i B) as (R & HR & Hin). exists R. split; [|exact Hin]. rewrite nth_error_app1; [exact HR|]. apply nth_error_Some. congruence.
  - eexists. rewrite Nat2N.id, nth_error_app2, Nat.sub_diag by lia. split; [reflexivity|]. apply in_range_cells in B. exact B.
Qed.

Record claims_ok (s : sheet) : Prop := {
  co_m : owned (merges s); co_t : owned (tclaims s);
  co_mr : Forall (fun R => within_limits R /\ more_than_one_cell R) (ranges (merges s));
  co_tr : Forall within_limits (ranges (tclaims s));
  co_tt : map t_range (tables s) = ranges (tclaims s) }.

Lemma cd_limits w r c w' : check_dimensions w r c = (w', true) -> r < 1048576 /\ c < 16384.
Proof.
  unfold check_dimensions. destruct (N.leb_spec ROW_MAX r) as [|H]; [intros [=]|]. destruct (N.leb_spec COL_MAX c) as [|H']; [intros [=]|].
  intros _. split; assumption.
Qed.
Lemma cdo_limits r c : check_dimensions_only r c = true -> r < 1048576 /\ c < 16384.
Proof. unfold check_dimensions_only. rewrite andb_true_iff, !N.ltb_lt. auto. Qed.

Lemma claims_ok_cells s w : claims_ok s -> claims_ok (with_cells s w).
Proof. intros []. split; assumption. Qed.

(** What merge_range does to the claims. *)
Lemma merge_claims s fr fc lr lc text f s' e : merge_range s fr fc lr lc text f = Some (s', e) ->
  tclaims s' = tclaims s /\ tables s' = tables s /\ filter_cells s' = filter_cells s /\
  ((e = None /\ exists l, claim_cells (ranges (merges s)) (N.of_nat (length (ranges (merges s)))) (range_cells fr fc lr lc) (owner (merges s)) = CDone l /\
      merges s' = {| ranges := ranges (merges s) ++ [{| r0 := fr; c0 := fc; r1 := lr; c1 := lc |}]; owner := l |} /\
      fr <= lr < 1048576 /\ fc <= lc < 16384 /\ (fr, fc) <> (lr, lc)) \/
   (e = Some SMergeOverlap /\ exists l, claim_cells (ranges (merges s)) (N.of_nat (length (ranges (merges s)))) (range_cells fr fc lr lc) (owner (merges s)) = COverlap l /\
      merges s' = {| ranges := ranges (merges s); owner := l |}) \/
   (e <> None /\ e <> Some SMergeOverlap /\ merges s' = merges s)).
Proof.
  unfold merge_range. destruct (check_dimensions (cells s) fr fc) as [w [|]] eqn:E1; cbn [negb];
    [|intros [= <- <-]; repeat split; right; right; repeat split; discriminate].
  destruct (check_dimensions w lr lc) as [w0 [|]] eqn:E2; cbn [negb]; [|intros [= <- <-]; repeat split; right; right; repeat split; discriminate].
  destruct (_ || _) eqn:E3; [intros [= <- <-]; repeat split; right; right; repeat split; discriminate|].
  destruct (_ && _) eqn:E4; [intros [= <- <-]; repeat split; right; right; repeat split; discriminate|].
  destruct (write_all w0 _) as [w2 [e2|]]; [intros [= <- <-]; repeat split; right; right; repeat split; discriminate|].
  destruct (write_all _ _) as [w3 [e3|]]; [intros [= <- <-]; repeat split; right; right; repeat split; discriminate|].
  cbv zeta. cbn [merges with_cells].
  apply cd_limits in E1, E2. apply orb_false_iff in E3 as [E3 E3']. apply N.ltb_ge in E3, E3'.
  destruct (claim_cells _ _ _ _) eqn:E5; [discriminate| |]; intros [= <- <-]; repeat split.
  - right; left. split; [reflexivity|]. eexists. split; reflexivity.
  - left. split; [reflexivity|]. eexists. repeat split; try lia. intros [= -> ->]. rewrite !N.eqb_refl in E4. discriminate.
Qed.
Lemma table_claims lower s fr fc lr lc t s' e : add_table lower s fr fc lr lc t = Some (s', e) ->
  merges s' = merges s /\
  ((e = None /\ exists l t', claim_cells (ranges (tclaims s)) (N.of_nat (length (ranges (tclaims s)))) (range_cells fr fc lr lc) (owner (tclaims s)) = CDone l /\
      tclaims s' = {| ranges := ranges (tclaims s) ++ [{| r0 := fr; c0 := fc; r1 := lr; c1 := lc |}]; owner := l |} /\
      tables s' = tables s ++ [t'] /\ t_range t' = {| r0 := fr; c0 := fc; r1 := lr; c1 := lc |} /\ t_name t' = t_name t /\
      fr <= lr < 1048576 /\ fc <= lc < 16384) \/
   (e = Some STableOverlap /\ tables s' = tables s /\ exists l, claim_cells (ranges (tclaims s)) (N.of_nat (length (ranges (tclaims s)))) (range_cells fr fc lr lc) (owner (tclaims s)) = COverlap l /\
      tclaims s' = {| ranges := ranges (tclaims s); owner := l |}) \/
   (e = Some SFilterOverlap /\ tables s' = tables s /\ exists l, claim_cells (ranges (tclaims s)) (N.of_nat (length (ranges (tclaims s)))) (range_cells fr fc lr lc) (owner (tclaims s)) = CDone l /\
      tclaims s' = {| ranges := ranges (tclaims s); owner := l |}) \/
   (e <> None /\ e <> Some STableOverlap /\ e <> Some SFilterOverlap /\ tables s' = tables s /\ tclaims s' = tclaims s)).
Proof.
  unfold add_table. destruct (_ || _) eqn:E1; [intros [= <- <-]; split; [reflexivity|]; right; right; right; repeat split; discriminate|].
  destruct ((lr <? fr) || (lc <? fc)) eqn:E2; [intros [= <- <-]; split; [reflexivity|]; right; right; right; repeat split; discriminate|].
  destruct ((fr =? lr) && t_header t) eqn:E3; [intros [= <- <-]; split; [reflexivity|]; right; right; right; repeat split; discriminate|].
  destruct (name_columns _ _ _ _) as [cols|]; [|intros [= <- <-]; split; [reflexivity|]; right; right; right; repeat split; discriminate]. cbv zeta.
  cbn [t_header t_total t_autofilter]. destruct (t_total t && _); [discriminate|].
  destruct (table_columns _ _ _ _ _ _) as [w1 [e1|]]; [intros [= <- <-]; split; [reflexivity|]; right; right; right; repeat split; discriminate|].
  cbn [tclaims with_cells tables filter_cells].
  apply orb_false_iff in E1 as [E1 E1']. apply negb_false_iff in E1, E1'. apply cdo_limits in E1, E1'.
  apply orb_false_iff in E2 as [E2 E2']. apply N.ltb_ge in E2, E2'.
  destruct (claim_cells _ _ _ _) eqn:E5; [discriminate| |].
  - intros [= <- <-]. split; [reflexivity|]. right; left. split; [reflexivity|]. split; [reflexivity|]. eexists. split; reflexivity.
  - destruct (if t_autofilter t then _ else _) as [fcs [|]]; intros [= <- <-]; (split; [reflexivity|]).
    + left. split; [reflexivity|]. do 2 eexists. split; [reflexivity|]. split; [reflexivity|]. split; [reflexivity|]. split; [reflexivity|].
      split; [reflexivity|]. lia.
    + right; right; left. split; [reflexivity|]. split; [reflexivity|]. eexists. split; reflexivity.
Qed.

Lemma more_than_one fr fc lr lc : fr <= lr -> fc <= lc -> (fr, fc) <> (lr, lc) -> more_than_one_cell {| r0 := fr; c0 := fc; r1 := lr; c1 := lc |}.
Proof. intros. exists fr, fc, lr, lc. unfold in_rng; cbn. repeat split; try lia. assumption. Qed.

Lemma autofilter_frame s fr fc lr lc s' e : autofilter s fr fc lr lc = Some (s', e) ->
  cells s' = cells s /\ merges s' = merges s /\ tclaims s' = tclaims s /\ tables s' = tables s.
Proof.
  unfold autofilter. destruct (_ || _); [intros [= <- <-]; auto|]. destruct (_ || _); [intros [= <- <-]; auto|]. cbv zeta.
  destruct (claim_filter _ _ _ _ _) as [l b]. intros [= <- <-]. auto.
Qed.

Lemma claims_ok_step lower s o s' e : claims_ok s -> sstep lower s o = Some (s', e) -> claims_ok s'.
Proof.
  intros H. destruct o; cbn [sstep].
  - intros [= <- <-]. apply claims_ok_cells; exact H.
  - intros E. apply merge_claims in E as (T1 & T2 & _ & C). destruct H as [M T MR TR TT].
    assert (G : owned (merges s') /\ Forall (fun R => within_limits R /\ more_than_one_cell R) (ranges (merges s'))).
    { destruct C as [(-> & l & Cl & -> & L1 & L2 & L3)|[(-> & l & Cl & ->)|(_ & _ & ->)]].
      - split; [apply owned_done; assumption|]. cbn. apply Forall_app. split; [exact MR|]. constructor; [|constructor].
        split; [split; cbn; lia|apply more_than_one; try lia; assumption].
      - split; [|exact MR]. apply (owned_overlap _ _ _ _ M Cl).
      - split; assumption. }
    destruct G. split; rewrite ?T1, ?T2; assumption.
  - intros E. apply table_claims in E as (T1 & C). destruct H as [M T MR TR TT].
    assert (G : owned (tclaims s') /\ Forall within_limits (ranges (tclaims s')) /\ map t_range (tables s') = ranges (tclaims s')).
    { destruct C as [(-> & l & t' & Cl & -> & -> & Rg & _ & L1 & L2)|[(-> & -> & l & Cl & ->)|[(-> & -> & l & Cl & ->)|(_ & _ & _ & -> & ->)]]].
      - split; [apply owned_done; assumption|]. cbn. rewrite map_app, TT. cbn. rewrite Rg. split; [|reflexivity].
        apply Forall_app. split; [exact TR|]. constructor; [|constructor]. split; cbn; lia.
      - split; [|split; assumption]. apply (owned_overlap _ _ _ _ T Cl).
      - split; [|split; assumption]. apply (owned_claim_done_any _ _ _ _ _ _ T Cl).
      - auto. }
    destruct G as (G1 & G2 & G3). split; rewrite ?T1; assumption.
  - intros E. apply autofilter_frame in E as (_ & A & B & C). destruct H. split; rewrite ?A, ?B, ?C; assumption.
  - intros [= <- <-]. apply claims_ok_cells; exact H.
  - intros [= <- <-]. apply claims_ok_cells; exact H.
  - destruct (page_breaks _ _ _ _) as [[b0 e0]|]; [|discriminate]. intros [= <- <-]. destruct H. split; assumption.
  - destruct (page_breaks _ _ _ _) as [[b0 e0]|]; [|discriminate]. intros [= <- <-]. destruct H. split; assumption.
Qed.
Lemma claims_ok_new w : claims_ok (sheet_new w).
Proof. split; try constructor; intros [|i] R r c Hn; discriminate. Qed.
Lemma claims_ok_run lower ops : forall s s', claims_ok s -> srun lower s ops = Some s' -> claims_ok s'.
Proof.
  induction ops as [|o ops IH]; intros s s' H; cbn [srun]; [intros [= <-]; exact H|].
  destruct (sstep lower s o) as [[s1 e]|] eqn:E; [|discriminate]. apply IH. exact (claims_ok_step lower s o s1 e H E).
Qed.

Definition both_clean (s : sheet) : Prop := clean (merges s) /\ clean (tclaims s).
Lemma clean_step lower s o s' e : both_clean s -> sstep lower s o = Some (s', e) -> overlap_error e = false -> both_clean s'.
Proof.
  unfold both_clean. intros [H1 H2]. destruct o; cbn [sstep].
  - intros [= <- <-] _. auto.
  - intros E Ho. apply merge_claims in E as (T1 & T2 & _ & C). rewrite T1. split; [|exact H2].
    destruct C as [(-> & l & Cl & -> & _)|[(-> & l & Cl & ->)|(_ & _ & ->)]]; [apply clean_done; assumption|discriminate|assumption].
  - intros E Ho. apply table_claims in E as (T1 & C). rewrite T1. split; [exact H1|].
    destruct C as [(-> & l & t' & Cl & -> & _)|[(-> & _ & l & Cl & ->)|[(-> & _ & l & Cl & ->)|(_ & _ & _ & _ & ->)]]];
      [apply clean_done; assumption|discriminate|discriminate|assumption].
  - intros E _. apply autofilter_frame in E as (_ & A & B & C). rewrite A, B. auto.
  - intros [= <- <-] _. auto.
  - intros [= <- <-] _. auto.
  - destruct (page_breaks _ _ _ _) as [[b0 e0]|]; [|discriminate]. intros [= <- <-] _. auto.
  - destruct (page_breaks _ _ _ _) as [[b0 e0]|]; [|discriminate]. intros [= <- <-] _. auto.
Qed.
Lemma clean_run lower ops : forall s s', both_clean s -> overlaps_never lower s ops -> srun lower s ops = Some s' -> both_clean s'.
Proof.
  induction ops as [|o ops IH]; intros s s' H; cbn [srun overlaps_never]; [intros _ [= <-]; exact H|].
  intros (s1 & e & E & Ho & Hr). rewrite E. apply IH; [|exact Hr]. exact (clean_step lower s o s1 e H E Ho).
Qed.
Lemma clean_new w : both_clean (sheet_new w).
Proof. split; intros r c i H; discriminate. Qed.

(** Writing a formatted blank inside the limits never fails. *)
Lemma cd_accepts w r c : r < ROW_MAX -> c < COL_MAX -> snd (check_dimensions w r c) = true.
Proof.
  intros Hr Hc. unfold check_dimensions. destruct (N.leb_spec ROW_MAX r); [lia|]. destruct (N.leb_spec COL_MAX c); [lia|]. cbv zeta.
  destruct (_ || _); reflexivity.
Qed.
Lemma blank_ok w r c f : r < ROW_MAX -> c < COL_MAX -> snd (store_blank w r c f) = None.
Proof.
  intros Hr Hc. unfold store_blank. pose proof (cd_accepts w r c Hr Hc) as E. destruct (check_dimensions w r c) as [w1 b]. cbn in E. subst b. cbn [negb].
  destruct (reg w1 f) as [w2 i]. destruct (if i =? 0 then _ else _). reflexivity.
Qed.
Lemma string_ok w r c s f : r < ROW_MAX -> c < COL_MAX -> char_count s <= MAX_STRING_LEN -> snd (store_string w r c s (Some f)) = None.
Proof.
  intros Hr Hc Hl. destruct s as [|a s]; [apply blank_ok; assumption|]. unfold store_string.
  pose proof (cd_accepts w r c Hr Hc) as E. destruct (check_dimensions w r c) as [w1 b]. cbn in E. subst b. cbn [negb].
  destruct (N.ltb_spec MAX_STRING_LEN (char_count (a :: s))); [lia|]. destruct (cell_xf w1 r c (Some f)) as [w2 i].
  destruct (inline_strings w2); [reflexivity|]. destruct (global_sst w2); [|reflexivity]. destruct (shared_string_index _ _). reflexivity.
Qed.
Lemma blanks_ok f l : Forall (fun o => exists r c, o = WriteBlank r c f /\ r < ROW_MAX /\ c < COL_MAX) l ->
  forall w, snd (write_all w l) = None.
Proof.
  induction 1 as [|o l (r & c & -> & Hr & Hc) Hl IH]; intros w; cbn [write_all step]; [reflexivity|].
  pose proof (blank_ok w r c f Hr Hc) as E. destruct (store_blank w r c f) as [w1 e]. cbn in E. subst e. apply IH.
Qed.
Lemma merge_accepted s fr fc lr lc text f : fr <= lr < 1048576 -> fc <= lc < 16384 -> (fr, fc) <> (lr, lc) ->
  char_count text <= MAX_STRING_LEN -> (forall r c, fr <= r <= lr -> fc <= c <= lc -> owner_of r c (owner (merges s)) = None) ->
  exists s', merge_range s fr fc lr lc text f = Some (s', None).
Proof.
  intros Hr Hc Hne Hl Hfree. unfold merge_range.
  pose proof (cd_accepts (cells s) fr fc ltac:(unfold ROW_MAX; lia) ltac:(unfold COL_MAX; lia)) as E.
  destruct (check_dimensions (cells s) fr fc) as [w b]. cbn in E. subst b. cbn [negb].
  pose proof (cd_accepts w lr lc ltac:(unfold ROW_MAX; lia) ltac:(unfold COL_MAX; lia)) as E.
  destruct (check_dimensions w lr lc) as [w0 b]. cbn in E. subst b. cbn [negb].
  destruct (N.ltb_spec lr fr); [lia|]. destruct (N.ltb_spec lc fc); [lia|]. cbn [orb].
  destruct ((fr =? lr) && (fc =? lc)) eqn:E. { exfalso. apply andb_true_iff in E as [E1 E2]. apply N.eqb_eq in E1, E2. congruence. }
  cbn [write_all step]. pose proof (string_ok w0 fr fc text f ltac:(unfold ROW_MAX; lia) ltac:(unfold COL_MAX; lia) Hl) as E1.
  destruct (store_string w0 fr fc text (Some f)) as [w1 e1]. cbn in E1. subst e1.
  match goal with |- context [write_all w1 ?l] => pose proof (blanks_ok f l) as E2 end.
  specialize (E2 ltac:(apply Forall_forall; intros x Hx; apply in_map_iff in Hx as (c & <- & Hx); apply in_range_incl in Hx; exists fr, c; unfold ROW_MAX, COL_MAX; repeat split; lia) w1).
  destruct (write_all w1 _) as [w2 e2]. cbn in E2. subst e2.
  match goal with |- context [write_all (set_writing_ahead w2 true) ?l] => pose proof (blanks_ok f l) as E3 end.
  specialize (E3 ltac:(apply Forall_forall; intros x Hx; apply in_map_iff in Hx as ([r c] & <- & Hx); apply in_range_cells in Hx; exists r, c; cbn [fst snd]; unfold ROW_MAX, COL_MAX; repeat split; lia) (set_writing_ahead w2 true)).
  destruct (write_all (set_writing_ahead w2 true) _) as [w3 e3]. cbn in E3. subst e3. cbv zeta. cbn [merges with_cells].
  destruct (claim_free (ranges (merges s)) (N.of_nat (length (ranges (merges s)))) (range_cells fr fc lr lc) (nodup_range_cells fr fc lr lc) (owner (merges s))) as (l & ->).
  { intros r c Hin. apply in_range_cells in Hin. apply Hfree; tauto. }
  eauto.
Qed.
