(** The rows of the temporary file after any readable history can be written and read. *)
From Verif Require Import Base SMap F64 Fmt_Model Xml_Model Xml_Spec Xml_Proofs Xml_Read Xml_Read_Proofs Xml_Tree
  Sst_Model Sst_Proofs Ref_Model Ref_Spec Ref_Proofs Cells_Model Cells_Spec Cells_Proofs Cells_Proofs2 Cells_Inv Cells_Save Cells_Hist
  Const_Proofs Const_Sim Const_Run Step_Inv Props_Const
  Rich_Model Rich_Proofs SheetXml_Model SheetXml_Spec SheetXml_Proofs SheetXml_Proofs2 SheetXml_Proofs3 SheetXml_Proofs4 SheetXml_Proofs5 SheetXml_Proofs6 SheetXml_Proofs7
  Stream_Model Stream_Spec Stream_Proofs Stream_Inv Stream_Inv2.

(** ** The start *)
Lemma start_texts inl gs rg t : texts_ok (ws_new true inl gs rg t).
Proof.
  split; (split; [|intros [[r E] _]; discriminate E]) || (split; [split|]).
  - intros c Hc; cbn in Hc; repeat destruct Hc as [<-|Hc]; try destruct Hc; cbn; repeat split; discriminate.
  - intros c Hc; cbn in Hc; repeat destruct Hc as [<-|Hc]; try destruct Hc; cbn; repeat split; discriminate.
  - intros c Hc; cbn in Hc; repeat destruct Hc as [<-|Hc]; try destruct Hc; cbn; repeat split; discriminate.
  - intros c Hc; cbn in Hc; repeat destruct Hc as [<-|Hc]; try destruct Hc; cbn; repeat split; discriminate.
  - split; [|reflexivity]. intros c Hc; cbn in Hc. destruct Hc as [<-|[]]. lia.
  - intros (sg & w & E & S & I). destruct S as [->|[->| ->]]; try discriminate E. cbn in E. subst w. cbn in I.
    repeat destruct I as [I|I]; try discriminate I. destruct I.
Qed.
Lemma start_J inl gs rg before : Forall string_ok before -> JE (ws_new true inl gs rg (fst (sst_run sst_new before))).
Proof.
  intros B. assert (I0 : Inv sst_new []) by (split; [reflexivity|reflexivity|constructor]).
  destruct (sst_run sst_new before) as [t0 is0] eqn:E0. destruct (sst_run_inv before sst_new [] t0 is0 I0 E0) as (l0 & I1 & _ & _ & _ & L0).
  exists l0. cbn [fst]. split.
  - exact I1.
  - apply Forall_forall. intros s Hs. apply L0 in Hs as [[]|Hs]. rewrite Forall_forall in B. auto.
  - split; [intros ? ? []|split; [intros ? ? []|intros ? ? ? ? ? []]].
  - apply start_texts.
  - split; cbn; [unfold Cells_Model.ROW_MAX; lia|intros ? []|intros ? []|intros ? []].
  - intros ? ? ? ? ? [].
  - intros _. repeat (split; [reflexivity|]). reflexivity.
Qed.

(** ** The log is what was flushed *)
Definition grown (w v : ws) : Prop := exists d, flushed v = flushed w ++ d.
Lemma grown_refl w : grown w w. Proof. exists []. rewrite app_nil_r. reflexivity. Qed.
Lemma grown_same w v v' : flushed v' = flushed v -> grown w v -> grown w v'.
Proof. intros E [d H]. exists d. rewrite E. exact H. Qed.
Lemma grown_fold ns : forall w v, grown w v -> grown w (fold_left flush_data_row ns v).
Proof.
  induction ns as [|n ns IH]; intros w v H; [exact H|]. cbn [fold_left]. apply IH. destruct H as [d H]. rewrite <- (app_nil_r d) in H.
  exists (d ++ current_out v). rewrite flush_flushed, H, app_nil_r, app_assoc. reflexivity.
Qed.
Lemma grown_insert w v r c x : grown w v -> grown w (insert_cell v r c x).
Proof.
  intros H. unfold insert_cell. destruct (constant_memory v); [|exact H]. destruct (r <? current_row v); [exact H|].
  destruct ((current_row v <? r) && writing_ahead v); [exact H|]. destruct (current_row v <? r); [|exact H].
  rewrite flush_to_row_eq. apply (grown_same w (fold_left flush_data_row (sort_dedup (filter (fun k => k <? r) (keys (write_ahead v)) ++ filter (fun k => (current_row v <? k) && (k <? r)) (keys (changed_rows v))) ++ [r]) v)); [reflexivity|].
  apply grown_fold. exact H.
Qed.
Lemma grown_step w o : grown w (fst (step w o)).
Proof.
  apply (step_inv (grown w)).
  - intros v v' [] H. apply (grown_same w v); assumption.
  - intros; apply grown_insert; assumption.
  - intros v b H. exact H.
  - intros v r cs H _ _. exact H.
  - apply grown_refl.
Qed.
Lemma appended_flushed w w' x14 : grown w w' -> flushed w' = flushed w ++ map snd (appended w w' x14).
Proof.
  intros [d H]. unfold appended. rewrite map_map. cbn [snd]. rewrite map_id, H, skipn_app, skipn_all, Nat.sub_diag. reflexivity.
Qed.
Lemma stream_log_flushed calls : forall w, flushed (after_calls w calls) = flushed w ++ map snd (stream_log w calls).
Proof.
  induction calls as [|[o x14] calls IH]; intros w; [unfold after_calls; cbn; rewrite app_nil_r; reflexivity|].
  unfold after_calls in *. cbn [map fst stream_log]. rewrite run_cons, IH, (appended_flushed w (fst (step w o)) x14 (grown_step w o)), map_app, app_assoc. reflexivity.
Qed.
Lemma grown_last w : grown w (flush_last_row w).
Proof. unfold flush_last_row. apply grown_fold, grown_refl. Qed.
Lemma file_log_rows w calls x14 : flushed w = [] -> map snd (file_log w calls x14) = streamed_rows (after_calls w calls).
Proof.
  intros E. unfold file_log, streamed_rows. cbv zeta. rewrite map_app, (appended_flushed _ _ x14 (grown_last (after_calls w calls))), stream_log_flushed, E. reflexivity.
Qed.

(** ** The last rows *)
Definition rows_fine (l : list str) (w : ws) : Prop :=
  all_rows (fine l) (flushed w) /\ out_ok (flushed w) /\ (forall o, In o (flushed w) -> o_row o < Cells_Model.ROW_MAX).
Lemma flush_any l w n : weak l w -> rows_fine l (flush_data_row w n).
Proof.
  intros [A B C]. split; [|split].
  - apply (flush_data_row_all (fine l) w n A).
  - apply flush_out_ok. exact C.
  - rewrite flush_flushed. intros o Ho. apply in_app_or in Ho as [Ho|Ho]; [apply (ri_out _ B); assumption|]. rewrite (current_out_row w o Ho). apply (ri_cur _ B).
Qed.
Lemma weak_fine l w : weak l w -> rows_fine l w.
Proof. intros [(_ & _ & A) B C]. split; [exact A|split; [exact C|apply (ri_out _ B)]]. Qed.
Lemma flush_last_fine l w : J l w -> rows_fine l (flush_last_row w).
Proof.
  intros [_ _ C _ R O _]. unfold flush_last_row. set (rem := sort_dedup _).
  assert (K : weak l (fold_left flush_data_row rem w)).
  { apply flush_fold_weak; [split; assumption|]. intros n Hn. apply (proj1 (sort_dedup_in _ _)) in Hn. destruct R as [R1 R2 R3 R4].
    apply in_app_or in Hn as [Hn|Hn]; [auto|]. apply in_app_or in Hn as [Hn|[<-|[]]]; [|exact R1].
    destruct (_ <? _); [|destruct Hn]. apply filter_In in Hn as [Hn _]. auto. }
  destruct (mem (current_row w) (data w)); [|apply weak_fine; exact K]. rewrite fold_left_app. cbn [fold_left]. apply flush_any. exact K.
Qed.
(** An empty sheet has an empty file. *)
Lemma flush_nothing w : awake w -> data w = [] -> changed_rows w = [] -> flushed (flush_last_row w) = [].
Proof.
  intros A D C. destruct (A D) as (A1 & A2 & A3 & _). unfold flush_last_row. rewrite D, C, A3. cbn [keys map mem fold_right app].
  rewrite A1. cbn. unfold flush_data_row. fields. rewrite A2, D, C. reflexivity.
Qed.

(** ** What the cells need *)
Lemma rows_cells P rows o cs c k x : all_rows P rows -> In o rows -> o_cells o = Some cs -> In (c, k, x) cs -> P (o_row o) c k.
Proof. intros H A B C. eapply H; eassumption. Qed.
Lemma log_good items w calls x14 l d :
  wcells w -> flushed w = [] -> J l (after_calls w calls) -> Forall2 item_says (l ++ d) items ->
  Forall (good_entry items) (file_log w calls x14).
Proof.
  intros Wc Fl H It. pose proof (flush_last_fine l _ H) as (F1 & F2 & F3).
  assert (Wl : all_rows (cell_inv (inline_strings (after_calls w calls)) (global_sst (after_calls w calls))) (flushed (flush_last_row (after_calls w calls)))).
  { apply flush_last_row_all. exact (proj1 (run_keeps (map fst calls) w Wc)). }
  pose proof (file_log_rows w calls x14 Fl) as Er. unfold streamed_rows in Er. rewrite <- Er in F1, F2, F3, Wl.
  apply Forall_forall. intros [[h b] o] He. assert (Ho : In o (map snd (file_log w calls x14))) by (apply in_map_iff; exists ((h, b), o); split; [reflexivity|exact He]).
  specialize (F3 o Ho). unfold Cells_Model.ROW_MAX in F3. split; [cbn [snd]; lia|]. unfold cells_of. cbn [snd].
  destruct (o_cells o) as [cs|] eqn:Ec; [|constructor]. apply Forall_forall. intros [[c k] x] Hin.
  destruct (F1 o cs c k x Ho Ec Hin) as [V Idk]. destruct (Wl o cs c k x Ho Ec Hin) as [[_ Lc] CI]. destruct (F2 o cs c k x Ho Ec Hin) as [Bl Ns].
  unfold Cells_Model.COL_MAX in Lc. split; cbn [fst snd]; [lia|].
  assert (Item : forall s i, nth_error l (N.to_nat i) = Some s -> exists n, nth_error items (N.to_nat i) = Some n /\ item_says s n).
  { intros s i Hi. assert (Hi2 : nth_error (l ++ d) (N.to_nat i) = Some s) by (rewrite nth_error_app1; [assumption|]; apply nth_error_Some; congruence).
    clear - It Hi2. revert Hi2. generalize (N.to_nat i). clear i. induction It as [|a y xs ys Hab It IH]; intros [|n]; cbn; try discriminate.
    - intros [= <-]. eauto.
    - apply IH. }
  destruct k as [|n|s [i|]|y0|b0|f r|y0|s raw i|s|f r dy rg]; cbn [contents value_ok stream_good cell_good] in *; try exact Logic.I; try contradiction.
  - apply Bl. reflexivity.
  - destruct (Item s i Idk) as (n & Hn & [I1 _]). exists n. split; [assumption|]. apply I1. apply V.
  - destruct (Ns s). reflexivity.
  - apply finite_is. exact CI.
  - destruct V as [P [Q1 Q2]]. split; [exact P|split; [exact Q1|exact Q2]].
  - apply finite_is. exact CI.
  - exact V.
  - apply storable_writable. apply V.
  - destruct V as (P & [Q1 Q2] & Rg). split; [|apply range_simple; assumption]. split; [exact P|split; [exact Q1|exact Q2]].
Qed.
