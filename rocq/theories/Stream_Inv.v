(** What holds of a worksheet after any history whose contents can be read, in every
    mode: the cells held or flushed can be written and read back. *)
From Verif Require Import Base SMap F64 Fmt_Model Xml_Model Xml_Spec Xml_Proofs Xml_Read Xml_Read_Proofs Xml_Tree
  Sst_Model Sst_Proofs Ref_Model Ref_Spec Ref_Proofs Cells_Model Cells_Spec Cells_Proofs Cells_Proofs2 Cells_Inv Cells_Save Cells_Hist
  Const_Proofs Const_Sim Const_Run Step_Inv
  Rich_Model Rich_Proofs SheetXml_Model SheetXml_Spec SheetXml_Proofs SheetXml_Proofs2 SheetXml_Proofs3 SheetXml_Proofs4 SheetXml_Proofs5 SheetXml_Proofs6.

Definition fine (l : list str) (r c : N) (k : cell) : Prop :=
  value_ok (contents k) /\
  match k with CString s (Some i) => nth_error l (N.to_nat i) = Some s | CError _ => False | _ => True end.
(** The cells that are really written. *)
Definition out_ok (rows : list orow) : Prop := forall o cs c k e, In o rows -> o_cells o = Some cs -> In (c, k, e) cs ->
  (k = CBlank -> 0 < e) /\ (forall s, k <> CString s None).
Record rows_in (w : ws) : Prop := {
  ri_cur : current_row w < Cells_Model.ROW_MAX;
  ri_wa : forall r, In r (keys (write_ahead w)) -> r < Cells_Model.ROW_MAX;
  ri_opt : forall r, In r (keys (changed_rows w)) -> r < Cells_Model.ROW_MAX;
  ri_out : forall o, In o (flushed w) -> o_row o < Cells_Model.ROW_MAX }.
Definition awake (w : ws) : Prop := data w = [] -> current_row w = 0 /\ flushed w = [] /\ write_ahead w = [] /\ writing_ahead w = false.
Record J (l : list str) (w : ws) : Prop := {
  j_sst : Inv (strings_table w) l; j_str : Forall string_ok l; j_cells : all_cells (fine l) w; j_texts : texts_ok w;
  j_rows : rows_in w; j_out : out_ok (flushed w); j_awake : awake w }.
Definition JE (w : ws) : Prop := exists l, J l w.

Lemma fine_app l d r c k : fine l r c k -> fine (l ++ d) r c k.
Proof.
  intros [A B]. split; [assumption|]. destruct k as [| |s [i|]| | | | | | |]; auto. rewrite nth_error_app1; [assumption|]. apply nth_error_Some. congruence.
Qed.
Lemma fine_cells_app l d w : all_cells (fine l) w -> all_cells (fine (l ++ d)) w.
Proof.
  intros (A & B & C). split; [|split].
  - intros r cs H c k x H2. apply fine_app. eapply A; eassumption.
  - intros r cs H c k x H2. apply fine_app. eapply B; eassumption.
  - intros o cs c k x H1 H2 H3. apply fine_app. eapply C; eassumption.
Qed.

(** Calls that change none of this. *)
Record fr (w w' : ws) : Prop := { fr_core : core w w'; fr_opts : same_opts w w'; fr_sst : strings_table w' = strings_table w }.
Lemma J_fr l w w' : fr w w' -> J l w -> J l w'.
Proof.
  intros [[] S Es] [A B (C1 & C2 & C3) D [R1 R2 R3 R4] O W]. pose proof (s_rows w w' S) as Sr. split.
  - rewrite Es. assumption.
  - assumption.
  - split; [rewrite q_data; assumption|]. split; [rewrite q_wa; assumption|rewrite q_fl; assumption].
  - eapply texts_same; eassumption.
  - split; rewrite ?q_cur, ?q_wa, ?Sr, ?q_fl; assumption.
  - rewrite q_fl. assumption.
  - unfold awake. rewrite q_data, q_cur, q_fl, q_wa, q_ahead. assumption.
Qed.
Lemma fr_cd w r c : fr w (fst (check_dimensions w r c)).
Proof.
  destruct (check_dimensions w r c) as [w' b] eqn:E. cbn [fst]. pose proof E as E2. apply check_dimensions_spec in E as (M & S & D & _).
  split; [apply core_meta; assumption|assumption|]. unfold check_dimensions in E2.
  repeat match type of E2 with context [if ?b then _ else _] => destruct b end; apply pair_equal_spec in E2 as [<- _]; reflexivity.
Qed.
Lemma fr_reg w f : fr w (fst (reg w f)).
Proof.
  destruct (reg w f) as [w' b] eqn:E. cbn [fst]. pose proof E as E2. apply reg_spec in E as (M & S & D & _).
  split; [apply core_meta; assumption|assumption|]. unfold reg in E2. destruct (format_xf_index (xfs w) f). apply pair_equal_spec in E2 as [<- _]. reflexivity.
Qed.
Lemma reg_sst w f : strings_table (fst (reg w f)) = strings_table w.
Proof. apply fr_reg. Qed.
Lemma fr_xf w r c f : fr w (fst (cell_xf w r c f)).
Proof.
  destruct f as [f|]; [apply fr_reg|]. cbn [cell_xf]. destruct (row_col_format w r c) as [w' b] eqn:E. cbn [fst]. pose proof E as E2.
  apply (cell_xf_spec w r c None) in E as (M & S & D & _). split; [apply core_meta; assumption|assumption|]. unfold row_col_format in E2.
  repeat match type of E2 with context [match ?x with _ => _ end] => destruct x end;
    first [apply pair_equal_spec in E2 as [<- _]; reflexivity | pose proof (f_equal fst E2) as E3; cbn [fst] in E3; rewrite <- E3; apply reg_sst].
Qed.

(** Flushing. *)
Lemma flush_rows_in w n : rows_in w -> n < Cells_Model.ROW_MAX -> rows_in (flush_data_row w n).
Proof.
  intros [R1 R2 R3 R4] Hn. unfold flush_data_row. split; fields; try assumption.
  - intros r Hr. apply R2. apply (del_keys_incl _ _ _ Hr).
  - intros o Ho. apply in_app_or in Ho as [Ho|Ho]; [auto|].
    destruct (get (current_row w) (data w)); [destruct Ho as [<-|[]]; exact R1|]. destruct (get (current_row w) (changed_rows w)); [destruct Ho as [<-|[]]; exact R1|destruct Ho].
Qed.
Lemma flush_out_ok w n : out_ok (flushed w) -> out_ok (flushed (flush_data_row w n)).
Proof.
  intros O. unfold flush_data_row. fields. intros o cs c k e Ho Hc Hin. apply in_app_or in Ho as [Ho|Ho]; [eapply O; eassumption|].
  destruct (get (current_row w) (data w)) as [cells|]; [|destruct (get (current_row w) (changed_rows w)); [destruct Ho as [<-|[]]; discriminate|destruct Ho]].
  destruct Ho as [<-|[]]. cbn [o_cells] in Hc. assert (Ec : flat_map (emit_cell_constant w (get (current_row w) (changed_rows w))) cells = cs) by congruence. subst cs. clear Hc.
  apply in_flat_map in Hin as ([c' [k' x]] & _ & H). unfold emit_cell_constant in H.
  destruct k' as [| |s [i|]| | | | |s raw i| |]; try (destruct H as [H|[]]; injection H as _ <- _; split; [discriminate|intros; discriminate]); [|destruct H].
  destruct (0 <? _) eqn:E0; [|destruct H]. destruct H as [H|[]]. injection H as _ <- <-. split; [intros _; lia|intros; discriminate].
Qed.
Record weak (l : list str) (w : ws) : Prop := { k_cells : all_cells (fine l) w; k_rows : rows_in w; k_out : out_ok (flushed w) }.
Lemma flush_weak l w n : weak l w -> n < Cells_Model.ROW_MAX -> weak l (flush_data_row w n).
Proof. intros [A B C] Hn. split; [apply flush_data_row_all; assumption|apply flush_rows_in; assumption|apply flush_out_ok; assumption]. Qed.
Lemma flush_fold_weak l ns : forall w, weak l w -> (forall n, In n ns -> n < Cells_Model.ROW_MAX) -> weak l (fold_left flush_data_row ns w).
Proof.
  induction ns as [|n ns IH]; intros w H Hn; [exact H|]. cbn [fold_left]. apply IH; [|intros; apply Hn; right; assumption]. apply flush_weak; [assumption|].
  apply Hn. left. reflexivity.
Qed.
(** What flushing leaves alone. *)
Lemma flush_fold_same ns : forall w, let w' := fold_left flush_data_row ns w in
  strings_table w' = strings_table w /\ same_opts w w' /\ writing_ahead w' = writing_ahead w /\ default_row_height w' = default_row_height w /\ constant_memory w' = constant_memory w.
Proof.
  induction ns as [|n ns IH]; intros w; cbn [fold_left]; cbv zeta; [repeat (split; [first [reflexivity|apply same_opts_refl]|]); reflexivity|].
  destruct (IH (flush_data_row w n)) as (A & B & C & D & F). split; [exact A|]. split; [|split; [exact C|split; [exact D|exact F]]].
  eapply same_opts_trans; [|exact B]. split; reflexivity.
Qed.
Lemma flush_to_rows w n r : In r (sort_dedup (filter (fun r => r <? n) (keys (write_ahead w)) ++ filter (fun r => (current_row w <? r) && (r <? n)) (keys (changed_rows w))) ++ [n]) -> r <= n.
Proof.
  intros H. apply in_app_or in H as [H|[<-|[]]]; [|lia]. apply (proj1 (sort_dedup_in _ _)) in H. apply in_app_or in H as [H|H]; apply filter_In in H as [_ H]; lia.
Qed.
Lemma J_insert l w r c k x : J l w -> fine l r c k -> r < Cells_Model.ROW_MAX -> J l (insert_cell w r c (k, x)) /\ data (insert_cell w r c (k, x)) <> [].
Proof.
  intros [A B C D R O W] Hf Hr. pose proof (insert_cell_all (fine l) w r c k x Hf C) as C'.
  assert (Ne : forall t : table, table_insert r c (k, x) t <> []).
  { intros t. unfold table_insert. assert (Ni : forall cs (u : table), ins r cs u <> []) by (intros cs [|[a b] u]; cbn [ins]; [discriminate|destruct (r <? a); [discriminate|destruct (r =? a); discriminate]]).
    destruct (get r t); apply Ni. }
  assert (Up : forall v t, strings_table v = strings_table w -> texts_ok v -> rows_in v -> out_ok (flushed v) -> all_cells (fine l) (upd_data v t) -> t <> [] -> J l (upd_data v t)).
  { intros v t E1 E2 [E3 E4 E5 E6] E7 E8 E9. split; fields; try assumption; [rewrite E1; assumption|apply (texts_frame v); auto|split; fields; assumption|].
    intros E. fields. contradiction. }
  unfold insert_cell in *. destruct (constant_memory w) eqn:Ecm.
  2: { split; [|fields; apply Ne]. apply Up; auto. }
  destruct (N.ltb_spec r (current_row w)) as [Hlt|Hge].
  { split; [split; assumption|]. intros E. apply W in E as (E & _). lia. }
  destruct (N.ltb_spec (current_row w) r) as [Hlt|Hge2]; cbn [andb] in *.
  - destruct (writing_ahead w) eqn:Ewa.
    + assert (Nd : data w <> []) by (intros E; apply W in E as (_ & _ & _ & E); congruence). split; [|fields; assumption].
      destruct R as [R1 R2 R3 R4]. split; fields; try assumption; [apply (texts_frame w); auto| |intros E; fields; contradiction].
      split; fields; try assumption. intros r0 Hr0. unfold table_insert in Hr0. destruct (get r (write_ahead w)); apply ins_keys_In in Hr0 as [->|Hr0]; auto.
    + rewrite flush_to_row_eq in *. set (ns := sort_dedup _ ++ [r]) in *.
      assert (Hns : forall n, In n ns -> n < Cells_Model.ROW_MAX) by (intros n Hn; apply flush_to_rows in Hn; lia). clearbody ns.
      destruct (flush_fold_same ns w) as (F1 & F2 & _). destruct (flush_fold_weak l ns w (Build_weak l w C R O) Hns) as [K1 K2 K3].
      split; [|fields; apply Ne]. apply Up; auto. apply (texts_same w); assumption.
  - split; [|fields; apply Ne]. apply Up; auto.
Qed.
Lemma J_sst l w s t i b : J l w -> string_ok s -> shared_string_index (strings_table w) s = (t, i) ->
  exists l', J l' (upd_sst w t b) /\ nth_error l' (N.to_nat i) = Some s.
Proof.
  intros [A B C D [R1 R2 R3 R4] O W] Hs E. destruct (shared_string_index_inv _ _ _ _ _ A E) as (l' & I' & [d ->] & Hn & _ & Hl).
  exists (l ++ d). split; [|assumption]. split; fields; try assumption; [|apply fine_cells_app; assumption|apply (texts_frame w); auto|split; fields; assumption].
  destruct Hl as [->|[-> _]]; [assumption|]. apply Forall_app. split; [assumption|]. constructor; [assumption|constructor].
Qed.
Lemma J_flag l w b : J l w -> J l (upd_sst w (strings_table w) b).
Proof. apply J_fr. split; split; reflexivity. Qed.
Lemma J_ahead l w b : J l w -> data w <> [] -> J l (upd_ahead w b).
Proof.
  intros [A B C D [R1 R2 R3 R4] O W] Nd. split; fields; try assumption; [apply (texts_frame w); auto|split; fields; assumption|intros E; fields; contradiction].
Qed.
(** Rewriting one row of the table in memory. *)
Lemma J_row l w r cs : J l w -> all_cols (fine l) r cs -> J l (upd_data w (ins r cs (data w))).
Proof.
  intros [A B (C1 & C2 & C3) D [R1 R2 R3 R4] O W] H. split; fields; try assumption; [|apply (texts_frame w); auto|split; fields; assumption|].
  - split; [|split]; fields; try assumption. apply all_table_ins; assumption.
  - intros E. fields. destruct (data w) as [|[a b] u]; cbn [ins] in E; [discriminate|]. destruct (r <? a); [discriminate|]. destruct (r =? a); discriminate.
Qed.
