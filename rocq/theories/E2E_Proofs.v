(** Which formats a worksheet can hold: those it was given and their merges. *)
From Coq Require Import Permutation.
From Verif Require Import Base SMap F64 Fmt_Model Sst_Model Ref_Model Cells_Model Cells_Inv SortLib Reg_Model Reg_Proofs.

(** The formats a call is given. *)
Definition op_formats (o : op) : list Format :=
  match o with
  | WriteNumber _ _ _ f | WriteDateTime _ _ _ f | WriteString _ _ _ f | WriteRich _ _ _ _ f | WriteBool _ _ _ f
  | WriteFormula _ _ _ f _ | WriteArray _ _ _ _ _ f _ _ => match f with Some f => [f] | None => [] end
  | WriteBlank _ _ f | SetCellFormat _ _ f | SetRangeFormat _ _ _ _ f | SetRowFormat _ f | SetColumnFormat _ f => [f]
  | _ => []
  end.

Section Closed.
  Variable P : Format -> Prop.
  Hypothesis Pmerge : forall a b, P a -> P b -> P (format_merge a b).

  Definition row_all (m : smap rowopt) : Prop := forall k o f, In (k, o) m -> r_format o = Some f -> P f.
  Definition col_all (m : smap colopt) : Prop := forall k o f, In (k, o) m -> c_format o = Some f -> P f.
  Definition fp (w : ws) : Prop := Forall P (xfs w) /\ row_all (changed_rows w) /\ col_all (changed_cols w).

  Definition same (w w' : ws) : Prop := xfs w' = xfs w /\ changed_rows w' = changed_rows w /\ changed_cols w' = changed_cols w.
  Lemma same_refl w : same w w. Proof. repeat split. Qed.
  Lemma same_trans a b c : same a b -> same b c -> same a c.
  Proof. intros (A & B & C) (D & E & F). unfold same. rewrite D, E, F. auto. Qed.
  Lemma fp_same w w' : same w w' -> fp w -> fp w'.
  Proof. intros (A & B & C). unfold fp. now rewrite A, B, C. Qed.

  Lemma get_in {V} k (v : V) m : get k m = Some v -> In (k, v) m.
  Proof.
    induction m as [|[j u] m IH]; cbn [get]; [discriminate|]. destruct (N.eqb_spec j k) as [->|]; intros H; [left; congruence|right; exact (IH H)].
  Qed.

  Lemma flush_data_row_same w n : same w (flush_data_row w n). Proof. unfold flush_data_row. repeat split. Qed.
  Lemma flush_fold_same l : forall w, same w (fold_left flush_data_row l w).
  Proof. induction l as [|x l IH]; intros w; cbn [fold_left]; [apply same_refl|]. eapply same_trans; [apply flush_data_row_same|apply IH]. Qed.
  Lemma flush_to_row_same w n : same w (flush_to_row w n).
  Proof. unfold flush_to_row. eapply same_trans; [apply flush_fold_same|apply flush_data_row_same]. Qed.
  Lemma insert_cell_same w r c k : same w (insert_cell w r c k).
  Proof.
    unfold insert_cell. destruct (constant_memory w); [|repeat split]. destruct (r <? current_row w); [apply same_refl|].
    destruct ((current_row w <? r) && writing_ahead w); [repeat split|].
    destruct (current_row w <? r); [|repeat split]. destruct (flush_to_row_same w r) as (A & B & C). repeat split; assumption.
  Qed.
  Lemma check_same w r c w' b : check_dimensions w r c = (w', b) -> same w w'.
  Proof.
    unfold check_dimensions. destruct (Cells_Model.ROW_MAX <=? r); [intros H; assert (E : w = w') by congruence; subst; apply same_refl|].
    destruct (Cells_Model.COL_MAX <=? c); [intros H; assert (E : w = w') by congruence; subst; apply same_refl|].
    destruct (negb (constant_memory w) || (current_row w <=? r)); intros H.
    all: match type of H with (?a, _) = _ => assert (E : a = w') by congruence; rewrite <- E; repeat split end.
  Qed.
  Lemma reg_fp w f w' i : P f -> reg w f = (w', i) -> fp w -> fp w'.
  Proof.
    intros Hf E (A & B & C). unfold reg, format_xf_index in E. destruct (fmt_find f (xfs w)).
    - assert (G : upd_xfs w (xfs w) = w') by congruence. rewrite <- G. split; [exact A|split; assumption].
    - assert (G : upd_xfs w (xfs w ++ [f]) = w') by congruence. rewrite <- G. split; [|split; assumption]. cbn [xfs upd_xfs]. apply Forall_app. split; [exact A|now constructor].
  Qed.
  Lemma row_col_fp w r c w' i : row_col_format w r c = (w', i) -> fp w -> fp w'.
  Proof.
    unfold row_col_format. intros E F.
    destruct (get c (changed_cols w)) as [co|] eqn:Ec; [|congruence]. destruct (c_format co) as [cf|] eqn:Fc; [|congruence].
    destruct (get r (changed_rows w)) as [ro|] eqn:Er; [|congruence]. destruct (r_format ro) as [rf|] eqn:Fr; [|congruence].
    pose proof F as (A & B & C). refine (reg_fp _ _ _ _ _ E F). apply Pmerge.
    - exact (B _ _ _ (get_in _ _ _ Er) Fr).
    - exact (C _ _ _ (get_in _ _ _ Ec) Fc).
  Qed.
  Definition may (f : option Format) : Prop := forall g, f = Some g -> P g.
  Lemma cell_xf_fp w r c f w' i : may f -> cell_xf w r c f = (w', i) -> fp w -> fp w'.
  Proof. intros M. destruct f as [f|]; cbn [cell_xf]; [apply reg_fp; apply M; reflexivity|apply row_col_fp]. Qed.
  Lemma insert_cell_fp w r c k : fp w -> fp (insert_cell w r c k). Proof. apply fp_same, insert_cell_same. Qed.
  Lemma check_fp w r c w' b : check_dimensions w r c = (w', b) -> fp w -> fp w'.
  Proof. intros E. apply fp_same. eapply check_same; exact E. Qed.
  Lemma sst_fp w t l : fp w -> fp (upd_sst w t l). Proof. apply fp_same. repeat split. Qed.

  Lemma store_blank_fp w r c f : P f -> fp w -> fp (fst (store_blank w r c f)).
  Proof.
    intros Hf F. unfold store_blank. destruct (check_dimensions w r c) as [w1 ok] eqn:E1. pose proof (check_fp _ _ _ _ _ E1 F) as F1.
    destruct (negb ok); [exact F1|]. destruct (reg w1 f) as [w2 i] eqn:E2. pose proof (reg_fp _ _ _ _ Hf E2 F1) as F2.
    destruct (i =? 0).
    - destruct (row_col_format w2 r c) as [w3 j] eqn:E3. apply insert_cell_fp. exact (row_col_fp _ _ _ _ _ E3 F2).
    - apply insert_cell_fp. exact F2.
  Qed.
  Lemma store_string_fp w r c s f : may f -> fp w -> fp (fst (store_string w r c s f)).
  Proof.
    intros M F. unfold store_string. destruct s as [|h s].
    { destruct f as [f|]; [apply store_blank_fp; [apply M; reflexivity|exact F]|exact F]. }
    destruct (check_dimensions w r c) as [w1 ok] eqn:E1. pose proof (check_fp _ _ _ _ _ E1 F) as F1.
    destruct (negb ok); [exact F1|]. destruct (MAX_STRING_LEN <? char_count (h :: s)); [exact F1|].
    destruct (cell_xf w1 r c f) as [w2 i] eqn:E2. pose proof (cell_xf_fp _ _ _ _ _ _ M E2 F1) as F2.
    destruct (inline_strings w2); [apply insert_cell_fp; exact F2|]. destruct (global_sst w2).
    - destruct (shared_string_index (strings_table w2) (h :: s)) as [t id]. apply insert_cell_fp, sst_fp, F2.
    - apply insert_cell_fp, sst_fp, F2.
  Qed.
  Lemma store_rich_fp w r c s raw f : may f -> fp w -> fp (fst (store_rich_string w r c s raw f)).
  Proof.
    intros M F. unfold store_rich_string. destruct s as [|h s].
    { destruct f as [f|]; [apply store_blank_fp; [apply M; reflexivity|exact F]|exact F]. }
    destruct (check_dimensions w r c) as [w1 ok] eqn:E1. pose proof (check_fp _ _ _ _ _ E1 F) as F1.
    destruct (negb ok); [exact F1|]. destruct (MAX_STRING_LEN <? char_count (h :: s)); [exact F1|].
    destruct (cell_xf w1 r c f) as [w2 i] eqn:E2. pose proof (cell_xf_fp _ _ _ _ _ _ M E2 F1) as F2.
    destruct (global_sst w2).
    - destruct (shared_string_index (strings_table w2) (h :: s)) as [t id]. cbn [fst].
      match goal with |- fp (if ?b then ?x else ?y) => destruct b end; [apply insert_cell_fp, sst_fp, F2|apply sst_fp, insert_cell_fp, sst_fp, F2].
    - cbn [fst]. match goal with |- fp (if ?b then ?x else ?y) => destruct b end; [apply insert_cell_fp, F2|apply sst_fp, insert_cell_fp, F2].
  Qed.
  Lemma store_number_fp w r c x f d : may f -> fp w -> fp (fst (store_number_type w r c x f d)).
  Proof.
    intros M F. unfold store_number_type. destruct (check_dimensions w r c) as [w1 ok] eqn:E1. pose proof (check_fp _ _ _ _ _ E1 F) as F1.
    destruct (negb ok); [exact F1|]. destruct (is_nan x); [apply store_string_fp; assumption|].
    destruct (is_inf x); [destruct (feq x (S754_infinity false)); apply store_string_fp; assumption|].
    destruct (cell_xf w1 r c f) as [w2 i] eqn:E2. apply insert_cell_fp. exact (cell_xf_fp _ _ _ _ _ _ M E2 F1).
  Qed.
  Lemma store_boolean_fp w r c v f : may f -> fp w -> fp (fst (store_boolean w r c v f)).
  Proof.
    intros M F. unfold store_boolean. destruct (check_dimensions w r c) as [w1 ok] eqn:E1. pose proof (check_fp _ _ _ _ _ E1 F) as F1.
    destruct (negb ok); [exact F1|]. destruct (cell_xf w1 r c f) as [w2 i] eqn:E2. apply insert_cell_fp. exact (cell_xf_fp _ _ _ _ _ _ M E2 F1).
  Qed.
  Lemma write_zeros_fp cells f : may f -> forall w, fp w -> fp (fst (write_zeros w cells f)).
  Proof.
    intros M. induction cells as [|[r c] cells IH]; intros w F; cbn [write_zeros]; [exact F|].
    pose proof (store_number_fp w r c fzero f false M F) as G. destruct (store_number_type w r c fzero f false) as [w1 [e|]]; cbn [fst] in *; [exact G|apply IH; exact G].
  Qed.
  Lemma store_array_fp w fr fc lr lc fm f d g : may f -> fp w -> fp (fst (store_array_formula w fr fc lr lc fm f d g)).
  Proof.
    intros M F. unfold store_array_formula. destruct (check_dimensions w fr fc) as [w1 ok] eqn:E1. pose proof (check_fp _ _ _ _ _ E1 F) as F1.
    destruct (negb ok); [exact F1|]. destruct (check_dimensions w1 lr lc) as [w2 ok2] eqn:E2. pose proof (check_fp _ _ _ _ _ E2 F1) as F2.
    destruct (negb ok2); [exact F2|]. destruct ((lr <? fr) || (lc <? fc)); [exact F2|].
    destruct (cell_xf w2 fr fc f) as [w3 i] eqn:E3. pose proof (cell_xf_fp _ _ _ _ _ _ M E3 F2) as F3. cbv zeta.
    match goal with |- context [write_zeros ?x ?l f] => pose proof (write_zeros_fp l f M x (insert_cell_fp _ _ _ _ F3)) as F4; destruct (write_zeros x l f) as [w4 [e|]] end;
      cbn [fst] in F4; [exact F4|].
    assert (F5 : fp (if constant_memory w4 then upd_ahead w4 true else w4)) by (destruct (constant_memory w4); [eapply fp_same; [|exact F4]; repeat split|exact F4]).
    match goal with |- context [write_zeros ?x ?l f] => pose proof (write_zeros_fp l f M x F5) as F6; destruct (write_zeros x l f) as [w5 [e|]] end;
      cbn [fst] in F6; [exact F6|]. cbn [fst]. destruct (constant_memory w5); [eapply fp_same; [|exact F6]; repeat split|exact F6].
  Qed.
  Lemma store_formula_fp w r c fm f g : may f -> fp w -> fp (fst (store_formula w r c fm f g)).
  Proof.
    intros M F. unfold store_formula. destruct (f_dynamic fm); [apply store_array_fp; [intros h; discriminate|exact F]|].
    destruct (check_dimensions w r c) as [w1 ok] eqn:E1. pose proof (check_fp _ _ _ _ _ E1 F) as F1.
    destruct (negb ok); [exact F1|]. destruct (cell_xf w1 r c f) as [w2 i] eqn:E2. apply insert_cell_fp. exact (cell_xf_fp _ _ _ _ _ _ M E2 F1).
  Qed.
  Lemma upd_data_fp w t : fp w -> fp (upd_data w t). Proof. apply fp_same. repeat split. Qed.
  Lemma icf_fp w r c x : fp w -> fp (insert_cell_format w r c x).
  Proof. intros F. unfold insert_cell_format. destruct (get r (data w)) as [cs|]; [destruct (get c cs) as [[k y]|]; apply upd_data_fp, F|]. destruct (0 <? x); [apply upd_data_fp, F|exact F]. Qed.
  Lemma icf_fold_fp l i : forall w, fp w -> fp (fold_left (fun w p => insert_cell_format w (fst p) (snd p) i) l w).
  Proof. induction l as [|p l IH]; intros w F; cbn [fold_left]; [exact F|]. apply IH, icf_fp, F. Qed.
  Lemma rows_fp w k o l : (forall f, r_format o = Some f -> P f) -> fp w -> fp (upd_rows w (ins k o (changed_rows w)) l).
  Proof.
    intros G (A & B & C). split; [exact A|]. split; [|exact C]. cbn [changed_rows upd_rows]. intros j p f H E.
    destruct (In_ins j p k o _ H) as [[-> ->]|H2]; [exact (G f E)|exact (B _ _ _ H2 E)].
  Qed.
  Lemma cols_fp w k o l : (forall f, c_format o = Some f -> P f) -> fp w -> fp (upd_cols w (ins k o (changed_cols w)) l).
  Proof.
    intros G (A & B & C). split; [exact A|]. split; [exact B|]. cbn [changed_cols upd_cols]. intros j p f H E.
    destruct (In_ins j p k o _ H) as [[-> ->]|H2]; [exact (G f E)|exact (C _ _ _ H2 E)].
  Qed.
  Lemma row_of w k o f : fp w -> get k (changed_rows w) = Some o -> r_format o = Some f -> P f.
  Proof. intros (_ & B & _) E H. exact (B _ _ _ (get_in _ _ _ E) H). Qed.
  Lemma col_of w k o f : fp w -> get k (changed_cols w) = Some o -> c_format o = Some f -> P f.
  Proof. intros (_ & _ & B) E H. exact (B _ _ _ (get_in _ _ _ E) H). Qed.

  Lemma row_hidden_fp w r : fp w -> fp (fst (set_row_hidden w r)).
  Proof.
    intros F. unfold set_row_hidden. destruct (check_dimensions w r (get_min_col w)) as [w1 ok] eqn:E1. pose proof (check_fp _ _ _ _ _ E1 F) as F1.
    destruct (negb ok); [exact F1|]. cbn [fst]. apply rows_fp; [|exact F1]. destruct (get r (changed_rows w1)) as [o|] eqn:G; cbn [r_format]; [intros f; exact (row_of _ _ _ f F1 G)|discriminate].
  Qed.
  Lemma row_unhidden_fp w r : fp w -> fp (fst (set_row_unhidden w r)).
  Proof.
    intros F. unfold set_row_unhidden. destruct (check_dimensions w r (get_min_col w)) as [w1 ok] eqn:E1. pose proof (check_fp _ _ _ _ _ E1 F) as F1.
    destruct (negb ok); [exact F1|]. destruct (get r (changed_rows w1)) as [o|] eqn:G; cbn [fst]; [|exact F1]. apply rows_fp; [|exact F1]. intros f; exact (row_of _ _ _ f F1 G).
  Qed.
  Lemma row_height_fp w r h : fp w -> fp (fst (set_row_height w r h)).
  Proof.
    intros F. unfold set_row_height. destruct (feq h fzero); [apply row_hidden_fp, F|]. destruct (check_dimensions w r (get_min_col w)) as [w1 ok] eqn:E1. pose proof (check_fp _ _ _ _ _ E1 F) as F1.
    destruct (negb ok); [exact F1|]. cbn [fst]. apply rows_fp; [|exact F1]. destruct (get r (changed_rows w1)) as [o|] eqn:G; cbn [r_format new_row]; [intros f; exact (row_of _ _ _ f F1 G)|discriminate].
  Qed.
  Lemma row_format_fp w r f : P f -> fp w -> fp (fst (set_row_format w r f)).
  Proof.
    intros Hf F. unfold set_row_format. destruct (check_dimensions w r (get_min_col w)) as [w1 ok] eqn:E1. pose proof (check_fp _ _ _ _ _ E1 F) as F1.
    destruct (negb ok); [exact F1|]. destruct (reg w1 f) as [w2 i] eqn:E2. pose proof (reg_fp _ _ _ _ Hf E2 F1) as F2. cbn [fst]. apply rows_fp; [|exact F2].
    destruct (get r (changed_rows w2)) as [o|] eqn:G; cbn [r_format]; [intros g; exact (row_of _ _ _ g F2 G)|intros g H; injection H as <-; exact Hf].
  Qed.
  Lemma col_hidden_fp w c : fp w -> fp (fst (set_column_hidden w c)).
  Proof.
    intros F. unfold set_column_hidden. destruct (Cells_Model.COL_MAX <=? c); [exact F|]. cbn [fst]. apply cols_fp; [|exact F]. cbn [c_format].
    destruct (get c (changed_cols w)) as [o|] eqn:G; [intros g; exact (col_of _ _ _ g F G)|discriminate].
  Qed.
  Lemma col_width_fp w c x a : fp w -> fp (fst (set_column_width_internal w c x a)).
  Proof.
    intros F. unfold set_column_width_internal. destruct (feq x fzero); [apply col_hidden_fp, F|]. destruct (Cells_Model.COL_MAX <=? c); [exact F|]. cbn [fst].
    unfold store_column_width. apply cols_fp; [|exact F]. destruct (get c (changed_cols w)) as [o|] eqn:G; [|discriminate].
    destruct (a && negb (c_autofit o)); [|intros g; exact (col_of _ _ _ g F G)].
    match goal with |- context [fgt ?u (c_width o)] => destruct (fgt u (c_width o)) end; intros g; exact (col_of _ _ _ g F G).
  Qed.
  Lemma col_format_fp w c f : P f -> fp w -> fp (fst (set_column_format w c f)).
  Proof.
    intros Hf F. unfold set_column_format. destruct (check_dimensions w (get_min_row w) c) as [w1 ok] eqn:E1. pose proof (check_fp _ _ _ _ _ E1 F) as F1.
    destruct (negb ok); [exact F1|]. destruct (reg w1 f) as [w2 i] eqn:E2. pose proof (reg_fp _ _ _ _ Hf E2 F1) as F2. cbn [fst]. apply cols_fp; [|exact F2].
    destruct (get c (changed_cols w2)) as [o|] eqn:G; cbn [c_format]; [intros g; exact (col_of _ _ _ g F2 G)|intros g H; injection H as <-; exact Hf].
  Qed.

  Lemma step_fp w o : Forall P (op_formats o) -> fp w -> fp (fst (step w o)).
  Proof.
    intros G F. assert (M : forall f : option Format, Forall P (match f with Some f => [f] | None => [] end) -> may f).
    { intros [f|] H g E; [|discriminate]. injection E as <-. exact (Forall_inv H). }
    destruct o; cbn [step op_formats fst] in *.
    - apply store_number_fp; [apply M, G|exact F].
    - apply store_number_fp; [apply M, G|exact F].
    - apply store_string_fp; [apply M, G|exact F].
    - apply store_rich_fp; [apply M, G|exact F].
    - apply store_boolean_fp; [apply M, G|exact F].
    - apply store_blank_fp; [exact (Forall_inv G)|exact F].
    - apply store_formula_fp; [apply M, G|exact F].
    - apply store_array_fp; [apply M, G|exact F].
    - unfold set_cell_format. destruct (check_dimensions w row col) as [w1 ok] eqn:E1. pose proof (check_fp _ _ _ _ _ E1 F) as F1.
      destruct (negb ok); [exact F1|]. destruct (reg w1 f) as [w2 i] eqn:E2. apply icf_fp. exact (reg_fp _ _ _ _ (Forall_inv G) E2 F1).
    - unfold set_range_format. destruct (negb (check_dimensions_only fr fc) || negb (check_dimensions_only lr lc)); [exact F|]. destruct ((lr <? fr) || (lc <? fc)); [exact F|].
      destruct (reg w f) as [w2 i] eqn:E2. apply icf_fold_fp. exact (reg_fp _ _ _ _ (Forall_inv G) E2 F).
    - unfold clear_cell. destruct (check_dimensions_only row col); [|exact F]. destruct (get row (data w)); [apply upd_data_fp, F|exact F].
    - unfold clear_cell_format. destruct (check_dimensions_only row col); [|exact F]. unfold update_cell_format. destruct (get row (data w)) as [cs|]; [|exact F]. destruct (get col cs) as [[k y]|]; [apply upd_data_fp, F|exact F].
    - unfold set_formula_result. cbv zeta. match goal with |- context [get ?k (data w)] => destruct (get k (data w)) as [cs|] end; [|exact F].
      destruct (get col cs) as [[[] y]|]; try exact F; apply upd_data_fp, F.
    - apply row_height_fp, F.
    - apply row_format_fp; [exact (Forall_inv G)|exact F].
    - apply row_hidden_fp, F.
    - apply row_unhidden_fp, F.
    - apply col_width_fp, F.
    - apply col_format_fp; [exact (Forall_inv G)|exact F].
    - apply col_hidden_fp, F.
    - unfold insert_note. destruct (check_dimensions w row col) as [w1 ok] eqn:E1. pose proof (check_fp _ _ _ _ _ E1 F) as F1.
      destruct (negb ok); [exact F1|]. destruct (MAX_STRING_LEN - 54 <? text_len); [exact F1|]. eapply fp_same; [|exact F1]; repeat split.
    - eapply fp_same; [|exact F]; repeat split.
    - eapply fp_same; [|exact F]; repeat split.
    - eapply fp_same; [|exact F]; repeat split.
    - eapply fp_same; [|exact F]; repeat split.
    - destruct (fle h fzero); [exact F|]. eapply fp_same; [|exact F]; repeat split.
  Qed.
  Lemma run_fp ops : forall w, Forall P (flat_map op_formats ops) -> fp w -> fp (run w ops).
  Proof.
    induction ops as [|o ops IH]; intros w G F; [exact F|]. rewrite run_cons. cbn [flat_map] in G. apply Forall_app in G as [G1 G2]. apply IH; [exact G2|apply step_fp; assumption].
  Qed.
  Lemma standard_fp : P format_default -> fp ws_standard.
  Proof. intros H. split; [cbn; now constructor|]. split; intros k o f []. Qed.
End Closed.
