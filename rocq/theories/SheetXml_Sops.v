(** Sheets built with merged ranges, tables, filters and groups: everything in them
    can be stored, so that the text of the sheet reads back. *)
From Verif Require Import Base SMap F64 Fmt_Model Xml_Model Xml_Spec Xml_Proofs Xml_Read Xml_Read_Proofs Xml_Tree
  Sst_Model Sst_Proofs Ref_Model Ref_Spec Ref_Proofs Cells_Model Cells_Spec Cells_Proofs Cells_Proofs2 Cells_Inv Cells_Save Cells_Hist
  Rich_Model Rich_Proofs SheetXml_Model SheetXml_Spec SheetXml_Proofs SheetXml_Proofs2 SheetXml_Proofs3 SheetXml_Proofs4 SheetXml_Proofs5 SheetXml_Proofs6
  Sheet_Model Sheet_Proofs Opts_Frame Sheet_Hist Sheet_Hist2 Sheet_Hist3 Sheet_Hist4 Sheet_Hist5 Table_Spec.

(** ** Calls whose payloads can be stored *)
Definition formula_readable (fm : formula) : Prop := plain_text (f_text fm) /\ (f_result fm <> [] -> result_ok (f_result fm)).
(** A table column: the formula of the total row of a column without a name of its
    own is asked about for every header text. *)
Definition column_readable (c : tcolumn) : Prop :=
  (tc_name c <> [] -> text_ok (tc_name c)) /\ (tc_total_label c <> [] -> text_ok (tc_total_label c)) /\
  (forall fm, tc_formula c = Some fm -> formula_readable fm) /\
  (forall mk, tc_total c = Some mk -> tc_total_label c = [] -> (tc_name c <> [] -> formula_readable (mk (tc_name c))) /\ (tc_name c = [] -> forall n, text_ok n -> formula_readable (mk n))).
Definition sop_readable (o : sop) : Prop :=
  match o with
  | SCell o => op_readable o
  | SMerge _ _ _ _ text _ => text_ok text
  | STable _ _ _ _ t => Forall column_readable (t_columns t)
  | _ => True end.

Definition stored_ok (w : ws) : Prop := std w /\ texts_ok w /\ values_ok w.
Lemma stored_step w o w' e : stored_ok w -> op_readable o -> step w o = (w', e) -> stored_ok w'.
Proof.
  intros (S & T & V) R E. split; [apply (std_step w o w' e S E)|]. split; [eapply step_texts; eassumption|eapply step_values; eassumption].
Qed.
Lemma stored_all ops : Forall op_readable ops -> forall w w' e, stored_ok w -> write_all w ops = (w', e) -> stored_ok w'.
Proof.
  induction 1 as [|o ops Ho Hops IH]; intros w w' e S; cbn [write_all]; [intros [= <- <-]; exact S|].
  destruct (step w o) as [w1 e1] eqn:E. pose proof (stored_step _ _ _ _ S Ho E) as S1. destruct e1; [intros H; assert (w' = w1) by congruence; subst; exact S1|apply IH; exact S1].
Qed.
Lemma stored_quiet w w' : quiet w w' -> (nan_text w', inf_text w', neg_inf_text w', default_result w') = (nan_text w, inf_text w, neg_inf_text w, default_result w) -> stored_ok w -> stored_ok w'.
Proof.
  intros Q E (S & T & V). split; [exact (std_quiet _ _ Q S)|]. assert (E1 : nan_text w' = nan_text w) by congruence. assert (E2 : inf_text w' = inf_text w) by congruence.
  assert (E3 : neg_inf_text w' = neg_inf_text w) by congruence. assert (E4 : default_result w' = default_result w) by congruence.
  split; [exact (texts_frame w w' E1 E2 E3 E4 T)|]. destruct Q as ((D & _) & _). intros r c k x. rewrite D. apply V.
Qed.
Definition texts (w : ws) := (nan_text w, inf_text w, neg_inf_text w, default_result w).
Lemma texts_cd w r c : texts (fst (check_dimensions w r c)) = texts w.
Proof. unfold check_dimensions. destruct (_ <=? _); [reflexivity|]. destruct (_ <=? _); [reflexivity|]. cbv zeta. destruct (_ || _); reflexivity. Qed.
Lemma stored_cd w r c : stored_ok w -> stored_ok (fst (check_dimensions w r c)).
Proof. apply stored_quiet; [apply quiet_cd|apply (texts_cd w r c)]. Qed.
Lemma texts_grouped_rows l b : forall w, texts (fst (grouped_rows w l b)) = texts w.
Proof.
  induction l as [|r l IH]; intros w; cbn [grouped_rows]; [reflexivity|]. unfold set_grouped_row.
  destruct (get r (changed_rows w)) as [o|]; [destruct (_ <? _); [reflexivity|]|]; (etransitivity; [apply IH|reflexivity]).
Qed.
Lemma texts_grouped_columns l b : forall w, texts (fst (grouped_columns w l b)) = texts w.
Proof.
  induction l as [|r l IH]; intros w; cbn [grouped_columns]; [reflexivity|]. unfold set_grouped_column.
  destruct (get r (changed_cols w)) as [o|]; [destruct (_ <? _); [reflexivity|]|]; (etransitivity; [apply IH|reflexivity]).
Qed.
Lemma texts_group_rows w fr lr b : texts (fst (group_rows w fr lr b)) = texts w.
Proof.
  assert (S : forall w b, texts (fst (set_grouped_rows w fr lr b)) = texts w).
  { clear. intros w b. unfold set_grouped_rows. cbv zeta. pose proof (texts_cd w fr (get_min_col w)) as A.
    destruct (check_dimensions w fr (get_min_col w)) as [w1 [|]]; [|exact A]. cbn [fst negb] in *.
    pose proof (texts_cd w1 lr (get_min_col w)) as B. destruct (check_dimensions w1 lr (get_min_col w)) as [w2 [|]]; cbn [fst negb] in *; [|congruence].
    destruct (lr <? fr); cbn [fst]; [congruence|]. rewrite texts_grouped_rows. congruence. }
  unfold group_rows. destruct b; [|apply S]. unfold set_collapsed_row. pose proof (texts_cd w (lr + 1) (get_min_col w)) as A.
  destruct (check_dimensions w (lr + 1) (get_min_col w)) as [w1 [|]]; [|exact A]. cbn [negb]. cbv zeta. rewrite S. exact A.
Qed.
Lemma texts_group_columns w fr lr b : texts (fst (group_columns w fr lr b)) = texts w.
Proof.
  assert (S : forall w b, texts (fst (set_grouped_columns w fr lr b)) = texts w).
  { clear. intros w b. unfold set_grouped_columns. cbv zeta. pose proof (texts_cd w (get_min_row w) fr) as A.
    destruct (check_dimensions w (get_min_row w) fr) as [w1 [|]]; [|exact A]. cbn [fst negb] in *.
    pose proof (texts_cd w1 (get_min_row w) lr) as B. destruct (check_dimensions w1 (get_min_row w) lr) as [w2 [|]]; cbn [fst negb] in *; [|congruence].
    destruct (lr <? fr); cbn [fst]; [congruence|]. rewrite texts_grouped_columns. congruence. }
  unfold group_columns. destruct b; [|apply S]. unfold set_collapsed_column. pose proof (texts_cd w (get_min_row w) (lr + 1)) as A.
  destruct (check_dimensions w (get_min_row w) (lr + 1)) as [w1 [|]]; [|exact A]. cbn [negb]. cbv zeta. rewrite S. exact A.
Qed.

(** ** Merged ranges *)
Lemma stored_merge s fr fc lr lc text f s' e : text_ok text -> merge_range s fr fc lr lc text f = Some (s', e) -> stored_ok (cells s) -> stored_ok (cells s').
Proof.
  intros R H S. unfold merge_range in H. pose proof (stored_cd _ fr fc S) as S1. destruct (check_dimensions (cells s) fr fc) as [w1 ok1]. cbn [fst] in S1.
  destruct ok1; cbn [negb] in H; [|injection H as <- _; exact S1].
  pose proof (stored_cd _ lr lc S1) as S2. destruct (check_dimensions w1 lr lc) as [w2 ok2]. cbn [fst] in S2.
  destruct ok2; cbn [negb] in H; [|injection H as <- _; exact S2].
  destruct (_ || _); [injection H as <- _; exact S2|]. destruct (_ && _); [injection H as <- _; exact S2|].
  assert (B : forall {A} (k : A -> N * N) l, Forall op_readable (map (fun x => WriteBlank (fst (k x)) (snd (k x)) f) l)).
  { intros A k l. apply Forall_forall. intros o Ho. apply in_map_iff in Ho as (x & <- & _). exact I. }
  destruct (write_all w2 (WriteString fr fc text (Some f) :: map (fun c => WriteBlank fr c f) (range_incl (fc + 1) lc))) as [w3 e3] eqn:E3.
  assert (S3 : stored_ok w3).
  { eapply stored_all; [|exact S2|exact E3]. constructor; [exact R|apply (B N (fun c => (fr, c)))]. }
  destruct e3; [injection H as <- _; exact S3|]. rewrite (ahead_std w3 true (proj1 S3)) in H.
  destruct (write_all w3 (map (fun p => WriteBlank (fst p) (snd p) f) (range_cells (fr + 1) fc lr lc))) as [w4 e4] eqn:E4.
  assert (S4 : stored_ok w4) by (eapply stored_all; [|exact S3|exact E4]; apply (B (N * N)%type (fun p => p))).
  destruct e4; [injection H as <- _; exact S4|]. rewrite (ahead_std w4 false (proj1 S4)) in H.
  cbv zeta in H. destruct (claim_cells _ _ _ _) as [|l|l]; [discriminate H|injection H as <- _; exact S4|injection H as <- _; exact S4].
Qed.

(** ** Tables *)
Definition column_good (c : tcolumn) : Prop :=
  text_ok (tc_name c) /\ (tc_total_label c <> [] -> text_ok (tc_total_label c)) /\ (forall fm, tc_formula c = Some fm -> formula_readable fm) /\
  (forall mk, tc_total c = Some mk -> tc_total_label c = [] -> formula_readable (mk (tc_name c))).
Section Lower.
  Variable lower : str -> str.
  Lemma names_good hs : Forall text_ok hs -> forall cs seen out, Forall column_readable cs -> name_columns lower hs cs seen = Some out -> Forall column_good out.
  Proof.
    induction 1 as [|h hs Hh Hhs IH]; intros cs seen out R; cbn [name_columns]; [intros [= <-]; constructor|].
    destruct (match cs with [] => (tcolumn_new, []) | c :: r => (c, r) end) as [c rest] eqn:Ec. cbv zeta.
    assert (Q : column_readable c /\ Forall column_readable rest).
    { destruct cs as [|c0 r0]; injection Ec as <- <-; [|split; [exact (Forall_inv R)|exact (Forall_inv_tail R)]]. split; [|constructor].
      split; [intros X; destruct (X eq_refl)|]. split; [intros X; destruct (X eq_refl)|]. split; discriminate. }
    destruct Q as [(Q1 & Q2 & Q3 & Q4) Qr]. destruct (existsb _ seen); [discriminate|]. destruct (name_columns lower hs rest _) as [l|] eqn:E; [|discriminate].
    intros H. match type of H with Some (?a :: _) = _ => assert (X : out = a :: l) by congruence end. subst out. constructor; [|exact (IH _ _ _ Qr E)].
    unfold column_good. cbn [tc_name tc_total_label tc_formula tc_total]. destruct (tc_name c) as [|n0 nr] eqn:En.
    - split; [exact Hh|]. split; [exact Q2|]. split; [exact Q3|]. intros mk Hm Hl. destruct (Q4 mk Hm Hl) as [_ X]. apply X; [reflexivity|exact Hh].
    - split; [apply Q1; discriminate|]. split; [exact Q2|]. split; [exact Q3|]. intros mk Hm Hl. destruct (Q4 mk Hm Hl) as [X _]. apply X. discriminate.
  Qed.
  Lemma digits_text p n : (forall c, In c p -> 32 <= c <= 126) -> (forall r, p <> 60 :: r) -> p <> [] -> text_ok (p ++ dec n).
  Proof.
    intros P L Hn. destruct (dec_spec n) as (D & _). split.
    - intros c Hc. apply in_app_iff in Hc as [Hc|Hc]; [specialize (P c Hc)|rewrite forallb_forall in D; specialize (D c Hc); unfold is_ascii_digit in D; apply andb_prop in D as [D1 D2]; apply N.leb_le in D1, D2];
        unfold is_scalar; (split; [lia|split; lia]).
    - intros [[r E] _]. destruct p as [|a p]; [congruence|]. cbn [app] in E. change (lit "<r>" ++ r) with (60 :: lit "r>" ++ r) in E.
      assert (a = 60) by congruence. subst a. exact (L p eq_refl).
  Qed.
  Lemma header_text w fr fc show col : stored_ok w -> text_ok (default_header w fr fc show col).
  Proof.
    intros (S & T & V). unfold default_header. cbv zeta.
    assert (D : text_ok (lit "Column" ++ dec (col - fc + 1))).
    { apply digits_text; [|discriminate|discriminate]. intros c Hc. cbn in Hc. repeat destruct Hc as [<-|Hc]; try lia; destruct Hc. }
    destruct (negb show); [exact D|]. destruct (table_get fr col (data w)) as [[k x]|] eqn:G; [|exact D].
    pose proof (V fr col k x G) as K. destruct k; try exact D; exact K.
  Qed.
  Lemma column_ops_readable t fd ld col c : column_good c -> Forall op_readable (column_ops t fd ld col c).
  Proof.
    intros (G1 & G2 & G3 & G4). assert (RC : range_chars []) by (intros ? []). unfold column_ops, header_ops, total_ops, data_ops. repeat (apply Forall_app; split).
    - destruct (_ && _); [constructor; [exact G1|constructor]|constructor].
    - destruct (t_total t); [|constructor]. destruct (tc_total_label c) as [|a l] eqn:El.
      + destruct (tc_total c) as [mk|] eqn:Et; [|constructor]. constructor; [|constructor]. destruct (G4 mk eq_refl eq_refl). split; [assumption|]. split; assumption.
      + constructor; [|constructor]. apply G2. discriminate.
    - destruct (tc_formula c) as [fm|]; [|constructor]. destruct (G3 fm eq_refl). apply Forall_forall. intros o Ho. apply in_map_iff in Ho as (x & <- & _).
      split; [assumption|]. split; assumption.
  Qed.
  Lemma stored_restyle t fd ld col c w : stored_ok w -> stored_ok (restyle t fd ld col c w).
  Proof.
    intros (S & T & V). destruct (restyle_spec t fd ld col c w S) as (A & B & C & i & _ & G). cbv zeta in *.
    split; [exact A|]. split; [exact (texts_same _ _ C T)|]. intros r k v x. rewrite G. destruct (_ && _); [|apply V].
    destruct (table_get r k (data w)) as [[k0 x0]|] eqn:E; [|discriminate]. intros H. assert (v = k0) by congruence. subst. exact (V _ _ _ _ E).
  Qed.
  Lemma stored_columns t fd ld cs : Forall column_good cs -> forall col w w' e, stored_ok w -> table_columns w t fd ld col cs = (w', e) -> stored_ok w'.
  Proof.
    induction 1 as [|c cs Hc Hcs IH]; intros col w w' e S; cbn [table_columns]; [intros [= <- <-]; exact S|].
    rewrite (table_column_eq t fd ld col c w (proj1 S)). destruct (write_all w (column_ops t fd ld col c)) as [w1 e1] eqn:E.
    pose proof (stored_all _ (column_ops_readable t fd ld col c Hc) _ _ _ S E) as S1. destruct e1; [intros [= <- <-]; exact S1|].
    apply IH. apply stored_restyle, S1.
  Qed.
  Lemma stored_table s fr fc lr lc t s' e : Forall column_readable (t_columns t) -> add_table lower s fr fc lr lc t = Some (s', e) -> stored_ok (cells s) -> stored_ok (cells s').
  Proof.
    intros R H S. unfold add_table in H. destruct (_ || _); [injection H as <- _; exact S|]. destruct (_ || _); [injection H as <- _; exact S|].
    destruct (_ && _); [injection H as <- _; exact S|]. destruct (name_columns _ _ _ _) as [cols|] eqn:En; [|injection H as <- _; exact S].
    cbv zeta in H. destruct (_ && _); [discriminate H|].
    assert (G : Forall column_good cols).
    { eapply names_good; [|exact R|exact En]. apply Forall_forall. intros h Hh. apply in_map_iff in Hh as (x & <- & _). apply header_text, S. }
    destruct (table_columns _ _ _ _ _ _) as [w e1] eqn:Et. pose proof (stored_columns _ _ _ _ G _ _ _ _ S Et) as S1.
    destruct e1; [injection H as <- _; exact S1|]. destruct (claim_cells _ _ _ _) as [|l|l]; [discriminate H|injection H as <- _; exact S1|].
    destruct (if t_autofilter t then _ else _) as [fcells [|]]; injection H as <- _; exact S1.
  Qed.

  Lemma stored_sstep s o s' e : sop_readable o -> sstep lower s o = Some (s', e) -> stored_ok (cells s) -> stored_ok (cells s').
  Proof.
    intros R E S. destruct o; cbn [sstep sop_readable] in *.
    - unfold lift in E. destruct (step (cells s) o) as [w1 e1] eqn:E1. assert (s' = with_cells s w1) by (cbn in E; congruence). subst s'. exact (stored_step _ _ _ _ S R E1).
    - exact (stored_merge _ _ _ _ _ _ _ _ _ R E S).
    - exact (stored_table _ _ _ _ _ _ _ _ R E S).
    - apply autofilter_frame in E as (-> & _). exact S.
    - unfold lift in E. injection E as <- _. cbn [cells with_cells]. exact (stored_quiet _ _ (quiet_group_rows _ _ _ _) (texts_group_rows _ _ _ _) S).
    - unfold lift in E. injection E as <- _. cbn [cells with_cells]. exact (stored_quiet _ _ (quiet_group_columns _ _ _ _) (texts_group_columns _ _ _ _) S).
    - destruct (page_breaks _ _ _ _) as [[b0 e0]|]; [|discriminate E]. injection E as <- _. exact S.
    - destruct (page_breaks _ _ _ _) as [[b0 e0]|]; [|discriminate E]. injection E as <- _. exact S.
  Qed.
  Lemma stored_run ops : Forall sop_readable ops -> forall s s', stored_ok (cells s) -> srun lower s ops = Some s' -> stored_ok (cells s').
  Proof.
    induction 1 as [|o ops Ho Hops IH]; intros s s' S; cbn [srun]; [intros [= <-]; exact S|].
    destruct (sstep lower s o) as [[s1 e]|] eqn:E; [|discriminate]. apply IH. exact (stored_sstep _ _ _ _ Ho E S).
  Qed.
End Lower.
