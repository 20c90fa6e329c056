(** Histories of calls on a worksheet with embedded images (standard mode). *)
From Verif Require Import Base SMap F64 Fmt_Model Xml_Model Xml_Spec Sst_Model Ref_Model Cells_Model Cells_Spec Cells_Proofs Cells_Proofs2 Cells_Inv Cells_Save Cells_Hist
  Props_Cells SheetXml_Spec SheetXml_Proofs3 SheetXml_Proofs5 SheetXml_Proofs6 Pkg_Model Pkg_Proofs Rich_Model Embed_Model Embed_Proofs3.

(** ** Where the contents of a cell come from *)
Lemma step_source w o w' e r c k x : std w -> step w o = (w', e) -> table_get r c (data w') = Some (k, x) ->
  (exists k0 x0, table_get r c (data w) = Some (k0, x0) /\ (k = k0 \/ exists s, k = with_result s k0)) \/ k = CBlank \/
  (e = None /\ writes w o r c = Some (contents k)).
Proof.
  intros H E G. pose proof (step_standard w o w' e (d_cm w H) (d_ok w H) E) as F.
  destruct e as [e|]; [rewrite (sf_err _ _ _ _ F) in G by discriminate; left; exists k, x; auto|].
  destruct (alters o r c) eqn:Ea.
  - destruct (is_write o) eqn:Ew.
    + pose proof (write_effect w o w' None (d_cm w H) Ew E) as X. cbn in X.
      destruct (writes w o r c) as [v|] eqn:Ev.
      * destruct (e_val _ _ _ _ X r c v Ev) as (k' & xf & G' & <- & _). assert (k = k') by congruence. subst. auto.
      * rewrite (e_same _ _ _ _ X r c Ev) in G. left. exists k, x. auto.
    + destruct o; try discriminate Ew; try discriminate Ea; cbn [step] in E; apply pair_equal_spec in E as [<- _].
      * destruct (clear_cell_frame w row col) as (t & Et & _ & B). rewrite Et in G. fields. rewrite B in G by apply (d_ok w H).
        destruct (_ && _); [discriminate|]. left. exists k, x. auto.
      * destruct (set_formula_result_spec w row col result (d_cm w H) (d_ok w H)) as (t & Et & _ & B). rewrite Et in G. fields. rewrite B in G.
        cbn in Ea. rewrite Ea in G. destruct (table_get row col (data w)) as [[k0 x0]|] eqn:G0; [|discriminate].
        assert (k = with_result result k0) by congruence. subst. apply here_true in Ea as [-> ->]. left. exists k0, x0. split; [assumption|]. right. eauto.
  - pose proof (sf_keep _ _ _ _ F r c Ea) as K. rewrite G in K. destruct (table_get r c (data w)) as [[k0 x0]|] eqn:G0; cbn in K.
    + destruct K as [xf K]. assert (k = k0) by congruence. subst. left. eauto.
    + destruct K as [K|[xf K]]; [discriminate|]. assert (k = CBlank) by congruence. auto.
Qed.

(** ** Embedding an image is one more way to write a cell *)
Definition image_op (w : ws) (row col id : N) (f : option Format) : ws * option error :=
  let '(w, okd) := check_dimensions w row col in
  if negb okd then (w, Some RowColumnLimit)
  else let '(w, xf) := cell_xf w row col f in (insert_cell w row col (CError id, xf), None).
Lemma image_outcome w r c id f w' e : constant_memory w = false -> image_op w r c id f = (w', e) -> outcome w w' e r c (Some (VImage id)) f.
Proof.
  intros Hm H. unfold image_op in H. dim H w1 b Hme Hs Hd Hx Hl Hf Hc. destruct b; cbn [negb] in H.
  - destruct (cell_xf w1 r c f) as [w2 i] eqn:E2. apply pair_equal_spec in H as [<- <-]. apply outcome_one_write.
    eapply one_write_xf; [exact Hm|exact Hme|exact Hs|exact Hd|auto|auto|exact E2|reflexivity|auto|auto|auto|auto].
  - apply pair_equal_spec in H as [<- <-]. destruct (Hf eq_refl) as [_ ->]. apply rejected_refl.
Qed.
Lemma image_keeps w r c id f : keeps w (fst (image_op w r c id f)).
Proof.
  unfold image_op. destruct (check_dimensions w r c) as [w1 b] eqn:E. apply check_dims_same in E as [S L].
  destruct b; cbn [negb fst]; [|apply keeps_same; assumption].
  destruct (cell_xf w1 r c f) as [w2 i] eqn:E2. apply cell_xf_same in E2. cbn [fst].
  apply keeps_insert; [eapply same_cells_trans; eassumption|]. split; [auto|exact I].
Qed.
Lemma image_kf w r c id f : kf w (fst (image_op w r c id f)).
Proof.
  unfold image_op. pose proof (cd_kf w r c) as K. destruct (check_dimensions w r c) as [w1 b]; cbn [fst] in K.
  destruct b; cbn [negb fst]; [|exact K]. eapply kf_trans; [exact K|].
  pose proof (cell_xf_kf w1 r c f) as K2. destruct (cell_xf w1 r c f) as [w2 i]; cbn [fst] in K2. eapply kf_trans; [exact K2|].
  apply kf_insert. reflexivity.
Qed.
Lemma image_std w r c id f w' e : std w -> image_op w r c id f = (w', e) ->
  std w' /\ meta w w' /\ same_opts w w' /\
  (forall r' c', table_get r' c' (data w') = match e with None => if here r c r' c' then table_get r c (data w') else table_get r' c' (data w) | Some _ => table_get r' c' (data w) end) /\
  (e = None -> (exists x, table_get r c (data w') = Some (CError id, x)) /\ covers w' r c /\ in_limits r c).
Proof.
  intros [H1 H2 H3 H4 H5 H6] E. pose proof (image_outcome _ _ _ _ _ _ _ H1 E) as O.
  pose proof (image_kf w r c id f) as KF. pose proof (image_keeps w r c id f H4) as [K3 [K4 K5]]. rewrite E in *. cbn [fst] in *.
  destruct e as [e|]; cbn [outcome] in O.
  - destruct O as (M & S & D). split; [|split; [exact M|split; [exact S|split; [intros; rewrite D; reflexivity|discriminate]]]].
    assert (HI : inline_strings w = true -> global_sst w = true) by congruence.
    destruct (KF H1 H3) as [? ?]. split; auto; try congruence; eapply reg0_meta; eassumption.
  - destruct O as (k & xf & Hk & (M & S & D & L & C) & F). split; [|split; [exact M|split; [exact S|split]]].
    + assert (HI : inline_strings w = true -> global_sst w = true) by congruence.
      destruct (KF H1 H3) as [? ?]. split; auto; try congruence; [rewrite D; apply table_insert_ok; assumption|eapply reg0_meta; eassumption].
    + intros r' c'. rewrite D, !table_get_insert, here_refl. destruct (here r c r' c'); reflexivity.
    + intros _. split; [|split; assumption]. exists xf. rewrite D, table_get_insert, here_refl. destruct k; cbn in Hk; try discriminate Hk; congruence || (injection Hk as ->; reflexivity).
Qed.

(** ** The flag of dynamic formulas *)
Lemma array_flag w fr fc lr lc fm f d g w' : constant_memory w = false -> store_array_formula w fr fc lr lc fm f d g = (w', None) ->
  exists t q x, table_get fr fc (data w') = Some (CArray t q (d || f_dynamic fm) g, x).
Proof.
  intros Hm H. unfold store_array_formula in H. dim H w1 b1 Hme Hs Hd Hx Hl Hf Hc. destruct b1; cbn [negb] in H; [|discriminate].
  specialize (Hl eq_refl). assert (Hm1 : constant_memory w1 = false) by (rewrite (m_cm _ _ Hme); assumption).
  dim H w2 b2 Hme2 Hs2 Hd2 Hx2 Hl2 Hf2 Hc2. destruct b2; cbn [negb] in H; [|discriminate]. specialize (Hl2 eq_refl).
  assert (Hm2 : constant_memory w2 = false) by (rewrite (m_cm _ _ Hme2); assumption).
  destruct ((lr <? fr) || (lc <? fc)) eqn:Eo; [discriminate|].
  destruct (cell_xf w2 fr fc f) as [w3 i] eqn:E3. apply cell_xf_spec in E3 as (Hme3 & Hs3 & Hd3 & Hc3 & _).
  assert (Hm3 : constant_memory w3 = false) by (rewrite (m_cm _ _ Hme3); assumption).
  set (k := CArray (f_text fm) (formula_result w3 fm) (d || f_dynamic fm) g) in *. set (w4 := insert_cell w3 fr fc (k, i)) in *.
  assert (G4 : table_get fr fc (data w4) = Some (k, i)).
  { unfold w4. rewrite insert_standard by assumption. fields. rewrite table_get_insert, here_refl. reflexivity. }
  assert (Hm4 : constant_memory w4 = false) by (unfold w4; rewrite insert_standard by assumption; fields; assumption).
  destruct (write_zeros w4 _ f) as [w5 e5] eqn:E5. apply write_zeros_effect in E5 as [-> HE2]; [|assumption|].
  2: { intros r c Hin. apply in_row_cells in Hin as [-> Hin]. destruct Hl, Hl2. split; [assumption|lia]. }
  assert (Hm5 : constant_memory w5 = false) by (rewrite (m_cm _ _ (e_meta _ _ _ _ HE2)); assumption). rewrite Hm5 in H.
  destruct (write_zeros w5 _ f) as [w6 e6] eqn:E6. apply write_zeros_effect in E6 as [-> HE3]; [|assumption|].
  2: { intros r c Hin. apply in_rect_cells in Hin as [Hr Hcc]. destruct Hl, Hl2. split; lia. }
  assert (Hm6 : constant_memory w6 = false) by (rewrite (m_cm _ _ (e_meta _ _ _ _ HE3)); assumption). rewrite Hm6 in H.
  apply pair_equal_spec in H as [<- _]. exists (f_text fm), (formula_result w3 fm), i. fold k.
  rewrite (e_same _ _ _ _ HE3), (e_same _ _ _ _ HE2); [exact G4| |]; unfold zeros.
  - destruct (existsb _ _) eqn:EB; [|reflexivity]. apply existsb_cells, in_row_cells in EB as [_ EB]. lia.
  - destruct (existsb _ _) eqn:EA; [|reflexivity]. apply existsb_cells, in_rect_cells in EA. lia.
Qed.
Definition dynamic_cell (k : cell) : bool := match k with CArray _ _ true _ => true | _ => false end.
(** The cell that holds the formula itself. *)
Definition formula_cell (o : op) (r c : N) : bool :=
  match o with
  | WriteFormula row col _ _ _ => here row col r c
  | WriteArray fr fc _ _ _ _ _ _ => here fr fc r c
  | _ => false
  end.
Lemma step_flag w o w' r c : std w -> step w o = (w', None) -> forall v k x, writes w o r c = Some v -> table_get r c (data w') = Some (k, x) ->
  dynamic_cell k = makes_dynamic o && formula_cell o r c.
Proof.
  intros H E v k x Hv G. pose proof (step_standard w o w' None (d_cm w H) (d_ok w H) E) as F.
  destruct (sf_write _ _ _ _ F eq_refl r c v Hv) as (k' & x' & G' & Hk). assert (k' = k) by congruence. subst k'.
  assert (Num : forall mk y f0, number_value w mk y f0 = Some v -> (forall z, match mk z with VArray _ _ _ => False | _ => True end) -> dynamic_cell k = false).
  { intros mk y f0 Hn Hmk. unfold number_value, special_text, text_value in Hn.
    assert (Z : match v with VArray _ _ _ => False | _ => True end).
    { destruct y as [s|[|]| |]; try (injection Hn as <-; apply Hmk);
        repeat match type of Hn with match ?t with _ => _ end = _ => destruct t end; try discriminate Hn; injection Hn as <-; exact I. }
    destruct k; try reflexivity. cbn in Hk. subst v. destruct Z. }
  assert (Oth : (match v with VArray _ _ _ => False | _ => True end) -> dynamic_cell k = false) by (intros Z; destruct k; try reflexivity; cbn in Hk; subst v; destruct Z).
  destruct o; cbn [writes makes_dynamic formula_cell andb] in *; try discriminate Hv; try (rewrite andb_false_l); try (destruct (here row col r c) eqn:Hh; [|discriminate Hv]).
  - eapply Num; [exact Hv|intros; exact I].
  - eapply Num; [exact Hv|intros; exact I].
  - apply Oth. unfold text_value in Hv. destruct s; [destruct f|]; try discriminate Hv; injection Hv as <-; exact I.
  - apply Oth. destruct s; [destruct f|]; try discriminate Hv; injection Hv as <-; exact I.
  - apply Oth. injection Hv as <-. exact I.
  - apply Oth. injection Hv as <-. exact I.
  - apply here_true in Hh as [-> ->]. rewrite andb_true_r. cbn [step] in E. unfold store_formula in E. destruct (f_dynamic fm) eqn:Ed.
    + destruct (array_flag _ _ _ _ _ _ _ _ _ _ (d_cm w H) E) as (t & q & x1 & G1). rewrite G in G1. cbn [orb] in G1. injection G1 as -> _. reflexivity.
    + apply Oth. injection Hv as <-. exact I.
  - destruct (in_rect fr fc lr lc r c) eqn:Hr; [|discriminate Hv]. destruct (here fr fc r c) eqn:Hh; cbn [andb].
    + apply here_true in Hh as [-> ->]. cbn [step] in E. destruct (array_flag _ _ _ _ _ _ _ _ _ _ (d_cm w H) E) as (t & q & x1 & G1).
      rewrite andb_true_r. rewrite G in G1. assert (K : k = CArray t q (dynamic || f_dynamic fm) range) by congruence. rewrite K. cbn [dynamic_cell]. destruct (dynamic || f_dynamic fm); reflexivity.
    + rewrite andb_false_r. apply Oth. injection Hv as <-. exact I.
Qed.
