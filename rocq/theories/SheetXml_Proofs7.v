(** Everything emitted by a saved standard worksheet can be written and read. *)
From Verif Require Import Base SMap F64 Fmt_Model Xml_Model Xml_Spec Xml_Proofs Xml_Read Xml_Read_Proofs Xml_Tree
  Sst_Model Sst_Proofs Ref_Model Ref_Spec Ref_Proofs Cells_Model Cells_Spec Cells_Proofs Cells_Proofs2 Cells_Inv Cells_Save Cells_Hist
  Rich_Model Rich_Proofs SheetXml_Model SheetXml_Spec SheetXml_Proofs SheetXml_Proofs2 SheetXml_Proofs3 SheetXml_Proofs4 SheetXml_Proofs5 SheetXml_Proofs6.
From Coq Require Import Permutation.

Lemma in_range a b x : In x (range_incl a b) -> a <= x <= b.
Proof.
  unfold range_incl. rewrite in_map_iff. intros (i & E & Hi). apply in_seq in Hi. lia.
Qed.
Lemma text_string_ok k s : value_ok (contents k) -> string_of k = Some (s, None) -> string_ok s.
Proof.
  destruct k as [| |s0 [i|]| | | | |s0 raw [i|]| |]; cbn; try discriminate; intros V E; assert (s0 = s) by congruence; subst; [left|right]; exact V.
Qed.
Lemma range_simple g : range_chars g -> forallb simple g = true.
Proof.
  intros H. apply forallb_forall. intros c Hc. destruct (H c Hc) as [A|[A| ->]]; [| |reflexivity]; unfold simple, is_ascii_upper, is_ascii_digit; lia.
Qed.
Lemma finite_is x : finite x -> is_finite x = true.
Proof. intros [A B]. destruct x; try reflexivity; discriminate. Qed.

(** What saving does to the strings of a sheet. *)
Lemma saved_ids w t l w' t1 : std w -> global_sst w = false -> values_ok w -> Inv t l -> update_string_table_ids w t = (w', t1) ->
  exists d, Inv t1 (l ++ d) /\ Forall string_ok d /\ forall r c k x, table_get r c (data w') = Some (k, x) -> id_in (l ++ d) k.
Proof.
  intros H Hg V HI E. unfold update_string_table_ids in E. destruct (d_cells w H) as (HC & _).
  destruct (local_sst w) eqn:EL.
  - destruct (assign_rows t (data w)) as [t' d] eqn:Ea. apply pair_equal_spec in E as [<- <-].
    assert (N0 : forall r cs c k x, In (r, cs) (data w) -> In (c, (k, x)) cs -> no_id k).
    { intros r cs c k x H1 H2. destruct (HC r cs H1 c k x H2) as [_ K]. rewrite Hg in K.
      destruct k as [| |s [i|]| | | | |s raw [i|]| |]; cbn in *; auto; destruct K; discriminate. }
    destruct (assign_rows_ids (data w) t l t' d HI N0 Ea) as (dd & I' & G & S). exists dd. split; [assumption|]. split.
    + apply Forall_forall. intros s Hs. destruct (S s Hs) as (r & cs & c & k & x & H1 & H2 & H3).
      apply (text_string_ok k); [|assumption]. apply (V r c k x). unfold table_get. destruct (d_ok w H) as [O1 O2].
      rewrite (In_get _ _ _ O1 H1). apply In_get; [|assumption]. apply (O2 r cs). apply In_get; assumption.
    + intros r c k x Hk. fields. unfold table_get in Hk. destruct (get r d) as [cs|] eqn:Er; [|discriminate].
      eapply G; apply get_In; eassumption.
  - apply pair_equal_spec in E as [<- <-]. exists []. rewrite app_nil_r. split; [assumption|]. split; [constructor|].
    intros r c k x Hk. destruct (d_flag w H) as [F|F]; [congruence|]. unfold table_get in Hk. destruct (get r (data w)) as [cs|] eqn:Er; [|discriminate].
    pose proof (all_cols_get _ _ _ _ _ _ (all_table_get _ _ _ _ F Er) Hk) as D. pose proof (all_cols_get _ _ _ _ _ _ (all_table_get _ _ _ _ HC Er) Hk) as [_ K].
    rewrite Hg in K. unfold done in D. destruct k as [| |s [i|]| | | | |s raw [i|]| |]; cbn in *; try exact I; try discriminate; destruct K; discriminate.
Qed.

Lemma emitted_good w w' t t1 l items g : std w -> values_ok w -> update_string_table_ids w t = (w', t1) ->
  (forall r c k x, table_get r c (data w') = Some (k, x) -> id_in l k) ->
  Forall2 item_says l items -> last_row w < ROW_MAX ->
  Forall (good_row items) (write_data_table w' g).
Proof.
  intros H V E Ids It Hl. assert (Ew : w' = saved w t) by (unfold saved; rewrite E; reflexivity). subst w'.
  destruct (saved_spec w t (d_ok w H) (d_flag w H)) as [Hok Hr]. destruct (saved_dims w t) as (E1 & E2 & _).
  apply Forall_forall. intros o Ho. unfold write_data_table in Ho. apply in_flat_map in Ho as (row & Hrow & Ho).
  apply in_range in Hrow. rewrite E1, E2 in Hrow. assert (Hrm : row < ROW_MAX) by lia. unfold ROW_MAX in Hrm.
  unfold emit_row in Ho. destruct (get row (data (saved w t))) as [cs|] eqn:Er.
  2: { destruct (match get row _ with Some _ => true | None => _ end); [destruct Ho as [<-|[]]|destruct Ho]. split; cbn [o_row cells_of o_cells]; [lia|constructor]. }
  destruct Ho as [<-|[]]. split; cbn [o_row cells_of o_cells]; [lia|]. apply Forall_forall. intros y Hy. apply in_flat_map in Hy as ([col [k x]] & Hin & Hy).
  assert (Gk : table_get row col (data (saved w t)) = Some (k, x)).
  { unfold table_get. rewrite Er. apply In_get; [|assumption]. destruct Hok as [_ O]. eapply O. eassumption. }
  specialize (Hr row). apply (rel_row_cell _ _ row col) in Hr. fold (table_get row col (data (saved w t))) in Hr. rewrite Gk in Hr.
  destruct (table_get row col (data w)) as [[k0 x0]|] eqn:G0; [|destruct Hr]. destruct Hr as [-> Hid].
  pose proof (V _ _ _ _ G0) as V0. specialize (Ids _ _ _ _ Gk). destruct (with_id_contents _ _ Hid) as [Ec Nn]. rewrite <- Ec in V0.
  destruct (d_cells w H) as (HC & _). unfold table_get in G0. destruct (get row (data w)) as [cs0|] eqn:Er0; [|discriminate].
  pose proof (all_cols_get _ _ _ _ _ _ (all_table_get _ _ _ _ HC Er0) G0) as [[L1 L2] CI]. rewrite (d_inl w H) in CI. unfold COL_MAX in L2.
  assert (Item : forall s i, nth_error l (N.to_nat i) = Some s -> exists n, nth_error items (N.to_nat i) = Some n /\ item_says s n).
  { intros s i. revert i. clear - It. intros i. generalize (N.to_nat i). clear i. induction It as [|a b xs ys Hab It IH]; intros [|n]; cbn; try discriminate.
    - intros [= <-]. eauto.
    - apply IH. }
  assert (G : forall xf, (k = CBlank -> 0 < xf) -> (match k with CInline _ => False | _ => True end) -> good_cell items (col, k, xf)).
  { intros xf Hb Hi. split; cbn [fst snd]; [lia|].
    destruct k as [|n|s [i|]|y0|b|f r|y0|s raw [i|]|s|f r dy rg]; cbn [contents value_ok id_in string_of cell_good needs_id] in *; try discriminate; try exact I.
    - auto.
    - destruct (Item s i Ids) as (n & Hn & [I1 _]). exists n. split; [assumption|]. apply I1. apply V0.
    - apply finite_is. destruct k0 as [| |s1 [|]| | | | |s1 ? [|]| |]; cbn in Hid; try (destruct Hid; discriminate); try discriminate; assert (y0 = x) by congruence; subst; exact CI.
    - destruct V0 as [P [Q1 Q2]]. split; [exact P|split; [exact Q1|exact Q2]].
    - apply finite_is. destruct k0 as [| |s1 [|]| | | | |s1 ? [|]| |]; cbn in Hid; try (destruct Hid; discriminate); try discriminate; assert (y0 = x) by congruence; subst; exact CI.
    - destruct V0 as (segs & rw & S1 & S2). destruct (Item s i Ids) as (n & Hn & [_ I2]). destruct (I2 (rich_looks _ _ _ S1)) as (runs & R1 & R2).
      exists n, runs. split; [assumption|]. split; assumption.
    - destruct Hi.
    - destruct V0 as (P & [Q1 Q2] & Rg). split; [|apply range_simple; assumption]. split; [exact P|split; [exact Q1|exact Q2]]. }
  assert (Ni : match k with CInline _ => False | _ => True end).
  { destruct k; try exact I. destruct k0 as [| |s1 [|]| | | | |s1 ? [|]| |]; cbn in Hid; try (destruct Hid; discriminate); try discriminate. destruct CI; discriminate. }
  unfold emit_cell in Hy. destruct k as [|n|s [i|]|y0|b|f r|y0|s raw [i|]|s|f r dy rg]; try (destruct Hy as [<-|[]]; apply G; [discriminate|exact I]); try destruct Hy.
  - destruct (0 <? _) eqn:E0; [destruct Hy as [<-|[]]|destruct Hy]. apply G; [|exact I]. intros _. apply N.ltb_lt. exact E0.
  - destruct Ni.
  - destruct Ni.
Qed.
