(** String ids of a saved sheet, and histories whose payloads can be stored. *)
From Verif Require Import Base SMap F64 Fmt_Model Xml_Model Xml_Spec Xml_Proofs Xml_Read Xml_Read_Proofs Xml_Tree
  Sst_Model Sst_Proofs Ref_Model Ref_Spec Ref_Proofs Cells_Model Cells_Spec Cells_Proofs Cells_Proofs2 Cells_Inv Cells_Save Cells_Hist
  Rich_Model Rich_Proofs SheetXml_Model SheetXml_Spec SheetXml_Proofs SheetXml_Proofs2 SheetXml_Proofs3 SheetXml_Proofs4 SheetXml_Proofs5.

Definition string_of (k : cell) : option (str * option N) :=
  match k with CString s i => Some (s, i) | CRich s _ i => Some (s, i) | _ => None end.
Definition no_id (k : cell) : Prop := match string_of k with Some (_, Some _) => False | _ => True end.
(** The id of a string cell points at its string in [l]. *)
Definition id_in (l : list str) (k : cell) : Prop :=
  match string_of k with Some (s, Some i) => nth_error l (N.to_nat i) = Some s | Some (_, None) => False | None => True end.
Lemma id_in_app l d k : id_in l k -> id_in (l ++ d) k.
Proof.
  unfold id_in. destruct (string_of k) as [[s [i|]]|]; auto. intros H. rewrite nth_error_app1; [assumption|]. apply nth_error_Some. congruence.
Qed.
Lemma assign_cells_ids cs : forall t l t' cs', Inv t l -> (forall c k x, In (c, (k, x)) cs -> no_id k) -> assign_cells t cs = (t', cs') ->
  exists d, Inv t' (l ++ d) /\ (forall c k x, In (c, (k, x)) cs' -> id_in (l ++ d) k) /\
    (forall s, In s d -> exists c k x, In (c, (k, x)) cs /\ string_of k = Some (s, None)).
Proof.
  induction cs as [|[j [k x]] cs IH]; intros t l t' cs' HI Hn H; cbn [assign_cells] in H.
  - apply pair_equal_spec in H as [<- <-]. exists []. rewrite app_nil_r. split; [assumption|]. split; [intros ? ? ? []|intros ? []].
  - destruct (match k with CString s None => _ | CRich s raw None => _ | _ => _ end) as [t1 k1] eqn:E.
    destruct (assign_cells t1 cs) as [t2 r] eqn:E2. apply pair_equal_spec in H as [<- <-].
    assert (K : exists d1, Inv t1 (l ++ d1) /\ id_in (l ++ d1) k1 /\ (forall s, In s d1 -> string_of k = Some (s, None))).
    { pose proof (Hn j k x (or_introl eq_refl)) as Hk. unfold no_id in Hk.
      assert (Same : (t1, k1) = (t, k) -> string_of k = None -> exists d1, Inv t1 (l ++ d1) /\ id_in (l ++ d1) k1 /\ (forall s, In s d1 -> string_of k = Some (s, None))).
      { intros E' Es. apply pair_equal_spec in E' as [-> ->]. exists []. rewrite app_nil_r. split; [assumption|]. split; [unfold id_in; rewrite Es; exact I|intros ? []]. }
      assert (Str : forall s ti i, shared_string_index t s = (ti, i) -> t1 = ti -> string_of k1 = Some (s, Some i) -> string_of k = Some (s, None) ->
        exists d1, Inv t1 (l ++ d1) /\ id_in (l ++ d1) k1 /\ (forall s, In s d1 -> string_of k = Some (s, None))).
      { intros s ti i Ei -> Es1 Es. destruct (shared_string_index_inv t l s ti i HI Ei) as (l' & HI' & _ & Hnth & _ & Hl).
        destruct Hl as [->|[-> _]].
        - exists []. rewrite app_nil_r. split; [assumption|]. split; [unfold id_in; rewrite Es1; assumption|intros ? []].
        - exists [s]. split; [assumption|]. split; [unfold id_in; rewrite Es1; assumption|]. intros s' [<-|[]]. assumption. }
      destruct k as [| |s [i|]| | | | |s raw [i|]| |]; cbn in Hk; try contradiction; try (apply Same; [congruence|reflexivity]).
      - destruct (shared_string_index t s) as [ti i] eqn:Ei. apply pair_equal_spec in E as [<- <-]. eapply Str; reflexivity || exact Ei.
      - destruct (shared_string_index t s) as [ti i] eqn:Ei. apply pair_equal_spec in E as [<- <-]. eapply Str; reflexivity || exact Ei. }
    destruct K as (d1 & I1 & G1 & S1). destruct (IH t1 (l ++ d1) t2 r I1) as (d2 & I2 & G2 & S2); [intros; eapply Hn; right; eassumption|exact E2|].
    exists (d1 ++ d2). rewrite app_assoc. split; [assumption|]. split.
    + intros c k0 x0 [H|H]; [|eauto]. assert (k0 = k1) by congruence. subst. apply id_in_app. assumption.
    + intros s Hs. apply in_app_iff in Hs as [Hs|Hs]; [exists j, k, x; split; [left; reflexivity|auto]|].
      destruct (S2 s Hs) as (c & k0 & x0 & Hin & Hk). exists c, k0, x0. split; [right; assumption|assumption].
Qed.
Lemma assign_rows_ids dt : forall t l t' dt', Inv t l -> (forall r cs c k x, In (r, cs) dt -> In (c, (k, x)) cs -> no_id k) -> assign_rows t dt = (t', dt') ->
  exists d, Inv t' (l ++ d) /\ (forall r cs c k x, In (r, cs) dt' -> In (c, (k, x)) cs -> id_in (l ++ d) k) /\
    (forall s, In s d -> exists r cs c k x, In (r, cs) dt /\ In (c, (k, x)) cs /\ string_of k = Some (s, None)).
Proof.
  induction dt as [|[j cs] dt IH]; intros t l t' dt' HI Hn H; cbn [assign_rows] in H.
  - apply pair_equal_spec in H as [<- <-]. exists []. rewrite app_nil_r. split; [assumption|]. split; [intros ? ? ? ? ? []|intros ? []].
  - destruct (assign_cells t cs) as [t1 cs1] eqn:E1. destruct (assign_rows t1 dt) as [t2 r] eqn:E2. apply pair_equal_spec in H as [<- <-].
    destruct (assign_cells_ids cs t l t1 cs1 HI) as (d1 & I1 & G1 & S1); [intros; eapply Hn; [left; reflexivity|eassumption]|exact E1|].
    destruct (IH t1 (l ++ d1) t2 r I1) as (d2 & I2 & G2 & S2); [intros; eapply Hn; [right; eassumption|eassumption]|exact E2|].
    exists (d1 ++ d2). rewrite app_assoc. split; [assumption|]. split.
    + intros r0 cs0 c k x [H|H] Hc; [|eauto]. assert (cs0 = cs1) by congruence. subst. apply id_in_app. eauto.
    + intros s Hs. apply in_app_iff in Hs as [Hs|Hs].
      * destruct (S1 s Hs) as (c & k & x & Hin & Hk). exists j, cs, c, k, x. split; [left; reflexivity|auto].
      * destruct (S2 s Hs) as (r0 & cs0 & c & k & x & H1 & H2 & H3). exists r0, cs0, c, k, x. split; [right; assumption|auto].
Qed.

(** ** Payloads *)
Definition text_ok (s : str) : Prop := storable s /\ ~ looks_like_runs s.
Definition result_ok (s : str) : Prop := plain_text s /\ ~ special_word s.
Definition rich_ok (mk : str) : Prop := exists segs raw, get_rich_string segs = Some (mk, raw) /\ Forall seg_ok segs.
(** A reference range: letters, digits and ":". *)
Definition range_chars (s : str) : Prop := forall c, In c s -> 65 <= c <= 90 \/ 48 <= c <= 57 \/ c = 58.
Definition op_readable (o : op) : Prop :=
  match o with
  | WriteString _ _ s _ | SetNanValue s | SetInfinityValue s | SetNegInfinityValue s => text_ok s
  | WriteRich _ _ mk _ _ => rich_ok mk
  | WriteFormula _ _ fm _ g | WriteArray _ _ _ _ fm _ _ g => plain_text (f_text fm) /\ (f_result fm <> [] -> result_ok (f_result fm)) /\ range_chars g
  | SetFormulaResult _ _ s | SetFormulaResultDefault s => result_ok s
  | _ => True
  end.
Definition value_ok (v : value) : Prop :=
  match v with
  | VText s => text_ok s
  | VRich mk => rich_ok mk
  | VFormula t r => plain_text t /\ result_ok r
  | VArray t r g => plain_text t /\ result_ok r /\ range_chars g
  | _ => True
  end.
Record texts_ok (w : ws) : Prop := {
  t_nan : text_ok (nan_text w); t_inf : text_ok (inf_text w); t_ninf : text_ok (neg_inf_text w); t_res : result_ok (default_result w) }.
Definition values_ok (w : ws) : Prop := forall r c k x, table_get r c (data w) = Some (k, x) -> value_ok (contents k).

Lemma texts_same w w' : same_opts w w' -> texts_ok w -> texts_ok w'.
Proof. intros [_ _ _ H1 H2 H3 H4] [A B C D]. split; congruence. Qed.
Lemma texts_frame w w' : nan_text w' = nan_text w -> inf_text w' = inf_text w -> neg_inf_text w' = neg_inf_text w -> default_result w' = default_result w -> texts_ok w -> texts_ok w'.
Proof. intros H1 H2 H3 H4 [A B C D]. split; congruence. Qed.
Lemma result_text_ok w fm : texts_ok w -> (f_result fm <> [] -> result_ok (f_result fm)) -> result_ok (Cells_Spec.result_text w fm).
Proof. intros T H. unfold Cells_Spec.result_text. destruct (f_result fm) eqn:E; [apply T|]. apply H. discriminate. Qed.
Lemma text_value_ok s f v : text_ok s -> text_value s f = Some v -> value_ok v.
Proof.
  intros T. unfold text_value. destruct s; [destruct f; [|discriminate]|]; intros [= <-]; [exact I|exact T].
Qed.
Lemma writes_ok w o r c v : texts_ok w -> op_readable o -> writes w o r c = Some v -> value_ok v.
Proof.
  intros T R. assert (Num : forall mk x f v, (forall x, value_ok (mk x)) -> number_value w mk x f = Some v -> value_ok v).
  { intros mk x f v0 M. unfold number_value, special_text. destruct x as [s|[|]| |]; try (intros [= <-]; apply M); apply text_value_ok; apply T. }
  destruct o; cbn [writes op_readable] in *; try discriminate; try (destruct (here _ _ r c); [|discriminate]); try (destruct (in_rect _ _ _ _ r c); [|discriminate]).
  - apply Num. exact (fun _ => I).
  - apply Num. exact (fun _ => I).
  - apply text_value_ok. assumption.
  - destruct s; [destruct f; [|discriminate]|]; intros [= <-]; try exact I. exact R.
  - intros [= <-]. exact I.
  - intros [= <-]. exact I.
  - destruct R as (R1 & R2 & R3). destruct (f_dynamic fm); intros [= <-]; cbn; auto using result_text_ok.
  - destruct R as (R1 & R2 & R3). destruct (here _ _ _ _); intros [= <-]; cbn; auto using result_text_ok.
Qed.
Ltac fin_texts :=
  repeat match goal with H : same_opts ?a ?b, T : texts_ok ?a |- _ => pose proof (texts_same a b H T); clear H end;
  match goal with T : texts_ok ?x |- _ => first [exact T | apply (texts_frame x); [reflexivity|reflexivity|reflexivity|reflexivity|exact T]] end.
Lemma step_texts w o w' e : std w -> op_readable o -> texts_ok w -> step w o = (w', e) -> texts_ok w'.
Proof.
  intros H R T E. destruct (is_write o) eqn:Ew; [eapply texts_same; [eapply write_opts; eassumption|assumption]|].
  destruct o; try discriminate Ew; cbn [step] in E.
  - unfold set_cell_format in E. by_dim E. destruct b; cbn [negb] in E.
    + by_reg E. apply pair_equal_spec in E as [<- _]. destruct (insert_cell_format_frame w2 row col i) as [t ->].
      fin_texts.
    + apply pair_equal_spec in E as [<- _]. fin_texts.
  - unfold set_range_format in E.
      destruct (negb _ || negb _); try (apply pair_equal_spec in E as [<- _]; assumption);
      destruct ((lr <? fr) || (lc <? fc)); try (apply pair_equal_spec in E as [<- _]; assumption).
      by_reg E. apply pair_equal_spec in E as [<- _].
      destruct (icf_fold_frame i (range_cells fr fc lr lc) w2) as [t Ht]; unfold icf_fold in Ht; rewrite Ht.
      fin_texts.
  - apply pair_equal_spec in E as [<- <-]. destruct (clear_cell_frame w row col) as (t & -> & _).
      fin_texts.
  - apply pair_equal_spec in E as [<- <-]. destruct (clear_cell_format_spec w row col (d_ok w H)) as (t & -> & _).
      fin_texts.
  - apply pair_equal_spec in E as [<- <-]. destruct (set_formula_result_spec w row col result (d_cm w H) (d_ok w H)) as (t & -> & _).
      fin_texts.
  - unfold set_row_height, set_row_hidden in E. destruct (feq h fzero); by_dim E; destruct b; cbn [negb] in E;
      apply pair_equal_spec in E as [<- <-]; (fin_texts).
  - unfold set_row_format in E. by_dim E; destruct b; cbn [negb] in E; [by_reg E|];
      apply pair_equal_spec in E as [<- <-]; fin_texts.
  - unfold set_row_hidden in E. by_dim E; destruct b; cbn [negb] in E;
      apply pair_equal_spec in E as [<- <-]; (fin_texts).
  - unfold set_row_unhidden in E. by_dim E; destruct b; cbn [negb] in E; [destruct (get row (changed_rows w1)) eqn:Er|];
      apply pair_equal_spec in E as [<- <-]; (fin_texts).
  - unfold set_column_width_internal, set_column_hidden, store_column_width in E.
    destruct (feq width fzero), (COL_MAX <=? col); apply pair_equal_spec in E as [<- <-]; fin_texts.
  - unfold set_column_format in E. by_dim E; destruct b; cbn [negb] in E; [by_reg E|];
      apply pair_equal_spec in E as [<- <-]; fin_texts.
  - unfold set_column_hidden in E.
    destruct (COL_MAX <=? col); apply pair_equal_spec in E as [<- <-]; fin_texts.
  - unfold insert_note in E. by_dim E; destruct b; cbn [negb] in E; [destruct (_ <? text_len)|];
      apply pair_equal_spec in E as [<- <-]; (fin_texts).
  - apply pair_equal_spec in E as [<- <-]. destruct T. split; cbn; assumption.
  - apply pair_equal_spec in E as [<- <-]. destruct T. split; cbn; assumption.
  - apply pair_equal_spec in E as [<- <-]. destruct T. split; cbn; assumption.
  - apply pair_equal_spec in E as [<- <-]. destruct T. split; cbn; assumption.
  - apply pair_equal_spec in E as [<- <-]. destruct (fle h fzero); [assumption|]. fin_texts.
Qed.
Lemma step_values w o w' e : std w -> op_readable o -> texts_ok w -> values_ok w -> step w o = (w', e) -> values_ok w'.
Proof.
  intros H R T V E r c k x G.
  pose proof (step_standard w o w' e (d_cm w H) (d_ok w H) E) as F.
  destruct e as [e|]; [rewrite (sf_err _ _ _ _ F) in G by discriminate; eapply V; exact G|].
  destruct (alters o r c) eqn:Ea.
  - destruct (is_write o) eqn:Ew.
    + pose proof (write_effect w o w' None (d_cm w H) Ew E) as X. cbn in X.
      destruct (writes w o r c) as [v|] eqn:Ev.
      * destruct (e_val _ _ _ _ X r c v Ev) as (k' & xf & G' & <- & _). rewrite G in G'. assert (k = k') by congruence. subst.
        eapply writes_ok; eassumption.
      * rewrite (e_same _ _ _ _ X r c Ev) in G. eapply V; exact G.
    + destruct o; try discriminate Ew; try discriminate Ea; cbn [step] in E; apply pair_equal_spec in E as [<- _].
      * destruct (clear_cell_frame w row col) as (t & Et & _ & B). rewrite Et in G. fields. rewrite B in G by apply (d_ok w H).
        destruct (_ && _); [discriminate|]. eapply V; exact G.
      * destruct (set_formula_result_spec w row col result (d_cm w H) (d_ok w H)) as (t & Et & _ & B). rewrite Et in G. fields. rewrite B in G.
        cbn in Ea. rewrite Ea in G. destruct (table_get row col (data w)) as [[k0 x0]|] eqn:G0; [|discriminate].
        pose proof (V _ _ _ _ G0) as V0. assert (k = with_result result k0) by congruence. subst. cbn in R.
        destruct k0; cbn in *; try exact V0; [split; [apply V0|assumption]|]. split; [apply V0|]. split; [assumption|apply V0].
  - pose proof (sf_keep _ _ _ _ F r c Ea) as K. rewrite G in K. destruct (table_get r c (data w)) as [[k0 x0]|] eqn:G0; cbn in K.
    + destruct K as [xf K]. assert (k = k0) by congruence. subst. eapply V; exact G0.
    + destruct K as [K|[xf K]]; [discriminate|]. assert (k = CBlank) by congruence. subst. exact I.
Qed.
Lemma run_readable ops : forall w, std w -> texts_ok w -> values_ok w -> Forall op_readable ops -> texts_ok (run w ops) /\ values_ok (run w ops).
Proof.
  induction ops as [|o ops IH]; intros w H T V R; [split; assumption|]. rewrite run_cons. destruct (step w o) as [w' e] eqn:E. cbn [fst].
  inversion R; subst. apply IH; [|eapply step_texts; eassumption|eapply step_values; eassumption|assumption].
  apply (std_step w o w' e H E).
Qed.
