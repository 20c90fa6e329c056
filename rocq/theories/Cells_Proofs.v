(** Proofs about the cell store in standard (in-memory) mode. *)
From Verif Require Import Base SMap F64 Fmt_Model Sst_Model Cells_Model Cells_Spec.

Definition prefix {A} (l l' : list A) : Prop := exists s, l' = l ++ s.
Lemma prefix_refl {A} (l : list A) : prefix l l.
Proof. exists []. rewrite app_nil_r. reflexivity. Qed.
Lemma prefix_trans {A} (a b c : list A) : prefix a b -> prefix b c -> prefix a c.
Proof. intros [s ->] [t ->]. exists (s ++ t). rewrite app_assoc. reflexivity. Qed.
Lemma prefix_nth {A} (l l' : list A) n x : prefix l l' -> nth_error l n = Some x -> nth_error l' n = Some x.
Proof. intros [s ->] H. rewrite nth_error_app1; [assumption|]. apply nth_error_Some. congruence. Qed.
Global Hint Resolve prefix_refl : core.

(** ** Registry *)
Lemma fmt_find_some f l i : fmt_find f l = Some i -> nth_error l (N.to_nat i) = Some f.
Proof.
  revert i; induction l as [|g l IH]; cbn [fmt_find]; intros i H; [discriminate|].
  destruct (format_eqb_spec g f) as [->|]; [injection H as <-; reflexivity|].
  destruct (fmt_find f l) as [j|]; [|discriminate]. injection H as <-.
  rewrite N2Nat.inj_succ. cbn [nth_error]. apply IH; reflexivity.
Qed.
Lemma fmt_find_none f l : fmt_find f l = None -> ~ In f l.
Proof.
  induction l as [|g l IH]; cbn [fmt_find]; intros H; [intros []|].
  destruct (format_eqb_spec g f) as [->|Hne]; [discriminate|].
  destruct (fmt_find f l); [discriminate|]. intros [|]; [congruence|]. apply IH; auto.
Qed.
Lemma xf_index_spec l f l' i : format_xf_index l f = (l', i) ->
  prefix l l' /\ nth_error l' (N.to_nat i) = Some f.
Proof.
  unfold format_xf_index. destruct (fmt_find f l) as [j|] eqn:E; intros H;
    apply pair_equal_spec in H as [<- <-].
  - split; [auto|]. apply fmt_find_some; assumption.
  - split; [exists [f]; reflexivity|]. rewrite Nat2N.id, nth_error_app2, Nat.sub_diag by lia. reflexivity.
Qed.

(** ** What any call leaves alone *)
Record meta (w w' : ws) : Prop := {
  m_cm : constant_memory w' = constant_memory w;
  m_inl : inline_strings w' = inline_strings w;
  m_gsst : global_sst w' = global_sst w;
  m_wa : writing_ahead w' = writing_ahead w;
  m_cur : current_row w' = current_row w;
  m_fl : flushed w' = flushed w;
  m_wah : write_ahead w' = write_ahead w;
  m_xfs : prefix (xfs w) (xfs w');
  m_fr : first_row w' <= first_row w;
  m_fc : first_col w' <= first_col w;
  m_lr : last_row w <= last_row w';
  m_lc : last_col w <= last_col w';
  m_lr_max : last_row w < ROW_MAX -> last_row w' < ROW_MAX }.
Lemma meta_refl w : meta w w.
Proof. split; auto; lia. Qed.
Lemma meta_trans a b c : meta a b -> meta b c -> meta a c.
Proof. intros [] []. split; try congruence; try lia. eapply prefix_trans; eassumption. Qed.

(** The settings a cell-writing call does not change. *)
Record same_opts (w w' : ws) : Prop := {
  s_rows : changed_rows w' = changed_rows w; s_cols : changed_cols w' = changed_cols w;
  s_notes : notes w' = notes w; s_nan : nan_text w' = nan_text w; s_inf : inf_text w' = inf_text w;
  s_ninf : neg_inf_text w' = neg_inf_text w; s_res : default_result w' = default_result w }.
Lemma same_opts_refl w : same_opts w w. Proof. split; reflexivity. Qed.
Lemma same_opts_trans a b c : same_opts a b -> same_opts b c -> same_opts a c.
Proof. intros [] []. split; congruence. Qed.
Global Hint Resolve meta_refl same_opts_refl : core.

Definition covers (w : ws) (r c : N) : Prop :=
  first_row w <= r <= last_row w /\ first_col w <= c <= last_col w.
Lemma covers_meta w w' r c : meta w w' -> covers w r c -> covers w' r c.
Proof. intros [] [[] []]. split; lia. Qed.
Definition in_limits (r c : N) : Prop := r < ROW_MAX /\ c < COL_MAX.

Ltac fields := cbn [data write_ahead first_row first_col last_row last_col current_row constant_memory
  inline_strings writing_ahead global_sst strings_table local_sst changed_rows changed_cols xfs notes flushed
  nan_text inf_text neg_inf_text default_result default_row_height max_row_level max_col_level
  upd_data upd_wahead upd_dims upd_cur upd_ahead upd_sst upd_rows upd_cols upd_xfs upd_notes upd_flushed upd_texts] in *.
Ltac meta_tac := split; fields; auto; try lia.

Lemma check_dimensions_spec w r c w' b : check_dimensions w r c = (w', b) ->
  meta w w' /\ same_opts w w' /\ data w' = data w /\ xfs w' = xfs w /\
  (b = true -> in_limits r c) /\ (b = false -> ~ in_limits r c /\ w' = w) /\
  (b = true -> constant_memory w = false -> covers w' r c).
Proof.
  unfold check_dimensions, in_limits, covers.
  destruct (N.leb_spec ROW_MAX r) as [Hr|Hr]; [|destruct (N.leb_spec COL_MAX c) as [Hc|Hc]].
  1, 2: intros H; apply pair_equal_spec in H as [<- <-];
    (split; [auto|split; [auto|split; [auto|split; [auto|split; [discriminate|split; [intros _; split; [lia|reflexivity]|discriminate]]]]]]).
  destruct (negb (constant_memory w) || (current_row w <=? r)) eqn:E; intros H; apply pair_equal_spec in H as [<- <-].
  - split; [meta_tac|]. split; [split; reflexivity|]. split; [reflexivity|]. split; [reflexivity|].
    split; [intros _; split; assumption|]. split; [discriminate|]. intros _ _. fields. lia.
  - split; [meta_tac|]. split; [split; reflexivity|]. split; [reflexivity|]. split; [reflexivity|].
    split; [intros _; split; assumption|]. split; [discriminate|]. intros _ Hm. rewrite Hm in E. discriminate.
Qed.

Lemma reg_spec w f w' i : reg w f = (w', i) ->
  meta w w' /\ same_opts w w' /\ data w' = data w /\ nth_error (xfs w') (N.to_nat i) = Some f /\
  (forall r c, covers w r c -> covers w' r c).
Proof.
  unfold reg. destruct (format_xf_index (xfs w) f) as [l j] eqn:E. intros H; apply pair_equal_spec in H as [<- <-].
  apply xf_index_spec in E as [Hp Hn]. split; [meta_tac|]. split; [split; reflexivity|]. split; [reflexivity|].
  split; [exact Hn|]. intros r c Hc. exact Hc.
Qed.

(** The format promised at the intersection of a formatted row and column. *)
Definition crossing_format (w : ws) (r c : N) : option Format :=
  match get c (changed_cols w), get r (changed_rows w) with
  | Some co, Some ro => match c_format co, r_format ro with
                        | Some cf, Some rf => Some (format_merge rf cf) | _, _ => None end
  | _, _ => None
  end.

Lemma cell_xf_spec w r c f w' i : cell_xf w r c f = (w', i) ->
  meta w w' /\ same_opts w w' /\ data w' = data w /\ (forall r c, covers w r c -> covers w' r c) /\
  match f with Some f => nth_error (xfs w') (N.to_nat i) = Some f
             | None => match crossing_format w r c with
                       | Some g => nth_error (xfs w') (N.to_nat i) = Some g
                       | None => i = 0 /\ w' = w end end.
Proof.
  unfold cell_xf, row_col_format, crossing_format. intros H.
  repeat match type of H with
    | reg _ _ = _ => apply reg_spec in H as (Hm & Hs & Hd & Hn & Hc); split; [assumption|]; split; [assumption|]; split; [assumption|]; split; assumption
    | (_, _) = _ => apply pair_equal_spec in H as [<- <-]; split; [auto|]; split; [auto|]; split; [auto|]; split; [auto|]; repeat match goal with |- context [get ?x ?y] => destruct (get x y) end; auto
    | context [match ?x with _ => _ end] => destruct x eqn:?
    end.
Qed.

(** ** The data table *)
Definition table_ok (t : table) : Prop := ok t /\ forall r cs, get r t = Some cs -> ok cs.

Lemma table_ok_nil : table_ok [].
Proof. split; [constructor|]. intros r cs H. discriminate. Qed.

Lemma table_ok_ins r cs t : table_ok t -> ok cs -> table_ok (ins r cs t).
Proof.
  intros [H1 H2] Hc. split; [apply ins_ok; assumption|].
  intros r' cs'. rewrite get_ins. destruct (r =? r'); [intros [= <-]; assumption|apply H2].
Qed.

Lemma table_insert_ok r c x t : table_ok t -> table_ok (table_insert r c x t).
Proof.
  intros H. unfold table_insert. destruct (get r t) as [cs|] eqn:E.
  - apply table_ok_ins; [assumption|]. apply ins_ok. apply H in E. assumption.
  - apply table_ok_ins; [assumption|]. constructor; constructor.
Qed.

Lemma table_get_ins_row r cs r' c t :
  table_get r' c (ins r cs t) = if r =? r' then get c cs else table_get r' c t.
Proof. unfold table_get. rewrite get_ins. destruct (r =? r'); reflexivity. Qed.

Lemma table_get_insert r c x r' c' t :
  table_get r' c' (table_insert r c x t) = if here r c r' c' then Some x else table_get r' c' t.
Proof.
  unfold table_insert, here. destruct (get r t) as [cs|] eqn:E; rewrite table_get_ins_row.
  - destruct (N.eqb_spec r r') as [->|]; cbn [andb]; [|reflexivity].
    rewrite get_ins. destruct (c =? c'); [reflexivity|]. unfold table_get. rewrite E. reflexivity.
  - destruct (N.eqb_spec r r') as [->|]; cbn [andb]; [|reflexivity].
    cbn [get]. destruct (c =? c'); [reflexivity|]. unfold table_get. rewrite E. reflexivity.
Qed.

(** Row membership after an insertion. *)
Lemma table_insert_row r c x r' t : get r' (table_insert r c x t) <> None <-> r = r' \/ get r' t <> None.
Proof.
  unfold table_insert. destruct (get r t) as [cs|] eqn:E; rewrite get_ins; destruct (N.eqb_spec r r') as [->|]; split; intros; auto; try congruence; try tauto.
  all: destruct H; congruence.
Qed.

(** ** Summary of a successful write in standard mode *)
Definition stored (w w' : ws) (r c : N) (k : cell) (xf : N) : Prop :=
  meta w w' /\ same_opts w w' /\ data w' = table_insert r c (k, xf) (data w) /\ in_limits r c /\ covers w' r c.

Lemma insert_standard w r c x : constant_memory w = false ->
  insert_cell w r c x = upd_data w (table_insert r c x (data w)).
Proof. intros H. unfold insert_cell. rewrite H. reflexivity. Qed.

Lemma stored_insert w w1 r c k i : constant_memory w1 = false -> meta w w1 -> same_opts w w1 -> data w1 = data w ->
  in_limits r c -> covers w1 r c -> stored w (insert_cell w1 r c (k, i)) r c k i.
Proof.
  intros Hm Hme Hs Hd Hl Hc. rewrite insert_standard by assumption. unfold stored.
  split; [destruct Hme; split; fields; congruence || lia || assumption|].
  split; [destruct Hs; split; fields; congruence|].
  split; [fields; rewrite Hd; reflexivity|]. split; [assumption|exact Hc].
Qed.

(** The format recorded for a write: the one given, else that of the
    row/column crossing, else none (index 0). *)
Definition recorded (w w' : ws) (r c : N) (f : option Format) (xf : N) : Prop :=
  match f with Some f => nth_error (xfs w') (N.to_nat xf) = Some f
             | None => match crossing_format w r c with
                       | Some g => nth_error (xfs w') (N.to_nat xf) = Some g
                       | None => xf = 0 end end.

Lemma crossing_same w w' r c : same_opts w w' -> crossing_format w' r c = crossing_format w r c.
Proof. intros []. unfold crossing_format. rewrite s_rows0, s_cols0. reflexivity. Qed.

Definition rejected (w w' : ws) : Prop := meta w w' /\ same_opts w w' /\ data w' = data w.
Lemma rejected_refl w : rejected w w.
Proof. split; [auto|split; auto]. Qed.

(** Results of a call writing one cell. *)
Definition one_write (w w' : ws) (e : option error) (r c : N) (mk : cell -> Prop) (f : option Format) : Prop :=
  match e with
  | Some _ => rejected w w'
  | None => exists k xf, mk k /\ stored w w' r c k xf /\ recorded w w' r c f xf
  end.

Ltac dim H w1 b Hme Hs Hd Hx Hl Hf Hc :=
  match type of H with context [check_dimensions ?w ?r ?c] =>
    destruct (check_dimensions w r c) as [w1 b] eqn:Ecd;
    apply check_dimensions_spec in Ecd as (Hme & Hs & Hd & Hx & Hl & Hf & Hc) end.

Lemma one_write_xf w w1 w2 r c f i k (mk : cell -> Prop) :
  constant_memory w = false -> meta w w1 -> same_opts w w1 -> data w1 = data w ->
  in_limits r c -> covers w1 r c -> cell_xf w1 r c f = (w2, i) -> mk k ->
  forall w3, meta w2 w3 -> same_opts w2 w3 -> data w3 = data w2 -> xfs w3 = xfs w2 ->
    one_write w (insert_cell w3 r c (k, i)) None r c mk f.
Proof.
  intros Hm Hme Hs Hd Hl Hc E Hk w3 Hme3 Hs3 Hd3 Hx3.
  pose proof E as E'. apply cell_xf_spec in E' as (Hme2 & Hs2 & Hd2 & Hc2 & Hf).
  exists k, i. split; [assumption|].
  assert (Hm3 : constant_memory w3 = false).
  { rewrite (m_cm _ _ Hme3), (m_cm _ _ Hme2), (m_cm _ _ Hme). assumption. }
  split.
  - apply stored_insert; auto.
    + eapply meta_trans; [exact Hme|]. eapply meta_trans; eassumption.
    + eapply same_opts_trans; [exact Hs|]. eapply same_opts_trans; eassumption.
    + congruence.
    + eapply covers_meta; [exact Hme3|]. apply Hc2. assumption.
  - unfold recorded. rewrite insert_standard by assumption. fields. rewrite Hx3.
    rewrite (crossing_same _ _ r c Hs) in Hf. destruct f; [assumption|].
    destruct (crossing_format w r c); [assumption|]. apply Hf.
Qed.

Lemma store_blank_spec w r c f w' e : constant_memory w = false -> store_blank w r c f = (w', e) ->
  match e with
  | Some _ => rejected w w' /\ ~ in_limits r c /\ w' = w
  | None => exists xf, stored w w' r c CBlank xf /\
             ((xf <> 0 -> nth_error (xfs w') (N.to_nat xf) = Some f \/ (exists g, crossing_format w r c = Some g /\ nth_error (xfs w') (N.to_nat xf) = Some g)) /\
              (nth_error (xfs w) 0 = Some format_default -> f <> format_default -> nth_error (xfs w') (N.to_nat xf) = Some f))
  end.
Proof.
  intros Hm H. unfold store_blank in H. dim H w1 b Hme Hs Hd Hx Hl Hf Hc. destruct b; cbn [negb] in H.
  - destruct (reg w1 f) as [w2 i] eqn:E. pose proof E as E'. apply reg_spec in E' as (Hme2 & Hs2 & Hd2 & Hn & Hcv).
    destruct (N.eqb_spec i 0) as [->|Hi].
    + destruct (row_col_format w2 r c) as [w3 j] eqn:E3.
      pose proof (cell_xf_spec w2 r c None w3 j E3) as (Hme3 & Hs3 & Hd3 & Hc3 & Hx3).
      apply pair_equal_spec in H as [<- <-]. exists j.
      assert (Hm3 : constant_memory w3 = false) by (rewrite (m_cm _ _ Hme3), (m_cm _ _ Hme2), (m_cm _ _ Hme); assumption).
      split; [|split].
      * apply stored_insert; auto.
        -- eapply meta_trans; [exact Hme|]. eapply meta_trans; eassumption.
        -- eapply same_opts_trans; [exact Hs|]. eapply same_opts_trans; eassumption.
        -- congruence.
      * intros Hj. rewrite insert_standard by assumption. fields. right.
        rewrite (crossing_same _ _ r c Hs2), (crossing_same _ _ r c Hs) in Hx3.
        destruct (crossing_format w r c) as [g|]; [exists g; auto|destruct Hx3; congruence].
      * intros H0 Hne. exfalso. apply Hne.
        assert (nth_error (xfs w2) 0 = Some format_default).
        { eapply prefix_nth; [apply (m_xfs _ _ Hme2)|]. rewrite Hx. exact H0. }
        change (N.to_nat 0) with 0%nat in Hn. congruence.
    + apply pair_equal_spec in H as [<- <-]. exists i.
      assert (Hm3 : constant_memory w2 = false) by (rewrite (m_cm _ _ Hme2), (m_cm _ _ Hme); assumption).
      split; [|split].
      * apply stored_insert; auto.
        -- eapply meta_trans; eassumption.
        -- eapply same_opts_trans; eassumption.
        -- congruence.
      * intros _. rewrite insert_standard by assumption. fields. left. assumption.
      * intros _ _. rewrite insert_standard by assumption. fields. assumption.
  - apply pair_equal_spec in H as [<- <-]. destruct (Hf eq_refl) as [Hnl ->]. auto using rejected_refl.
Qed.

(** The registry starts with the default format. *)
Definition reg0 (w : ws) : Prop := nth_error (xfs w) 0 = Some format_default.
Lemma reg0_meta w w' : meta w w' -> reg0 w -> reg0 w'.
Proof. intros Hm. apply prefix_nth. apply Hm. Qed.

(** A non-default format given for a cell is the one its index selects. *)
Definition fmt_ok (w w' : ws) (r c : N) (f : option Format) (xf : N) : Prop :=
  match f with
  | Some f => reg0 w -> f <> format_default -> nth_error (xfs w') (N.to_nat xf) = Some f
  | None => match crossing_format w r c with
            | Some g => nth_error (xfs w') (N.to_nat xf) = Some g
            | None => xf = 0 end
  end.
Lemma recorded_fmt_ok w w' r c f xf : recorded w w' r c f xf -> fmt_ok w w' r c f xf.
Proof. unfold recorded, fmt_ok. destruct f; auto. Qed.

Definition outcome (w w' : ws) (e : option error) (r c : N) (v : option value) (f : option Format) : Prop :=
  match e, v with
  | None, Some v => exists k xf, contents k = v /\ stored w w' r c k xf /\ fmt_ok w w' r c f xf
  | _, _ => rejected w w'
  end.

Lemma outcome_one_write w w' e r c v f : one_write w w' e r c (fun k => contents k = v) f ->
  outcome w w' e r c (Some v) f.
Proof.
  unfold one_write, outcome. destruct e; [auto|]. intros (k & xf & Hk & Hs & Hr).
  exists k, xf. auto using recorded_fmt_ok.
Qed.

Lemma store_blank_outcome w r c f w' e : constant_memory w = false -> store_blank w r c f = (w', e) ->
  outcome w w' e r c (Some VBlank) (Some f).
Proof.
  intros Hm H. apply store_blank_spec in H; [|assumption]. unfold outcome. destruct e; [apply H|].
  destruct H as (xf & Hs & H1 & H2). exists CBlank, xf. split; [reflexivity|]. split; [assumption|].
  exact H2.
Qed.

Lemma rejected_trans a b c : rejected a b -> rejected b c -> rejected a c.
Proof.
  intros (H1 & H2 & H3) (H4 & H5 & H6). split; [eapply meta_trans; eassumption|].
  split; [eapply same_opts_trans; eassumption|congruence].
Qed.

Lemma outcome_after w w1 w' e r c v f : rejected w w1 -> outcome w1 w' e r c v f -> outcome w w' e r c v f.
Proof.
  intros (Hm & Hs & Hd) H. unfold outcome in *.
  assert (HR : rejected w1 w' -> rejected w w').
  { intros H'. eapply rejected_trans; [|exact H']. split; [assumption|split; assumption]. }
  destruct e as [e|]; [auto|]. destruct v as [v|]; [|auto].
  destruct H as (k & xf & Hk & (Hm1 & Hs1 & Hd1 & Hl & Hc) & Hf).
  exists k, xf. split; [assumption|]. split.
  - split; [eapply meta_trans; eassumption|]. split; [eapply same_opts_trans; eassumption|].
    split; [congruence|]. split; assumption.
  - unfold fmt_ok in *. rewrite (crossing_same _ _ r c Hs) in Hf. destruct f; [|assumption].
    intros H0. apply Hf. eapply reg0_meta; eassumption.
Qed.

Lemma store_string_outcome w r c s f w' e : constant_memory w = false -> store_string w r c s f = (w', e) ->
  outcome w w' e r c (text_value s f) f.
Proof.
  intros Hm H. unfold store_string in H. destruct s as [|ch s'].
  - destruct f as [f|]; [apply store_blank_outcome in H; assumption|].
    apply pair_equal_spec in H as [<- <-]. apply rejected_refl.
  - set (s := ch :: s') in *.
    assert (Ht : text_value s f = Some (VText s)) by (destruct f; reflexivity). rewrite Ht. clear Ht.
    clearbody s. dim H w1 b Hme Hs Hd Hx Hl Hf Hc. destruct b; cbn [negb] in H.
    + destruct (MAX_STRING_LEN <? char_count s) eqn:EL.
      * apply pair_equal_spec in H as [<- <-]. split; [assumption|split; assumption].
      * destruct (cell_xf w1 r c f) as [w2 i] eqn:E2.
        apply outcome_one_write.
        destruct (inline_strings w2); [|destruct (global_sst w2)].
        -- apply pair_equal_spec in H as [<- <-].
           eapply one_write_xf; [exact Hm|exact Hme|exact Hs|exact Hd|auto|auto|exact E2|reflexivity|auto|auto|auto|auto].
        -- destruct (shared_string_index (strings_table w2) s) as [t id].
           apply pair_equal_spec in H as [<- <-].
           eapply one_write_xf; [exact Hm|exact Hme|exact Hs|exact Hd|auto|auto|exact E2|reflexivity|meta_tac|split; reflexivity|reflexivity|reflexivity].
        -- apply pair_equal_spec in H as [<- <-].
           eapply one_write_xf; [exact Hm|exact Hme|exact Hs|exact Hd|auto|auto|exact E2|reflexivity|meta_tac|split; reflexivity|reflexivity|reflexivity].
    + apply pair_equal_spec in H as [<- <-]. destruct (Hf eq_refl) as [_ ->]. apply rejected_refl.
Qed.

(** Adjusting the string table after a write does not matter. *)
Lemma outcome_sst w w' r c v f t l : outcome w w' None r c v f -> outcome w (upd_sst w' t l) None r c v f.
Proof.
  unfold outcome. destruct v.
  - intros (k & xf & Hk & (Hm1 & Hs1 & Hd1 & Hl & Hc) & Hf). exists k, xf. split; [assumption|]. split; [|exact Hf].
    split; [destruct Hm1; split; fields; auto|]. split; [destruct Hs1; split; fields; auto|].
    split; [exact Hd1|]. split; [assumption|exact Hc].
  - intros (H1 & H2 & H3). split; [destruct H1; split; fields; auto|]. split; [destruct H2; split; fields; auto|exact H3].
Qed.

Definition rich_value (s : str) (f : option Format) : option value :=
  match s, f with [], None => None | [], _ => Some VBlank | _, _ => Some (VRich s) end.

Lemma store_rich_outcome w r c s raw f w' e : constant_memory w = false -> store_rich_string w r c s raw f = (w', e) ->
  outcome w w' e r c (rich_value s f) f.
Proof.
  intros Hm H. unfold store_rich_string in H. destruct s as [|ch s'].
  - destruct f as [f|]; [apply store_blank_outcome in H; assumption|].
    apply pair_equal_spec in H as [<- <-]. apply rejected_refl.
  - set (s := ch :: s') in *.
    assert (Ht : rich_value s f = Some (VRich s)) by (destruct f; reflexivity). rewrite Ht. clear Ht.
    clearbody s. dim H w1 b Hme Hs Hd Hx Hl Hf Hc. destruct b; cbn [negb] in H.
    + destruct (MAX_STRING_LEN <? char_count s) eqn:EL.
      * apply pair_equal_spec in H as [<- <-]. split; [assumption|split; assumption].
      * destruct (cell_xf w1 r c f) as [w2 i] eqn:E2.
        assert (HO : forall w3 id, meta w2 w3 -> same_opts w2 w3 -> data w3 = data w2 -> xfs w3 = xfs w2 ->
                  outcome w (insert_cell w3 r c (CRich s raw id, i)) None r c (Some (VRich s)) f).
        { intros w3 id A1 A2 A3 A4. apply outcome_one_write.
          eapply one_write_xf; [exact Hm|exact Hme|exact Hs|exact Hd|auto|auto|exact E2|reflexivity|exact A1|exact A2|exact A3|exact A4]. }
        destruct (global_sst w2).
        -- destruct (shared_string_index (strings_table w2) s) as [t id].
           apply pair_equal_spec in H as [<- <-].
           destruct (inline_strings _); [|apply outcome_sst]; apply HO; try reflexivity; [meta_tac|split; reflexivity|meta_tac|split; reflexivity].
        -- apply pair_equal_spec in H as [<- <-].
           destruct (inline_strings _); [|apply outcome_sst]; apply HO; auto.
    + apply pair_equal_spec in H as [<- <-]. destruct (Hf eq_refl) as [_ ->]. apply rejected_refl.
Qed.

Definition mk_number (d : bool) : f64 -> value := if d then VDateTime else VNumber.

Lemma store_number_outcome w r c x f d w' e : constant_memory w = false ->
  store_number_type w r c x f d = (w', e) ->
  outcome w w' e r c (number_value w (mk_number d) x f) f.
Proof.
  intros Hm H. unfold store_number_type in H. dim H w1 b Hme Hs Hd Hx Hl Hf Hc. destruct b; cbn [negb] in H.
  - assert (Hm1 : constant_memory w1 = false) by (rewrite (m_cm _ _ Hme); assumption).
    assert (HR : rejected w w1) by (split; [assumption|split; assumption]).
    destruct Hs as [Hs1 Hs2 Hs3 Hs4 Hs5 Hs6 Hs7].
    assert (HS : same_opts w w1) by (split; assumption).
    destruct x as [z|[|]| |z m ex]; cbn [is_nan is_inf number_value special_text] in H |- *.
    + destruct (cell_xf w1 r c f) as [w2 i] eqn:E2. apply pair_equal_spec in H as [<- <-]. apply outcome_one_write.
      eapply one_write_xf; [exact Hm|exact Hme|exact HS|exact Hd|auto|auto|exact E2|destruct d; reflexivity|auto|auto|auto|auto].
    + change (feq (S754_infinity true) (S754_infinity false)) with false in H. cbn iota in H.
      apply store_string_outcome in H; [|assumption]. rewrite Hs6 in H. eapply outcome_after; eassumption.
    + change (feq (S754_infinity false) (S754_infinity false)) with true in H. cbn iota in H.
      apply store_string_outcome in H; [|assumption]. rewrite Hs5 in H. eapply outcome_after; eassumption.
    + apply store_string_outcome in H; [|assumption]. rewrite Hs4 in H. eapply outcome_after; eassumption.
    + destruct (cell_xf w1 r c f) as [w2 i] eqn:E2. apply pair_equal_spec in H as [<- <-]. apply outcome_one_write.
      eapply one_write_xf; [exact Hm|exact Hme|exact HS|exact Hd|auto|auto|exact E2|destruct d; reflexivity|auto|auto|auto|auto].
  - apply pair_equal_spec in H as [<- <-]. destruct (Hf eq_refl) as [_ ->]. apply rejected_refl.
Qed.

Lemma store_boolean_outcome w r c b0 f w' e : constant_memory w = false -> store_boolean w r c b0 f = (w', e) ->
  outcome w w' e r c (Some (VBool b0)) f.
Proof.
  intros Hm H. unfold store_boolean in H. dim H w1 b Hme Hs Hd Hx Hl Hf Hc. destruct b; cbn [negb] in H.
  - destruct (cell_xf w1 r c f) as [w2 i] eqn:E2. apply pair_equal_spec in H as [<- <-]. apply outcome_one_write.
    eapply one_write_xf; [exact Hm|exact Hme|exact Hs|exact Hd|auto|auto|exact E2|reflexivity|auto|auto|auto|auto].
  - apply pair_equal_spec in H as [<- <-]. destruct (Hf eq_refl) as [_ ->]. apply rejected_refl.
Qed.

(** ** Effect of a call on the table, cell by cell *)
Record effect (w w' : ws) (P : N -> N -> option value) (f : option Format) : Prop := {
  e_meta : meta w w';
  e_opts : same_opts w w';
  e_ok : table_ok (data w) -> table_ok (data w');
  e_same : forall r c, P r c = None -> table_get r c (data w') = table_get r c (data w);
  e_val : forall r c v, P r c = Some v -> exists k xf,
      table_get r c (data w') = Some (k, xf) /\ contents k = v /\ fmt_ok w w' r c f xf /\
      in_limits r c /\ covers w' r c;
  e_rows : forall r, get r (data w') <> None -> get r (data w) <> None \/ exists c v, P r c = Some v }.

Lemma fmt_ok_later w w1 w2 r c f xf : meta w1 w2 -> fmt_ok w w1 r c f xf -> fmt_ok w w2 r c f xf.
Proof.
  intros Hm. unfold fmt_ok. destruct f.
  - intros H H0 Hne. eapply prefix_nth; [apply Hm|auto].
  - destruct (crossing_format w r c); [|auto]. intros H. eapply prefix_nth; [apply Hm|auto].
Qed.
Lemma fmt_ok_earlier w w1 w2 r c f xf : meta w w1 -> same_opts w w1 -> fmt_ok w1 w2 r c f xf -> fmt_ok w w2 r c f xf.
Proof.
  intros Hm Hs. unfold fmt_ok. destruct f.
  - intros H H0. apply H. eapply reg0_meta; eassumption.
  - rewrite (crossing_same _ _ r c Hs). auto.
Qed.

Lemma effect_trans w w1 w2 P Q f : effect w w1 P f -> effect w1 w2 Q f ->
  effect w w2 (fun r c => match Q r c with Some v => Some v | None => P r c end) f.
Proof.
  intros H1 H2. split.
  - eapply meta_trans; [apply H1|apply H2].
  - eapply same_opts_trans; [apply H1|apply H2].
  - intros Hok. apply H2, H1, Hok.
  - intros r c. destruct (Q r c) eqn:EQ; [discriminate|]. intros HP.
    rewrite (e_same _ _ _ _ H2 r c EQ). apply (e_same _ _ _ _ H1 r c HP).
  - intros r c v. destruct (Q r c) as [v'|] eqn:EQ.
    + intros [= <-]. destruct (e_val _ _ _ _ H2 r c _ EQ) as (k & xf & A & B & C & D & E).
      exists k, xf. split; [assumption|]. split; [assumption|]. split; [|split; assumption].
      eapply fmt_ok_earlier; [apply H1|apply H1|exact C].
    + intros HP. destruct (e_val _ _ _ _ H1 r c _ HP) as (k & xf & A & B & C & D & E).
      exists k, xf. split; [rewrite (e_same _ _ _ _ H2 r c EQ); assumption|]. split; [assumption|].
      split; [eapply fmt_ok_later; [apply H2|exact C]|]. split; [assumption|].
      eapply covers_meta; [apply H2|exact E].
  - intros r Hr. destruct (e_rows _ _ _ _ H2 r Hr) as [Hr1|(c & v & HQ)].
    + destruct (e_rows _ _ _ _ H1 r Hr1) as [Hr2|(c & v & HP)]; [left; assumption|right].
      exists c. destruct (Q r c) as [v'|] eqn:EQ; [exists v'; reflexivity|exists v; assumption].
    + right. exists c, v. rewrite HQ. reflexivity.
Qed.

Lemma effect_none w w' f P : rejected w w' -> (forall r c, P r c = None) -> effect w w' P f.
Proof.
  intros (H1 & H2 & H3) HP. split; auto.
  - rewrite H3; auto.
  - intros; rewrite H3; reflexivity.
  - intros r c v. rewrite HP. discriminate.
  - rewrite H3. auto.
Qed.

Lemma here_true r c r' c' : here r c r' c' = true -> r' = r /\ c' = c.
Proof. unfold here. rewrite andb_true_iff, !N.eqb_eq. intuition congruence. Qed.
Lemma here_refl r c : here r c r c = true.
Proof. unfold here. rewrite !N.eqb_refl. reflexivity. Qed.

Definition at_cell (r c : N) (v : option value) : N -> N -> option value :=
  fun r' c' => if here r c r' c' then v else None.

Lemma effect_stored w w' r c v f : outcome w w' None r c v f -> effect w w' (at_cell r c v) f.
Proof.
  unfold outcome, at_cell. destruct v as [v|].
  2: { intros H. apply effect_none; [assumption|]. intros. destruct (here _ _ _ _); reflexivity. }
  intros (k & xf & Hk & (Hm & Hs & Hd & Hl & Hc) & Hf). split; auto.
  - rewrite Hd. apply table_insert_ok.
  - intros r' c' H. rewrite Hd, table_get_insert. destruct (here r c r' c'); [discriminate|reflexivity].
  - intros r' c' v'. destruct (here r c r' c') eqn:E; [|discriminate]. intros [= <-].
    apply here_true in E as [-> ->]. exists k, xf. rewrite Hd, table_get_insert, here_refl. auto.
  - intros r'. rewrite Hd. intros H. apply table_insert_row in H as [->|H]; [|auto].
    right. exists c, v. rewrite here_refl. reflexivity.
Qed.

(** A call writing one cell. *)
Lemma effect_outcome w w' e r c v f : outcome w w' e r c v f ->
  effect w w' (match e with None => at_cell r c v | Some _ => fun _ _ => None end) f.
Proof.
  destruct e; [|apply effect_stored]. intros H. apply effect_none; [exact H|reflexivity].
Qed.

Lemma effect_ext w w' P Q f : (forall r c, P r c = Q r c) -> effect w w' P f -> effect w w' Q f.
Proof.
  intros HE [A B C D E F]. split; auto.
  - intros r c H. apply D. rewrite HE. assumption.
  - intros r c v H. apply E. rewrite HE. assumption.
  - intros r H. destruct (F r H) as [|(c & v & H')]; [auto|]. right. exists c, v. rewrite <- HE. assumption.
Qed.

Definition zeros (cells : list (N * N)) (r c : N) : option value :=
  if existsb (fun p => here (fst p) (snd p) r c) cells then Some (VNumber fzero) else None.

Lemma store_zero_limits w r c f : constant_memory w = false ->
  in_limits r c -> snd (store_number_type w r c fzero f false) = None.
Proof.
  intros _ [Hr Hc]. unfold store_number_type, check_dimensions.
  destruct (N.leb_spec ROW_MAX r); [lia|]. destruct (N.leb_spec COL_MAX c); [lia|].
  destruct (negb _ || _); cbn [negb is_nan is_inf fzero snd]; destruct (cell_xf _ r c f); reflexivity.
Qed.

Lemma write_zeros_effect cells : forall w f w' e, constant_memory w = false ->
  (forall r c, In (r, c) cells -> in_limits r c) ->
  write_zeros w cells f = (w', e) -> e = None /\ effect w w' (zeros cells) f.
Proof.
  induction cells as [|[r c] cells IH]; intros w f w' e Hm Hl H; cbn [write_zeros] in H.
  - apply pair_equal_spec in H as [<- <-]. split; [reflexivity|]. apply effect_none; [apply rejected_refl|reflexivity].
  - destruct (store_number_type w r c fzero f false) as [w1 e1] eqn:E.
    assert (e1 = None) as ->.
    { pose proof (store_zero_limits w r c f Hm (Hl r c (or_introl eq_refl))) as H0. rewrite E in H0. exact H0. }
    apply store_number_outcome in E; [|assumption]. apply effect_stored in E.
    assert (Hm1 : constant_memory w1 = false) by (rewrite (m_cm _ _ (e_meta _ _ _ _ E)); assumption).
    destruct (IH w1 f w' e Hm1 (fun r' c' Hin => Hl r' c' (or_intror Hin)) H) as [-> H2]. split; [reflexivity|].
    eapply effect_ext; [|eapply effect_trans; [exact E|exact H2]].
    intros r' c'. unfold zeros, at_cell. cbn [existsb fst snd number_value special_text fzero mk_number].
    destruct (existsb _ cells); [rewrite orb_true_r; reflexivity|]. rewrite orb_false_r. reflexivity.
Qed.

Lemma in_range_incl a b x : In x (range_incl a b) <-> a <= x <= b.
Proof.
  unfold range_incl. rewrite in_map_iff. split.
  - intros (i & <- & Hi). apply in_seq in Hi. lia.
  - intros H. exists (N.to_nat (x - a)). split; [lia|]. apply in_seq. lia.
Qed.

Lemma zeros_true cells r c : zeros cells r c = if existsb (fun p => here (fst p) (snd p) r c) cells then Some (VNumber fzero) else None.
Proof. reflexivity. Qed.

Lemma existsb_cells cells r c : existsb (fun p => here (fst p) (snd p) r c) cells = true <-> In (r, c) cells.
Proof.
  rewrite existsb_exists. split.
  - intros ([r' c'] & Hin & H). cbn in H. apply here_true in H as [-> ->]. assumption.
  - intros H. exists (r, c). split; [assumption|]. apply here_refl.
Qed.

Lemma in_rect_true fr fc lr lc r c : in_rect fr fc lr lc r c = true <-> fr <= r <= lr /\ fc <= c <= lc.
Proof. unfold in_rect. lia. Qed.

Lemma in_row_cells (fr fc lc r c : N) : In (r, c) (map (fun c => (fr, c)) (range_incl fc lc)) <-> r = fr /\ fc <= c <= lc.
Proof.
  rewrite in_map_iff. split.
  - intros (x & [= <- <-] & H). apply in_range_incl in H. auto.
  - intros [-> H]. exists c. split; [reflexivity|]. apply in_range_incl. assumption.
Qed.
Lemma in_rect_cells (fr fc lr lc r c : N) :
  In (r, c) (flat_map (fun r => map (fun c => (r, c)) (range_incl fc lc)) (range_incl fr lr)) <-> fr <= r <= lr /\ fc <= c <= lc.
Proof.
  rewrite in_flat_map. split.
  - intros (x & Hx & H). apply in_row_cells in H as [-> H]. apply in_range_incl in Hx. auto.
  - intros [Hr Hc]. exists r. split; [apply in_range_incl; assumption|]. apply in_row_cells. auto.
Qed.

Definition array_cells (fr fc lr lc : N) (v : value) (r c : N) : option value :=
  if here fr fc r c then Some v else if in_rect fr fc lr lc r c then Some (VNumber fzero) else None.

Lemma store_array_effect w fr fc lr lc fm f d g w' e : constant_memory w = false ->
  store_array_formula w fr fc lr lc fm f d g = (w', e) ->
  match e with
  | Some _ => rejected w w'
  | None => effect w w' (array_cells fr fc lr lc (VArray (f_text fm) (result_text w fm) g)) f /\
            in_limits fr fc /\ in_limits lr lc /\ fr <= lr /\ fc <= lc
  end.
Proof.
  intros Hm H. unfold store_array_formula in H. dim H w1 b1 Hme Hs Hd Hx Hl Hf Hc. destruct b1; cbn [negb] in H.
  2: { apply pair_equal_spec in H as [<- <-]. destruct (Hf eq_refl) as [_ ->]. apply rejected_refl. }
  assert (HR1 : rejected w w1) by (split; [assumption|split; assumption]).
  specialize (Hl eq_refl). specialize (Hc eq_refl Hm).
  assert (Hm1 : constant_memory w1 = false) by (rewrite (m_cm _ _ Hme); assumption).
  dim H w2 b2 Hme2 Hs2 Hd2 Hx2 Hl2 Hf2 Hc2. destruct b2; cbn [negb] in H.
  2: { apply pair_equal_spec in H as [<- <-]. destruct (Hf2 eq_refl) as [_ ->]. assumption. }
  assert (HR2 : rejected w w2).
  { eapply rejected_trans; [exact HR1|]. split; [assumption|split; assumption]. }
  specialize (Hl2 eq_refl). specialize (Hc2 eq_refl Hm1).
  assert (Hm2 : constant_memory w2 = false) by (rewrite (m_cm _ _ Hme2); assumption).
  destruct ((lr <? fr) || (lc <? fc)) eqn:Eo.
  { apply pair_equal_spec in H as [<- <-]. assumption. }
  assert (Ho : fr <= lr /\ fc <= lc) by (clear - Eo; lia).
  destruct (cell_xf w2 fr fc f) as [w3 i] eqn:E3.
  pose proof E3 as E3'. apply cell_xf_spec in E3' as (Hme3 & Hs3 & Hd3 & Hc3 & _).
  assert (Hm3 : constant_memory w3 = false) by (rewrite (m_cm _ _ Hme3); assumption).
  set (k := CArray (f_text fm) (formula_result w3 fm) (d || f_dynamic fm) g) in *.
  assert (Hk : contents k = VArray (f_text fm) (result_text w fm) g).
  { unfold k, contents, formula_result, result_text. f_equal.
    destruct (f_result fm); [|reflexivity]. rewrite (s_res _ _ Hs3), (s_res _ _ Hs2), (s_res _ _ Hs). reflexivity. }
  assert (HE1 : effect w (insert_cell w3 fr fc (k, i)) (at_cell fr fc (Some (contents k))) f).
  { apply effect_stored. apply outcome_one_write.
    eapply (one_write_xf w w2 w3 fr fc f i k); [exact Hm|apply HR2|apply HR2|apply HR2|exact Hl| |exact E3|reflexivity|auto|auto|auto|auto].
    eapply covers_meta; [exact Hme2|exact Hc]. }
  rewrite Hk in HE1. clearbody k. clear Hk.
  set (w4 := insert_cell w3 fr fc (k, i)) in *.
  assert (Hm4 : constant_memory w4 = false) by (rewrite (m_cm _ _ (e_meta _ _ _ _ HE1)); assumption).
  clearbody w4.
  destruct (write_zeros w4 _ f) as [w5 e5] eqn:E5.
  apply write_zeros_effect in E5 as [-> HE2]; [|assumption|].
  2: { intros r c Hin. apply in_row_cells in Hin as [-> Hin]. destruct Hl, Hl2. split; [assumption|lia]. }
  assert (Hm5 : constant_memory w5 = false) by (rewrite (m_cm _ _ (e_meta _ _ _ _ HE2)); assumption).
  rewrite Hm5 in H.
  destruct (write_zeros w5 _ f) as [w6 e6] eqn:E6.
  apply write_zeros_effect in E6 as [-> HE3]; [|assumption|].
  2: { intros r c Hin. apply in_rect_cells in Hin as [Hr Hcc]. destruct Hl, Hl2. split; lia. }
  assert (Hm6 : constant_memory w6 = false) by (rewrite (m_cm _ _ (e_meta _ _ _ _ HE3)); assumption).
  rewrite Hm6 in H. apply pair_equal_spec in H as [<- <-].
  split; [|split; [assumption|split; [assumption|exact Ho]]].
  eapply effect_ext; [|eapply effect_trans; [eapply effect_trans; [exact HE1|exact HE2]|exact HE3]].
  intros r c. unfold array_cells, at_cell, zeros.
  destruct (existsb _ (flat_map _ _)) eqn:EA.
  - apply existsb_cells, in_rect_cells in EA.
    destruct (here fr fc r c) eqn:EH; [apply here_true in EH as [-> ->]; clear - EA; lia|].
    destruct (in_rect fr fc lr lc r c) eqn:EI; [reflexivity|].
    exfalso. assert (in_rect fr fc lr lc r c = true) by (apply in_rect_true; clear - EA Ho; lia). congruence.
  - destruct (existsb _ (map _ _)) eqn:EB.
    + apply existsb_cells, in_row_cells in EB as [-> EB].
      destruct (here fr fc fr c) eqn:EH; [apply here_true in EH as [_ ->]; clear - EB; lia|].
      destruct (in_rect fr fc lr lc fr c) eqn:EI; [reflexivity|].
      exfalso. assert (in_rect fr fc lr lc fr c = true) by (apply in_rect_true; clear - EB Ho; lia). congruence.
    + destruct (here fr fc r c) eqn:EH; [reflexivity|].
      destruct (in_rect fr fc lr lc r c) eqn:EI; [|reflexivity]. exfalso.
      apply in_rect_true in EI.
      destruct (N.eq_dec r fr) as [->|Hne].
      * assert (c <> fc) by (intros ->; rewrite here_refl in EH; discriminate).
        assert (In (fr, c) (map (fun c => (fr, c)) (range_incl (fc + 1) lc))) by (apply in_row_cells; split; [reflexivity|clear - EI H; lia]).
        apply existsb_cells in H0. congruence.
      * assert (In (r, c) (flat_map (fun r => map (fun c => (r, c)) (range_incl fc lc)) (range_incl (fr + 1) lr))) by (apply in_rect_cells; clear - EI Hne; lia).
        apply existsb_cells in H. congruence.
Qed.
