(** Histories of calls on a standard-mode worksheet. *)
From Verif Require Import Base SMap F64 Fmt_Model Sst_Model Cells_Model Cells_Spec Cells_Proofs.

(** The calls that write cell contents. *)
Definition is_write (o : op) : bool :=
  match o with
  | WriteNumber _ _ _ _ | WriteDateTime _ _ _ _ | WriteString _ _ _ _ | WriteRich _ _ _ _ _
  | WriteBool _ _ _ _ | WriteBlank _ _ _ | WriteFormula _ _ _ _ _ | WriteArray _ _ _ _ _ _ _ _ => true
  | _ => false
  end.
(** The format argument of a writing call. *)
Definition write_format (o : op) : option Format :=
  match o with
  | WriteNumber _ _ _ f | WriteDateTime _ _ _ f | WriteString _ _ _ f | WriteRich _ _ _ _ f
  | WriteBool _ _ _ f | WriteArray _ _ _ _ _ f _ _ => f
  | WriteFormula _ _ fm f _ => if f_dynamic fm then None else f
  | WriteBlank _ _ f => Some f
  | _ => None
  end.

Lemma store_formula_effect w r c fm f g w' e : constant_memory w = false -> store_formula w r c fm f g = (w', e) ->
  match e with
  | Some _ => rejected w w'
  | None => effect w w' (at_cell r c (Some (if f_dynamic fm then VArray (f_text fm) (result_text w fm) g
                                            else VFormula (f_text fm) (result_text w fm))))
                   (if f_dynamic fm then None else f)
  end.
Proof.
  intros Hm H. unfold store_formula in H. destruct (f_dynamic fm).
  - apply store_array_effect in H; [|assumption]. destruct e; [assumption|]. destruct H as [H _].
    eapply effect_ext; [|exact H]. intros r' c'. unfold array_cells, at_cell.
    destruct (here r c r' c') eqn:EH; [reflexivity|].
    destruct (in_rect r c r c r' c') eqn:EI; [|reflexivity]. apply in_rect_true in EI.
    assert (r' = r /\ c' = c) as [-> ->] by (clear - EI; lia). rewrite here_refl in EH. discriminate.
  - dim H w1 b Hme Hs Hd Hx Hl Hf Hc. destruct b; cbn [negb] in H.
    + destruct (cell_xf w1 r c f) as [w2 i] eqn:E2. apply pair_equal_spec in H as [<- <-].
      pose proof E2 as E2'. apply cell_xf_spec in E2' as (Hme2 & Hs2 & Hd2 & _ & _).
      apply effect_stored. apply outcome_one_write.
      eapply one_write_xf; [exact Hm|exact Hme|exact Hs|exact Hd|auto|auto|exact E2| |auto|auto|auto|auto].
      cbn [contents]. f_equal. unfold formula_result, result_text. destruct (f_result fm); [|reflexivity].
      rewrite (s_res _ _ Hs2), (s_res _ _ Hs). reflexivity.
    + apply pair_equal_spec in H as [<- <-]. destruct (Hf eq_refl) as [_ ->]. apply rejected_refl.
Qed.

Lemma write_effect w o w' e : constant_memory w = false -> is_write o = true -> step w o = (w', e) ->
  match e with
  | Some _ => rejected w w'
  | None => effect w w' (writes w o) (write_format o)
  end.
Proof.
  intros Hm Ho H. destruct o; try discriminate Ho; cbn [step write_format] in H |- *.
  - apply store_number_outcome in H; [|assumption]. destruct e; [exact H|]. apply effect_stored in H. exact H.
  - apply store_number_outcome in H; [|assumption]. destruct e; [exact H|]. apply effect_stored in H. exact H.
  - apply store_string_outcome in H; [|assumption]. destruct e; [exact H|]. apply effect_stored in H. exact H.
  - apply store_rich_outcome in H; [|assumption]. destruct e; [exact H|]. apply effect_stored in H. exact H.
  - apply store_boolean_outcome in H; [|assumption]. destruct e; [exact H|]. apply effect_stored in H. exact H.
  - apply store_blank_outcome in H; [|assumption]. destruct e; [exact H|]. apply effect_stored in H. exact H.
  - apply store_formula_effect in H; [|assumption]. exact H.
  - apply store_array_effect in H; [|assumption]. destruct e; [exact H|]. destruct H as (H & _ & _ & Ho1 & Ho2).
    eapply effect_ext; [|exact H]. intros r c. unfold array_cells. cbn [writes].
    destruct (here fr fc r c) eqn:EH; [|reflexivity]. apply here_true in EH as [-> ->].
    assert (in_rect fr fc lr lc fr fc = true) as -> by (apply in_rect_true; clear - Ho1 Ho2; lia). reflexivity.
Qed.

(** ** Formatting calls *)

(** [insert_cell_format] and relatives, on the table. *)
Definition fmt_cell (xf : N) (x : option (cell * N)) : option (cell * N) :=
  match x with Some (k, _) => Some (k, xf) | None => Some (CBlank, xf) end.

Lemma insert_cell_format_frame w r c xf : exists t, insert_cell_format w r c xf = upd_data w t.
Proof.
  unfold insert_cell_format. destruct (get r (data w)) as [cs|]; [destruct (get c cs) as [[k x]|]; eauto|].
  destruct (0 <? xf); [eauto|]. exists (data w). destruct w; reflexivity.
Qed.

Lemma insert_cell_format_get w r c xf r' c' :
  table_get r' c' (data (insert_cell_format w r c xf)) =
  if here r c r' c' then
    if (xf =? 0) && match get r (data w) with None => true | _ => false end then None
    else fmt_cell xf (table_get r c (data w))
  else table_get r' c' (data w).
Proof.
  unfold insert_cell_format, here. destruct (get r (data w)) as [cs|] eqn:E.
  - destruct (get c cs) as [[k x]|] eqn:Ec; fields; rewrite table_get_ins_row;
      (destruct (N.eqb_spec r r') as [->|]; cbn [andb]; [|reflexivity]);
      rewrite get_ins; (destruct (N.eqb_spec c c') as [->|]; [|unfold table_get; rewrite E; reflexivity]);
      rewrite andb_false_r; unfold table_get, fmt_cell; rewrite E, Ec; reflexivity.
  - destruct (N.ltb_spec 0 xf) as [Hx|Hx]; fields.
    + rewrite table_get_ins_row. destruct (N.eqb_spec r r') as [->|]; cbn [andb]; [|reflexivity].
      cbn [get]. destruct (N.eqb_spec c c') as [->|]; [|unfold table_get; rewrite E; reflexivity].
      destruct (N.eqb_spec xf 0); [lia|]. unfold table_get, fmt_cell. rewrite E. reflexivity.
    + destruct (N.eqb_spec r r') as [->|]; cbn [andb]; [|reflexivity].
      destruct (N.eqb_spec c c') as [->|]; [|reflexivity].
      destruct (N.eqb_spec xf 0); [|lia]. unfold table_get. rewrite E. reflexivity.
Qed.

Lemma insert_cell_format_ok w r c xf : table_ok (data w) -> table_ok (data (insert_cell_format w r c xf)).
Proof.
  intros H. unfold insert_cell_format. destruct (get r (data w)) as [cs|] eqn:E.
  - pose proof (proj2 H r cs E). destruct (get c cs) as [[k x]|]; fields; apply table_ok_ins; auto using ins_ok.
  - destruct (0 <? xf); fields; [|assumption]. apply table_ok_ins; [assumption|]. constructor; constructor.
Qed.

(** Contents never change by formatting, except that a missing cell may become
    a blank one. *)
Definition fmt_preserves (a b : option (cell * N)) : Prop :=
  match a with
  | Some (k, _) => exists xf, b = Some (k, xf)
  | None => b = None \/ exists xf, b = Some (CBlank, xf)
  end.
Lemma fmt_preserves_refl a : fmt_preserves a a.
Proof. destruct a as [[k x]|]; cbn; eauto. Qed.
Lemma fmt_preserves_trans a b c : fmt_preserves a b -> fmt_preserves b c -> fmt_preserves a c.
Proof.
  destruct a as [[k x]|]; cbn.
  - intros [xf ->]. cbn. auto.
  - intros [->|[xf ->]]; cbn; [auto|]. intros [y ->]. eauto.
Qed.

Lemma icf_preserves w r c xf r' c' :
  fmt_preserves (table_get r' c' (data w)) (table_get r' c' (data (insert_cell_format w r c xf))).
Proof.
  rewrite insert_cell_format_get. destruct (here r c r' c') eqn:E; [|apply fmt_preserves_refl].
  apply here_true in E as [-> ->].
  destruct ((xf =? 0) && _) eqn:E0.
  - destruct (get r (data w)) eqn:Eg; [rewrite andb_false_r in E0; discriminate|].
    unfold table_get. rewrite Eg. cbn. auto.
  - unfold fmt_cell. destruct (table_get r c (data w)) as [[k x]|]; cbn; eauto.
Qed.

(** Folding over a list of cells (set_range_format). *)
Definition icf_fold (xf : N) (w : ws) (cells : list (N * N)) : ws :=
  fold_left (fun w p => insert_cell_format w (fst p) (snd p) xf) cells w.

Lemma icf_fold_frame xf cells : forall w, exists t, icf_fold xf w cells = upd_data w t.
Proof.
  induction cells as [|[r c] cells IH]; intros w.
  - exists (data w). destruct w; reflexivity.
  - cbn [icf_fold fold_left fst snd]. destruct (insert_cell_format_frame w r c xf) as [t ->].
    destruct (IH (upd_data w t)) as [t' H']. unfold icf_fold in H'. rewrite H'. exists t'. reflexivity.
Qed.
Lemma icf_fold_ok xf cells : forall w, table_ok (data w) -> table_ok (data (icf_fold xf w cells)).
Proof.
  induction cells as [|[r c] cells IH]; intros w H; [exact H|]. apply IH. apply insert_cell_format_ok. assumption.
Qed.
Lemma icf_fold_preserves xf cells r c : forall w,
  fmt_preserves (table_get r c (data w)) (table_get r c (data (icf_fold xf w cells))).
Proof.
  induction cells as [|[r' c'] cells IH]; intros w; [apply fmt_preserves_refl|].
  eapply fmt_preserves_trans; [apply icf_preserves|apply IH].
Qed.
Lemma icf_fold_other xf cells r c : forall w, ~ In (r, c) cells ->
  table_get r c (data (icf_fold xf w cells)) = table_get r c (data w).
Proof.
  induction cells as [|[r' c'] cells IH]; intros w H; [reflexivity|].
  cbn [icf_fold fold_left fst snd]. unfold icf_fold in IH. rewrite IH by (intros Hin; apply H; right; assumption).
  rewrite insert_cell_format_get. destruct (here r' c' r c) eqn:E; [|reflexivity].
  apply here_true in E as [-> ->]. exfalso. apply H. left. reflexivity.
Qed.
(** Every cell of the list ends with the given index (if it exists). *)
Lemma icf_fold_xf xf cells r c : forall w, In (r, c) cells ->
  (xf <> 0 -> exists k, table_get r c (data (icf_fold xf w cells)) = Some (k, xf)) /\
  (forall k x, table_get r c (data (icf_fold xf w cells)) = Some (k, x) -> x = xf).
Proof.
  assert (Hp : forall cells w, (exists k, table_get r c (data w) = Some (k, xf)) ->
                exists k, table_get r c (data (icf_fold xf w cells)) = Some (k, xf)).
  { clear. induction cells as [|[r' c'] cells IH]; intros w (k & Hk); [eauto|]. cbn [icf_fold fold_left fst snd]. apply IH.
    rewrite insert_cell_format_get. destruct (here r' c' r c) eqn:E; [|eauto].
    apply here_true in E as [-> ->]. rewrite Hk. unfold fmt_cell.
    assert (Hg : match get r' (data w) with None => true | _ => false end = false).
    { unfold table_get in Hk. destruct (get r' (data w)); [reflexivity|discriminate]. }
    rewrite Hg, andb_false_r. eauto. }
  induction cells as [|[r' c'] cells IH]; intros w Hin; [destruct Hin|].
  cbn [icf_fold fold_left fst snd].
  destruct (in_dec (fun a b : N * N => ltac:(decide equality; apply N.eq_dec)) (r, c) cells) as [Hi|Hni]; [apply IH; assumption|].
  destruct Hin as [E|Hin]; [injection E as -> ->|contradiction].
  pose proof (icf_fold_other xf cells r c (insert_cell_format w r c xf) Hni) as Ho. unfold icf_fold in Ho. rewrite Ho.
  rewrite insert_cell_format_get, here_refl. split.
  - intros Hx. destruct (N.eqb_spec xf 0); [congruence|]. cbn [andb]. unfold fmt_cell.
    destruct (table_get r c (data w)) as [[k x]|]; eauto.
  - intros k x. destruct ((xf =? 0) && _); [discriminate|]. unfold fmt_cell.
    destruct (table_get r c (data w)) as [[k' x']|]; intros [= _ <-]; reflexivity.
Qed.

(** ** All calls *)
Definition is_option_call (o : op) : bool :=
  match o with
  | SetRowHeight _ _ | SetRowFormat _ _ | SetRowHidden _ | SetRowUnhidden _ | SetColumnWidth _ _ _
  | SetColumnFormat _ _ | SetColumnHidden _ | InsertNote _ _ _ | SetNanValue _ | SetInfinityValue _
  | SetNegInfinityValue _ | SetFormulaResultDefault _ | SetDefaultRowHeight _ => true
  | _ => false
  end.

Ltac by_dim H :=
  match type of H with context [check_dimensions ?w ?r ?c] =>
    let E := fresh "Ecd" in
    destruct (check_dimensions w r c) as [?w1 ?b] eqn:E;
    apply check_dimensions_spec in E as (? & ? & ? & ? & ? & ? & ?) end.
Ltac by_reg H :=
  match type of H with context [reg ?w ?f] =>
    let E := fresh "Erg" in
    destruct (reg w f) as [?w2 ?i] eqn:E;
    apply reg_spec in E as (? & ? & ? & ? & ?) end.
Ltac finish_meta :=
  repeat match goal with
  | |- meta ?w ?w' /\ data ?w' = data ?w => split
  | |- meta _ _ => assumption || apply meta_refl
  end.

Lemma option_call w o w' e : is_option_call o = true -> step w o = (w', e) -> meta w w' /\ data w' = data w.
Proof.
  intros Ho H. destruct o; try discriminate Ho; cbn [step] in H.
  - unfold set_row_height, set_row_hidden in H. destruct (feq h fzero); by_dim H; destruct b; cbn [negb] in H;
      apply pair_equal_spec in H as [<- <-]; (split; [destruct H0; split; fields; auto|fields; assumption]).
  - unfold set_row_format in H. by_dim H; destruct b; cbn [negb] in H; [by_reg H|];
      apply pair_equal_spec in H as [<- <-].
    + split; [|fields; congruence]. eapply meta_trans; [exact H0|]. destruct H7; split; fields; auto.
    + split; assumption.
  - unfold set_row_hidden in H. by_dim H; destruct b; cbn [negb] in H;
      apply pair_equal_spec in H as [<- <-]; (split; [destruct H0; split; fields; auto|fields; assumption]).
  - unfold set_row_unhidden in H. by_dim H; destruct b; cbn [negb] in H; [destruct (get row (changed_rows w1))|];
      apply pair_equal_spec in H as [<- <-]; (split; [destruct H0; split; fields; auto|fields; assumption]).
  - unfold set_column_width_internal, set_column_hidden, store_column_width in H.
    destruct (feq width fzero), (COL_MAX <=? col); apply pair_equal_spec in H as [<- <-];
      (split; [split; fields; auto; lia|fields; reflexivity]).
  - unfold set_column_format in H. by_dim H; destruct b; cbn [negb] in H; [by_reg H|];
      apply pair_equal_spec in H as [<- <-].
    + split; [|fields; congruence]. eapply meta_trans; [exact H0|]. destruct H7; split; fields; auto.
    + split; assumption.
  - unfold set_column_hidden in H.
    destruct (COL_MAX <=? col); apply pair_equal_spec in H as [<- <-];
      (split; [split; fields; auto; lia|fields; reflexivity]).
  - unfold insert_note in H. by_dim H; destruct b; cbn [negb] in H; [destruct (_ <? text_len)|];
      apply pair_equal_spec in H as [<- <-]; (split; [destruct H0; split; fields; auto|fields; assumption]).
  - apply pair_equal_spec in H as [<- <-]; (split; [split; fields; auto; lia|fields; reflexivity]).
  - apply pair_equal_spec in H as [<- <-]; (split; [split; fields; auto; lia|fields; reflexivity]).
  - apply pair_equal_spec in H as [<- <-]; (split; [split; fields; auto; lia|fields; reflexivity]).
  - apply pair_equal_spec in H as [<- <-]; (split; [split; fields; auto; lia|fields; reflexivity]).
  - apply pair_equal_spec in H as [<- <-]. destruct (fle h fzero); (split; [split; fields; auto; lia|fields; reflexivity]).
Qed.

Lemma upd_data_meta w w' t : meta w w' -> meta w (upd_data w' t).
Proof. intros []. split; fields; auto. Qed.

(** Formatting and clearing calls. *)
Lemma set_cell_format_spec w r c f w' e : constant_memory w = false -> set_cell_format w r c f = (w', e) ->
  match e with
  | Some _ => w' = w /\ ~ in_limits r c
  | None => exists w1 i, meta w w1 /\ data w1 = data w /\ nth_error (xfs w1) (N.to_nat i) = Some f /\
            in_limits r c /\ covers w1 r c /\ w' = insert_cell_format w1 r c i
  end.
Proof.
  intros Hm H. unfold set_cell_format in H. by_dim H. destruct b; cbn [negb] in H.
  - by_reg H. apply pair_equal_spec in H as [<- <-]. exists w2, i.
    split; [eapply meta_trans; eassumption|]. split; [congruence|]. split; [assumption|].
    split; [auto|]. split; [auto|reflexivity].
  - apply pair_equal_spec in H as [<- <-]. destruct (H5 eq_refl). auto.
Qed.

Lemma set_range_format_spec w fr fc lr lc f w' e : set_range_format w fr fc lr lc f = (w', e) ->
  match e with
  | Some _ => w' = w
  | None => exists w1 i, meta w w1 /\ data w1 = data w /\ nth_error (xfs w1) (N.to_nat i) = Some f /\
            in_limits fr fc /\ in_limits lr lc /\ fr <= lr /\ fc <= lc /\
            w' = icf_fold i w1 (range_cells fr fc lr lc)
  end.
Proof.
  intros H. unfold set_range_format in H.
  destruct (negb (check_dimensions_only fr fc) || negb (check_dimensions_only lr lc)) eqn:E1.
  { apply pair_equal_spec in H as [<- <-]. reflexivity. }
  destruct ((lr <? fr) || (lc <? fc)) eqn:E2.
  { apply pair_equal_spec in H as [<- <-]. reflexivity. }
  by_reg H. apply pair_equal_spec in H as [<- <-]. exists w2, i.
  split; [assumption|]. split; [assumption|]. split; [assumption|].
  unfold check_dimensions_only, in_limits in *.
  split; [lia|]. split; [lia|]. split; [lia|]. split; [lia|reflexivity].
Qed.

Lemma clear_cell_frame w r c : exists t, clear_cell w r c = upd_data w t /\ (table_ok (data w) -> table_ok t) /\
  forall r' c', table_ok (data w) -> table_get r' c' t = if here r c r' c' && check_dimensions_only r c then None else table_get r' c' (data w).
Proof.
  unfold clear_cell. destruct (check_dimensions_only r c).
  - destruct (get r (data w)) as [cs|] eqn:E.
    + exists (ins r (del c cs) (data w)). split; [reflexivity|]. split.
      * intros H. apply table_ok_ins; [assumption|]. apply del_ok. apply H in E. assumption.
      * intros r' c' H. rewrite table_get_ins_row. unfold here. rewrite andb_true_r.
        destruct (N.eqb_spec r r') as [->|]; cbn [andb]; [|reflexivity].
        rewrite get_del by (apply H in E; assumption).
        destruct (c =? c'); [reflexivity|]. unfold table_get. rewrite E. reflexivity.
    + exists (data w). split; [destruct w; reflexivity|]. split; [auto|]. intros r' c' _.
      destruct (here r c r' c') eqn:EH; cbn [andb]; [|reflexivity].
      apply here_true in EH as [-> ->]. unfold table_get. rewrite E. reflexivity.
  - exists (data w). split; [destruct w; reflexivity|]. split; [auto|]. intros. rewrite andb_false_r. reflexivity.
Qed.

(** Changing the value stored at one cell, if there is one. *)
Lemma update_frame w r c (g : cell * N -> cell * N) cs x :
  table_ok (data w) -> get r (data w) = Some cs -> get c cs = Some x ->
  table_ok (ins r (ins c (g x) cs) (data w)) /\
  forall r' c', table_get r' c' (ins r (ins c (g x) cs) (data w)) =
    if here r c r' c' then Some (g x) else table_get r' c' (data w).
Proof.
  intros Hok Er Ec. split.
  - apply table_ok_ins; [assumption|]. apply ins_ok. apply Hok in Er. assumption.
  - intros r' c'. rewrite table_get_ins_row. unfold here. destruct (N.eqb_spec r r') as [->|]; cbn [andb]; [|reflexivity].
    rewrite get_ins. destruct (c =? c'); [reflexivity|]. unfold table_get. rewrite Er. reflexivity.
Qed.

Lemma clear_cell_format_spec w r c : table_ok (data w) ->
  exists t, clear_cell_format w r c = upd_data w t /\ table_ok t /\
  forall r' c', table_get r' c' t =
    if here r c r' c' && check_dimensions_only r c then match table_get r c (data w) with Some (k, _) => Some (k, 0) | None => None end
    else table_get r' c' (data w).
Proof.
  intros Hok. unfold clear_cell_format, update_cell_format. destruct (check_dimensions_only r c).
  2: { exists (data w). split; [destruct w; reflexivity|]. split; [assumption|]. intros; rewrite andb_false_r; reflexivity. }
  destruct (get r (data w)) as [cs|] eqn:E; [destruct (get c cs) as [[k x]|] eqn:Ec|].
  - eexists. split; [reflexivity|]. destruct (update_frame w r c (fun p => (fst p, 0)) cs (k, x) Hok E Ec) as [A B].
    split; [exact A|]. intros r' c'. rewrite andb_true_r. cbn [fst] in B. rewrite B.
    unfold table_get at 2. rewrite E, Ec. reflexivity.
  - exists (data w). split; [destruct w; reflexivity|]. split; [assumption|]. intros r' c'. rewrite andb_true_r.
    destruct (here r c r' c') eqn:EH; [|reflexivity]. apply here_true in EH as [-> ->].
    unfold table_get. rewrite E, Ec. reflexivity.
  - exists (data w). split; [destruct w; reflexivity|]. split; [assumption|]. intros r' c'. rewrite andb_true_r.
    destruct (here r c r' c') eqn:EH; [|reflexivity]. apply here_true in EH as [-> ->].
    unfold table_get. rewrite E. reflexivity.
Qed.

(** The result a formula cell gets. *)
Definition with_result (s : str) (k : cell) : cell :=
  match k with CFormula t _ => CFormula t s | CArray t _ d g => CArray t s d g | _ => k end.

Lemma set_formula_result_spec w r c s : constant_memory w = false -> table_ok (data w) ->
  exists t, set_formula_result w r c s = upd_data w t /\ table_ok t /\
  forall r' c', table_get r' c' t =
    if here r c r' c' then match table_get r c (data w) with Some (k, x) => Some (with_result s k, x) | None => None end
    else table_get r' c' (data w).
Proof.
  intros Hm Hok. unfold set_formula_result. rewrite Hm.
  assert (Hno : forall v, table_get r c (data w) = v -> (match v with Some (k, x) => Some (with_result s k, x) | None => None end) = v ->
     exists t, w = upd_data w t /\ table_ok t /\ forall r' c', table_get r' c' t =
      if here r c r' c' then match table_get r c (data w) with Some (k, x) => Some (with_result s k, x) | None => None end
      else table_get r' c' (data w)).
  { intros v Hv Hw. exists (data w). split; [destruct w; reflexivity|]. split; [assumption|]. intros r' c'.
    destruct (here r c r' c') eqn:EH; [|reflexivity]. apply here_true in EH as [-> ->]. rewrite Hv. congruence. }
  destruct (get r (data w)) as [cs|] eqn:E; [destruct (get c cs) as [[k x]|] eqn:Ec|].
  - assert (Hv : table_get r c (data w) = Some (k, x)) by (unfold table_get; rewrite E; assumption).
    destruct k; try (eapply Hno; [exact Hv|reflexivity]).
    + eexists. split; [reflexivity|].
      destruct (update_frame w r c (fun p => (CFormula formula s, snd p)) cs _ Hok E Ec) as [A B].
      split; [exact A|]. intros r' c'. cbn [snd] in B. rewrite B, Hv. reflexivity.
    + eexists. split; [reflexivity|].
      destruct (update_frame w r c (fun p => (CArray formula s dynamic range, snd p)) cs _ Hok E Ec) as [A B].
      split; [exact A|]. intros r' c'. cbn [snd] in B. rewrite B, Hv. reflexivity.
  - eapply Hno with (v := None); [unfold table_get; rewrite E; assumption|reflexivity].
  - eapply Hno with (v := None); [unfold table_get; rewrite E; reflexivity|reflexivity].
Qed.

Definition is_range_format (o : op) : bool := match o with SetRangeFormat _ _ _ _ _ => true | _ => false end.

Record step_facts (w : ws) (o : op) (w' : ws) (e : option error) : Prop := {
  sf_meta : meta w w';
  sf_ok : table_ok (data w');
  sf_same : forall r c, touches o r c = false -> table_get r c (data w') = table_get r c (data w);
  sf_err : e <> None -> data w' = data w;
  sf_write : e = None -> forall r c v, writes w o r c = Some v -> exists k xf,
      table_get r c (data w') = Some (k, xf) /\ contents k = v;
  sf_cov : e = None -> forall r c v, writes w o r c = Some v -> covers w' r c /\ in_limits r c;
  sf_keep : forall r c, alters o r c = false -> fmt_preserves (table_get r c (data w)) (table_get r c (data w'));
  sf_fmt : e = None -> reg0 w -> forall r c f, gives_format o r c = Some f -> f <> format_default ->
      exists k x, table_get r c (data w') = Some (k, x) /\ nth_error (xfs w') (N.to_nat x) = Some f;
  sf_new : forall r c x, table_get r c (data w') = Some x ->
      table_get r c (data w) <> None \/ (in_limits r c /\ (is_range_format o = false -> covers w' r c)) }.


Lemma writes_alters w o r c v : writes w o r c = Some v -> alters o r c = true.
Proof.
  destruct o; cbn [writes alters]; try discriminate; try (destruct (here _ _ _ _); [reflexivity|discriminate]).
  destruct (in_rect _ _ _ _ _ _); [reflexivity|discriminate].
Qed.

(** A writing call that is given a format writes. *)
Lemma gives_writes w o r c f : is_write o = true -> gives_format o r c = Some f ->
  write_format o = Some f /\ exists v, writes w o r c = Some v.
Proof.
  destruct o; try discriminate; intros _; cbn [gives_format write_format writes].
  - destruct (here _ _ _ _); [|discriminate]. intros ->. split; [reflexivity|]. unfold number_value.
    destruct (special_text w x) as [[|]|]; cbn; eauto.
  - destruct (here _ _ _ _); [|discriminate]. intros ->. split; [reflexivity|]. unfold number_value.
    destruct (special_text w x) as [[|]|]; cbn; eauto.
  - destruct (here _ _ _ _); [|discriminate]. intros ->. split; [reflexivity|]. destruct s; cbn; eauto.
  - destruct (here _ _ _ _); [|discriminate]. intros ->. split; [reflexivity|]. destruct s; cbn; eauto.
  - destruct (here _ _ _ _); [|discriminate]. intros ->. eauto.
  - destruct (here _ _ _ _); [|discriminate]. intros [= ->]. eauto.
  - destruct (here _ _ _ _); [|discriminate]. destruct (f_dynamic fm); [discriminate|]. cbn. intros ->. eauto.
  - destruct (in_rect _ _ _ _ _ _); [|discriminate]. intros ->. eauto.
Qed.

Lemma step_write_facts w o w' e : constant_memory w = false -> table_ok (data w) -> is_write o = true ->
  step w o = (w', e) -> step_facts w o w' e.
Proof.
  intros Hm Hok Ho H. pose proof (write_effect w o w' e Hm Ho H) as HE. destruct e as [e|].
  - destruct HE as (H1 & H2 & H3). split; auto.
    + rewrite H3. assumption.
    + intros; rewrite H3; reflexivity.
    + discriminate.
    + discriminate.
    + intros; rewrite H3; apply fmt_preserves_refl.
    + discriminate.
    + intros r c x. rewrite H3. intros ->. left. discriminate.
  - assert (Hta : forall r c, touches o r c = alters o r c) by (destruct o; try discriminate; reflexivity).
    assert (Hna : forall r c, alters o r c = false -> writes w o r c = None).
    { intros r c Hf. destruct (writes w o r c) eqn:EW; [|reflexivity]. apply writes_alters in EW. congruence. }
    destruct HE as [A B C D E F]. split; auto.
    + intros r c Ht. apply D. apply Hna. rewrite <- Hta. assumption.
    + congruence.
    + intros _ r c v Hv. destruct (E r c v Hv) as (k & xf & G1 & G2 & _). eauto.
    + intros _ r c v Hv. destruct (E r c v Hv) as (k & xf & _ & _ & _ & G4 & G5). auto.
    + intros r c Ha. rewrite D by (apply Hna; assumption). apply fmt_preserves_refl.
    + intros _ H0 r c f Hg Hne. destruct (gives_writes w o r c f Ho Hg) as [Hwf (v & Hv)].
      destruct (E r c v Hv) as (k & xf & G1 & G2 & G3 & _). exists k, xf. split; [assumption|].
      rewrite Hwf in G3. cbn in G3. auto.
    + intros r c x Hx. destruct (writes w o r c) as [v|] eqn:EW.
      * right. destruct (E r c v EW) as (k & xf & _ & _ & _ & G4 & G5). auto.
      * left. rewrite <- (D r c EW). congruence.
Qed.

Lemma rejected_facts w o w' e : meta w w' -> data w' = data w -> table_ok (data w) ->
  (e = None -> forall r c, writes w o r c = None /\ gives_format o r c = None) -> step_facts w o w' e.
Proof.
  intros Hm Hd Hok Hn. split; auto.
  - rewrite Hd. assumption.
  - intros; rewrite Hd; reflexivity.
  - intros He r c v Hv. destruct (Hn He r c). congruence.
  - intros He r c v Hv. destruct (Hn He r c). congruence.
  - intros; rewrite Hd; apply fmt_preserves_refl.
  - intros He H0 r c f Hf. destruct (Hn He r c). congruence.
  - intros r c x. rewrite Hd. intros ->. left. discriminate.
Qed.

Lemma step_standard w o w' e : constant_memory w = false -> table_ok (data w) ->
  step w o = (w', e) -> step_facts w o w' e.
Proof.
  intros Hm Hok H.
  destruct (is_write o) eqn:Ew; [apply step_write_facts; assumption|].
  destruct (is_option_call o) eqn:Eo.
  { destruct (option_call w o w' e Eo H) as [A B]. apply rejected_facts; auto.
    intros _ r c. destruct o; try discriminate; split; reflexivity. }
  destruct o; try discriminate; cbn [step] in H.
  - apply set_cell_format_spec in H; [|assumption]. destruct e as [e|].
    + destruct H as [-> _]. apply rejected_facts; auto. discriminate.
    + destruct H as (w1 & i & A & B & C & D & E & ->).
      destruct (insert_cell_format_frame w1 row col i) as [t Ht].
      assert (Hg : forall r c, table_get r c (data (insert_cell_format w1 row col i)) =
         if here row col r c then if (i =? 0) && match get row (data w) with None => true | _ => false end then None
         else fmt_cell i (table_get row col (data w)) else table_get r c (data w)).
      { intros r c. rewrite insert_cell_format_get, B. reflexivity. }
      split.
      * rewrite Ht. apply upd_data_meta. assumption.
      * apply insert_cell_format_ok. rewrite B. assumption.
      * intros r c Ht'. cbn in Ht'. rewrite Hg, Ht'. reflexivity.
      * congruence.
      * discriminate.
      * discriminate.
      * intros r c _. rewrite <- B. apply icf_preserves.
      * intros _ H0 r c f0 Hf0 Hne. cbn in Hf0. destruct (here row col r c) eqn:EH; [|discriminate]. injection Hf0 as <-.
        apply here_true in EH as [-> ->].
        assert (i <> 0).
        { intros ->. change (N.to_nat 0) with 0%nat in C. apply (reg0_meta _ _ A) in H0. unfold reg0 in H0. congruence. }
        exists (match table_get row col (data w) with Some (k, _) => k | None => CBlank end), i.
        rewrite Hg, here_refl. destruct (N.eqb_spec i 0); [contradiction|]. cbn [andb]. unfold fmt_cell.
        rewrite Ht. fields. split; [|assumption]. destruct (table_get row col (data w)) as [[k x]|]; reflexivity.
      * intros r c x Hx. rewrite Hg in Hx. destruct (here row col r c) eqn:EH; [|left; congruence].
        apply here_true in EH as [-> ->]. right. split; [assumption|]. intros _. rewrite Ht. exact E.
  - apply set_range_format_spec in H. destruct e as [e|].
    + subst w'. apply rejected_facts; auto. discriminate.
    + destruct H as (w1 & i & A & B & C & D & E & F & G & ->).
      destruct (icf_fold_frame i (range_cells fr fc lr lc) w1) as [t Ht].
      assert (Hin : forall r c, In (r, c) (range_cells fr fc lr lc) <-> in_rect fr fc lr lc r c = true).
      { intros r c. rewrite in_rect_true. apply in_rect_cells. }
      assert (Hout : forall r c, in_rect fr fc lr lc r c = false ->
                table_get r c (data (icf_fold i w1 (range_cells fr fc lr lc))) = table_get r c (data w)).
      { intros r c Hr. rewrite icf_fold_other; [rewrite B; reflexivity|]. rewrite Hin. congruence. }
      split.
      * rewrite Ht. apply upd_data_meta. assumption.
      * apply icf_fold_ok. rewrite B. assumption.
      * intros r c Ht'. apply Hout. exact Ht'.
      * congruence.
      * discriminate.
      * discriminate.
      * intros r c _. rewrite <- B. apply icf_fold_preserves.
      * intros _ H0 r c f0 Hf0 Hne. cbn in Hf0. destruct (in_rect fr fc lr lc r c) eqn:EH; [|discriminate]. injection Hf0 as <-.
        assert (i <> 0).
        { intros ->. change (N.to_nat 0) with 0%nat in C. apply (reg0_meta _ _ A) in H0. unfold reg0 in H0. congruence. }
        apply Hin in EH. destruct (icf_fold_xf i (range_cells fr fc lr lc) r c w1 EH) as [G1 _].
        destruct (G1 H) as (k & Hk). exists k, i. split; [assumption|]. rewrite Ht. fields. assumption.
      * intros r c x Hx. destruct (in_rect fr fc lr lc r c) eqn:EH; [|left; rewrite Hout in Hx by assumption; congruence].
        right. split; [|discriminate]. apply in_rect_true in EH. destruct D, E. split; lia.
  - apply pair_equal_spec in H as [<- <-]. destruct (clear_cell_frame w row col) as (t & -> & A & B). split.
    + apply upd_data_meta. auto.
    + fields. auto.
    + intros r c Ht. fields. cbn in Ht. rewrite B by assumption. rewrite Ht. reflexivity.
    + congruence.
    + discriminate.
    + discriminate.
    + intros r c Ha. fields. cbn in Ha. rewrite B by assumption. rewrite Ha. apply fmt_preserves_refl.
    + discriminate.
    + intros r c x Hx. fields. rewrite B in Hx by assumption. destruct (_ && _); [discriminate|]. left. congruence.
  - apply pair_equal_spec in H as [<- <-]. destruct (clear_cell_format_spec w row col Hok) as (t & -> & A & B). split.
    + apply upd_data_meta. auto.
    + fields. auto.
    + intros r c Ht. fields. cbn in Ht. rewrite B, Ht. reflexivity.
    + congruence.
    + discriminate.
    + discriminate.
    + intros r c _. fields. rewrite B. destruct (here row col r c) eqn:EH; cbn [andb]; [|apply fmt_preserves_refl].
      apply here_true in EH as [-> ->]. destruct (check_dimensions_only row col); [|apply fmt_preserves_refl].
      destruct (table_get row col (data w)) as [[k x]|]; cbn; eauto.
    + discriminate.
    + intros r c x Hx. fields. rewrite B in Hx. left. destruct (here row col r c && _) eqn:EH; [|congruence].
      apply andb_true_iff in EH as [EH _]. apply here_true in EH as [-> ->].
      destruct (table_get row col (data w)); [discriminate|]. discriminate.
  - apply pair_equal_spec in H as [<- <-]. destruct (set_formula_result_spec w row col result Hm Hok) as (t & -> & A & B). split.
    + apply upd_data_meta. auto.
    + fields. auto.
    + intros r c Ht. fields. cbn in Ht. rewrite B, Ht. reflexivity.
    + congruence.
    + discriminate.
    + discriminate.
    + intros r c Ha. fields. cbn in Ha. rewrite B, Ha. apply fmt_preserves_refl.
    + discriminate.
    + intros r c x Hx. fields. rewrite B in Hx. left. destruct (here row col r c) eqn:EH; [|congruence].
      apply here_true in EH as [-> ->]. destruct (table_get row col (data w)); discriminate.
Qed.
