From Verif Require Import Base SMap F64 Fmt_Model Cells_Model Cells_Proofs Cells_Hist Date_Parse Book_Model Book_Spec Book_Proofs2
  Filter_Model Filter_Spec.

Lemma starts_iff p s : starts_with p s = true <-> exists r, s = p ++ r.
Proof. apply starts_with_true. Qed.
Lemma ends_iff p s : ends_with p s = true <-> exists r, s = r ++ p.
Proof.
  unfold ends_with. rewrite starts_with_true. split; intros [r H].
  - exists (rev r). apply (f_equal (@rev N)) in H. rewrite rev_involutive, rev_app_distr, rev_involutive in H. exact H.
  - exists (rev r). rewrite H, rev_app_distr. reflexivity.
Qed.
Lemma contains_iff p s : str_contains p s = true <-> exists a b, s = a ++ p ++ b.
Proof.
  induction s as [|c s IH]; cbn [str_contains]; rewrite orb_true_iff, starts_with_true.
  - split.
    + intros [[r E]|E]; [|discriminate]. exists [], r. exact E.
    + intros (a & b & E). left. destruct a as [|x a]; [|discriminate]. exists b. exact E.
  - rewrite IH. split.
    + intros [[r E]|(a & b & E)]; [exists [], r; exact E|exists (c :: a), b; rewrite E; reflexivity].
    + intros ([|x a] & b & E); [left; exists b; exact E|]. right. injection E as _ E. eauto.
Qed.
Lemma str_lt_iff a b : negb (str_leb b a) = true <-> str_lt a b.
Proof.
  rewrite negb_true_iff. split.
  - intros H. destruct (str_leb a b) eqn:E.
    + apply str_leb_spec in E as [->|E]; [|exact E]. exfalso.
      assert (X : str_leb b b = true) by (apply str_leb_spec; left; reflexivity). congruence.
    + exfalso. revert b H E. induction a as [|x a IH]; intros [|y b] H E; cbn in *; try discriminate.
      rewrite N.eqb_sym in H. destruct (N.eqb_spec x y) as [->|]; [eapply IH; eassumption|].
      destruct (N.ltb_spec x y), (N.ltb_spec y x); try discriminate; lia.
  - intros H. destruct (str_leb b a) eqn:E; [|reflexivity]. exfalso. apply str_leb_spec in E.
    assert (Hirr : forall s, ~ str_lt s s) by (intros s; induction s as [|x s IHs]; intros Hx; inversion Hx; subst; [lia|auto]).
    destruct E as [->|E]; [exact (Hirr _ H)|]. clear Hirr.
    revert b H E. induction a as [|x a IH]; intros b H E; inversion H; subst; inversion E; subst; solve [lia | eapply IH; eassumption].
Qed.
Lemma neg_iff (b : bool) (P : Prop) : (b = true <-> P) -> (negb b = true <-> ~ P).
Proof. intros H. rewrite negb_true_iff, <- H. destruct b; split; congruence. Qed.

Section L.
Variable lower : str -> str.

Lemma custom_ok w r c d : row_matches_custom_filter lower w r c d = true <-> compares lower d (seen_in w r c).
Proof.
  unfold row_matches_custom_filter, seen_in. destruct (table_get r c (data w)) as [[k x]|]; [|split; [discriminate|contradiction]].
  assert (T : forall t,
    match d_criteria d with
    | EqualTo => str_eqb (trim (lower t)) (trim (lower (d_string d)))
    | NotEqualTo => negb (str_eqb (trim (lower t)) (trim (lower (d_string d))))
    | LessThan => negb (str_leb (trim (lower (d_string d))) (trim (lower t)))
    | GreaterThan => negb (str_leb (trim (lower t)) (trim (lower (d_string d))))
    | LessThanOrEqualTo => str_leb (trim (lower t)) (trim (lower (d_string d)))
    | GreaterThanOrEqualTo => str_leb (trim (lower (d_string d))) (trim (lower t))
    | EndsWith => ends_with (trim (lower (d_string d))) (trim (lower t))
    | DoesNotEndWith => negb (ends_with (trim (lower (d_string d))) (trim (lower t)))
    | BeginsWith => starts_with (trim (lower (d_string d))) (trim (lower t))
    | DoesNotBeginWith => negb (starts_with (trim (lower (d_string d))) (trim (lower t)))
    | Contains => str_contains (trim (lower (d_string d))) (trim (lower t))
    | DoesNotContain => negb (str_contains (trim (lower (d_string d))) (trim (lower t)))
    end = true <-> text_holds (d_criteria d) (norm lower t) (norm lower (d_string d))).
  { intros t. fold (norm lower t). fold (norm lower (d_string d)). set (a := norm lower t). set (b := norm lower (d_string d)).
    destruct (d_criteria d); cbn [text_holds].
    - apply str_eqb_eq.
    - apply neg_iff, str_eqb_eq.
    - apply str_lt_iff.
    - rewrite str_leb_spec. unfold str_le. intuition congruence.
    - apply str_lt_iff.
    - rewrite str_leb_spec. unfold str_le. reflexivity.
    - apply starts_iff.
    - apply neg_iff, starts_iff.
    - apply ends_iff.
    - apply neg_iff, ends_iff.
    - apply contains_iff.
    - apply neg_iff, contains_iff. }
  destruct k; cbn [compares]; try (apply T).
  - split; [discriminate|contradiction].
  - destruct (d_criteria d); rewrite ?str_eqb_eq; intuition (try discriminate; congruence).
  - destruct (d_is_number d); [|split; [discriminate|intros [? _]; discriminate]].
    destruct (d_criteria d); cbn [number_holds]; unfold fgt, fge; rewrite ?negb_true_iff; intuition (try discriminate; congruence).
  - destruct (d_criteria d); rewrite ?str_eqb_eq; intuition (try discriminate; congruence).
  - destruct (d_criteria d); rewrite ?str_eqb_eq; intuition (try discriminate; congruence).
  - destruct (d_criteria d); rewrite ?str_eqb_eq; intuition (try discriminate; congruence).
  - destruct (d_criteria d); rewrite ?str_eqb_eq; intuition (try discriminate; congruence).
  - destruct (d_criteria d); rewrite ?str_eqb_eq; intuition (try discriminate; congruence).
Qed.

Lemma list_ok w r c f : row_matches_list_filter lower w r c f = true <-> listed lower (list_values f) (should_match_blanks f) (seen_in w r c).
Proof.
  unfold row_matches_list_filter, seen_in. destruct (table_get r c (data w)) as [[k x]|]; [|reflexivity].
  assert (T : forall t, (if existsb (fun f => str_eqb (trim (lower t)) (trim (lower (d_string f)))) (list_values f) then true
      else should_match_blanks f && (match trim (lower t) with [] => true | _ => false end)) = true <->
      (exists d, In d (list_values f) /\ norm lower t = norm lower (d_string d)) \/ (should_match_blanks f = true /\ norm lower t = [])).
  { intros t. destruct (existsb _ _) eqn:E.
    - apply existsb_exists in E as (d & Hd & E). apply str_eqb_eq in E. split; [|reflexivity]. intros _. left. exists d. auto.
    - rewrite andb_true_iff. split.
      + intros [A B]. right. split; [exact A|]. unfold norm. destruct (trim (lower t)); [reflexivity|discriminate].
      + intros [(d & Hd & Ed)|[A B]].
        * exfalso. enough (X : existsb (fun f => str_eqb (trim (lower t)) (trim (lower (d_string f)))) (list_values f) = true) by congruence.
          apply existsb_exists. exists d. split; [exact Hd|]. apply str_eqb_eq. exact Ed.
        * split; [exact A|]. unfold norm in B. rewrite B. reflexivity. }
  destruct k; cbn [listed]; try apply T; try (split; [discriminate|contradiction]); try reflexivity.
  rewrite existsb_exists. split; intros (d & A & B); exists d; (split; [exact A|]); rewrite andb_true_iff in *; exact B.
Qed.

Definition row_matches (w : ws) (r c : N) (f : fcond) : bool :=
  if is_list_filter f then row_matches_list_filter lower w r c f else row_matches_custom_filters lower w r c f.
Lemma matches_ok w r c f : (custom1 f = None -> custom2 f = None) -> (row_matches w r c f = true <-> passes lower f (seen_in w r c)).
Proof.
  intros Hc. unfold row_matches, passes. destruct (is_list_filter f); [apply list_ok|]. unfold row_matches_custom_filters.
  destruct (custom1 f) as [a|], (custom2 f) as [b|].
  - destruct (apply_logical_or f); rewrite ?orb_true_iff, ?andb_true_iff, !custom_ok; reflexivity.
  - apply custom_ok.
  - discriminate (Hc eq_refl).
  - split; [discriminate|contradiction].
Qed.
Lemma matches_data w w' r c f : data w' = data w -> row_matches w' r c f = row_matches w r c f.
Proof.
  intros E. unfold row_matches, row_matches_list_filter, row_matches_custom_filters, row_matches_custom_filter. rewrite E. reflexivity.
Qed.

(** Hiding a row. *)
Definition dims_ok (w : ws) : Prop := first_col w <= COL_MAX.
Lemma hide_row_ok w r : dims_ok w -> r < ROW_MAX -> hide_row w r = Some (fst (step w (SetRowHidden r))) /\
  let w' := fst (step w (SetRowHidden r)) in
  dims_ok w' /\ data w' = data w /\ changed_cols w' = changed_cols w /\
  forall q, get q (changed_rows w') = if r =? q then
      Some (match get r (changed_rows w) with
            | Some o => {| r_height := r_height o; r_xf := r_xf o; r_level := r_level o; r_hidden := true; r_collapsed := r_collapsed o; r_format := r_format o |}
            | None => {| r_height := default_row_height w; r_xf := 0; r_level := 0; r_hidden := true; r_collapsed := false; r_format := None |} end)
    else get q (changed_rows w).
Proof.
  intros Hd Hr. unfold dims_ok in *. cbn [step]. unfold hide_row.
  assert (Hm : get_min_col w < COL_MAX).
  { unfold get_min_col. destruct (N.eqb_spec (first_col w) COL_MAX); [reflexivity|lia]. }
  unfold set_row_hidden, check_dimensions.
  destruct (N.leb_spec ROW_MAX r); [lia|]. destruct (N.leb_spec COL_MAX (get_min_col w)); [lia|].
  destruct (negb (constant_memory w) || (current_row w <=? r)); cbn [negb fst]; fields; (split; [reflexivity|]); fields;
    (split; [lia|]); (split; [reflexivity|]); (split; [reflexivity|]); intros q; rewrite get_ins; reflexivity.
Qed.

Definition hidings (l : list N) : list op := map SetRowHidden l.
Lemma hide_rows_run c f rows : forall w, dims_ok w -> Forall (fun r => r < ROW_MAX) rows ->
  hide_rows lower c f rows w = Some (run w (hidings (filter (fun r => negb (row_matches w r c f)) rows))).
Proof.
  induction rows as [|r rows IH]; intros w Hd Hr; [reflexivity|]. inversion Hr as [|? ? H1 H2]; subst. cbn [hide_rows filter].
  fold (row_matches w r c f). destruct (row_matches w r c f) eqn:E; cbn [negb obind].
  - apply IH; assumption.
  - destruct (hide_row_ok w r Hd H1) as (E1 & D1 & D2 & _). rewrite E1. cbn [obind]. rewrite IH by assumption.
    cbn [hidings map run fold_left]. f_equal. unfold run. f_equal. unfold hidings. f_equal. apply filter_ext. intros q.
    f_equal. apply matches_data. exact D2.
Qed.

Lemma hidings_frame l : forall w, dims_ok w -> Forall (fun r => r < ROW_MAX) l -> let w' := run w (hidings l) in
  dims_ok w' /\ data w' = data w /\ changed_cols w' = changed_cols w /\ default_row_height w' = default_row_height w /\
  (forall r, hidden w' r = hidden w r || existsb (N.eqb r) l) /\
  (forall r o, get r (changed_rows w) = Some o -> exists o', get r (changed_rows w') = Some o' /\ r_height o' = r_height o /\ r_xf o' = r_xf o /\
     r_level o' = r_level o /\ r_collapsed o' = r_collapsed o /\ r_format o' = r_format o).
Proof.
  induction l as [|r l IH]; intros w Hd Hr; cbn zeta.
  - cbn [hidings map run fold_left]. split; [exact Hd|]. split; [reflexivity|]. split; [reflexivity|]. split; [reflexivity|].
    split; [intros q; cbn [existsb]; rewrite orb_false_r; reflexivity|]. intros q o E. exists o. repeat split; assumption.
  - inversion Hr as [|? ? H1 H2]; subst. destruct (hide_row_ok w r Hd H1) as (_ & D1 & D2 & D3 & D4).
    change (run w (hidings (r :: l))) with (run (fst (step w (SetRowHidden r))) (hidings l)).
    assert (D5 : default_row_height (fst (step w (SetRowHidden r))) = default_row_height w).
    { cbn [step]. unfold set_row_hidden, check_dimensions. destruct (ROW_MAX <=? r); [reflexivity|]. destruct (COL_MAX <=? get_min_col w); [reflexivity|].
      destruct (negb (constant_memory w) || (current_row w <=? r)); reflexivity. }
    set (w1 := fst (step w (SetRowHidden r))) in *. clearbody w1.
    destruct (IH w1 D1 H2) as (A1 & A2 & A3 & A4 & A5 & A6).
    split; [exact A1|]. split; [congruence|]. split; [congruence|]. split; [congruence|]. split.
    + intros q. rewrite A5. cbn [existsb]. unfold hidden at 1. rewrite D4. rewrite (N.eqb_sym q r). destruct (N.eqb_spec r q) as [->|Hn].
      * cbn [orb]. rewrite orb_true_r. destruct (get q (changed_rows w)); reflexivity.
      * reflexivity.
    + intros q o E. destruct (N.eq_dec r q) as [->|Hn].
      * specialize (D4 q). rewrite N.eqb_refl, E in D4. destruct (A6 q _ D4) as (o' & B1 & B2). exists o'. split; [exact B1|]. exact B2.
      * specialize (D4 q). destruct (N.eqb_spec r q); [contradiction|]. rewrite E in D4. destruct (A6 q _ D4) as (o' & B1 & B2). exists o'. auto.
Qed.

Lemma hide_columns_run rows conds : forall w, dims_ok w -> Forall (fun r => r < ROW_MAX) rows ->
  exists l, hide_columns lower rows conds w = Some (run w (hidings l)) /\ Forall (fun r => r < ROW_MAX) l /\
    forall r, In r l <-> In r rows /\ exists c f, In (c, f) conds /\ row_matches w r c f = false.
Proof.
  induction conds as [|[c f] conds IH]; intros w Hd Hr; cbn [hide_columns].
  - exists []. split; [reflexivity|]. split; [constructor|]. intros r. split; [contradiction|]. intros (_ & c & f & [] & _).
  - rewrite hide_rows_run by assumption. cbn [obind]. set (l1 := filter _ rows).
    assert (Hl1 : Forall (fun r => r < ROW_MAX) l1).
    { apply Forall_forall. intros x Hx. apply filter_In in Hx as [Hx _]. rewrite Forall_forall in Hr. auto. }
    destruct (hidings_frame l1 w Hd Hl1) as (D1 & D2 & _). destruct (IH (run w (hidings l1)) D1 Hr) as (l2 & E2 & Hl2 & I2).
    exists (l1 ++ l2). split; [|split].
    + rewrite E2. f_equal. unfold hidings, run. rewrite map_app, fold_left_app. reflexivity.
    + apply Forall_app. auto.
    + intros r. rewrite in_app_iff, I2. unfold l1. rewrite filter_In, negb_true_iff. split.
      * intros [[A B]|[A (c' & f' & Hin & B)]]; (split; [exact A|]).
        -- exists c, f. split; [left; reflexivity|exact B].
        -- exists c', f'. split; [right; exact Hin|]. rewrite (matches_data w) in B by exact D2. exact B.
      * intros [A (c' & f' & [[= <- <-]|Hin] & B)]; [left; auto|right]. split; [exact A|]. exists c', f'. split; [exact Hin|].
        rewrite (matches_data w) by exact D2. exact B.
Qed.
End L.
