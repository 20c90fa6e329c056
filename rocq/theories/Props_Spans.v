(** Property C20: the spans attribute of the written rows. *)
From Verif Require Import Base SMap F64 Fmt_Model Sst_Model Cells_Model Cells_Spec Cells_Proofs Cells_Proofs2
  Cells_Inv Cells_Save Cells_Hist Props_Cells.

(** A stored cell or a note at (r, c). *)
Definition occupied (w : ws) (r c : N) : Prop :=
  table_get r c (data w) <> None \/ (match get r (notes w) with Some cs => get c cs | None => None end) <> None.
Definition row_columns (w : ws) (r : N) : list N :=
  (match get r (data w) with Some cs => keys cs | None => [] end) ++
  (match get r (notes w) with Some cs => keys cs | None => [] end).
Lemma occupied_columns w r c : occupied w r c <-> In c (row_columns w r).
Proof.
  unfold occupied, row_columns, table_get. rewrite in_app_iff.
  destruct (get r (data w)) as [cs|], (get r (notes w)) as [ns|]; rewrite ?get_keys; cbn; tauto.
Qed.

(** [s] is the exact column range of the cells seen so far: [P]. *)
Definition seen (P : N -> Prop) (s : N * N) : Prop :=
  (fst s = COL_MAX -> forall c, ~ P c) /\
  (fst s <> COL_MAX -> fst s <= snd s /\ P (fst s) /\ P (snd s) /\ forall c, P c -> fst s <= c <= snd s).

Lemma span_cols_seen cols : forall s (P : N -> Prop), (forall c, In c cols -> c < COL_MAX) -> (forall c, P c -> c < COL_MAX) ->
  seen P s -> seen (fun c => P c \/ In c cols) (span_cols s cols).
Proof.
  induction cols as [|x cols IH]; intros s P Hl HP H.
  - cbn [span_cols fold_left]. destruct H as [A B]. split.
    + intros E c [Hc|[]]. exact (A E c Hc).
    + intros E. destruct (B E) as (B1 & B2 & B3 & B4). split; [assumption|]. split; [auto|]. split; [auto|]. intros c [Hc|[]]. auto.
  - cbn [span_cols fold_left]. set (s1 := if fst s =? COL_MAX then (x, x) else (N.min (fst s) x, N.max (snd s) x)).
    assert (Hx : x < COL_MAX) by (apply Hl; left; reflexivity).
    assert (H1 : seen (fun c => P c \/ c = x) s1).
    { destruct H as [A B]. unfold s1. destruct (N.eqb_spec (fst s) COL_MAX) as [E|E]; cbn [fst snd].
      - split; cbn [fst snd]; [lia|]. intros _. split; [lia|]. split; [auto|]. split; [auto|].
        intros c [Hc| ->]; [exfalso; exact (A E c Hc)|lia].
      - destruct (B E) as (B1 & B2 & B3 & B4). split; cbn [fst snd].
        + intros E2. pose proof (HP _ B2). lia.
        + intros _. split; [lia|]. split.
          { destruct (N.min_dec (fst s) x) as [Em|Em]; rewrite Em; auto. }
          split. { destruct (N.max_dec (snd s) x) as [Em|Em]; rewrite Em; auto. }
          intros c [Hc| ->]; [apply B4 in Hc; lia|lia]. }
    assert (H2 : seen (fun c => (P c \/ c = x) \/ In c cols) (span_cols s1 cols)).
    { apply IH; [intros; apply Hl; right; assumption|intros c [Hc| ->]; auto|exact H1]. }
    unfold span_cols in H2. destruct H2 as [A B]. split.
    + intros E c Hc. apply (A E c). destruct Hc as [Hc|[->|Hc]]; auto.
    + intros E. destruct (B E) as (B1 & B2 & B3 & B4). split; [assumption|].
      assert (T : forall c, (P c \/ c = x) \/ In c cols -> P c \/ In c (x :: cols)).
      { intros c [[Hc| ->]|Hc]; [left; assumption|right; left; reflexivity|right; right; assumption]. }
      split; [auto|]. split; [auto|]. intros c Hc. apply B4. destruct Hc as [Hc|[->|Hc]]; auto.
Qed.
Lemma seen_ext (P Q : N -> Prop) s : (forall c, P c <-> Q c) -> seen P s -> seen Q s.
Proof.
  intros HE [A B]. split.
  - intros E c Hc. apply (A E c). apply HE. assumption.
  - intros E. destruct (B E) as (B1 & B2 & B3 & B4). split; [assumption|]. split; [apply HE; assumption|].
    split; [apply HE; assumption|]. intros c Hc. apply B4. apply HE. assumption.
Qed.
Lemma seen_start (P : N -> Prop) n : (forall c, ~ P c) -> seen P (COL_MAX, n).
Proof. intros H. split; cbn; [auto|congruence]. Qed.

(** The entry written for a block of sixteen rows. *)
Definition exact_span (P : N -> Prop) (s : option (N * N)) : Prop :=
  match s with
  | None => forall c, ~ P c
  | Some (a, b) => 1 <= a <= b /\ b <= COL_MAX /\ P (a - 1) /\ P (b - 1) /\ forall c, P c -> a <= c + 1 <= b
  end.

Section Spans.
Variable w : ws.
Hypothesis limits : forall r c, In c (row_columns w r) -> c < COL_MAX.

(** The cells of block [n] in rows first_row..k-1. *)
Definition block (k n c : N) : Prop := exists r, first_row w <= r < k /\ r / 16 = n /\ In c (row_columns w r).

Definition spans_inv (k : N) (st : smap (N * N) * (N * N)) : Prop :=
  (forall n, n < k / 16 -> exact_span (block k n) (get n (fst st))) /\
  (forall n, k / 16 <= n -> get n (fst st) = None) /\
  seen (block k (k / 16)) (snd st).

Lemma span_row_eq st row : span_row w st row =
  let s := span_cols (snd st) (row_columns w row) in
  if ((row + 1) mod 16 =? 0) || (row =? last_row w) then
    if fst s =? COL_MAX then (fst st, s)
    else (ins (row / 16) (fst s + 1, snd s + 1) (fst st), (COL_MAX, snd s + 1))
  else (fst st, s).
Proof.
  destruct st as [sp s]. unfold span_row, row_columns. cbn [fst snd].
  destruct (get row (data w)), (get row (notes w)); cbn [app]; rewrite ?app_nil_r; unfold span_cols; rewrite ?fold_left_app; reflexivity.
Qed.

Lemma block_step k n c : first_row w <= k -> block (k + 1) n c <-> block k n c \/ (k / 16 = n /\ In c (row_columns w k)).
Proof.
  intros Hk. split.
  - intros (r & Hr & Hn & Hc). destruct (N.eq_dec r k) as [->|]; [right; auto|]. left. exists r. split; [lia|]. auto.
  - intros [(r & Hr & Hn & Hc)|[Hn Hc]]; [exists r; split; [lia|]; auto|exists k; split; [lia|]; auto].
Qed.

Lemma exact_of_seen (P Q : N -> Prop) s : seen P s -> fst s <> COL_MAX -> (forall c, P c -> c < COL_MAX) -> (forall c, P c <-> Q c) ->
  exact_span Q (Some (fst s + 1, snd s + 1)).
Proof.
  intros [_ B] E HL HE. destruct (B E) as (B1 & B2 & B3 & B4). cbn.
  pose proof (HL _ B3). split; [lia|]. split; [lia|]. replace (fst s + 1 - 1) with (fst s) by lia. replace (snd s + 1 - 1) with (snd s) by lia.
  split; [apply HE; assumption|]. split; [apply HE; assumption|]. intros c Hc. apply HE in Hc. apply B4 in Hc. lia.
Qed.
Lemma exact_ext (P Q : N -> Prop) s : (forall c, P c <-> Q c) -> exact_span P s -> exact_span Q s.
Proof.
  intros HE. destruct s as [[a b]|]; cbn.
  - intros (H1 & H2 & H3 & H4 & H5). split; [assumption|]. split; [assumption|]. split; [apply HE; assumption|]. split; [apply HE; assumption|].
    intros c Hc. apply H5. apply HE. assumption.
  - intros H c Hc. apply (H c). apply HE. assumption.
Qed.
Lemma block_limit k n c : block k n c -> c < COL_MAX.
Proof. intros (r & _ & _ & H). eapply limits. exact H. Qed.

(** One row that is not the last. *)
Lemma span_row_inv k st : first_row w <= k -> k < last_row w -> spans_inv k st -> spans_inv (k + 1) (span_row w st k).
Proof.
  intros Hk Hl (I1 & I2 & I3). rewrite span_row_eq. cbv zeta.
  assert (HS : seen (block (k + 1) (k / 16)) (span_cols (snd st) (row_columns w k))).
  { eapply seen_ext; [|apply span_cols_seen; [apply limits|apply block_limit|exact I3]].
    intros c. cbn beta. rewrite block_step by assumption. tauto. }
  set (s := span_cols (snd st) (row_columns w k)) in *.
  assert (Hlast : k =? last_row w = false) by lia. rewrite Hlast, orb_false_r.
  assert (Hold : forall n, n < k / 16 -> exact_span (block (k + 1) n) (get n (fst st))).
  { intros n Hn. eapply exact_ext; [|apply I1; exact Hn]. intros c. rewrite block_step by assumption.
    split; [auto|]. intros [|[E _]]; [assumption|]. lia. }
  pose proof (N.div_mod k 16 ltac:(lia)) as Ek. pose proof (N.mod_lt k 16 ltac:(lia)) as Mk.
  destruct (N.eqb_spec ((k + 1) mod 16) 0) as [E0|E0].
  - assert (Hd : (k + 1) / 16 = k / 16 + 1).
    { pose proof (N.div_mod (k + 1) 16 ltac:(lia)) as E1. rewrite E0 in E1. lia. }
    assert (Hempty : forall c, ~ block (k + 1) ((k + 1) / 16) c).
    { intros c (r & Hr & Hn & _). assert (r / 16 <= k / 16) by (apply N.div_le_mono; lia). lia. }
    destruct (N.eqb_spec (fst s) COL_MAX) as [Ec|Ec].
    + split; [|split]; cbn [fst snd]; rewrite ?Hd.
      * intros n Hn. destruct (N.eq_dec n (k / 16)) as [->|]; [|apply Hold; lia]. rewrite I2 by lia. cbn. apply HS. assumption.
      * intros n Hn. apply I2. lia.
      * rewrite <- Hd. destruct s as [s1 s2]. cbn in Ec. subst s1. apply seen_start. assumption.
    + split; [|split]; cbn [fst snd]; rewrite ?Hd.
      * intros n Hn. rewrite get_ins. destruct (N.eqb_spec (k / 16) n) as [<-|]; [|apply Hold; lia].
        eapply exact_of_seen; [exact HS|exact Ec|apply block_limit|tauto].
      * intros n Hn. rewrite get_ins. destruct (N.eqb_spec (k / 16) n) as [<-|]; [lia|]. apply I2. lia.
      * rewrite <- Hd. apply seen_start. assumption.
  - assert (Hd : (k + 1) / 16 = k / 16).
    { pose proof (N.div_mod (k + 1) 16 ltac:(lia)) as E1. pose proof (N.mod_lt (k + 1) 16 ltac:(lia)). lia. }
    split; [|split]; cbn [fst snd]; rewrite ?Hd; [exact Hold|exact I2|exact HS].
Qed.

(** The last row closes its block. *)
Lemma span_row_last k st : first_row w <= k -> k = last_row w -> spans_inv k st ->
  forall n, exact_span (block (k + 1) n) (get n (fst (span_row w st k))).
Proof.
  intros Hk Hl (I1 & I2 & I3) n. rewrite span_row_eq. cbv zeta.
  assert (HS : seen (block (k + 1) (k / 16)) (span_cols (snd st) (row_columns w k))).
  { eapply seen_ext; [|apply span_cols_seen; [apply limits|apply block_limit|exact I3]].
    intros c. cbn beta. rewrite block_step by assumption. tauto. }
  set (s := span_cols (snd st) (row_columns w k)) in *.
  assert (Hlast : k =? last_row w = true) by lia. rewrite Hlast, orb_true_r.
  assert (Hold : n < k / 16 -> exact_span (block (k + 1) n) (get n (fst st))).
  { intros Hn. eapply exact_ext; [|apply I1; exact Hn]. intros c. rewrite block_step by assumption.
    split; [auto|]. intros [|[E _]]; [assumption|]. lia. }
  assert (Hnew : k / 16 < n -> forall c, ~ block (k + 1) n c).
  { intros Hn c (r & Hr & En & _). assert (r / 16 <= k / 16) by (apply N.div_le_mono; lia). lia. }
  destruct (N.eqb_spec (fst s) COL_MAX) as [Ec|Ec]; cbn [fst].
  - destruct (N.lt_trichotomy n (k / 16)) as [Hn|[->|Hn]]; [auto| |].
    + rewrite I2 by lia. cbn. apply HS. assumption.
    + rewrite I2 by lia. cbn. auto.
  - rewrite get_ins. destruct (N.eqb_spec (k / 16) n) as [<-|Hne].
    + eapply exact_of_seen; [exact HS|exact Ec|apply block_limit|tauto].
    + destruct (N.lt_trichotomy n (k / 16)) as [Hn|[->|Hn]]; [auto|congruence|]. rewrite I2 by lia. cbn. auto.
Qed.

Lemma spans_fold n : forall k st, first_row w <= k -> k + N.of_nat n = last_row w -> spans_inv k st ->
  forall m, exact_span (block (last_row w + 1) m)
    (get m (fst (fold_left (span_row w) (map (fun i => k + N.of_nat i) (seq 0 (S n))) st))).
Proof.
  induction n as [|n IH]; intros k st Hk Hn HI m.
  - cbn [seq map fold_left]. replace (k + N.of_nat 0) with k by lia.
    assert (E : k = last_row w) by lia. rewrite <- E. apply span_row_last; assumption.
  - assert (Es : map (fun i => k + N.of_nat i) (seq 0 (S (S n))) = k :: map (fun i => k + 1 + N.of_nat i) (seq 0 (S n))).
    { change (seq 0 (S (S n))) with (0%nat :: seq 1 (S n)). rewrite <- seq_shift. cbn [map]. rewrite map_map.
      f_equal; [lia|]. apply map_ext. intros i. lia. }
    rewrite Es. cbn [fold_left]. apply IH; [lia|lia|]. apply span_row_inv; [assumption|lia|assumption].
Qed.

Lemma calculate_spans_exact n : exact_span (block (last_row w + 1) n) (get n (calculate_spans w)).
Proof.
  unfold calculate_spans, range_incl. destruct (N.le_gt_cases (first_row w) (last_row w)) as [H|H].
  - replace (N.to_nat (last_row w + 1 - first_row w)) with (S (N.to_nat (last_row w - first_row w))) by lia.
    apply spans_fold; [lia|lia|]. split; [|split]; cbn [fst snd].
    + intros m _. cbn. intros c (r & Hr & _). lia.
    + reflexivity.
    + apply seen_start. intros c (r & Hr & _). lia.
  - replace (N.to_nat (last_row w + 1 - first_row w)) with 0%nat by lia. cbn. intros c (r & Hr & _). lia.
Qed.
End Spans.

(** Notes are inside the sheet. *)
Definition notes_ok (w : ws) : Prop := forall r ns c, get r (notes w) = Some ns -> get c ns <> None -> c < COL_MAX.
Lemma step_notes w o : (forall r c n, o <> InsertNote r c n) -> std w -> notes (fst (step w o)) = notes w.
Proof.
  intros Hn H. destruct (step w o) as [w' e] eqn:E. cbn [fst]. destruct (is_write o) eqn:Ew.
  { destruct (write_opts w o w' e H Ew E). assumption. }
  destruct o; try discriminate Ew; cbn [step] in E.
  - unfold set_cell_format in E. by_dim E. destruct H1 as [_ _ A _ _ _ _]. destruct b; cbn [negb] in E.
    + by_reg E. match goal with X : same_opts w1 w2 |- _ => destruct X as [_ _ B _ _ _ _] end.
      apply pair_equal_spec in E as [<- _]. destruct (insert_cell_format_frame w2 row col i) as [t ->]. fields. congruence.
    + apply pair_equal_spec in E as [<- _]. assumption.
  - unfold set_range_format in E.
    destruct (negb _ || negb _); try (apply pair_equal_spec in E as [<- _]; reflexivity).
    destruct ((lr <? fr) || (lc <? fc)); try (apply pair_equal_spec in E as [<- _]; reflexivity).
    by_reg E. destruct H1. apply pair_equal_spec in E as [<- _].
    destruct (icf_fold_frame i (range_cells fr fc lr lc) w2) as [t Ht]; unfold icf_fold in Ht; rewrite Ht; fields; assumption.
  - apply pair_equal_spec in E as [<- <-]. destruct (clear_cell_frame w row col) as (t & -> & _). reflexivity.
  - apply pair_equal_spec in E as [<- <-]. destruct (clear_cell_format_spec w row col (d_ok w H)) as (t & -> & _). reflexivity.
  - apply pair_equal_spec in E as [<- <-]. destruct (set_formula_result_spec w row col result (d_cm w H) (d_ok w H)) as (t & -> & _). reflexivity.
  - unfold set_row_height, set_row_hidden in E. destruct (feq h fzero); by_dim E; destruct H1; destruct b; cbn [negb] in E;
      apply pair_equal_spec in E as [<- <-]; fields; assumption.
  - unfold set_row_format in E. by_dim E; destruct H1; destruct b; cbn [negb] in E; [by_reg E; match goal with X : same_opts _ _ |- _ => destruct X end|];
      apply pair_equal_spec in E as [<- <-]; fields; congruence.
  - unfold set_row_hidden in E. by_dim E; destruct H1; destruct b; cbn [negb] in E;
      apply pair_equal_spec in E as [<- <-]; fields; assumption.
  - unfold set_row_unhidden in E. by_dim E; destruct H1; destruct b; cbn [negb] in E; [destruct (get row (changed_rows w1)) eqn:Er|];
      apply pair_equal_spec in E as [<- <-]; fields; assumption.
  - unfold set_column_width_internal, set_column_hidden, store_column_width in E.
    destruct (feq width fzero), (COL_MAX <=? col); apply pair_equal_spec in E as [<- <-]; reflexivity.
  - unfold set_column_format in E. by_dim E; destruct H1; destruct b; cbn [negb] in E; [by_reg E; match goal with X : same_opts _ _ |- _ => destruct X end|];
      apply pair_equal_spec in E as [<- <-]; fields; congruence.
  - unfold set_column_hidden in E.
    destruct (COL_MAX <=? col); apply pair_equal_spec in E as [<- <-]; reflexivity.
  - exfalso. eapply Hn. reflexivity.
  - apply pair_equal_spec in E as [<- <-]; reflexivity.
  - apply pair_equal_spec in E as [<- <-]; reflexivity.
  - apply pair_equal_spec in E as [<- <-]; reflexivity.
  - apply pair_equal_spec in E as [<- <-]; reflexivity.
  - apply pair_equal_spec in E as [<- <-]. destruct (fle h fzero); reflexivity.
Qed.
Lemma notes_ok_run ops : forall w, std w -> notes_ok w -> notes_ok (run w ops).
Proof.
  induction ops as [|o ops IH]; intros w H Hn; [exact Hn|]. rewrite run_cons. destruct (step w o) as [w' e] eqn:E.
  destruct (std_step _ _ _ _ H E) as [H' _]. cbn [fst]. apply IH; [exact H'|].
  assert (HD : (exists r c n, o = InsertNote r c n) \/ (forall r c n, o <> InsertNote r c n)).
  { destruct o; try (right; intros; discriminate). left. eauto. }
  destruct HD as [(r & c & n & ->)|HD].
  - cbn [step] in E. unfold insert_note in E. by_dim E. destruct H1. destruct b; cbn [negb] in E.
    + destruct (_ <? n); apply pair_equal_spec in E as [<- _]; intros r' ns c'; fields.
      * rewrite s_notes. apply Hn.
      * rewrite get_ins. destruct (N.eqb_spec r r') as [->|]; [|rewrite s_notes; apply Hn].
        intros [= <-]. rewrite s_notes. destruct (get r' (notes w)) as [cs|] eqn:Er.
        { rewrite get_ins. destruct (N.eqb_spec c c') as [->|]; [|apply Hn with (r := r'); assumption]. intros _. apply (H4 eq_refl). }
        { cbn. destruct (N.eqb_spec c c') as [->|]; [|congruence]. intros _. apply (H4 eq_refl). }
    + apply pair_equal_spec in E as [<- _]. intros r' ns c'. rewrite s_notes. apply Hn.
  - pose proof (step_notes w o HD H) as E1. rewrite E in E1. cbn [fst] in E1. intros r' ns c'. rewrite E1. apply Hn.
Qed.

(** C20: the span written for a row is exactly the column range of the cells and
    notes in the used rows of its block of sixteen; there is none when the block
    is empty. *)
Theorem C20_spans_are_exact ops row :
  let w := run ws_standard ops in
  let in_block c := exists r, first_row w <= r <= last_row w /\ r / 16 = row / 16 /\ occupied w r c in
  match get (row / 16) (calculate_spans w) with
  | Some (a, b) => 1 <= a <= b /\ b <= 16384 /\ in_block (a - 1) /\ in_block (b - 1) /\
                   forall c, in_block c -> a <= c + 1 <= b
  | None => forall c, ~ in_block c
  end.
Proof.
  cbv zeta. destruct (std_run ops ws_standard std_start) as [H _].
  assert (Hnotes : notes_ok (run ws_standard ops)).
  { apply notes_ok_run; [apply std_start|]. intros r ns c Hg. discriminate. }
  set (w := run ws_standard ops) in *. clearbody w.
  assert (HL : forall r c, In c (row_columns w r) -> c < COL_MAX).
  { intros r c Hc. unfold row_columns in Hc. apply in_app_or in Hc as [Hc|Hc].
    - destruct (get r (data w)) as [cs|] eqn:Er; [|destruct Hc]. apply get_keys in Hc.
      destruct (get c cs) as [[k x]|] eqn:Ec; [|congruence].
      pose proof (d_cells w H) as (HC & _ & _).
      pose proof (all_cols_get _ _ _ _ _ _ (all_table_get _ _ _ _ HC Er) Ec) as [[_ L] _]. exact L.
    - destruct (get r (notes w)) as [cs|] eqn:Er; [|destruct Hc]. apply get_keys in Hc. eapply Hnotes; eassumption. }
  pose proof (calculate_spans_exact w HL (row / 16)) as S.
  assert (HB : forall c, block w (last_row w + 1) (row / 16) c <->
     exists r, first_row w <= r <= last_row w /\ r / 16 = row / 16 /\ occupied w r c).
  { intros c. split; intros (r & A & B & C); exists r; (split; [lia|]; split; [assumption|]); apply occupied_columns; assumption. }
  eapply exact_ext in S; [|exact HB]. exact S.
Qed.
Example C20_witness :
  let w := run ws_standard [WriteNumber 3 5 (f_of_N 1) None; WriteNumber 9 2 (f_of_N 1) None; WriteNumber 40 7 (f_of_N 1) None] in
  calculate_spans w = [(0, (3, 6)); (2, (8, 8))].
Proof. vm_compute. reflexivity. Qed.
