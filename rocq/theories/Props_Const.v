(** Properties C18 (constant-memory mode writes what standard mode writes) and
    C19 (ordered rows) for streamed worksheets. *)
From Verif Require Import Base SMap F64 Fmt_Model Sst_Model Cells_Model Cells_Spec Cells_Proofs Cells_Proofs2
  Cells_Inv Cells_Save Cells_Hist Const_Proofs Const_Sim Const_Steps Const_Run Const_Spec Step_Inv Props_Cells.

(** ** C18 *)

Lemma std_new rg t : nth_error rg 0 = Some format_default -> std (ws_new false false false rg t).
Proof.
  intros H. split; try reflexivity.
  - apply table_ok_nil.
  - right. intros ? ? [].
  - apply ws_new_wcells.
  - exact H.
Qed.
Lemma row_ordered_no_range w cur ops : row_ordered w cur ops -> no_range_format ops.
Proof.
  revert w cur. induction ops as [|o ops IH]; intros w cur H; [intros ? []|]. destruct H as [Ha H].
  intros o' [<-|Hin]; [|eapply IH; eassumption]. destruct o; try reflexivity. destruct Ha.
Qed.

(** For every row-ordered history a constant-memory worksheet (inline strings)
    and a low-memory worksheet (shared strings) write the cells a standard
    worksheet writes: for every cell the same contents with the same style. [rg]
    is the list of formats registered when the worksheet was made. *)
Theorem C18_streamed_cells_equal_standard_cells inl gs rg t t' t'' ops r c :
  inl || gs = true -> nth_error rg 0 = Some format_default ->
  row_ordered (ws_new false false false rg t') 0 ops ->
  shown (streamed_rows (run (ws_new true inl gs rg t) ops)) r c =
  shown (sheet_rows (run (ws_new false false false rg t') ops) t'' (fun i => i)) r c.
Proof.
  intros Hm Hrg Hro. pose proof (std_new rg t' Hrg) as H0.
  pose proof (run_sim ops _ _ 0 (sim_start inl gs rg t t' Hm) H0 eq_refl eq_refl Hro) as HS.
  destruct (std_run ops _ H0) as [HD _].
  assert (Hcov : forall r c x, table_get r c (data (run (ws_new false false false rg t') ops)) = Some x -> covers (run (ws_new false false false rg t') ops) r c).
  { intros r0 c0 x. eapply all_covered; [exact H0|eapply row_ordered_no_range; exact Hro|]. intros ? ? ? Hd. discriminate. }
  set (C := run (ws_new true inl gs rg t) ops) in *. set (S := run (ws_new false false false rg t') ops) in *. clearbody C S.
  destruct (sim_target C S HS) as [HT HR].
  rewrite (flush_last_spec C _ (m_stream C S (i_cells C S HS)) HR HT).
  2: { intros Hx. apply (m_ahead C S (i_cells C S HS)). right. exact Hx. }
  pose proof (sheet_shown S t'' (fun i => i) r c HD) as SH. destruct (table_get r c (data S)) as [[k x]|] eqn:Ek.
  - cbv zeta in SH. destruct (Hcov r c _ Ek) as [[A B] _]. apply N.leb_le in A, B. rewrite A, B in SH. cbn [andb] in SH. rewrite SH.
    unfold eshow. destruct (N.eqb_spec (effective_xf S x (get r (changed_rows S)) c) 0) as [->|]; reflexivity.
  - rewrite SH. reflexivity.
Qed.
(** The hypotheses hold for a history with forward array formulas, row and
    column formats and corrections in the current row. *)
Example C18_witness :
  let ops := [SetColumnFormat 3 format_default; WriteString 0 1 (lit "a") None; SetRowHeight 5 (f_of_N 30);
              WriteArray 2 0 4 1 {| f_text := lit "A1"; f_result := []; f_dynamic := false |} None false (lit "A3:B5");
              WriteNumber 3 0 (f_of_N 7) None; SetCellFormat 3 5 format_default; ClearCell 3 0; WriteBool 9 2 true None] in
  row_ordered (ws_new false false false [format_default] sst_new) 0 ops /\
  shown (streamed_rows (run (ws_new true true false [format_default] sst_new) ops)) 4 1 = [(VNumber fzero, 0)] /\
  shown (streamed_rows (run (ws_new true true false [format_default] sst_new) ops)) 3 0 = [].
Proof. vm_compute. repeat split; discriminate. Qed.

Definition memory_ws : ws := ws_new true true false [format_default] sst_new.
Definition two_places : Format :=
  {| num_format := lit "0.00"; num_format_index := 0; font := font format_default; alignment := alignment format_default;
     borders := borders format_default; fill := fill format_default; hidden := false; locked := true; checkbox := false; quote_prefix := false |}.
Definition standard_shown (ops : list op) r c := shown (sheet_rows (run ws_standard ops) sst_new (fun i => i)) r c.
Definition streamed_shown (ops : list op) r c := shown (streamed_rows (run memory_ws ops)) r c.

(** FINDING: set_cell_format on a row other than the current one is silently
    lost in constant-memory mode, even if the row is a later one. *)
Theorem C18_refuted_cell_format_in_later_row :
  let ops := [WriteNumber 0 0 (f_of_N 1) None; SetCellFormat 3 0 two_places; WriteNumber 4 0 (f_of_N 1) None] in
  standard_shown ops 3 0 = [(VBlank, 1)] /\ streamed_shown ops 3 0 = [].
Proof. vm_compute. auto. Qed.
(** FINDING: clear_cell does not clear a cell an array formula has written ahead. *)
Theorem C18_refuted_clear_ahead :
  let fm := {| f_text := lit "A1"; f_result := []; f_dynamic := false |} in
  let ops := [WriteArray 0 0 1 0 fm None false (lit "A1:A2"); ClearCell 1 0; WriteNumber 4 0 (f_of_N 1) None] in
  standard_shown ops 1 0 = [] /\ streamed_shown ops 1 0 = [(VNumber fzero, 0)].
Proof. vm_compute. auto. Qed.
(** FINDING: set_formula_result ignores the row it is given in constant-memory
    mode and changes the formula of that column in the current row. *)
Theorem C18_refuted_formula_result_row :
  let fm := {| f_text := lit "A1"; f_result := []; f_dynamic := false |} in
  let ops := [WriteFormula 0 0 fm None (lit "A1"); WriteFormula 1 0 fm None (lit "A2"); SetFormulaResult 0 0 (lit "42")] in
  standard_shown ops 1 0 = [(VFormula (lit "A1") (lit "0"), 0)] /\ streamed_shown ops 1 0 = [(VFormula (lit "A1") (lit "42"), 0)].
Proof. vm_compute. auto. Qed.

(** ** C19 *)
Record order_ok (w : ws) : Prop := {
  e_data : table_ok (data w); e_wa : table_ok (write_ahead w);
  e_later : forall r, get r (write_ahead w) <> None -> current_row w < r;
  e_rows : increasing (map o_row (flushed w));
  e_lt : forall o, In o (flushed w) -> o_row o < current_row w;
  e_cols : forall o cs, In o (flushed w) -> o_cells o = Some cs -> increasing (map (fun x => fst (fst x)) cs) }.

Lemma emit_constant_sorted w ro cs : ok cs -> increasing (map (fun x => fst (fst x)) (flat_map (emit_cell_constant w ro) cs)).
Proof.
  unfold ok, increasing. induction cs as [|[j x] cs IH]; intros H; [constructor|]. cbn [keys map fst] in H.
  inversion H as [|? ? Hs Hf]; subst. cbn [flat_map]. rewrite map_app.
  assert (HL : emit_cell_constant w ro (j, x) = [] \/ exists k e, emit_cell_constant w ro (j, x) = [(j, k, e)]).
  { destruct x as [k xf]. unfold emit_cell_constant. destruct k as [| |s [i|]| | | | |s raw [i|]| |]; eauto. destruct (0 <? _); eauto. }
  destruct HL as [->|(k & e & ->)]; cbn [map app]; [auto|]. constructor; [auto|].
  rewrite Forall_forall in *. intros y Hy. apply in_map_iff in Hy as (b & <- & Hb).
  apply in_flat_map in Hb as ([j' x'] & Hz & Hb). apply emit_constant_col in Hb. cbn [fst] in *. rewrite Hb.
  apply Hf. apply (in_map fst) in Hz. exact Hz.
Qed.

(** The row element for the current row, if any. *)
Definition current_out (w : ws) : list orow :=
  let ro := get (current_row w) (changed_rows w) in
  match get (current_row w) (data w) with
  | Some cs => [{| o_row := current_row w; o_opts := ro; o_cells := Some (flat_map (emit_cell_constant w ro) cs) |}]
  | None => match ro with Some _ => [{| o_row := current_row w; o_opts := ro; o_cells := None |}] | None => [] end
  end.
Lemma flush_flushed w n : flushed (flush_data_row w n) = flushed w ++ current_out w.
Proof. reflexivity. Qed.
Lemma current_out_row w o : In o (current_out w) -> o_row o = current_row w.
Proof.
  unfold current_out. destruct (get (current_row w) (data w)); [|destruct (get (current_row w) (changed_rows w)); [|intros []]]; intros [<-|[]]; reflexivity.
Qed.
Lemma current_out_cols w o cs : table_ok (data w) -> In o (current_out w) -> o_cells o = Some cs -> increasing (map (fun x => fst (fst x)) cs).
Proof.
  intros Hd. unfold current_out. destruct (get (current_row w) (data w)) eqn:E; [|destruct (get (current_row w) (changed_rows w)); [|intros []]];
    intros [<-|[]]; cbn [o_cells]; [|discriminate]. intros [= <-]. apply emit_constant_sorted. exact (proj2 Hd _ _ E).
Qed.
Lemma increasing_app a b : increasing a -> increasing b -> (forall x y, In x a -> In y b -> x < y) -> increasing (a ++ b).
Proof.
  unfold increasing. induction a as [|z a IH]; intros Ha Hb H; [exact Hb|]. inversion Ha as [|? ? Hs Hf]; subst. cbn [app]. constructor.
  - apply IH; auto. intros; apply H; [right|]; assumption.
  - rewrite Forall_forall in *. intros y Hy. apply in_app_or in Hy as [Hy|Hy]; [auto|]. apply H; [left; reflexivity|assumption].
Qed.
Lemma current_out_sorted w : increasing (map o_row (current_out w)).
Proof. unfold current_out. destruct (get (current_row w) (data w)); [|destruct (get (current_row w) (changed_rows w))]; cbn; repeat constructor. Qed.

Lemma flush_row_tables w n : table_ok (data w) -> table_ok (write_ahead w) ->
  table_ok (data (flush_data_row w n)) /\ table_ok (write_ahead (flush_data_row w n)) /\
  (forall r, get r (write_ahead (flush_data_row w n)) = if n =? r then None else get r (write_ahead w)).
Proof.
  intros Hd Hw. destruct (flush_data_row_fields w n) as (_ & _ & _ & F4 & F5). split; [|split].
  - rewrite F4. destruct (get n (write_ahead w)) as [cs|] eqn:E; [|apply table_ok_nil].
    split; [constructor; constructor|]. intros r cs' Hg. cbn in Hg. destruct (n =? r); [|discriminate]. injection Hg as <-. exact (proj2 Hw _ _ E).
  - rewrite F5. destruct Hw as [A B]. split; [apply del_ok; exact A|]. intros r cs. rewrite get_del by exact A. destruct (n =? r); [discriminate|apply B].
  - intros r. rewrite F5. apply get_del. apply Hw.
Qed.

Lemma flush_row_order w n : order_ok w -> current_row w < n -> (forall r, get r (write_ahead w) <> None -> n <= r) -> order_ok (flush_data_row w n).
Proof.
  intros [] Hn Hw. destruct (flush_row_tables w n e_data0 e_wa0) as (T1 & T2 & T3). destruct (flush_data_row_fields w n) as (_ & _ & F3 & _ & _).
  split; try assumption.
  - intros r Hg. rewrite F3. rewrite T3 in Hg. destruct (N.eqb_spec n r); [congruence|]. apply Hw in Hg. lia.
  - rewrite flush_flushed, map_app. apply increasing_app; [assumption|apply current_out_sorted|].
    intros x y Hx Hy. apply in_map_iff in Hx as (o & <- & Ho), Hy as (o' & <- & Ho'). rewrite (current_out_row w o' Ho'). auto.
  - rewrite F3, flush_flushed. intros o Ho. apply in_app_or in Ho as [Ho|Ho]; [apply e_lt0 in Ho; lia|]. rewrite (current_out_row w o Ho). assumption.
  - rewrite flush_flushed. intros o cs Ho. apply in_app_or in Ho as [Ho|Ho]; [eauto|]. apply (current_out_cols w o cs); assumption.
Qed.
Lemma flush_fold_order l : forall w, order_ok w -> StronglySorted N.lt l -> (forall r, In r l -> current_row w < r) ->
  (forall r, get r (write_ahead w) <> None -> In r l \/ forall x, In x l -> x < r) ->
  let w' := fold_left flush_data_row l w in
  order_ok w' /\ (forall r, get r (write_ahead w') <> None -> ~ In r l /\ get r (write_ahead w) <> None) /\
  exists back, flushed w' = flushed w ++ back /\ (forall o, In o back -> current_row w <= o_row o).
Proof.
  induction l as [|n l IH]; intros w H Hs Hc Hw; cbn [fold_left].
  { cbv zeta. split; [assumption|]. split; [auto|]. exists []. rewrite app_nil_r. split; [reflexivity|intros ? []]. }
  inversion Hs as [|? ? Hs' Hf]; subst. rewrite Forall_forall in Hf.
  assert (Hn : current_row w < n) by (apply Hc; left; reflexivity).
  assert (Hw1 : forall r, get r (write_ahead w) <> None -> n <= r).
  { intros r Hg. destruct (Hw r Hg) as [[->|Hin]|Hx]; [lia|apply Hf in Hin; lia|]. specialize (Hx n (or_introl eq_refl)). lia. }
  pose proof (flush_row_order w n H Hn Hw1) as H1. destruct (flush_row_tables w n (e_data w H) (e_wa w H)) as (_ & _ & T3).
  destruct (flush_data_row_fields w n) as (_ & _ & F3 & _ & _).
  destruct (IH (flush_data_row w n) H1 Hs') as (A & B & back & C & D).
  - intros r Hin. rewrite F3. auto.
  - intros r Hg. rewrite T3 in Hg. destruct (N.eqb_spec n r); [congruence|].
    destruct (Hw r Hg) as [[->|Hin]|Hx]; [congruence|auto|]. right. intros x Hx'. apply Hx. right. assumption.
  - split; [exact A|]. split.
    + intros r Hg. destruct (B r Hg) as [B1 B2]. rewrite T3 in B2. destruct (N.eqb_spec n r); [congruence|]. split; [|exact B2]. intros [|]; [congruence|contradiction].
    + exists (current_out w ++ back). rewrite C, flush_flushed, app_assoc. split; [reflexivity|]. intros o Ho. apply in_app_or in Ho as [Ho|Ho].
      * rewrite (current_out_row w o Ho). lia.
      * apply D in Ho. rewrite F3 in Ho. lia.
Qed.
Lemma flush_to_row_order w n : order_ok w -> current_row w < n -> order_ok (flush_to_row w n) /\ current_row (flush_to_row w n) = n.
Proof.
  intros H Hn. rewrite flush_to_row_eq.
  set (m := sort_dedup (filter (fun r => r <? n) (keys (write_ahead w)) ++ filter (fun r => (current_row w <? r) && (r <? n)) (keys (changed_rows w)))).
  assert (Hm : forall r, In r m -> current_row w < r < n).
  { intros r Hin. apply (proj1 (sort_dedup_in _ _)) in Hin. apply in_app_or in Hin as [Hin|Hin]; apply filter_In in Hin as [Hin Hf].
    - apply get_keys in Hin. apply (e_later w H) in Hin. lia.
    - lia. }
  assert (Hm2 : forall r, get r (write_ahead w) <> None -> r < n -> In r m).
  { intros r Hg Hlt. apply sort_dedup_in. apply in_or_app. left. apply filter_In. split; [apply get_keys; exact Hg|lia]. }
  assert (Hsm : StronglySorted N.lt m) by apply sort_dedup_sorted. clearbody m.
  destruct (flush_fold_order (m ++ [n]) w H) as (A & _).
  - apply sorted_snoc; [assumption|]. intros y Hy. apply Hm in Hy. lia.
  - intros r Hin. apply in_app_or in Hin as [Hin|[<-|[]]]; [apply Hm in Hin; lia|assumption].
  - intros r Hg. destruct (N.lt_trichotomy r n) as [Hlt|[->|Hgt]].
    + left. apply in_or_app. left. auto.
    + left. apply in_or_app. right. left. reflexivity.
    + right. intros x Hx. apply in_app_or in Hx as [Hx|[<-|[]]]; [apply Hm in Hx; lia|assumption].
  - split; [exact A|]. rewrite fold_left_app. cbn [fold_left]. apply flush_data_row_fields.
Qed.
Lemma order_data w t : order_ok w -> table_ok t -> order_ok (upd_data w t).
Proof. intros [] H. split; fields; assumption. Qed.
Lemma insert_order w r c x : order_ok w -> order_ok (insert_cell w r c x).
Proof.
  intros H. unfold insert_cell. destruct (constant_memory w); [|apply order_data; [assumption|]; apply table_insert_ok, H].
  destruct (r <? current_row w); [assumption|]. destruct (N.ltb_spec (current_row w) r) as [Hlt|Hge]; cbn [andb].
  - destruct (writing_ahead w).
    + destruct H. split; fields; try assumption; [apply table_insert_ok; assumption|].
      intros r' Hg. apply table_insert_row in Hg as [<-|Hg]; auto.
    + destruct (flush_to_row_order w r H Hlt) as [A _]. apply order_data; [assumption|]. apply table_insert_ok, A.
  - apply order_data; [assumption|]. apply table_insert_ok, H.
Qed.
Lemma run_order ops w : order_ok w -> order_ok (run w ops).
Proof.
  apply run_inv.
  - intros a b [] []. split; rewrite ?q_data, ?q_wa, ?q_cur, ?q_fl; assumption.
  - intros; apply insert_order; assumption.
  - intros a b []. split; fields; assumption.
  - intros a r cs Ha H1 H2. apply order_data; [assumption|]. apply table_ok_ins; [apply Ha|].
    destruct (get r (data a)) eqn:E; [|auto]. apply (H1 _ eq_refl). apply Ha in E. exact E.
Qed.

(** After any history of calls, in any order: the rows of a streamed sheet are
    in strictly increasing order and so are the cells of each row, except that
    one row element without cells may be repeated, and only for a row that has
    row options. *)
Theorem C19_streamed_rows_ordered_partial inl gs rg t ops :
  let w := run (ws_new true inl gs rg t) ops in
  (forall o cs, In o (streamed_rows w) -> o_cells o = Some cs -> increasing (map (fun x => fst (fst x)) cs)) /\
  exists front dup back, streamed_rows w = front ++ dup ++ back /\ increasing (map o_row (front ++ back)) /\
    (dup = [] \/ exists o, dup = [o] /\ o_cells o = None /\ o_opts o <> None /\ In (o_row o) (map o_row front)).
Proof.
  cbv zeta. assert (H : order_ok (run (ws_new true inl gs rg t) ops)).
  { apply run_order. split; cbn; try apply table_ok_nil; try congruence; try constructor; intros; contradiction. }
  set (w := run (ws_new true inl gs rg t) ops) in *. clearbody w.
  unfold streamed_rows, flush_last_row.
  set (mx := fold_right N.max 0 (keys (changed_rows w))).
  set (ch := if current_row w <? mx then filter (fun r => (current_row w <=? r) && (r <=? mx)) (keys (changed_rows w)) else []).
  set (m := sort_dedup (keys (write_ahead w) ++ ch ++ [current_row w])).
  assert (Hm : forall r, In r m -> current_row w <= r).
  { intros x Hin. apply (proj1 (sort_dedup_in _ _)) in Hin. apply in_app_or in Hin as [Hin|Hin].
    - apply get_keys in Hin. apply (e_later w H) in Hin. lia.
    - apply in_app_or in Hin as [Hin|[<-|[]]]; [|lia]. unfold ch in Hin. destruct (current_row w <? mx); [|destruct Hin].
      apply filter_In in Hin as [_ Hin]. lia. }
  assert (Hm2 : forall x, get x (write_ahead w) <> None -> In x m).
  { intros x Hg. apply sort_dedup_in. apply in_or_app. left. apply get_keys. exact Hg. }
  assert (Hm3 : In (current_row w) m).
  { apply sort_dedup_in. apply in_or_app. right. apply in_or_app. right. left. reflexivity. }
  assert (Hsm : StronglySorted N.lt m) by apply sort_dedup_sorted. clearbody m. clear ch mx.
  destruct m as [|m0 m]; [destruct Hm3|]. inversion Hsm as [|? ? Hs Hf]; subst. rewrite Forall_forall in Hf.
  assert (m0 = current_row w) as ->.
  { destruct Hm3 as [->|Hin]; [reflexivity|]. apply Hf in Hin. specialize (Hm m0 (or_introl eq_refl)). lia. }
  set (rest := if mem (current_row w) (data w) then m ++ [1 + last (current_row w :: m) 0] else m).
  assert (E : (if mem (current_row w) (data w) then (current_row w :: m) ++ [1 + last (current_row w :: m) 0] else current_row w :: m) = current_row w :: rest).
  { unfold rest. destruct (mem (current_row w) (data w)); reflexivity. }
  rewrite E. cbn [fold_left].
  assert (Hrs : StronglySorted N.lt rest /\ (forall r, In r rest -> current_row w < r) /\ (forall x, get x (write_ahead w) <> None -> In x rest)).
  { assert (Hm4 : forall x, get x (write_ahead w) <> None -> In x m).
    { intros x Hx. destruct (Hm2 x Hx) as [<-|]; [|assumption]. apply (e_later w H) in Hx. lia. }
    unfold rest. destruct (mem (current_row w) (data w)); [|auto]. split; [|split].
    - apply sorted_snoc; [assumption|]. intros y Hy.
      assert (y <= last (current_row w :: m) 0) by (apply last_max; [exact Hsm|right; assumption]). lia.
    - intros r Hin. apply in_app_or in Hin as [Hin|[<-|[]]]; [auto|].
      assert (current_row w <= last (current_row w :: m) 0) by (apply last_max; [exact Hsm|left; reflexivity]). lia.
    - intros x Hx. apply in_or_app. left. auto. }
  clearbody rest. clear E Hm Hm2 Hm3 Hsm Hs Hf m. destruct Hrs as (R1 & R2 & R3).
  (* the state after flushing the current row onto itself *)
  set (w1 := flush_data_row w (current_row w)).
  assert (Hnone : get (current_row w) (write_ahead w) = None).
  { destruct (get (current_row w) (write_ahead w)) eqn:E; [|reflexivity]. assert (current_row w < current_row w) by (apply (e_later w H); congruence). lia. }
  destruct (flush_data_row_fields w (current_row w)) as (F1 & F2 & F3 & F4 & F5). fold w1 in F1, F2, F3, F4, F5. rewrite Hnone in F4.
  assert (F6 : flushed w1 = flushed w ++ current_out w) by reflexivity.
  destruct (flush_row_tables w (current_row w) (e_data w H) (e_wa w H)) as (T1 & T2 & T3). fold w1 in T1, T2, T3. clearbody w1.
  assert (Hfront : increasing (map o_row (flushed w ++ current_out w)) /\ (forall o, In o (flushed w ++ current_out w) -> o_row o <= current_row w) /\
     (forall o cs, In o (flushed w ++ current_out w) -> o_cells o = Some cs -> increasing (map (fun x => fst (fst x)) cs))).
  { split; [|split].
    - rewrite map_app. apply increasing_app; [apply H|apply current_out_sorted|].
      intros x y Hx Hy. apply in_map_iff in Hx as (o & <- & Ho), Hy as (o' & <- & Ho'). rewrite (current_out_row w o' Ho'). apply H. assumption.
    - intros o Ho. apply in_app_or in Ho as [Ho|Ho]; [apply (e_lt w H) in Ho; lia|]. rewrite (current_out_row w o Ho). lia.
    - intros o cs Ho. apply in_app_or in Ho as [Ho|Ho]; [apply H; assumption|]. apply (current_out_cols w o cs); [apply H|assumption]. }
  destruct Hfront as (P1 & P2 & P3).
  destruct rest as [|n rest].
  { cbn [fold_left]. rewrite F6. split; [exact P3|]. exists (flushed w ++ current_out w), [], []. rewrite !app_nil_r. auto. }
  (* the second flush of the same row, into a fresh stream *)
  cbn [fold_left]. inversion R1 as [|? ? R1' R1f]; subst. rewrite Forall_forall in R1f.
  assert (Hcn : current_row w < n) by (apply R2; left; reflexivity).
  assert (Hwa1 : forall r, get r (write_ahead w1) <> None -> get r (write_ahead w) <> None).
  { intros r Hg. rewrite T3 in Hg. destruct (_ =? r); [congruence|exact Hg]. }
  assert (Hdup : current_out w1 = match get (current_row w) (changed_rows w) with
      Some x => [{| o_row := current_row w; o_opts := Some x; o_cells := None |}] | None => [] end).
  { unfold current_out. rewrite F3, F4, F1. cbn [get]. destruct (get (current_row w) (changed_rows w)); reflexivity. }
  set (w2 := flush_data_row w1 n).
  assert (G6 : flushed w2 = (flushed w ++ current_out w) ++ current_out w1) by (unfold w2; rewrite flush_flushed, F6; reflexivity).
  destruct (flush_data_row_fields w1 n) as (_ & _ & G3 & _ & _). fold w2 in G3.
  destruct (flush_row_tables w1 n T1 T2) as (V1 & V2 & V3). fold w2 in V1, V2, V3. clearbody w2.
  assert (OK2 : order_ok (upd_flushed w2 [])).
  { split; fields; [assumption|assumption| |constructor|intros ? []|intros ? ? []].
    intros r Hg. rewrite G3. rewrite V3 in Hg. destruct (N.eqb_spec n r); [congruence|]. apply Hwa1, R3 in Hg.
    destruct Hg as [|Hg]; [congruence|]. apply R1f in Hg. lia. }
  assert (FREE : forall l a, flushed (fold_left flush_data_row l a) = flushed a ++ flushed (fold_left flush_data_row l (upd_flushed a []))).
  { clear. induction l as [|n l IH]; intros a; cbn [fold_left].
    - fields. rewrite app_nil_r. reflexivity.
    - rewrite IH, (IH (flush_data_row (upd_flushed a []) n)), !flush_flushed. fields. rewrite app_nil_l, app_assoc.
      replace (current_out (upd_flushed a [])) with (current_out a) by reflexivity.
      replace (upd_flushed (flush_data_row (upd_flushed a []) n) []) with (upd_flushed (flush_data_row a n) []) by reflexivity. reflexivity. }
  destruct (flush_fold_order rest (upd_flushed w2 []) OK2 R1') as (A1 & _ & back & A2 & A3).
  { intros r Hin. fields. rewrite G3. auto. }
  { intros r Hg. fields. rewrite V3 in Hg. destruct (N.eqb_spec n r); [congruence|]. apply Hwa1, R3 in Hg. destruct Hg as [|Hg]; [congruence|auto]. }
  rewrite FREE, G6. set (tail := flushed (fold_left flush_data_row rest (upd_flushed w2 []))) in *.
  fields. rewrite app_nil_l in A2.
  assert (Htail : forall o, In o tail -> current_row w < o_row o).
  { intros o Ho. rewrite A2 in Ho. apply A3 in Ho. lia. }
  assert (Htc : forall o cs, In o tail -> o_cells o = Some cs -> increasing (map (fun x => fst (fst x)) cs)) by (apply (e_cols _ A1)).
  assert (Hts : increasing (map o_row tail)) by (apply (e_rows _ A1)).
  split.
  - intros o cs Ho Hc. rewrite <- app_assoc in Ho. apply in_app_or in Ho as [Ho|Ho]; [eauto|]. apply in_app_or in Ho as [Ho|Ho]; [|eauto].
    rewrite Hdup in Ho. destruct (get (current_row w) (changed_rows w)); [|destruct Ho]. destruct Ho as [<-|[]]. discriminate.
  - exists (flushed w ++ current_out w), (current_out w1), tail. split; [rewrite <- app_assoc; reflexivity|]. split.
    + rewrite map_app. apply increasing_app; [assumption|assumption|]. intros x y Hx Hy.
      apply in_map_iff in Hx as (o & <- & Ho), Hy as (o' & <- & Ho'). apply P2 in Ho. apply Htail in Ho'. lia.
    + rewrite Hdup. destruct (get (current_row w) (changed_rows w)) as [x|] eqn:Ex; [|left; reflexivity]. right. eexists. split; [reflexivity|].
      split; [reflexivity|]. split; [discriminate|]. cbn [o_row]. rewrite map_app. apply in_or_app. right. unfold current_out. rewrite Ex.
      destruct (get (current_row w) (data w)); left; reflexivity.
Qed.
(** FINDING: the full statement fails: a row with options that is also the last
    row written appears twice. *)
Theorem C19_refuted_duplicate_row :
  let ops := [WriteNumber 2 0 (f_of_N 1) None; SetRowHeight 2 (f_of_N 30)] in
  map o_row (streamed_rows (run memory_ws ops)) = [2; 2].
Proof. vm_compute. reflexivity. Qed.
(** FINDING: row options set on a constant-memory worksheet without cells: the
    last such row is never written, and row 1 twice. *)
Theorem C19_refuted_options_only :
  map o_row (streamed_rows (run memory_ws [SetRowHeight 0 (f_of_N 30); SetRowHeight 7 (f_of_N 30)])) = [0; 0] /\
  map o_row (sheet_rows (run ws_standard [SetRowHeight 0 (f_of_N 30); SetRowHeight 7 (f_of_N 30)]) sst_new (fun i => i)) = [0; 7].
Proof. vm_compute. auto. Qed.
Example C19_streamed_witness :
  map o_row (streamed_rows (run memory_ws [WriteNumber 2 5 (f_of_N 1) None; WriteNumber 9 5 (f_of_N 1) None;
     WriteNumber 2 3 (f_of_N 1) None; SetRowHeight 4 (f_of_N 30); SetRowHeight 12 (f_of_N 30); WriteNumber 9 1 (f_of_N 1) None])) = [2; 9; 12].
Proof. vm_compute. reflexivity. Qed.

(** Each cell comes out at most once. *)
Lemma cell_once c cs : increasing (map (fun x : N * cell * N => fst (fst x)) cs) -> (length (flat_map (cell_at c) cs) <= 1)%nat.
Proof.
  unfold increasing. induction cs as [|[[c' k] x] cs IH]; intros H; cbn [flat_map]; [cbn; lia|]. inversion H as [|? ? Hs Hf]; subst.
  cbn [cell_at fst map] in *. rewrite app_length. destruct (N.eqb_spec c' c) as [->|].
  - assert (flat_map (cell_at c) cs = []) as ->; [|cbn; lia]. apply flat_map_nil. intros [[c2 k2] x2] Hin. cbn [cell_at].
    rewrite Forall_forall in Hf. apply (in_map (fun x : N * cell * N => fst (fst x))) in Hin. apply Hf in Hin. cbn in Hin. destruct (N.eqb_spec c2 c); [lia|reflexivity].
  - cbn. auto.
Qed.
Lemma shown_once rows r c : increasing (map o_row rows) -> (forall o cs, In o rows -> o_cells o = Some cs -> increasing (map (fun x => fst (fst x)) cs)) ->
  (length (shown rows r c) <= 1)%nat.
Proof.
  unfold increasing. induction rows as [|o rows IH]; intros H Hc; cbn [shown flat_map]; [cbn; lia|]. inversion H as [|? ? Hs Hf]; subst.
  rewrite app_length. destruct (N.eqb_spec (o_row o) r) as [E|E].
  - change (flat_map (row_at r c) rows) with (shown rows r c).
    assert (shown rows r c = []) as ->.
    { apply flat_map_nil. intros o' Hin. unfold row_at. rewrite Forall_forall in Hf. apply (in_map o_row) in Hin. apply Hf in Hin. destruct (N.eqb_spec (o_row o') r); [lia|reflexivity]. }
    unfold row_at. rewrite (proj2 (N.eqb_eq _ _) E). destruct (o_cells o) as [cs|] eqn:Ec; [|cbn; lia].
    pose proof (cell_once c cs (Hc o cs (or_introl eq_refl) Ec)). cbn [length]. lia.
  - unfold row_at at 1. destruct (N.eqb_spec (o_row o) r); [contradiction|]. cbn [length]. apply IH; [assumption|]. intros; eapply Hc; [right|]; eassumption.
Qed.
Theorem C19_streamed_cell_at_most_once inl gs rg t ops r c :
  (length (shown (streamed_rows (run (ws_new true inl gs rg t) ops)) r c) <= 1)%nat.
Proof.
  destruct (C19_streamed_rows_ordered_partial inl gs rg t ops) as [Hc (f & d & b & E & Hs & Hd)]. rewrite E in *.
  assert (shown (f ++ d ++ b) r c = shown (f ++ b) r c) as ->.
  { rewrite !shown_app. destruct Hd as [->|(o & -> & Ho & _ & _)]; [reflexivity|]. f_equal. cbn [shown flat_map]. unfold row_at at 1. rewrite Ho.
    destruct (_ =? _); reflexivity. }
  apply shown_once; [assumption|]. intros o cs Ho. apply Hc. apply in_app_or in Ho as [Ho|Ho]; apply in_or_app; [left; assumption|right; apply in_or_app; right; assumption].
Qed.

(** A write to a row that has already been written out is dropped: whatever the
    call returns, what is in the stream and what is still to come stay the same. *)
Theorem C19_late_write_is_dropped w o r c : constant_memory w = true -> write_cell o = Some (r, c) -> r < current_row w ->
  (forall fr fc lr lc fm f d g, o <> WriteArray fr fc lr lc fm f d g) -> (forall fm f g, o = WriteFormula r c fm f g -> f_dynamic fm = false) ->
  core w (fst (step w o)).
Proof.
  intros Hm Hw Hr Ha Hf.
  set (I := fun v => core w v).
  assert (IC : forall v v', core v v' -> I v -> I v') by (intros v v' A B; eapply core_trans; eassumption).
  assert (II : forall v x, I v -> insert_cell v r c x = v).
  { intros v x Hv. unfold insert_cell. rewrite (q_cm _ _ Hv), Hm, (q_cur _ _ Hv). destruct (N.ltb_spec r (current_row w)); [reflexivity|lia]. }
  assert (II' : forall v x, I v -> I (insert_cell v r c x)) by (intros v x Hv; rewrite II; assumption).
  assert (I0 : I w) by apply core_refl.
  assert (CD : forall v, I v -> I (fst (check_dimensions v r c))) by (intros; apply (inv_cd I); auto).
  assert (RG : forall v f, I v -> I (fst (reg v f))) by (intros; apply (inv_reg I); auto).
  assert (XF : forall v f, I v -> I (fst (cell_xf v r c f))) by (intros; apply (inv_xf I); auto).
  assert (ST : forall v t l, I v -> I (upd_sst v t l)) by (intros; apply (inv_sst I); auto).
  assert (BL : forall v f, I v -> I (fst (store_blank v r c f))).
  { intros v f Hv. unfold store_blank. pose proof (CD v Hv) as X. destruct (check_dimensions v r c) as [v1 []]; cbn [negb fst] in *; [|exact X].
    pose proof (RG v1 f X) as X2. destruct (reg v1 f) as [v2 i]. cbn [fst] in *. destruct (i =? 0); [|apply II'; assumption].
    pose proof (XF v2 None X2) as X3. cbn [cell_xf] in X3. destruct (row_col_format v2 r c). apply II'. exact X3. }
  assert (TX : forall v s f, I v -> I (fst (store_string v r c s f))).
  { intros v s f Hv. destruct s as [|a s]; [cbn [store_string]; destruct f; [apply BL|]; assumption|]. unfold store_string.
    pose proof (CD v Hv) as X. destruct (check_dimensions v r c) as [v1 []]; cbn [negb fst] in *; [|exact X]. destruct (_ <? _); [exact X|].
    pose proof (XF v1 f X) as X2. destruct (cell_xf v1 r c f) as [v2 i]. cbn [fst] in X2. destruct (inline_strings v2); [apply II'; assumption|].
    destruct (global_sst v2); [destruct (shared_string_index _ _)|]; apply II', ST; assumption. }
  destruct o; try discriminate Hw; cbn [write_cell] in Hw; injection Hw as -> ->; cbn [step].
  1, 2: unfold store_number_type; pose proof (CD w I0) as X; destruct (check_dimensions w r c) as [v1 []]; cbn [negb fst] in *; [|exact X];
        destruct (is_nan x); [apply TX; assumption|]; destruct (is_inf x); [destruct (feq _ _); apply TX; assumption|];
        pose proof (XF v1 f X) as X2; destruct (cell_xf v1 r c f) as [v2 i]; apply II'; exact X2.
  - apply TX. assumption.
  - destruct s as [|a s]; [cbn [store_rich_string]; destruct f; [apply BL|]; assumption|]. unfold store_rich_string.
    pose proof (CD w I0) as X. destruct (check_dimensions w r c) as [v1 []]; cbn [negb fst] in *; [|exact X]. destruct (_ <? _); [exact X|].
    pose proof (XF v1 f X) as X2. destruct (cell_xf v1 r c f) as [v2 i]. cbn [fst] in X2.
    destruct (global_sst v2); [destruct (shared_string_index _ _) as [t id]|]; cbn [fst].
    + destruct (inline_strings _); [|apply ST]; apply II', ST; assumption.
    + destruct (inline_strings _); [|apply ST]; apply II'; assumption.
  - unfold store_boolean. pose proof (CD w I0) as X. destruct (check_dimensions w r c) as [v1 []]; cbn [negb fst] in *; [|exact X].
    pose proof (XF v1 f X) as X2. destruct (cell_xf v1 r c f) as [v2 i]. apply II'. exact X2.
  - apply BL. assumption.
  - unfold store_formula. rewrite (Hf _ _ _ eq_refl). pose proof (CD w I0) as X. destruct (check_dimensions w r c) as [v1 []]; cbn [negb fst] in *; [|exact X].
    pose proof (XF v1 f X) as X2. destruct (cell_xf v1 r c f) as [v2 i]. apply II'. exact X2.
  - exfalso. eapply Ha. reflexivity.
Qed.
Example C19_late_witness :
  let w := run memory_ws [WriteNumber 5 0 (f_of_N 1) None] in
  constant_memory w = true /\ write_cell (WriteString 3 1 (lit "late") None) = Some (3, 1) /\ 3 < current_row w /\
  snd (step w (WriteString 3 1 (lit "late") None)) = None.
Proof. vm_compute. auto. Qed.
