(** Constant-memory mode: streaming, and its simulation by standard mode. *)
From Verif Require Import Base SMap F64 Fmt_Model Sst_Model Cells_Model Cells_Spec Cells_Proofs Cells_Proofs2
  Cells_Inv Cells_Save Cells_Hist.

(** ** What a pending row will show *)
Definition eshow (w : ws) (r c : N) (x : option (cell * N)) : list (value * N) :=
  match x with
  | None => []
  | Some (k, xf) => let e := effective_xf w xf (get r (changed_rows w)) c in
      match contents k with VBlank => if 0 <? e then [(VBlank, e)] else [] | v => [(v, e)] end
  end.
Definition emittable (_ _ : N) (k : cell) : Prop := match k with CString _ None => False | _ => True end.

Lemma emit_constant_col w ro p x : In x (emit_cell_constant w ro p) -> fst (fst x) = fst p.
Proof.
  destruct p as [c [k xf]]. unfold emit_cell_constant. destruct k as [| |s [i|]| | | | |s raw i| |]; cbn;
    try (destruct (0 <? _)); cbn; intros H; try contradiction; destruct H as [<-|[]]; reflexivity.
Qed.
Lemma emit_constant_one w r p c : emittable r c (fst (snd p)) -> fst p = c ->
  flat_map (cell_at c) (emit_cell_constant w (get r (changed_rows w)) p) = eshow w r c (Some (snd p)).
Proof.
  destruct p as [c' [k xf]]. cbn [fst snd]. intros Hk ->. unfold emit_cell_constant, eshow.
  destruct k as [| |s [i|]| | | | |s raw i| |]; cbn in Hk; try contradiction; cbn; rewrite ?N.eqb_refl; try reflexivity.
  destruct (0 <? _); cbn; rewrite ?N.eqb_refl; reflexivity.
Qed.

Lemma shown_constant_cols w r c cs : ok cs -> all_cols emittable r cs ->
  flat_map (cell_at c) (flat_map (emit_cell_constant w (get r (changed_rows w))) cs) = eshow w r c (get c cs).
Proof.
  rewrite flat_map_flat. unfold ok. induction cs as [|[j x] cs IH]; intros Hok Hem; [reflexivity|].
  cbn [keys map fst] in Hok. inversion Hok as [|? ? Hs Hf]; subst. cbn [flat_map get].
  assert (Hem' : all_cols emittable r cs) by (intros c' k' x' Hin; apply (Hem c' k' x'); right; assumption).
  destruct (N.eqb_spec j c) as [->|Hne].
  - rewrite (flat_map_nil (fun x => flat_map (cell_at c) (emit_cell_constant w (get r (changed_rows w)) x)) cs), app_nil_r.
    + apply (emit_constant_one w r (c, x)); [|reflexivity]. destruct x as [k xf]. apply (Hem c k xf). left. reflexivity.
    + intros [c' x'] Hin. apply flat_map_nil. intros [[c2 k2] x2] Hin2. apply emit_constant_col in Hin2. cbn in Hin2 |- *. subst c2.
      destruct (N.eqb_spec c' c) as [->|]; [|reflexivity]. exfalso.
      rewrite Forall_forall in Hf. apply (in_map fst) in Hin. specialize (Hf _ Hin). cbn in Hf. lia.
  - rewrite (flat_map_nil (cell_at c) (emit_cell_constant w (get r (changed_rows w)) (j, x))).
    + apply IH; assumption.
    + intros [[c2 k2] x2] Hin2. apply emit_constant_col in Hin2. cbn in Hin2 |- *. subst c2.
      destruct (N.eqb_spec j c); [contradiction|reflexivity].
Qed.

Lemma shown_app a b r c : shown (a ++ b) r c = shown a r c ++ shown b r c.
Proof. unfold shown. apply flat_map_app. Qed.
Lemma shown_above rows r c : (forall o, In o rows -> o_row o < r) -> shown rows r c = [].
Proof.
  intros H. unfold shown. apply flat_map_nil. intros o Ho. unfold row_at. apply H in Ho.
  destruct (N.eqb_spec (o_row o) r); [lia|reflexivity].
Qed.

(** ** The tables of a streaming worksheet *)
Definition cdata (w : ws) (r : N) : table := if r =? current_row w then data w else write_ahead w.
Definition pending (w : ws) (r c : N) : list (value * N) :=
  if current_row w <=? r then eshow w r c (table_get r c (cdata w r)) else [].

Record stream_ok (w : ws) : Prop := {
  k_data : table_ok (data w); k_ahead : table_ok (write_ahead w);
  k_only : forall r, get r (data w) <> None -> r = current_row w;
  k_later : forall r, get r (write_ahead w) <> None -> current_row w < r;
  k_emit : all_table emittable (data w) /\ all_table emittable (write_ahead w) }.

Definition target (w : ws) (T : N -> N -> list (value * N)) : Prop :=
  forall r c, shown (flushed w) r c ++ pending w r c = T r c.
Definition rows_le (w : ws) : Prop := forall o, In o (flushed w) -> o_row o <= current_row w.

Lemma flush_data_row_fields w n : let w' := flush_data_row w n in
  changed_rows w' = changed_rows w /\ changed_cols w' = changed_cols w /\ current_row w' = n /\
  data w' = match get n (write_ahead w) with Some cs => [(n, cs)] | None => [] end /\
  write_ahead w' = del n (write_ahead w).
Proof. cbv zeta. unfold flush_data_row. fields. auto. Qed.

Lemma flush_row_shown w n r c : stream_ok w ->
  shown (flushed (flush_data_row w n)) r c =
  shown (flushed w) r c ++ (if r =? current_row w then eshow w r c (table_get r c (data w)) else []).
Proof.
  intros H. unfold flush_data_row. fields. rewrite shown_app. f_equal.
  unfold table_get. destruct (N.eqb_spec r (current_row w)) as [->|Hne].
  - destruct (get (current_row w) (data w)) as [cs|] eqn:E.
    + cbn [shown flat_map]. unfold row_at. cbn [o_row o_cells]. rewrite N.eqb_refl, app_nil_r.
      apply shown_constant_cols; [exact (proj2 (k_data w H) _ _ E)|]. eapply all_table_get; [exact (proj1 (k_emit w H))|exact E].
    + destruct (get (current_row w) (changed_rows w)); [|reflexivity]. cbn [shown flat_map]. unfold row_at. cbn. destruct (_ =? _); reflexivity.
  - destruct (get (current_row w) (data w)) as [cs|]; [|destruct (get (current_row w) (changed_rows w)); [|reflexivity]];
      cbn [shown flat_map]; unfold row_at; cbn [o_row]; (destruct (N.eqb_spec (current_row w) r); [congruence|reflexivity]).
Qed.

(** Moving to row [n]: either the current row itself (as the final flush does
    first) or a later row with nothing pending in between. *)
Lemma flush_row_step w n T : stream_ok w -> rows_le w -> current_row w <= n ->
  (forall r, get r (write_ahead w) <> None -> n <= r) -> target w T ->
  stream_ok (flush_data_row w n) /\ rows_le (flush_data_row w n) /\ target (flush_data_row w n) T.
Proof.
  intros H Hr Hn Hw HT. destruct (flush_data_row_fields w n) as (F1 & F2 & F3 & F4 & F5).
  assert (Hrow : forall r, get r (data (flush_data_row w n)) = if n =? r then get n (write_ahead w) else None).
  { intros r. rewrite F4. destruct (get n (write_ahead w)) as [cs|]; cbn [get]; destruct (n =? r); reflexivity. }
  assert (Hah : forall r, get r (write_ahead (flush_data_row w n)) = if n =? r then None else get r (write_ahead w)).
  { intros r. rewrite F5. apply get_del. apply (k_ahead w H). }
  split; [|split].
  - split.
    + rewrite F4. destruct (get n (write_ahead w)) as [cs|] eqn:E; [|apply table_ok_nil].
      split; [constructor; constructor|]. intros r cs' Hg. cbn in Hg. destruct (n =? r); [|discriminate].
      injection Hg as <-. exact (proj2 (k_ahead w H) _ _ E).
    + rewrite F5. destruct (k_ahead w H) as [A B]. split; [apply del_ok; exact A|]. intros r cs.
      rewrite get_del by exact A. destruct (n =? r); [discriminate|apply B].
    + intros r Hg. rewrite F3. rewrite Hrow in Hg. destruct (N.eqb_spec n r); congruence.
    + intros r Hg. rewrite F3. rewrite Hah in Hg. destruct (N.eqb_spec n r); [congruence|]. apply Hw in Hg. lia.
    + destruct (k_emit w H) as [_ B]. rewrite F4, F5. split.
      * destruct (get n (write_ahead w)) as [cs|] eqn:E; [|intros ? ? []]. intros r cs' [[= <- <-]|[]]. eapply all_table_get; eassumption.
      * intros r cs Hin. apply In_del in Hin. apply B. assumption.
  - intros o Ho. rewrite F3. unfold flush_data_row in Ho. fields. apply in_app_or in Ho as [Ho|Ho].
    + apply Hr in Ho. lia.
    + destruct (get (current_row w) (data w)); [|destruct (get (current_row w) (changed_rows w))];
        try (destruct Ho as [<-|[]]; cbn; lia). destruct Ho.
  - intros r c. rewrite flush_row_shown by assumption. rewrite <- (HT r c), <- app_assoc. f_equal.
    unfold pending, cdata. rewrite F3.
    assert (He : forall x, eshow (flush_data_row w n) r c x = eshow w r c x).
    { intros x. unfold eshow, effective_xf. rewrite F1, F2. reflexivity. }
    rewrite He.
    assert (Hg : table_get r c (if r =? n then data (flush_data_row w n) else write_ahead (flush_data_row w n)) = table_get r c (write_ahead w)).
    { destruct (N.eqb_spec r n) as [->|Hrn]; unfold table_get.
      - rewrite Hrow, N.eqb_refl. reflexivity.
      - rewrite Hah. destruct (N.eqb_spec n r); [congruence|reflexivity]. }
    rewrite Hg. clear Hg.
    destruct (N.eqb_spec r (current_row w)) as [->|Hne].
    + destruct (N.leb_spec (current_row w) (current_row w)) as [_|]; [|lia].
      destruct (N.leb_spec n (current_row w)) as [Hle|]; [|apply app_nil_r].
      assert (Hnone : get (current_row w) (write_ahead w) = None).
      { destruct (get (current_row w) (write_ahead w)) eqn:E; [|reflexivity].
        assert (current_row w < current_row w) by (apply (k_later w H); congruence). lia. }
      unfold table_get at 2. rewrite Hnone. cbn. apply app_nil_r.
    + cbn [app]. destruct (N.leb_spec (current_row w) r) as [Hle|Hgt].
      * destruct (N.leb_spec n r) as [Hnr|Hnr]; [reflexivity|].
        assert (Hnone : get r (write_ahead w) = None).
        { destruct (get r (write_ahead w)) eqn:E; [|reflexivity]. assert (n <= r) by (apply Hw; congruence). lia. }
        unfold table_get. rewrite Hnone. reflexivity.
      * destruct (N.leb_spec n r); [lia|reflexivity].
Qed.

Lemma last_default (x : N) l d d' : last (x :: l) d = last (x :: l) d'.
Proof.
  revert x. induction l as [|y l IH]; intros x; [reflexivity|].
  change (last (y :: l) d = last (y :: l) d'). apply IH.
Qed.
(** A strictly increasing list of rows that includes every pending row below
    [hi]. *)
Lemma flush_fold l : forall w T, stream_ok w -> rows_le w -> StronglySorted N.lt l ->
  (forall r, In r l -> current_row w <= r) ->
  target w T ->
  (forall r, get r (write_ahead w) <> None -> In r l \/ forall x, In x l -> x < r) ->
  let w' := fold_left flush_data_row l w in
  stream_ok w' /\ rows_le w' /\ target w' T /\ current_row w' = last l (current_row w) /\
  (forall r, get r (write_ahead w') = if existsb (N.eqb r) l then None else get r (write_ahead w)).
Proof.
  induction l as [|n l IH]; intros w T H Hr Hs Hc HT Hw; cbn [fold_left].
  - cbn. auto.
  - inversion Hs as [|? ? Hs' Hf]; subst. rewrite Forall_forall in Hf.
    assert (Hn : current_row w <= n) by (apply Hc; left; reflexivity).
    assert (Hw1 : forall r, get r (write_ahead w) <> None -> n <= r).
    { intros r Hg. destruct (Hw r Hg) as [[->|Hin]|Hx]; [lia|apply Hf in Hin; lia|]. specialize (Hx n (or_introl eq_refl)). lia. }
    destruct (flush_row_step w n T H Hr Hn Hw1 HT) as (A & B & C).
    destruct (flush_data_row_fields w n) as (F1 & F2 & F3 & F4 & F5).
    assert (Hah : forall r, get r (write_ahead (flush_data_row w n)) = if n =? r then None else get r (write_ahead w)).
    { intros r. rewrite F5. apply get_del. apply (k_ahead w H). }
    specialize (IH (flush_data_row w n) T A B Hs').
    assert (G1 : forall r, In r l -> current_row (flush_data_row w n) <= r).
    { intros r Hin. rewrite F3. apply Hf in Hin. lia. }
    assert (G2 : forall r, get r (write_ahead (flush_data_row w n)) <> None -> In r l \/ forall x, In x l -> x < r).
    { intros r Hg. rewrite Hah in Hg. destruct (N.eqb_spec n r); [congruence|].
      destruct (Hw r Hg) as [[->|Hin]|Hx]; [congruence|auto|]. right. intros x Hx'. apply Hx. right. assumption. }
    destruct (IH G1 C G2) as (I1 & I2 & I3 & I4 & I5). split; [exact I1|]. split; [exact I2|]. split; [exact I3|]. split.
    + rewrite I4, F3. destruct l as [|n0 l]; [reflexivity|]. change (last (n :: n0 :: l) (current_row w)) with (last (n0 :: l) (current_row w)). apply last_default.
    + intros r. rewrite I5, Hah. cbn [existsb]. rewrite (N.eqb_sym r n). destruct (n =? r); cbn [orb]; [destruct (existsb _ l); reflexivity|reflexivity].
Qed.

(** ** sort_dedup *)
Lemma insert_nodup_in x l y : In y (insert_nodup x l) <-> y = x \/ In y l.
Proof.
  induction l as [|z l IH]; cbn; [intuition|]. destruct (x <? z); [cbn; intuition|].
  destruct (N.eqb_spec x z) as [->|]; cbn; [intuition|]. rewrite IH. intuition.
Qed.
Lemma insert_nodup_sorted x l : StronglySorted N.lt l -> StronglySorted N.lt (insert_nodup x l).
Proof.
  induction l as [|z l IH]; intros H; cbn; [constructor; constructor|]. inversion H as [|? ? Hs Hf]; subst.
  destruct (N.ltb_spec x z); [constructor; [assumption|]; constructor; [assumption|]; rewrite Forall_forall in *; intros y Hy; apply Hf in Hy; lia|].
  destruct (N.eqb_spec x z) as [->|]; [assumption|]. constructor; [auto|]. rewrite Forall_forall in *. intros y Hy.
  apply insert_nodup_in in Hy as [->|Hy]; [lia|auto].
Qed.
Lemma sort_dedup_in l y : In y (sort_dedup l) <-> In y l.
Proof. induction l as [|x l IH]; cbn; [tauto|]. unfold sort_dedup in IH. rewrite insert_nodup_in, IH. intuition. Qed.
Lemma sort_dedup_sorted l : StronglySorted N.lt (sort_dedup l).
Proof. induction l as [|x l IH]; cbn; [constructor|]. apply insert_nodup_sorted. exact IH. Qed.

Lemma sorted_snoc l x : StronglySorted N.lt l -> (forall y, In y l -> y < x) -> StronglySorted N.lt (l ++ [x]).
Proof.
  induction l as [|z l IH]; intros H Hx; cbn; [constructor; constructor|]. inversion H as [|? ? Hs Hf]; subst. constructor.
  - apply IH; [assumption|]. intros; apply Hx; right; assumption.
  - rewrite Forall_forall in *. intros y Hy. apply in_app_or in Hy as [Hy|[<-|[]]]; [auto|apply Hx; left; reflexivity].
Qed.
Lemma last_in (l : list N) d : l <> [] -> In (last l d) l.
Proof.
  induction l as [|x l IH]; [congruence|]. intros _. destruct l as [|y l]; [left; reflexivity|].
  right. apply IH. discriminate.
Qed.
Lemma last_max l d x : StronglySorted N.lt l -> In x l -> x <= last l d.
Proof.
  induction l as [|z l IH]; intros H Hin; [destruct Hin|]. inversion H as [|? ? Hs Hf]; subst. rewrite Forall_forall in Hf.
  destruct l as [|y l]; [destruct Hin as [->|[]]; cbn; lia|].
  change (last (z :: y :: l) d) with (last (y :: l) d).
  destruct Hin as [->|Hin]; [|auto]. pose proof (Hf _ (last_in (y :: l) d ltac:(discriminate))). lia.
Qed.

Lemma flush_to_row_eq w n : flush_to_row w n =
  fold_left flush_data_row (sort_dedup (filter (fun r => r <? n) (keys (write_ahead w)) ++
     filter (fun r => (current_row w <? r) && (r <? n)) (keys (changed_rows w))) ++ [n]) w.
Proof. unfold flush_to_row. rewrite fold_left_app. reflexivity. Qed.

Lemma flush_to_row_spec w n T : stream_ok w -> rows_le w -> current_row w < n -> target w T ->
  let w' := flush_to_row w n in
  stream_ok w' /\ target w' T /\ current_row w' = n /\ (forall o, In o (flushed w') -> o_row o < n) /\
  (forall r, n < r -> get r (write_ahead w') = get r (write_ahead w)) /\
  (forall r, get r (data w') = if r =? n then get n (write_ahead w) else None).
Proof.
  intros H Hr Hn HT. cbv zeta. rewrite flush_to_row_eq.
  set (m := sort_dedup (filter (fun r => r <? n) (keys (write_ahead w)) ++
     filter (fun r => (current_row w <? r) && (r <? n)) (keys (changed_rows w)))).
  assert (Hm : forall r, In r m -> current_row w < r < n).
  { intros r Hin. apply (proj1 (sort_dedup_in _ _)) in Hin. apply in_app_or in Hin as [Hin|Hin]; apply filter_In in Hin as [Hin Hf].
    - apply get_keys in Hin. apply (k_later w H) in Hin. lia.
    - lia. }
  assert (Hm2 : forall r, get r (write_ahead w) <> None -> r < n -> In r m).
  { intros r Hg Hlt. apply sort_dedup_in. apply in_or_app. left. apply filter_In. split; [apply get_keys; exact Hg|lia]. }
  assert (Hsm : StronglySorted N.lt m) by apply sort_dedup_sorted. clearbody m.
  rewrite fold_left_app. cbn [fold_left].
  destruct (flush_fold m w T H Hr Hsm) as (A1 & A2 & A3 & A4 & A5).
  { intros r Hin. apply Hm in Hin. lia. }
  { exact HT. }
  { intros r Hg. destruct (N.lt_ge_cases r n) as [Hlt|Hge]; [left; auto|]. right. intros x Hx. apply Hm in Hx. lia. }
  set (w1 := fold_left flush_data_row m w) in *. clearbody w1.
  assert (Hcur : current_row w1 < n).
  { rewrite A4. destruct m as [|z m]; [exact Hn|]. apply Hm. apply last_in. discriminate. }
  assert (Hw1 : forall r, get r (write_ahead w1) <> None -> n <= r).
  { intros r Hg. rewrite A5 in Hg. destruct (existsb (N.eqb r) m) eqn:E; [congruence|].
    destruct (N.lt_ge_cases r n) as [Hlt|]; [|assumption]. exfalso.
    assert (existsb (N.eqb r) m = true); [|congruence]. apply existsb_exists. exists r. split; [auto|apply N.eqb_refl]. }
  destruct (flush_row_step w1 n T A1 A2 ltac:(lia) Hw1 A3) as (B1 & B2 & B3).
  destruct (flush_data_row_fields w1 n) as (F1 & F2 & F3 & F4 & F5).
  assert (Hsame : forall r, n <= r -> get r (write_ahead w1) = get r (write_ahead w)).
  { intros r Hge. rewrite A5. destruct (existsb (N.eqb r) m) eqn:E; [|reflexivity].
    apply existsb_exists in E as (x & Hx & Ex). apply N.eqb_eq in Ex as <-. apply Hm in Hx. lia. }
  split; [exact B1|]. split; [exact B3|]. split; [exact F3|]. split; [|split].
  - intros o Ho. unfold flush_data_row in Ho. fields. apply in_app_or in Ho as [Ho|Ho].
    + apply A2 in Ho. lia.
    + destruct (get (current_row w1) (data w1)); [|destruct (get (current_row w1) (changed_rows w1))];
        try (destruct Ho as [<-|[]]; cbn; lia). destruct Ho.
  - intros r Hgt. rewrite F5, get_del by apply (k_ahead w1 A1). destruct (N.eqb_spec n r); [lia|]. apply Hsame. lia.
  - intros r. rewrite F4, (Hsame n) by lia. destruct (get n (write_ahead w)) as [cs|]; cbn [get];
      destruct (N.eqb_spec n r) as [->|]; rewrite ?N.eqb_refl; try reflexivity; destruct (N.eqb_spec r n); congruence.
Qed.

(** The final flush writes out everything, provided the current row has data
    whenever rows are waiting. *)
Lemma flush_last_spec w T : stream_ok w -> rows_le w -> target w T ->
  ((exists r, get r (write_ahead w) <> None) -> get (current_row w) (data w) <> None) ->
  forall r c, shown (streamed_rows w) r c = T r c.
Proof.
  intros H Hr HT HJ r c. unfold streamed_rows, flush_last_row.
  set (mx := fold_right N.max 0 (keys (changed_rows w))).
  set (ch := if current_row w <? mx then filter (fun r => (current_row w <=? r) && (r <=? mx)) (keys (changed_rows w)) else []).
  set (m := sort_dedup (keys (write_ahead w) ++ ch ++ [current_row w])).
  assert (Hm : forall r, In r m -> current_row w <= r).
  { intros x Hin. apply (proj1 (sort_dedup_in _ _)) in Hin. apply in_app_or in Hin as [Hin|Hin].
    - apply get_keys in Hin. apply (k_later w H) in Hin. lia.
    - apply in_app_or in Hin as [Hin|[<-|[]]]; [|lia]. unfold ch in Hin. destruct (current_row w <? mx); [|destruct Hin].
      apply filter_In in Hin as [_ Hin]. lia. }
  assert (Hm2 : forall x, get x (write_ahead w) <> None -> In x m).
  { intros x Hg. apply sort_dedup_in. apply in_or_app. left. apply get_keys. exact Hg. }
  assert (Hm3 : In (current_row w) m).
  { apply sort_dedup_in. apply in_or_app. right. apply in_or_app. right. left. reflexivity. }
  assert (Hsm : StronglySorted N.lt m) by apply sort_dedup_sorted. clearbody m.
  destruct (flush_fold m w T H Hr Hsm Hm HT) as (A1 & A2 & A3 & A4 & A5); [auto|].
  destruct (mem (current_row w) (data w)) eqn:EM.
  - rewrite fold_left_app. cbn [fold_left].
    set (w1 := fold_left flush_data_row m w) in *. clearbody w1.
    assert (Hnone : forall x, get x (write_ahead w1) = None).
    { intros x. rewrite A5. destruct (existsb (N.eqb x) m) eqn:E; [reflexivity|].
      destruct (get x (write_ahead w)) eqn:E2; [|reflexivity]. exfalso.
      assert (existsb (N.eqb x) m = true); [|congruence]. apply existsb_exists. exists x. split; [apply Hm2; congruence|apply N.eqb_refl]. }
    assert (El : last m (current_row w) = last m 0).
    { destruct m as [|z m]; [destruct Hm3|]. apply last_default. }
    destruct (flush_row_step w1 (1 + last m 0) T A1 A2) as (B1 & B2 & B3); [rewrite A4, El; lia| |exact A3|].
    { intros x Hx. rewrite Hnone in Hx. congruence. }
    rewrite <- (B3 r c). destruct (flush_data_row_fields w1 (1 + last m 0)) as (F1 & F2 & F3 & F4 & F5).
    unfold pending, cdata. rewrite F3, F4, F5, Hnone. unfold table_get.
    assert (get r (del (1 + last m 0) (write_ahead w1)) = None) as Hd.
    { rewrite get_del by apply (k_ahead w1 A1). rewrite Hnone. destruct (_ =? r); reflexivity. }
    destruct (_ <=? r); [|symmetry; apply app_nil_r]. destruct (r =? _); rewrite ?Hd; symmetry; apply app_nil_r.
  - assert (Ed : get (current_row w) (data w) = None) by (unfold mem in EM; destruct (get (current_row w) (data w)); [discriminate|reflexivity]).
    assert (Hn : forall x, get x (write_ahead w) = None).
    { intros x. destruct (get x (write_ahead w)) eqn:E; [|reflexivity]. exfalso. apply HJ; [exists x; congruence|assumption]. }
    set (w1 := fold_left flush_data_row m w) in *.
    assert (Hd1 : forall x, get x (data w1) = None).
    { assert (Hall : forall l w0, (forall x, get x (data w0) = None) -> (forall x, get x (write_ahead w0) = None) -> stream_ok w0 ->
          forall x, get x (data (fold_left flush_data_row l w0)) = None).
      { clear. induction l as [|n l IH]; intros w0 D0 W0 K0 x; [apply D0|]. cbn [fold_left].
        destruct (flush_data_row_fields w0 n) as (F1 & F2 & F3 & F4 & F5).
        apply IH.
        - intros y. rewrite F4, W0. reflexivity.
        - intros y. rewrite F5, get_del by apply (k_ahead w0 K0). rewrite W0. destruct (n =? y); reflexivity.
        - split.
          + rewrite F4, W0. apply table_ok_nil.
          + rewrite F5. destruct (k_ahead w0 K0) as [A B]. split; [apply del_ok; exact A|]. intros r cs.
            rewrite get_del by exact A. rewrite W0. destruct (n =? r); discriminate.
          + intros r Hg. rewrite F4, W0 in Hg. cbn in Hg. congruence.
          + intros r Hg. rewrite F5, get_del, W0 in Hg by apply (k_ahead w0 K0). destruct (n =? r); congruence.
          + rewrite F4, F5, W0. split; [intros ? ? []|]. destruct (k_emit w0 K0) as [_ B]. intros r cs Hin. apply In_del in Hin. apply B. assumption. }
      unfold w1. apply Hall; auto. intros x. destruct (get x (data w)) eqn:E; [|reflexivity]. exfalso.
      assert (x = current_row w) by (apply (k_only w H); congruence). subst x. congruence. }
    clearbody w1. rewrite <- (A3 r c). unfold pending, cdata, table_get.
    destruct (_ <=? r); [|symmetry; apply app_nil_r]. destruct (r =? _).
    + rewrite Hd1. symmetry; apply app_nil_r.
    + rewrite A5, Hn. destruct (existsb _ m); symmetry; apply app_nil_r.
Qed.
