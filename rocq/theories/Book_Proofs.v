(** Proofs about sheet names and active sheets (Book_Model). *)
From Verif Require Import Base Ref_Model Ref_Spec Ref_Proofs Quote_Proofs Book_Model Book_Spec.

Lemma dec_inj a b : dec a = dec b -> a = b.
Proof. intros E. destruct (dec_spec a) as (_ & _ & _ & Ha), (dec_spec b) as (_ & _ & _ & Hb). congruence. Qed.

Lemma existsb_str n l : existsb (str_eqb n) l = true <-> In n l.
Proof.
  rewrite existsb_exists. split.
  - intros (x & Hx & E). apply str_eqb_eq in E. subst; assumption.
  - intros H. exists n. split; [assumption|apply str_eqb_refl].
Qed.

Lemma NoDup_app_inv {A} (a b : list A) : NoDup (a ++ b) -> NoDup a /\ NoDup b /\ (forall x, In x a -> ~ In x b).
Proof.
  induction a as [|x a IH]; cbn [app]; intros H; [split; [constructor|split; [assumption|tauto]]|].
  inversion H as [|y l Hni Hn]; subst. destruct (IH Hn) as (H1 & H2 & H3). split.
  - constructor; [|assumption]. intros Hi. apply Hni. apply in_or_app; auto.
  - split; [assumption|]. intros z [->|Hz]; [|auto]. intros Hb. apply Hni, in_or_app; auto.
Qed.

Lemma NoDup_app_intro {A} (a b : list A) : NoDup a -> NoDup b -> (forall x, In x a -> ~ In x b) -> NoDup (a ++ b).
Proof.
  induction 1 as [|x a Hni Hn IH]; cbn [app]; intros Hb H; [assumption|].
  constructor.
  - rewrite in_app_iff. intros [?|?]; [contradiction|]. apply (H x); [left; reflexivity|assumption].
  - apply IH; [assumption|]. intros y Hy. apply H. right; assumption.
Qed.

Lemma dup_name_none lower l seen :
  dup_name lower seen l = None <->
  NoDup (map (fun s => lower (b_name s)) l) /\ (forall s, In s l -> ~ In (lower (b_name s)) seen).
Proof.
  revert seen; induction l as [|s l IH]; intros seen; cbn [dup_name map].
  - split; [intros _; split; [constructor|intros s []]|reflexivity].
  - destruct (existsb (str_eqb (lower (b_name s))) seen) eqn:E.
    + apply existsb_str in E. split; [discriminate|]. intros [_ H]. exfalso. apply (H s); [left; reflexivity|assumption].
    + assert (Hni : ~ In (lower (b_name s)) seen) by (intros H; apply existsb_str in H; congruence).
      rewrite IH. split.
      * intros [Hn Hs]. split.
        -- constructor; [|assumption]. intros Hi. apply in_map_iff in Hi as (t & Et & Ht).
           apply (Hs t Ht). left. congruence.
        -- intros t [->|Ht]; [assumption|]. intros Hi. apply (Hs t Ht). right; assumption.
      * intros [Hn Hs]. inversion Hn as [|x xs Hx Hn']; subst. split; [assumption|].
        intros t Ht [E2|Hi].
        -- apply Hx. apply in_map_iff. exists t. split; [congruence|assumption].
        -- apply (Hs t); [right; assumption|assumption].
Qed.

Lemma dup_name_nodup lower l :
  dup_name lower [] l = None <-> NoDup (map lower (map b_name l)).
Proof.
  rewrite dup_name_none, map_map. split; [tauto|]. intros H; split; [assumption|]. intros s _ [].
Qed.

(** Updating flags keeps names. *)
Lemma set_active_name s e : b_name (set_active s e) = b_name s.
Proof. destruct e; reflexivity. Qed.

Lemma update_nth_map {A B} (g : A -> B) (f : A -> A) l i : (forall x, g (f x) = g x) ->
  map g (update_nth l i f) = map g l.
Proof.
  intros H; revert i; induction l as [|x l IH]; intros [|i]; cbn [update_nth map]; try reflexivity.
  - rewrite H; reflexivity.
  - rewrite IH; reflexivity.
Qed.

Lemma update_nth_length {A} (f : A -> A) l i : length (update_nth l i f) = length l.
Proof. revert i; induction l as [|x l IH]; intros [|i]; cbn [update_nth length]; auto. Qed.

Lemma update_nth_same {A} (f : A -> A) l i x : nth_error l i = Some x -> nth_error (update_nth l i f) i = Some (f x).
Proof.
  revert i; induction l as [|y l IH]; intros [|i]; cbn [update_nth nth_error]; try discriminate; [congruence|auto].
Qed.

Lemma update_nth_other {A} (f : A -> A) l i j : i <> j -> nth_error (update_nth l i f) j = nth_error l j.
Proof.
  revert i j; induction l as [|y l IH]; intros [|i] [|j] H; cbn [update_nth nth_error]; try reflexivity; try congruence.
  apply IH. congruence.
Qed.

Lemma entries_names l i : map se_name (entries l i) = map b_name l.
Proof. revert i; induction l as [|s l IH]; intros i; cbn [entries map]; [reflexivity|]. rewrite IH; reflexivity. Qed.

Lemma entries_nth l i k s : nth_error l k = Some s ->
  nth_error (entries l i) k = Some {| se_name := b_name s; se_id := as_u16 (i + N.of_nat k + 1);
                                      se_state := b_visible s; se_rid := as_u16 (i + N.of_nat k + 1) |}.
Proof.
  revert i k; induction l as [|x l IH]; intros i [|k] H; cbn [nth_error entries] in *; try discriminate.
  - injection H as ->. repeat f_equal; lia.
  - rewrite (IH (i + 1) k H). do 2 f_equal; f_equal; lia.
Qed.

(** [last_flagged]: the last index satisfying the flag, or the default. *)
Lemma last_flagged_spec f l i acc :
  (existsb f l = false /\ last_flagged f l i acc = acc) \/
  (exists k s, nth_error l k = Some s /\ f s = true /\ last_flagged f l i acc = i + N.of_nat k /\
     forall j t, (k < j)%nat -> nth_error l j = Some t -> f t = false).
Proof.
  revert i acc; induction l as [|x l IH]; intros i acc; cbn [last_flagged existsb]; [left; auto|].
  destruct (IH (i + 1) (if f x then i else acc)) as [[E E2]|(k & s & Hk & Hf & E & Hlast)].
  - rewrite E, E2, orb_false_r. destruct (f x) eqn:Ef; [right|left; auto].
    exists O, x. split; [reflexivity|]. split; [assumption|]. split; [lia|].
    intros [|j] t Hj Ht; [lia|]. cbn [nth_error] in Ht.
    destruct (f t) eqn:Et; [|reflexivity].
    assert (existsb f l = true) by (apply existsb_exists; exists t; split; [eapply nth_error_In; eassumption|assumption]).
    congruence.
  - right. exists (S k), s. split; [assumption|]. split; [assumption|]. split; [lia|].
    intros [|j] t Hj Ht; [lia|]. apply (Hlast j t); [lia|assumption].
Qed.

(** The whole of [save_book], inverted. *)
Definition prepared (m : ovf) (b : book) : option book :=
  b <- (match k_sheets b with [] => add_worksheet m b | _ => Some b end) ;; Some (set_active_worksheets b).

Lemma save_ok_inv m o b b' f : save_book m o b = Some (b', SaveOk f) ->
  exists b1 own l,
    prepared m b = Some b1 /\
    dup_name (bu_lower o) [] (k_sheets b1) = None /\ chartless (k_sheets b1) = false /\
    all_sheet_dnames m o (k_sheets b1) = Some own /\
    resolve (k_sheets b1) (k_user b1 ++ own) = Some (Some l) /\
    b' = {| k_sheets := k_sheets b1; k_nws := k_nws b1; k_ncs := k_ncs b1; k_user := k_user b1;
            k_first := k_first b1; k_active := k_active b1; k_names := sort_dnames l |} /\
    write_book m b' = Some f.
Proof.
  unfold save_book, prepared. intros H.
  destruct (match k_sheets b with [] => add_worksheet m b | _ => Some b end) as [b0|] eqn:E0; [|discriminate].
  cbn [obind] in H |- *. set (b1 := set_active_worksheets b0) in *.
  destruct (dup_name (bu_lower o) [] (k_sheets b1)) eqn:E1; [discriminate|].
  destruct (chartless (k_sheets b1)) eqn:E2; [discriminate|].
  destruct (all_sheet_dnames m o (k_sheets b1)) as [own|] eqn:E3; [|discriminate]. cbn [obind] in H.
  destruct (resolve (k_sheets b1) (k_user b1 ++ own)) as [[l|]|] eqn:E4; cbn [obind] in H; try discriminate.
  exists b1, own, l. split; [reflexivity|]. split; [assumption|]. split; [assumption|].
  split; [assumption|]. split; [assumption|].
  match goal with H : obind (write_book m ?bb) _ = _ |- _ => destruct (write_book m bb) as [f'|] eqn:E5; cbn [obind] in H; [|discriminate] end.
  assert (Hf : f' = f) by congruence.
  match goal with H : Some (?bb, _) = Some (b', _) |- _ => assert (Hb : b' = bb) by congruence end.
  subst f'. subst b'. split; [reflexivity|assumption].
Qed.

Lemma write_book_inv m b f : write_book m b = Some f ->
  bf_sheets f = entries (k_sheets b) 0 /\ bf_names f = map name_entry_of (k_names b) /\
  bf_active f = (if 0 <? k_active b then Some (k_active b) else None) /\
  bf_tabs f = map b_selected (k_sheets b) /\
  (if 0 <? k_first b then exists n, add16 m (k_first b) 1 = Some n /\ bf_first f = Some n else bf_first f = None).
Proof.
  unfold write_book. destruct (0 <? k_first b) eqn:E.
  - destruct (add16 m (k_first b) 1) as [n|] eqn:E2; cbn [obind]; [|discriminate].
    intros H. injection H as <-. cbn. repeat split; auto. exists n; auto.
  - cbn [obind]. intros H. injection H as <-. cbn. repeat split; auto.
Qed.

Lemma prepared_names m b b1 : prepared m b = Some b1 -> k_sheets b <> [] ->
  map b_name (k_sheets b1) = map b_name (k_sheets b).
Proof.
  unfold prepared. destruct (k_sheets b) as [|s l] eqn:E; [congruence|]. cbn [obind]. intros H _.
  injection H as <-. cbn [set_active_worksheets k_sheets]. rewrite update_nth_map by (intros; apply set_active_name).
  rewrite E. reflexivity.
Qed.

Lemma prepared_nonempty m b b1 : prepared m b = Some b1 -> k_sheets b1 <> [].
Proof.
  unfold prepared. destruct (match k_sheets b with [] => add_worksheet m b | _ => Some b end) as [b0|] eqn:E0; [|discriminate].
  cbn [obind]. intros H. injection H as <-. cbn [set_active_worksheets k_sheets].
  assert (Hne : k_sheets b0 <> []).
  { destruct (k_sheets b) eqn:E; [|injection E0 as <-; congruence].
    unfold add_worksheet in E0. destruct (add16 m (k_nws b) 1); [|discriminate]. cbn [obind] in E0.
    destruct (validate_sheetname _); [discriminate|]. injection E0 as <-. cbn [k_sheets]. destruct (k_sheets b); discriminate. }
  intros H. apply Hne. apply length_zero_iff_nil. rewrite <- (update_nth_length (fun s => set_active s true) (k_sheets b0) (N.to_nat (last_flagged b_active (k_sheets b0) 0 0))).
  rewrite H. reflexivity.
Qed.

Lemma saved_names_distinct m o b b' f : save_book m o b = Some (b', SaveOk f) ->
  NoDup (map (bu_lower o) (map se_name (bf_sheets f))) /\
  bf_sheets f <> [] /\
  (k_sheets b <> [] -> map se_name (bf_sheets f) = map b_name (k_sheets b)).
Proof.
  intros H. apply save_ok_inv in H as (b1 & own & l & Hp & Hd & _ & _ & _ & -> & Hw).
  apply write_book_inv in Hw as (-> & _). cbn [k_sheets]. rewrite entries_names.
  split; [apply dup_name_nodup; assumption|]. split.
  - pose proof (prepared_nonempty _ _ _ Hp). destruct (k_sheets b1); [congruence|discriminate].
  - intros Hne. rewrite (prepared_names m b b1 Hp Hne). reflexivity.
Qed.

Lemma reused_iff m o b : k_sheets b <> [] ->
  ((exists b' n, save_book m o b = Some (b', SaveErr (ESheetnameReused n))) <->
   ~ NoDup (map (bu_lower o) (map b_name (k_sheets b)))).
Proof.
  intros Hne.
  assert (Hp : prepared m b = Some (set_active_worksheets b)).
  { unfold prepared. destruct (k_sheets b); [congruence|reflexivity]. }
  pose proof (prepared_names m b _ Hp Hne) as Hnames.
  unfold save_book. unfold prepared in Hp.
  destruct (match k_sheets b with [] => add_worksheet m b | _ => Some b end) as [b0|] eqn:E0; [|discriminate].
  cbn [obind] in Hp |- *. assert (Hb0 : set_active_worksheets b0 = set_active_worksheets b) by congruence.
  rewrite Hb0. clear Hp E0 Hb0 b0. set (b1 := set_active_worksheets b) in *.
  rewrite <- Hnames. destruct (dup_name (bu_lower o) [] (k_sheets b1)) as [n|] eqn:E.
  - split; [|intros _; eauto]. intros _ Hn. apply dup_name_nodup in Hn. congruence.
  - split; [|intros Hn; exfalso; apply Hn, dup_name_nodup; assumption].
    intros (b' & n & H). destruct (chartless (k_sheets b1)); [discriminate|].
    destruct (all_sheet_dnames m o (k_sheets b1)); [|discriminate]. cbn [obind] in H.
    destruct (resolve (k_sheets b1) (k_user b1 ++ l)) as [[r|]|]; cbn [obind] in H; try discriminate.
    destruct (write_book m _); discriminate.
Qed.

(** Generated names. *)
Lemma add16_cases m a n : add16 m a 1 = Some n -> a < 65536 ->
  (n = a + 1 /\ n < 65536) \/ (m = Release /\ a = 65535 /\ n = 0).
Proof.
  unfold add16, wrapN. change (2 ^ Z.of_N 16)%Z with 65536%Z. intros H Ha.
  destruct (Z.leb_spec 0 (Z.of_N a + Z.of_N 1)); cbn [andb] in H; [|lia].
  destruct (Z.ltb_spec (Z.of_N a + Z.of_N 1) 65536).
  - injection H as <-. left. lia.
  - destruct m; [discriminate|]. right. assert (a = 65535) as -> by lia. vm_compute in H. injection H as <-. auto.
Qed.

Definition auto_name (p : str) : Prop := p = lit "Sheet" \/ p = lit "Chart".

Lemma digits_value_ge_pow acc ds : acc * 10 ^ N.of_nat (length ds) <= digits_value acc ds.
Proof.
  revert acc; induction ds as [|d ds IH]; intros acc; cbn [length digits_value]; [cbn; lia|].
  specialize (IH (10 * acc + (d - 48))). rewrite Nat2N.inj_succ, N.pow_succ_r'.
  eapply N.le_trans; [|exact IH]. rewrite (N.mul_comm 10 (10 ^ _)), N.mul_assoc, (N.mul_comm (acc * _) 10), N.mul_assoc.
  apply N.mul_le_mono_r. lia.
Qed.

Lemma dec_length n : n < 10 ^ 20 -> (length (dec n) <= 20)%nat.
Proof.
  intros Hn. destruct (dec_spec n) as (Hd & Hne & Hhd & Hv).
  destruct (N.eq_dec n 0) as [->|Hnz]; [vm_compute; lia|]. specialize (Hhd ltac:(lia)).
  destruct (dec n) as [|d ds]; [congruence|]. cbn [hd] in Hhd. cbn [length digits_value forallb] in *.
  apply andb_true_iff in Hd as [Hd _]. unfold is_ascii_digit in Hd.
  pose proof (digits_value_ge_pow (10 * 0 + (d - 48)) ds) as Hge. rewrite Hv in Hge.
  assert (10 ^ N.of_nat (length ds) < 10 ^ 20).
  { eapply N.le_lt_trans; [|exact Hn]. eapply N.le_trans; [|exact Hge]. rewrite <- (N.mul_1_l (10 ^ _)) at 1.
    apply N.mul_le_mono_r. lia. }
  apply N.pow_lt_mono_r_iff in H; lia.
Qed.

Lemma auto_valid p n : auto_name p -> n < 2 ^ 64 -> valid_sheetname (p ++ dec n).
Proof.
  intros Hp Hn. destruct (dec_spec n) as (Hd & Hne & _ & Hv).
  assert (Hlen : (length (dec n) <= 20)%nat) by (apply dec_length; change (2 ^ 64) with 18446744073709551616 in Hn; lia).
  assert (Hplen : length p = 5%nat) by (destruct Hp as [->| ->]; reflexivity).
  assert (Hpc : forall c, In c p -> 65 <= c <= 122 /\ c <> 92 /\ c <> 91 /\ c <> 93).
  { intros c Hc. destruct Hp as [->| ->]; cbn in Hc; lia. }
  assert (Hdc : forall c, In c (dec n) -> 48 <= c <= 57).
  { intros c Hc. rewrite forallb_forall in Hd. specialize (Hd c Hc). unfold is_ascii_digit in Hd. lia. }
  split; [destruct Hp as [->| ->]; discriminate|]. split; [rewrite app_length; lia|]. split; [|split].
  - intros c Hc Hf. unfold forbidden_in_sheetname in Hf. cbn in Hf.
    apply in_app_or in Hc as [Hc|Hc]; [apply Hpc in Hc|apply Hdc in Hc]; lia.
  - intros r E. assert (In 39 (p ++ dec n)) as Hi by (rewrite E; left; reflexivity).
    destruct Hp as [->| ->]; cbn in E; discriminate.
  - intros r E. destruct (exists_last Hne) as (l & x & El). rewrite El, app_assoc in E.
    apply app_inj_tail in E as [_ ->]. specialize (Hdc 39). rewrite El in Hdc.
    assert (In 39 (l ++ [39])) as Hi by (apply in_or_app; right; left; reflexivity). specialize (Hdc Hi). lia.
Qed.

Lemma auto_validate p n : auto_name p -> n < 2 ^ 64 -> validate_sheetname (p ++ dec n) = None.
Proof. intros Hp Hn. apply validate_sheetname_exact. apply auto_valid; assumption. Qed.

Lemma auto_ascii p n : auto_name p -> forallb is_ascii (p ++ dec n) = true.
Proof.
  intros Hp. rewrite forallb_app. destruct (dec_spec n) as (Hd & _). rewrite (digits_ascii _ Hd).
  destruct Hp as [->| ->]; reflexivity.
Qed.

Lemma lower_digits s : forallb is_ascii_digit s = true -> map ascii_lower s = s.
Proof.
  induction s as [|c s IH]; cbn [forallb map]; [reflexivity|]. intros H. apply andb_true_iff in H as [Hc Hs].
  rewrite IH by assumption. f_equal. unfold ascii_lower, is_ascii_upper, is_ascii_digit in *.
  destruct (N.leb_spec 65 c); cbn [andb]; [lia|reflexivity].
Qed.

Lemma auto_lower_inj lower p q a b : lower_ok lower -> auto_name p -> auto_name q ->
  lower (p ++ dec a) = lower (q ++ dec b) -> p = q /\ a = b.
Proof.
  intros Hl Hp Hq E. rewrite !Hl in E by (apply auto_ascii; assumption).
  rewrite !map_app, (lower_digits (dec a)), (lower_digits (dec b)) in E by apply dec_spec.
  destruct Hp as [->| ->], Hq as [->| ->]; cbn in E; try discriminate; injection E as E; apply dec_inj in E; auto.
Qed.

(** The names that add_worksheet and add_chartsheet produced during a history
    (save on an empty workbook also adds one). *)
Definition new_last (b b' : book) : list str :=
  match skipn (length (k_sheets b)) (k_sheets b') with s :: _ => [b_name s] | [] => [] end.
Definition generated_by (b b' : book) (op : bop) : list str :=
  match op with
  | OAdd | OAddChart => new_last b b'
  | OSave => match k_sheets b with [] => new_last b b' | _ => [] end
  | _ => []
  end.
Fixpoint generated (m : ovf) (o : bunicode) (b : book) (l : list bop) : list str :=
  match l with
  | [] => []
  | op :: r => match book_op m o b op with
               | Some b' => generated_by b b' op ++ generated m o b' r
               | None => []
               end
  end.

Lemma save_book_state m o b b' r : save_book m o b = Some (b', r) ->
  exists b1, prepared m b = Some b1 /\ k_sheets b' = k_sheets b1 /\ k_nws b' = k_nws b1 /\
    k_ncs b' = k_ncs b1 /\ k_user b' = k_user b1 /\ k_first b' = k_first b1 /\ k_active b' = k_active b1.
Proof.
  unfold save_book, prepared. intros H.
  destruct (match k_sheets b with [] => add_worksheet m b | _ => Some b end) as [b0|]; [|discriminate].
  cbn [obind] in H |- *. exists (set_active_worksheets b0). split; [reflexivity|].
  set (b1 := set_active_worksheets b0) in *.
  destruct (dup_name (bu_lower o) [] (k_sheets b1)). { assert (b' = b1) as -> by congruence. auto 10. }
  destruct (chartless (k_sheets b1)). { assert (b' = b1) as -> by congruence. auto 10. }
  destruct (all_sheet_dnames m o (k_sheets b1)) as [own|]; [|discriminate]. cbn [obind] in H.
  destruct (resolve (k_sheets b1) (k_user b1 ++ own)) as [[l|]|]; cbn [obind] in H; try discriminate.
  - match goal with H : obind (write_book m ?bb) _ = _ |- _ => destruct (write_book m bb) as [f'|]; cbn [obind] in H; [|discriminate] end.
    match goal with H : Some (?bb, _) = Some (b', _) |- _ => assert (Hb : b' = bb) by congruence end.
    rewrite Hb. cbn [k_sheets k_nws k_ncs k_user k_first k_active]. auto 10.
  - assert (b' = b1) as -> by congruence. auto 10.
Qed.

Lemma add_worksheet_inv m b b' : add_worksheet m b = Some b' ->
  exists n, add16 m (k_nws b) 1 = Some n /\
    k_sheets b' = k_sheets b ++ [b_set_name (bsheet_new false) (lit "Sheet" ++ dec n)] /\
    k_nws b' = n /\ k_ncs b' = k_ncs b /\ k_user b' = k_user b /\ k_first b' = k_first b.
Proof.
  unfold add_worksheet. destruct (add16 m (k_nws b) 1) as [n|]; cbn [obind]; [|discriminate].
  destruct (validate_sheetname _); [discriminate|]. intros H.
  match goal with H : Some ?bb = Some b' |- _ => assert (Hb : b' = bb) by congruence end. rewrite Hb.
  exists n. auto 10.
Qed.
Lemma add_chartsheet_inv m b b' : add_chartsheet m b = Some b' ->
  exists n, add16 m (k_ncs b) 1 = Some n /\
    k_sheets b' = k_sheets b ++ [b_set_name (bsheet_new true) (lit "Chart" ++ dec n)] /\
    k_nws b' = k_nws b /\ k_ncs b' = n /\ k_user b' = k_user b /\ k_first b' = k_first b.
Proof.
  unfold add_chartsheet. destruct (add16 m (k_ncs b) 1) as [n|]; cbn [obind]; [|discriminate].
  destruct (validate_sheetname _); [discriminate|]. intros H.
  match goal with H : Some ?bb = Some b' |- _ => assert (Hb : b' = bb) by congruence end. rewrite Hb.
  exists n. auto 10.
Qed.

Lemma push_counters b s b' : push_worksheet b s = Some b' -> k_nws b' = k_nws b /\ k_ncs b' = k_ncs b.
Proof.
  unfold push_worksheet. destruct (b_name s).
  - destruct (validate_sheetname _); [discriminate|]. intros H.
    match goal with H : Some ?bb = Some b' |- _ => assert (Hb : b' = bb) by congruence end. rewrite Hb. auto.
  - intros H. match goal with H : Some ?bb = Some b' |- _ => assert (Hb : b' = bb) by congruence end. rewrite Hb. auto.
Qed.

Lemma define_counters o b n f b' r : define_name o b n f = Some (b', r) ->
  k_nws b' = k_nws b /\ k_ncs b' = k_ncs b /\ k_sheets b' = k_sheets b.
Proof.
  unfold define_name. destruct (match split_bang n with Some (sh, n0) => (sh, n0, DLocal) | None => ([], n, DGlobal) end) as [[sh nm] ty].
  destruct nm as [|c nm]; [discriminate|].
  destruct (negb (bu_alpha o c) && negb (c =? 95) && negb (c =? 92)).
  { intros H. assert (b' = b) as -> by congruence. auto. }
  destruct (existsb _ (c :: nm)).
  { intros H. assert (b' = b) as -> by congruence. auto. }
  intros H. match goal with H : Some (?bb, _) = Some (b', _) |- _ => assert (Hb : b' = bb) by congruence end. rewrite Hb. auto.
Qed.

Lemma skipn_app_exact {A} (a b : list A) : skipn (length a) (a ++ b) = b.
Proof. induction a; cbn [length skipn app]; auto. Qed.

(** Every operation either leaves the counters alone and generates nothing, or
    bumps one counter and generates the corresponding name. *)
Lemma op_generates m o b op b' : book_op m o b op = Some b' ->
  (k_nws b' = k_nws b /\ k_ncs b' = k_ncs b /\ generated_by b b' op = []) \/
  (add16 m (k_nws b) 1 = Some (k_nws b') /\ k_ncs b' = k_ncs b /\
     generated_by b b' op = [lit "Sheet" ++ dec (k_nws b')]) \/
  (add16 m (k_ncs b) 1 = Some (k_ncs b') /\ k_nws b' = k_nws b /\
     generated_by b b' op = [lit "Chart" ++ dec (k_ncs b')]).
Proof.
  destruct op; cbn [book_op]; intros H.
  - apply add_worksheet_inv in H as (n & En & Es & Hn & Hc & _). right; left. rewrite Hn.
    split; [assumption|]. split; [assumption|]. cbn [generated_by]. unfold new_last. rewrite Es, skipn_app_exact. reflexivity.
  - apply add_chartsheet_inv in H as (n & En & Es & Hn & Hc & _). right; right. rewrite Hc.
    split; [assumption|]. split; [assumption|]. cbn [generated_by]. unfold new_last. rewrite Es, skipn_app_exact. reflexivity.
  - apply push_counters in H as [-> ->]. left. auto.
  - left. assert (Hb : b' = k_with_sheets b (update_nth (k_sheets b) i (fun s => fst (sheet_op s o0)))) by congruence. rewrite Hb. auto.
  - left. assert (Hb : b' = k_with_sheets b (flat_map (vec_item (k_sheets b)) l)) by congruence. rewrite Hb. auto.
  - left. destruct (define_name o b name formula) as [[b2 r]|] eqn:E; cbn [obind fst] in H; [|discriminate].
    assert (b2 = b') as -> by congruence. apply define_counters in E as (-> & -> & _). auto.
  - destruct (save_book m o b) as [[b2 r]|] eqn:E; cbn [obind fst] in H; [|discriminate].
    assert (b2 = b') as -> by congruence. clear H. apply save_book_state in E as (b1 & Hp & Hs & Hn & Hc & _).
    unfold prepared in Hp. cbn [generated_by]. destruct (k_sheets b) as [|s l] eqn:Eb.
    + destruct (add_worksheet m b) as [b0|] eqn:Ea; [|discriminate]. cbn [obind] in Hp.
      assert (b1 = set_active_worksheets b0) as -> by congruence.
      apply add_worksheet_inv in Ea as (n & En & Es & Hn' & Hc' & _). right; left.
      cbn [set_active_worksheets k_nws k_ncs] in Hn, Hc. rewrite Hn, Hn'. split; [assumption|]. split; [congruence|].
      unfold new_last. rewrite Hs, Eb. cbn [set_active_worksheets k_sheets length skipn]. rewrite Es, Eb. reflexivity.
    + cbn [obind] in Hp. assert (b1 = set_active_worksheets b) as -> by congruence. left.
      rewrite Hn, Hc. auto.
Qed.

Definition in_gen (m : ovf) (nws ncs : N) (s : str) : Prop :=
  (exists n, nws < n /\ s = lit "Sheet" ++ dec n) \/ (exists n, ncs < n /\ s = lit "Chart" ++ dec n).

Lemma generated_fresh m o l : forall b, k_nws b < 65536 -> k_ncs b < 65536 ->
  (m = Release -> k_nws b + N.of_nat (length l) < 65536 /\ k_ncs b + N.of_nat (length l) < 65536) ->
  forall lower, lower_ok lower ->
  (forall s, In s (generated m o b l) -> in_gen m (k_nws b) (k_ncs b) s) /\
  NoDup (map lower (generated m o b l)).
Proof.
  induction l as [|op l IH]; intros b Hw Hc Hr lower Hl; cbn [generated]; [split; [intros s []|constructor]|].
  destruct (book_op m o b op) as [b'|] eqn:E; [|split; [intros s []|constructor]].
  cbn [length] in Hr. rewrite Nat2N.inj_succ in Hr.
  assert (Hstep : k_nws b' < 65536 /\ k_ncs b' < 65536 /\ k_nws b <= k_nws b' /\ k_ncs b <= k_ncs b' /\
    (m = Release -> k_nws b' + N.of_nat (length l) < 65536 /\ k_ncs b' + N.of_nat (length l) < 65536) /\
    (generated_by b b' op = [] \/
     (k_nws b < k_nws b' /\ generated_by b b' op = [lit "Sheet" ++ dec (k_nws b')]) \/
     (k_ncs b < k_ncs b' /\ generated_by b b' op = [lit "Chart" ++ dec (k_ncs b')]))).
  { destruct (op_generates m o b op b' E) as [(-> & -> & Eg)|[(En & -> & Eg)|(En & -> & Eg)]].
    - repeat split; auto; try lia; try (intros Hm; specialize (Hr Hm); lia).
    - apply add16_cases in En as [[En Hb]|(Hm & Hb & _)]; [|specialize (Hr Hm); lia|lia].
      repeat split; try lia; try (intros Hm; specialize (Hr Hm); lia). right; left; split; [lia|assumption].
    - apply add16_cases in En as [[En Hb]|(Hm & Hb & _)]; [|specialize (Hr Hm); lia|lia].
      repeat split; try lia; try (intros Hm; specialize (Hr Hm); lia). right; right; split; [lia|assumption]. }
  destruct Hstep as (Hw' & Hc' & Hlew & Hlec & Hr' & Hg).
  destruct (IH b' Hw' Hc' Hr' lower Hl) as [Hin Hnd].
  assert (Hfresh : forall p n, auto_name p -> (p = lit "Sheet" -> n <= k_nws b') -> (p = lit "Chart" -> n <= k_ncs b') ->
      ~ In (lower (p ++ dec n)) (map lower (generated m o b' l))).
  { intros p n Hp H1 H2 Hi. apply in_map_iff in Hi as (s & Es & Hs).
    apply Hin in Hs as [(k & Hk & ->)|(k & Hk & ->)]; symmetry in Es.
    - apply (auto_lower_inj lower p (lit "Sheet") n k Hl Hp (or_introl eq_refl)) in Es as [Ep En]. specialize (H1 Ep). lia.
    - apply (auto_lower_inj lower p (lit "Chart") n k Hl Hp (or_intror eq_refl)) in Es as [Ep En]. specialize (H2 Ep). lia. }
  assert (Hup : forall s, In s (generated m o b' l) -> in_gen m (k_nws b) (k_ncs b) s).
  { intros s Hs. apply Hin in Hs as [(k & Hk & ->)|(k & Hk & ->)]; [left|right]; exists k; (split; [lia|reflexivity]). }
  destruct Hg as [->|[[Hlt ->]|[Hlt ->]]]; cbn [app map].
  - auto.
  - split.
    + intros s [<-|Hs]; [left; exists (k_nws b'); auto|auto].
    + constructor; [|assumption]. apply (Hfresh (lit "Sheet")); [left; reflexivity|intros; lia|intros Ep; discriminate Ep].
  - split.
    + intros s [<-|Hs]; [right; exists (k_ncs b'); auto|auto].
    + constructor; [|assumption]. apply (Hfresh (lit "Chart")); [right; reflexivity|intros Ep; discriminate Ep|intros; lia].
Qed.

(** Generated names never panic. *)
Lemma add_worksheet_total m b : k_nws b < 65535 -> exists b', add_worksheet m b = Some b'.
Proof.
  intros H. unfold add_worksheet. rewrite add16_ok by lia. cbn [obind].
  rewrite auto_validate; [eexists; reflexivity|left; reflexivity|change (2 ^ 64) with 18446744073709551616; lia].
Qed.
Lemma add_chartsheet_total m b : k_ncs b < 65535 -> exists b', add_chartsheet m b = Some b'.
Proof.
  intros H. unfold add_chartsheet. rewrite add16_ok by lia. cbn [obind].
  rewrite auto_validate; [eexists; reflexivity|right; reflexivity|change (2 ^ 64) with 18446744073709551616; lia].
Qed.
Lemma push_total b s : N.of_nat (length (k_sheets b)) < 2 ^ 64 - 1 -> exists b', push_worksheet b s = Some b'.
Proof.
  intros H. unfold push_worksheet. destruct (b_name s); [|eexists; reflexivity].
  rewrite auto_validate; [eexists; reflexivity|left; reflexivity|]. change (2 ^ 64) with 18446744073709551616 in *; lia.
Qed.

(** Histories that only add sheets and never rename, push or touch the vector:
    all names are generated ones, so save never reports a duplicate. *)
Definition no_rename (op : bop) : Prop :=
  match op with
  | OPush _ _ | OVec _ => False
  | OSheet _ (SName _) => False
  | _ => True
  end.

Lemma sheet_op_name s so : (forall n, so <> SName n) -> b_name (fst (sheet_op s so)) = b_name s.
Proof.
  intros H. destruct so; cbn [sheet_op]; try (exfalso; eapply H; reflexivity);
    repeat match goal with |- context [if ?c then _ else _] => destruct c end; cbn [fst]; try reflexivity.
  all: try (destruct e; reflexivity).
Qed.

Lemma save_names m o b b' r : save_book m o b = Some (b', r) -> k_sheets b <> [] ->
  map b_name (k_sheets b') = map b_name (k_sheets b).
Proof.
  intros H Hne. apply save_book_state in H as (b1 & Hp & -> & _). apply (prepared_names m b b1 Hp Hne).
Qed.

Lemma add_only_names m o l : Forall no_rename l -> forall b b', book_run m o b l = Some b' ->
  map b_name (k_sheets b') = map b_name (k_sheets b) ++ generated m o b l.
Proof.
  induction 1 as [|op l Hop Hl IH]; intros b b' H; cbn [book_run generated] in *.
  - assert (b' = b) as -> by congruence. rewrite app_nil_r. reflexivity.
  - destruct (book_op m o b op) as [b1|] eqn:E; cbn [obind] in H; [|discriminate].
    rewrite (IH b1 b' H), app_assoc. f_equal. clear IH H.
    destruct op as [| | | i so | | n f |]; cbn [book_op no_rename] in *; try contradiction.
    + apply add_worksheet_inv in E as (n & _ & Es & _). cbn [generated_by]. unfold new_last.
      rewrite Es, skipn_app_exact, map_app. reflexivity.
    + apply add_chartsheet_inv in E as (n & _ & Es & _). cbn [generated_by]. unfold new_last.
      rewrite Es, skipn_app_exact, map_app. reflexivity.
    + cbn [generated_by]. rewrite app_nil_r.
      assert (Hb : b1 = k_with_sheets b (update_nth (k_sheets b) i (fun s => fst (sheet_op s so)))) by congruence.
      rewrite Hb. cbn [k_with_sheets k_sheets]. apply update_nth_map.
      intros x. apply sheet_op_name. intros n ->. exact Hop.
    + cbn [generated_by]. rewrite app_nil_r. destruct (define_name o b n f) as [[b2 r]|] eqn:Ed; cbn [obind fst] in E; [|discriminate].
      assert (b2 = b1) as -> by congruence. apply define_counters in Ed as (_ & _ & ->). reflexivity.
    + destruct (save_book m o b) as [[b2 r]|] eqn:Es; cbn [obind fst] in E; [|discriminate].
      assert (b2 = b1) as -> by congruence. cbn [generated_by].
      destruct (k_sheets b) as [|s0 l0] eqn:Eb.
      * apply save_book_state in Es as (b0 & Hp & Hs & _). unfold prepared in Hp. rewrite Eb in Hp.
        destruct (add_worksheet m b) as [b3|] eqn:Ea; [|discriminate]. cbn [obind] in Hp.
        assert (b0 = set_active_worksheets b3) as -> by congruence.
        apply add_worksheet_inv in Ea as (n & _ & Es3 & _). unfold new_last. rewrite Hs, Eb.
        cbn [set_active_worksheets k_sheets length skipn]. rewrite Es3, Eb. reflexivity.
      * rewrite app_nil_r, <- Eb. apply (save_names m o b b1 r Es). congruence.
Qed.

(** Names are valid unless sheets are pushed straight into the vector. *)
Lemma sheet_op_valid s so : valid_sheetname (b_name s) -> valid_sheetname (b_name (fst (sheet_op s so))).
Proof.
  intros H. destruct so; try (rewrite sheet_op_name; [assumption|intros; discriminate]).
  cbn [sheet_op]. destruct (validate_sheetname n) eqn:E; cbn [fst]; [assumption|].
  cbn [b_set_name b_name]. apply validate_sheetname_exact; assumption.
Qed.

Lemma sheet_ops_name c ops : b_name (sheet_ops (bsheet_new c) ops) = [] \/ valid_sheetname (b_name (sheet_ops (bsheet_new c) ops)).
Proof.
  unfold sheet_ops. assert (H : forall s, b_name s = [] \/ valid_sheetname (b_name s) ->
    b_name (fold_left (fun s o => fst (sheet_op s o)) ops s) = [] \/ valid_sheetname (b_name (fold_left (fun s o => fst (sheet_op s o)) ops s))).
  { induction ops as [|so ops IH]; intros s Hs; cbn [fold_left]; [assumption|]. apply IH.
    destruct Hs as [Hs|Hs]; [|right; apply sheet_op_valid; assumption].
    destruct so; try (left; rewrite sheet_op_name; [assumption|intros; discriminate]).
    cbn [sheet_op]. destruct (validate_sheetname n) eqn:E; cbn [fst]; [left; assumption|].
    right. cbn [b_set_name b_name]. apply validate_sheetname_exact; assumption. }
  apply H. left. reflexivity.
Qed.

Definition all_valid (b : book) : Prop := Forall (fun s => valid_sheetname (b_name s)) (k_sheets b).
(** Direct insertion through worksheets_mut() of a sheet that was never named. *)
Definition vec_ok (op : bop) : Prop :=
  match op with
  | OVec l => forall c ops, In (VNew c ops) l -> b_name (sheet_ops (bsheet_new c) ops) <> []
  | _ => True
  end.

Lemma update_nth_Forall {A} (P : A -> Prop) f l i : Forall P l -> (forall x, P x -> P (f x)) -> Forall P (update_nth l i f).
Proof. intros H Hf; revert i; induction H; intros [|i]; cbn [update_nth]; constructor; auto. Qed.

Lemma all_valid_names b b' : map b_name (k_sheets b') = map b_name (k_sheets b) -> all_valid b -> all_valid b'.
Proof.
  unfold all_valid. intros E H. rewrite Forall_forall in *. intros s Hs.
  assert (In (b_name s) (map b_name (k_sheets b))) as Hi by (rewrite <- E; apply in_map; assumption).
  apply in_map_iff in Hi as (t & <- & Ht). auto.
Qed.

Lemma op_valid m o b op b' : k_nws b < 65536 -> k_ncs b < 65536 -> N.of_nat (length (k_sheets b)) < 2 ^ 64 - 1 ->
  vec_ok op -> all_valid b -> book_op m o b op = Some b' -> all_valid b'.
Proof.
  intros Hw Hc Hlen Hv H E.
  assert (Hadd : forall b b', k_nws b < 65536 -> all_valid b -> add_worksheet m b = Some b' -> all_valid b').
  { clear. intros b b' Hw H E. apply add_worksheet_inv in E as (n & En & Es & _). unfold all_valid. rewrite Es.
    apply Forall_app. split; [assumption|]. constructor; [|constructor]. cbn [b_set_name b_name].
    apply auto_valid; [left; reflexivity|]. apply add16_cases in En; [|assumption]. change (2 ^ 64) with 18446744073709551616. lia. }
  destruct op; cbn [book_op vec_ok] in *.
  - eapply Hadd; eauto.
  - apply add_chartsheet_inv in E as (n & En & Es & _). unfold all_valid. rewrite Es.
    apply Forall_app. split; [assumption|]. constructor; [|constructor]. cbn [b_set_name b_name].
    apply auto_valid; [right; reflexivity|]. apply add16_cases in En; [|assumption]. change (2 ^ 64) with 18446744073709551616. lia.
  - unfold push_worksheet in E. destruct (sheet_ops_name chartsheet ops) as [Hn|Hn].
    + rewrite Hn in E. destruct (validate_sheetname (lit "Sheet" ++ dec (N.of_nat (length (k_sheets b)) + 1))) eqn:Ev; [discriminate|].
      match goal with H : Some ?bb = Some b' |- _ => assert (Hb : b' = bb) by congruence end. rewrite Hb.
      unfold all_valid. cbn [k_with_sheets k_sheets]. apply Forall_app. split; [assumption|]. constructor; [|constructor].
      cbn [b_set_name b_name]. apply validate_sheetname_exact; assumption.
    + destruct (b_name (sheet_ops (bsheet_new chartsheet) ops)) eqn:En; [destruct Hn as [Hn _]; congruence|].
      match goal with H : Some ?bb = Some b' |- _ => assert (Hb : b' = bb) by congruence end. rewrite Hb.
      unfold all_valid. cbn [k_with_sheets k_sheets]. apply Forall_app. split; [assumption|]. constructor; [|constructor].
      rewrite En. assumption.
  - assert (Hb : b' = k_with_sheets b (update_nth (k_sheets b) i (fun s => fst (sheet_op s o0)))) by congruence.
    rewrite Hb. unfold all_valid. cbn [k_with_sheets k_sheets]. apply update_nth_Forall; [assumption|].
    intros; apply sheet_op_valid; assumption.
  - assert (Hb : b' = k_with_sheets b (flat_map (vec_item (k_sheets b)) l)) by congruence. rewrite Hb.
    unfold all_valid. cbn [k_with_sheets k_sheets]. rewrite Forall_forall. intros s Hs.
    apply in_flat_map in Hs as (v & Hv2 & Hs). destruct v as [i|c ops]; cbn [vec_item] in Hs.
    + destruct (nth_error (k_sheets b) i) eqn:En; [|destruct Hs]. destruct Hs as [<-|[]].
      unfold all_valid in H. rewrite Forall_forall in H. apply H. eapply nth_error_In; eassumption.
    + destruct Hs as [<-|[]]. destruct (sheet_ops_name c ops) as [Hn|Hn]; [exfalso; apply (Hv c ops Hv2 Hn)|assumption].
  - destruct (define_name o b name formula) as [[b2 r]|] eqn:Ed; cbn [obind fst] in E; [|discriminate].
    assert (b2 = b') as -> by congruence. apply define_counters in Ed as (_ & _ & Es). unfold all_valid. rewrite Es. assumption.
  - destruct (save_book m o b) as [[b2 r]|] eqn:Es; cbn [obind fst] in E; [|discriminate].
    assert (b2 = b') as -> by congruence. clear E. apply save_book_state in Es as (b1 & Hp & Hs & _).
    assert (Hv1 : all_valid b1).
    { unfold prepared in Hp. destruct (match k_sheets b with [] => add_worksheet m b | _ => Some b end) as [b0|] eqn:E0; [|discriminate].
      cbn [obind] in Hp. assert (b1 = set_active_worksheets b0) as -> by congruence.
      apply (all_valid_names b0); [cbn [set_active_worksheets k_sheets]; apply update_nth_map; intros; apply set_active_name|].
      destruct (k_sheets b); [eapply Hadd; eauto|]. congruence. }
    unfold all_valid in *. rewrite Hs. assumption.
Qed.

(** Active sheet. *)
Lemma prepared_active m b b1 : prepared m b = Some b1 -> N.of_nat (length (k_sheets b1)) <= 65536 ->
  exists s, nth_error (k_sheets b1) (N.to_nat (k_active b1)) = Some s /\
    b_active s = true /\ b_selected s = true /\ b_visible s = VDefault.
Proof.
  intros Hp Hlen. pose proof (prepared_nonempty _ _ _ Hp) as Hne. unfold prepared in Hp.
  destruct (match k_sheets b with [] => add_worksheet m b | _ => Some b end) as [b0|]; [|discriminate].
  cbn [obind] in Hp. assert (b1 = set_active_worksheets b0) as -> by congruence. clear Hp.
  cbn [set_active_worksheets k_sheets k_active] in *. rewrite update_nth_length in Hlen.
  assert (Hne0 : k_sheets b0 <> []). { intros E. apply Hne. rewrite E. reflexivity. }
  assert (Hex : exists s, nth_error (k_sheets b0) (N.to_nat (last_flagged b_active (k_sheets b0) 0 0)) = Some s /\
                last_flagged b_active (k_sheets b0) 0 0 < 65536).
  { destruct (last_flagged_spec b_active (k_sheets b0) 0 0) as [[_ ->]|(k & s & Hk & _ & -> & _)].
    - destruct (k_sheets b0) as [|s l]; [congruence|]. exists s. split; [reflexivity|lia].
    - exists s. rewrite N.add_0_l, Nat2N.id. split; [assumption|].
      assert (k < length (k_sheets b0))%nat by (apply nth_error_Some; congruence). lia. }
  destruct Hex as (s & Hs & Hlt). unfold as_u16. rewrite N.mod_small by assumption.
  exists (set_active s true). split; [|auto]. exact (update_nth_same (fun s => set_active s true) _ _ _ Hs).
Qed.
