(** Property C42: chart data caches. *)
From Verif Require Import Base SMap F64 Fmt_Model Sst_Model Cells_Model Cells_Spec Cells_Inv Cells_Proofs Cells_Proofs2 Cells_Hist
  Props_Border Cache_Model.

(** What the worksheet holds in a cell. *)
Definition value_at (w : ws) (r c : N) : option value := option_map (fun x => contents (fst x)) (table_get r c (data w)).
(** The text promised for a point: the text of a string cell, the number of a
    number or date cell, nothing otherwise. *)
Definition point (num_text : f64 -> str) (v : option value) : str :=
  match v with Some (VText s) => s | Some (VNumber x) | Some (VDateTime x) => num_text x | _ => [] end.
Definition row_in_use (w : ws) (r : N) : Prop := exists c x, table_get r c (data w) = Some x.

Section Cache.
Variable num_text : f64 -> str.

(** In a standard worksheet text is never stored inline. *)
Definition no_inline (w : ws) : Prop := forall r c s x, table_get r c (data w) <> Some (CInline s, x).
Lemma std_no_inline ops : no_inline (run ws_standard ops).
Proof.
  intros r c s x H. destruct (std_run ops ws_standard std_start) as [S _]. pose proof (d_cells _ S) as (HC & _ & _).
  unfold table_get in H. destruct (get r _) as [cs|] eqn:Er; [|discriminate].
  pose proof (all_cols_get _ _ _ _ _ _ (all_table_get _ _ _ _ HC Er) H) as [_ K]. cbn in K.
  destruct (run_keeps ops _ (ws_new_wcells false false false [format_default] sst_new)) as [_ K2].
  pose proof K2 as K3. unfold ws_standard in *. destruct K as [K _]. revert K. rewrite (proj1 K3). discriminate.
Qed.

Lemma cache_cols_data w r cs cols : no_inline w -> get r (data w) = Some cs -> forall k,
  c_data (cache_cols num_text cs cols k) = c_data k ++ map (fun c => point num_text (value_at w r c)) cols.
Proof.
  intros NI E. induction cols as [|c cols IH]; intros k; cbn [cache_cols map]; [rewrite app_nil_r; reflexivity|].
  destruct (cache_cell num_text (c_type k) (get c cs)) as [t s] eqn:EC. rewrite IH. cbn [c_data]. rewrite <- app_assoc. cbn [app].
  f_equal. f_equal. pose proof (NI r c) as I. unfold value_at. unfold table_get in *. rewrite E in *.
  destruct (get c cs) as [[[] x]|]; cbn in EC |- *; try congruence; inversion EC; try reflexivity.
  exfalso. eapply I. reflexivity.
Qed.
Lemma no_row_blank w r cols : get r (data w) = None -> map (fun c => point num_text (value_at w r c)) cols = map (fun _ => []) cols.
Proof. intros E. apply map_ext. intros c. unfold value_at, table_get. rewrite E. reflexivity. Qed.
Lemma cache_rows_data w cols rows : no_inline w ->
  (forall r, In r rows -> row_in_use w r) \/ length cols = 1%nat -> forall k,
  c_data (cache_rows num_text w cols rows k) =
  c_data k ++ flat_map (fun r => map (fun c => point num_text (value_at w r c)) cols) rows.
Proof.
  intros NI H. induction rows as [|r rows IH]; intros k; cbn [cache_rows flat_map]; [rewrite app_nil_r; reflexivity|].
  rewrite IH by (destruct H as [H|H]; [left; intros; apply H; right; assumption|right; assumption]). rewrite app_assoc. f_equal.
  destruct (get r (data w)) as [cs|] eqn:E; [apply cache_cols_data; assumption|].
  cbn [c_data]. f_equal. rewrite no_row_blank by assumption. destruct H as [H|H].
  - destruct (H r) as (c & x & Hx); [left; reflexivity|]. unfold table_get in Hx. rewrite E in Hx. discriminate.
  - destruct cols as [|c [|]]; try discriminate. reflexivity.
Qed.

(** The points are the values of the cells of the range, row by row, one per
    cell, and empty where nothing is stored.
    Partial: every row of the range must hold some cell, or the range be a single
    column; and text written with write_rich_string, booleans and formula results
    are cached as empty (see the refutations below). *)
Theorem C42_points_in_row_major_order_partial ops fr fc lr lc :
  let w := run ws_standard ops in
  (forall r, fr <= r <= lr -> row_in_use w r) \/ fc = lc ->
  c_data (get_cache_data num_text w fr fc lr lc) = map (fun p => point num_text (value_at w (fst p) (snd p))) (range_cells fr fc lr lc).
Proof.
  cbv zeta. intros H. unfold get_cache_data. rewrite cache_rows_data; [|apply std_no_inline|].
  - cbn [cache_new c_data app]. unfold range_cells. rewrite flat_map_flat. apply flat_map_ext. intros r. rewrite map_map. reflexivity.
  - destruct H as [H|H]; [left; intros r Hr; apply H, range_incl_In; assumption|].
    right. subst. rewrite range_incl_self. reflexivity.
Qed.

(** The kind of the cache. *)
Definition is_text (v : option value) : Prop := exists s, v = Some (VText s).
Definition is_num (v : option value) : Prop := exists x, v = Some (VNumber x).
Definition is_date (v : option value) : Prop := exists x, v = Some (VDateTime x).
Definition kind_ok (t : cache_type) (l : list (option value)) : Prop :=
  match t with
  | TString => exists v, In v l /\ is_text v
  | TNone => forall v, In v l -> ~ is_text v /\ ~ is_num v /\ ~ is_date v
  | TNumber => (forall v, In v l -> ~ is_text v) /\ exists a v b, l = a ++ v :: b /\ is_num v /\ forall v', In v' b -> ~ is_date v'
  | TDate => (forall v, In v l -> ~ is_text v) /\ exists a v b, l = a ++ v :: b /\ is_date v /\ forall v', In v' b -> ~ is_num v'
  end.
Lemma kind_skip t l v : ~ is_text v -> ~ is_num v -> ~ is_date v -> kind_ok t l -> kind_ok t (l ++ [v]).
Proof.
  intros T M D. destruct t; cbn [kind_ok].
  - intros H v' Hv. apply in_app_iff in Hv as [|[<-|[]]]; auto.
  - intros (v' & Hi & Hs). exists v'. split; [apply in_app_iff; auto|assumption].
  - intros [H (a & x & b & -> & Hx & Hb)]. split; [intros v' Hv; apply in_app_iff in Hv as [|[<-|[]]]; auto|].
    exists a, x, (b ++ [v]). rewrite <- app_assoc. split; [reflexivity|]. split; [assumption|].
    intros v' Hv. apply in_app_iff in Hv as [|[<-|[]]]; auto.
  - intros [H (a & x & b & -> & Hx & Hb)]. split; [intros v' Hv; apply in_app_iff in Hv as [|[<-|[]]]; auto|].
    exists a, x, (b ++ [v]). rewrite <- app_assoc. split; [reflexivity|]. split; [assumption|].
    intros v' Hv. apply in_app_iff in Hv as [|[<-|[]]]; auto.
Qed.
Ltac none := let x := fresh in intros [x ?]; discriminate.
Lemma kind_skip' t l v : (v = None \/ exists u, v = Some u /\ (forall s, u <> VText s) /\ (forall x, u <> VNumber x) /\ (forall x, u <> VDateTime x)) ->
  kind_ok t l -> kind_ok t (l ++ [v]).
Proof.
  intros [->|(u & -> & A & B & C)]; apply kind_skip; try none; intros [y E]; injection E as ->; [eapply A|eapply B|eapply C]; reflexivity.
Qed.
Lemma kind_num t l x : kind_ok t l -> kind_ok (match t with TString => TString | _ => TNumber end) (l ++ [Some (VNumber x)]).
Proof.
  assert (G : (forall v, In v l -> ~ is_text v) -> kind_ok TNumber (l ++ [Some (VNumber x)])).
  { intros H. cbn [kind_ok]. split; [intros v Hv; apply in_app_iff in Hv as [|[<-|[]]]; [auto|none]|].
    exists l, (Some (VNumber x)), []. split; [reflexivity|]. split; [eexists; reflexivity|]. intros v' []. }
  destruct t; cbn [kind_ok] in *.
  - intros H. apply G. intros v Hv. apply H. assumption.
  - intros (v & Hi & Hs). exists v. split; [apply in_app_iff; auto|assumption].
  - intros [H _]. apply G. assumption.
  - intros [H _]. apply G. assumption.
Qed.
Lemma kind_date t l x : kind_ok t l -> kind_ok (match t with TString => TString | _ => TDate end) (l ++ [Some (VDateTime x)]).
Proof.
  assert (G : (forall v, In v l -> ~ is_text v) -> kind_ok TDate (l ++ [Some (VDateTime x)])).
  { intros H. cbn [kind_ok]. split; [intros v Hv; apply in_app_iff in Hv as [|[<-|[]]]; [auto|none]|].
    exists l, (Some (VDateTime x)), []. split; [reflexivity|]. split; [eexists; reflexivity|]. intros v' []. }
  destruct t; cbn [kind_ok] in *.
  - intros H. apply G. intros v Hv. apply H. assumption.
  - intros (v & Hi & Hs). exists v. split; [apply in_app_iff; auto|assumption].
  - intros [H _]. apply G. assumption.
  - intros [H _]. apply G. assumption.
Qed.
Lemma cache_cols_kind w r cs cols : no_inline w -> get r (data w) = Some cs -> forall k l, kind_ok (c_type k) l ->
  kind_ok (c_type (cache_cols num_text cs cols k)) (l ++ map (fun c => value_at w r c) cols).
Proof.
  intros NI E. induction cols as [|c cols IH]; intros k l H; cbn [cache_cols map]; [rewrite app_nil_r; assumption|].
  destruct (cache_cell num_text (c_type k) (get c cs)) as [t s] eqn:EC.
  change (value_at w r c :: map (fun c0 => value_at w r c0) cols) with ([value_at w r c] ++ map (fun c0 => value_at w r c0) cols).
  rewrite app_assoc. apply IH. cbn [c_type].
  pose proof (NI r c) as I. unfold value_at. unfold table_get in *. rewrite E in *.
  destruct (get c cs) as [[[] x]|]; cbn in EC |- *; inversion EC; subst; clear EC;
    try (apply kind_skip'; [right; eexists; split; [reflexivity|]; repeat split; intros; discriminate|assumption]);
    try (apply kind_skip'; [left; reflexivity|assumption]).
  - exists (Some (VText s)). split; [apply in_app_iff; right; left; reflexivity|eexists; reflexivity].
  - apply kind_num. assumption.
  - apply kind_date. assumption.
  - exfalso. eapply I. reflexivity.
Qed.
Lemma cache_rows_kind w cols rows : no_inline w -> forall k l, kind_ok (c_type k) l ->
  kind_ok (c_type (cache_rows num_text w cols rows k)) (l ++ flat_map (fun r => map (fun c => value_at w r c) cols) rows).
Proof.
  intros NI. induction rows as [|r rows IH]; intros k l H; cbn [cache_rows flat_map]; [rewrite app_nil_r; assumption|].
  rewrite app_assoc. apply IH. destruct (get r (data w)) as [cs|] eqn:E; [apply cache_cols_kind; assumption|].
  cbn [c_type]. assert (B : forall v, In v (map (fun c => value_at w r c) cols) -> v = None).
  { intros v Hv. apply in_map_iff in Hv as (c & <- & _). unfold value_at, table_get. rewrite E. reflexivity. }
  revert l H. induction (map (fun c => value_at w r c) cols) as [|v vs IHv]; intros l H; [rewrite app_nil_r; assumption|].
  change (v :: vs) with ([v] ++ vs). rewrite app_assoc. apply IHv; [intros; apply B; right; assumption|].
  apply kind_skip'; [left; apply B; left; reflexivity|assumption].
Qed.
(** The cache is a text cache iff some cell of the range is text; otherwise the
    last number or date decides between number and date; and it has no kind iff
    there is no text, number or date in the range. *)
Theorem C42_cache_kind ops fr fc lr lc :
  let w := run ws_standard ops in
  kind_ok (c_type (get_cache_data num_text w fr fc lr lc)) (map (fun p => value_at w (fst p) (snd p)) (range_cells fr fc lr lc)).
Proof.
  cbv zeta. unfold get_cache_data. pose proof (cache_rows_kind (run ws_standard ops) (range_incl fc lc) (range_incl fr lr) (std_no_inline ops) cache_new []) as H.
  cbn [app] in H. unfold range_cells. rewrite flat_map_flat.
  replace (flat_map (fun x => map (fun p => value_at (run ws_standard ops) (fst p) (snd p)) (map (fun c => (x, c)) (range_incl fc lc))) (range_incl fr lr))
    with (flat_map (fun r => map (fun c => value_at (run ws_standard ops) r c) (range_incl fc lc)) (range_incl fr lr)).
  - apply H. intros v [].
  - apply flat_map_ext. intros r. rewrite map_map. reflexivity.
Qed.

(** ** All the ranges of all the charts of a workbook *)
Lemma key_eqb_ok a b : key_eqb a b = true <-> a = b.
Proof.
  destruct a as [[[[n r1] c1] r2] c2], b as [[[[m s1] d1] s2] d2]. cbn. rewrite !andb_true_iff, !N.eqb_eq, str_eqb_eq. split.
  - intros [[[[-> ->] ->] ->] ->]. reflexivity.
  - intros [= -> -> -> -> ->]. auto.
Qed.
Lemma key_refl a : key_eqb a a = true. Proof. apply key_eqb_ok. reflexivity. Qed.
Definition keys (m : caches) := map fst m.
Lemma insert_keys m c q : In q (keys (insert_to_chart_cache m c)) <-> In q (keys m) \/ (has_data c = true /\ q = range_key c).
Proof.
  unfold insert_to_chart_cache, keys. destruct (has_data c); [|intuition discriminate].
  destruct (existsb _ m) eqn:E.
  - rewrite map_map. rewrite (map_ext _ (fun p : (str * N * N * N * N) * cache => fst p)) by (intros p; destruct (key_eqb (fst p) (range_key c)); reflexivity).
    split; [auto|]. intros [|[_ ->]]; [assumption|]. apply existsb_exists in E as (p & Hp & Hk). apply key_eqb_ok in Hk. rewrite <- Hk. apply in_map. assumption.
  - rewrite map_app, in_app_iff. cbn. intuition auto.
Qed.
Lemma fold_keys ranges q : forall m, In q (keys (fold_left insert_to_chart_cache ranges m)) <->
  In q (keys m) \/ exists c, In c ranges /\ has_data c = true /\ q = range_key c.
Proof.
  induction ranges as [|c l IH]; intros m; cbn [fold_left].
  - split; [auto|]. intros [|(c & [] & _)]. assumption.
  - rewrite IH, insert_keys. split.
    + intros [[|[H1 H2]]|(c' & Hi & H)]; [auto|right; exists c; auto using in_eq|right; exists c'; auto using in_cons].
    + intros [|(c' & [<-|Hi] & H)]; [auto|left; right; apply H|right; exists c'; auto].
Qed.
Lemma fill_ok sheets m : forall m', fill_caches num_text sheets m = Some m' ->
  forall k, In k (keys m) -> exists w, sheet_named (let '(n, _, _, _, _) := k in n) sheets = Some w /\
    find_cache m' k = Some (let '(_, fr, fc, lr, lc) := k in get_cache_data num_text w fr fc lr lc).
Proof.
  induction m as [|[q c0] m IH]; intros m' H k Hk; [destruct Hk|]. cbn [fill_caches] in H.
  destruct q as [[[[n fr] fc] lr] lc]. destruct (sheet_named n sheets) as [w|] eqn:En; [|discriminate].
  destruct (fill_caches num_text sheets m) as [r'|]; [|discriminate]. injection H as <-. cbn [find_cache].
  destruct (key_eqb (n, fr, fc, lr, lc) k) eqn:EK.
  - apply key_eqb_ok in EK. subst k. exists w. auto.
  - destruct Hk as [<-|Hk]; [cbn [fst] in EK; rewrite key_refl in EK; discriminate|]. apply IH; auto.
Qed.
Lemma fill_keys sheets m : forall m', fill_caches num_text sheets m = Some m' -> keys m' = keys m.
Proof.
  induction m as [|[q c0] m IH]; intros m' H; [injection H as <-; reflexivity|]. cbn [fill_caches] in H.
  destruct q as [[[[n fr] fc] lr] lc]. destruct (sheet_named n sheets) as [w|] eqn:En; [|discriminate].
  destruct (fill_caches num_text sheets m) as [r'|]; [|discriminate]. injection H as <-. cbn. f_equal. apply IH. reflexivity.
Qed.
Lemma fill_none sheets m : fill_caches num_text sheets m = None <-> exists k, In k (keys m) /\ sheet_named (let '(n, _, _, _, _) := k in n) sheets = None.
Proof.
  induction m as [|[q c0] m IH]; cbn [fill_caches keys map In].
  - split; [discriminate|intros (k & [] & _)].
  - destruct q as [[[[n fr] fc] lr] lc]. destruct (sheet_named n sheets) as [w|] eqn:En.
    + split.
      * intros H. destruct (fill_caches num_text sheets m); [discriminate|]. destruct (proj1 IH eq_refl) as (k & Hk & E). exists k. auto.
      * intros (k & [<-|Hk] & E); [cbn in E; congruence|]. rewrite (proj2 IH); [reflexivity|]. exists k. auto.
    + split; [|reflexivity]. intros _. eexists. split; [left; reflexivity|assumption].
Qed.
Lemma find_none m k : ~ In k (keys m) -> find_cache m k = None.
Proof.
  induction m as [|[q c] m IH]; [reflexivity|]. cbn. intros H. destruct (key_eqb q k) eqn:E; [apply key_eqb_ok in E; tauto|].
  apply IH. tauto.
Qed.

(** Saving fails iff some range names a worksheet that does not exist; otherwise
    every range of every chart gets the data of the worksheet it names, and its
    position is unchanged. *)
Theorem C42_every_range_is_filled_from_its_sheet sheets ranges out :
  prepare_chart_cache_data num_text sheets ranges = Some out ->
  Forall2 (fun c c' => range_key c' = range_key c /\
    (cr_sheet c <> [] -> exists w, sheet_named (cr_sheet c) sheets = Some w /\
       cr_cache c' = get_cache_data num_text w (cr_fr c) (cr_fc c) (cr_lr c) (cr_lc c))) ranges out.
Proof.
  unfold prepare_chart_cache_data. destruct (fill_caches _ _ _) as [m|] eqn:E; [|discriminate]. intros [= <-].
  assert (G : forall l, (forall c, In c l -> In c ranges) -> Forall2 (fun c c' => range_key c' = range_key c /\
    (cr_sheet c <> [] -> exists w, sheet_named (cr_sheet c) sheets = Some w /\
       cr_cache c' = get_cache_data num_text w (cr_fr c) (cr_fc c) (cr_lr c) (cr_lc c))) l (map (update_range_cache m) l)).
  { induction l as [|c l IH]; intros H; [constructor|]. cbn [map]. constructor; [|apply IH; intros; apply H; right; assumption].
    split; [unfold update_range_cache; destruct (find_cache m (range_key c)); reflexivity|].
    intros Hs. destruct (fill_ok sheets _ m E (range_key c)) as (w & Hw & Hf).
    - apply fold_keys. right. exists c. split; [apply H; left; reflexivity|]. split; [|reflexivity].
      unfold has_data. destruct (cr_sheet c); [contradiction|reflexivity].
    - exists w. split; [exact Hw|]. unfold update_range_cache. rewrite Hf. reflexivity. }
  apply G. auto.
Qed.
Theorem C42_unknown_sheet_is_reported sheets ranges :
  prepare_chart_cache_data num_text sheets ranges = None <->
  exists c, In c ranges /\ cr_sheet c <> [] /\ sheet_named (cr_sheet c) sheets = None.
Proof.
  unfold prepare_chart_cache_data. pose proof (fill_none sheets (fold_left insert_to_chart_cache ranges [])) as F.
  assert (G : (exists k, In k (keys (fold_left insert_to_chart_cache ranges [])) /\ sheet_named (let '(n, _, _, _, _) := k in n) sheets = None) <->
              exists c, In c ranges /\ cr_sheet c <> [] /\ sheet_named (cr_sheet c) sheets = None).
  { split.
    - intros (k & Hk & E). apply fold_keys in Hk as [[]|(c & Hc & Hd & ->)]. exists c. split; [assumption|]. split; [|exact E].
      unfold has_data in Hd. destruct (cr_sheet c); [discriminate|discriminate].
    - intros (c & Hc & Hd & E). exists (range_key c). split; [|exact E]. apply fold_keys. right. exists c. split; [assumption|]. split; [|reflexivity].
      unfold has_data. destruct (cr_sheet c); [contradiction|reflexivity]. }
  rewrite <- G, <- F. destruct (fill_caches _ _ _); split; congruence.
Qed.

(** ** What the chart part contains *)
Variable parses : str -> bool.
Lemma num_pts_in l : forall i j v, In (j, v) (num_pts parses i l) <->
  exists s, i <= j /\ nth_error l (N.to_nat (j - i)) = Some s /\ s <> [] /\ v = (if parses s then s else lit "0").
Proof.
  induction l as [|s l IH]; intros i j v; cbn [num_pts].
  - split; [intros []|]. intros (s & _ & H & _). destruct (N.to_nat (j - i)); discriminate.
  - assert (R : In (j, v) (num_pts parses (N.succ i) l) <-> exists s', i < j /\ nth_error (s :: l) (N.to_nat (j - i)) = Some s' /\ s' <> [] /\ v = (if parses s' then s' else lit "0")).
    { rewrite IH. split; intros (s' & Hi & Hn & Hs).
      - exists s'. split; [lia|]. replace (N.to_nat (j - i)) with (S (N.to_nat (j - N.succ i))) by lia. auto.
      - exists s'. split; [lia|]. replace (N.to_nat (j - i)) with (S (N.to_nat (j - N.succ i))) in Hn by lia. auto. }
    destruct s as [|ch s].
    + rewrite R. split; intros (s' & Hi & Hn & Hs & Hv); exists s'; (split; [|auto]); [lia|].
      destruct (N.eq_dec i j) as [->|]; [|lia]. replace (N.to_nat (j - j)) with 0%nat in Hn by lia. cbn in Hn. congruence.
    + cbn [In]. rewrite R. split.
      * intros [E|(s' & Hi & H)]; [|exists s'; split; [lia|exact H]]. injection E as -> <-. exists (ch :: s). split; [lia|].
        replace (N.to_nat (j - j)) with 0%nat by lia. split; [reflexivity|]. split; [discriminate|reflexivity].
      * intros (s' & Hi & Hn & Hs & Hv). destruct (N.eq_dec i j) as [->|].
        -- left. replace (N.to_nat (j - j)) with 0%nat in Hn by lia. cbn in Hn. injection Hn as <-. congruence.
        -- right. exists s'. split; [lia|auto].
Qed.
Lemma str_pts_in l : forall i j v, In (j, v) (str_pts i l) <-> i <= j /\ nth_error l (N.to_nat (j - i)) = Some v.
Proof.
  induction l as [|s l IH]; intros i j v; cbn [str_pts].
  - split; [intros []|]. intros [_ H]. destruct (N.to_nat (j - i)); discriminate.
  - cbn [In]. rewrite IH. split.
    + intros [E|[Hi H]].
      * injection E as -> <-. split; [lia|]. replace (N.to_nat (j - j)) with 0%nat by lia. reflexivity.
      * split; [lia|]. replace (N.to_nat (j - i)) with (S (N.to_nat (j - N.succ i))) by lia. assumption.
    + intros [Hi H]. destruct (N.eq_dec i j) as [->|].
      * left. replace (N.to_nat (j - j)) with 0%nat in H by lia. cbn in H. congruence.
      * right. split; [lia|]. replace (N.to_nat (j - i)) with (S (N.to_nat (j - N.succ i))) in H by lia. assumption.
Qed.
Definition count_of (x : xcache) : N := match x with XNum _ n _ | XStr n _ => n end.
Definition points_of (x : xcache) : list (N * str) := match x with XNum _ _ p | XStr _ p => p end.
(** The declared count is the number of cached values; the point with index j is
    the j-th value; in a number cache empty values have no point and values that
    are not numbers count as zero. *)
Theorem C42_points_written k only x j v :
  write_cache_ref parses k only = Some x ->
  count_of x = N.of_nat (length (c_data k)) /\
  (In (j, v) (points_of x) <->
   exists s, nth_error (c_data k) (N.to_nat j) = Some s /\
     match x with XStr _ _ => v = s | XNum _ _ _ => s <> [] /\ v = (if parses s then s else lit "0") end).
Proof.
  intros H. unfold write_cache_ref in H. destruct (c_data k) as [|d0 ds] eqn:Ed; [discriminate|]. rewrite <- Ed in *. clear Ed.
  assert (N0 : forall j : N, j - 0 = j) by (intros; lia).
  destruct (c_type k), only; injection H as <-; cbn [count_of points_of]; (split; [reflexivity|]);
    rewrite ?num_pts_in, ?str_pts_in, ?N0; split;
    try (intros (s & _ & A & B & C); exists s; auto); try (intros (s & A & B & C); exists s; split; [lia|auto]).
  - intros [_ A]. exists v. auto.
  - intros (s & A & ->). split; [lia|assumption].
Qed.
End Cache.

(** FINDING: if a row inside a range of two or more columns holds no cell at all,
    that row contributes one point instead of one per column, so all later points
    are shifted. *)
Theorem C42_refuted_missing_row : exists ops fr fc lr lc, forall nt,
  let w := run ws_standard ops in
  fr <= lr /\ fc <= lc /\ length (c_data (get_cache_data nt w fr fc lr lc)) <> length (range_cells fr fc lr lc) /\
  nth_error (range_cells fr fc lr lc) 3 = Some (1, 2) /\ value_at w 1 2 = Some (VText (lit "b")) /\
  nth_error (c_data (get_cache_data nt w fr fc lr lc)) 3 <> Some (lit "b").
Proof.
  exists [WriteString 1 1 (lit "a") None; WriteString 1 2 (lit "b") None], 0, 1, 1, 2. intros nt. cbv zeta.
  repeat (split; [vm_compute; (reflexivity || discriminate)|]). vm_compute. discriminate.
Qed.
(** FINDING: text written with write_rich_string, and the result of a formula,
    appear as empty points. *)
Theorem C42_refuted_rich_text_and_results : exists ops, forall nt,
  let w := run ws_standard ops in
  value_at w 0 0 = Some (VRich (lit "x")) /\ (exists t, value_at w 0 1 = Some (VFormula t (lit "5"))) /\
  c_data (get_cache_data nt w 0 0 0 1) = [[]; []].
Proof.
  exists [WriteRich 0 0 (lit "x") (lit "x") None; WriteFormula 0 1 {| f_text := lit "2+3"; f_result := lit "5"; f_dynamic := false |} None []].
  intros nt. vm_compute. eauto.
Qed.

Example C42_witness :
  let w := run ws_standard [WriteString 0 0 (lit "a") None; WriteNumber 1 1 (f_of_N 7) None] in
  let nt := fun _ : f64 => lit "7" in
  (forall r, 0 <= r <= 1 -> row_in_use w r) /\
  c_data (get_cache_data nt w 0 0 1 1) = [lit "a"; []; []; lit "7"] /\ c_type (get_cache_data nt w 0 0 1 1) = TString /\
  write_cache_ref (fun s => str_eqb s (lit "7")) (get_cache_data nt w 0 0 1 1) true = Some (XNum (lit "General") 4 [(0, lit "0"); (3, lit "7")]).
Proof.
  cbv zeta. split; [|vm_compute; auto]. intros r H. assert (E : r = 0 \/ r = 1) by lia. destruct E as [->| ->].
  - exists 0. eexists. vm_compute. reflexivity.
  - exists 1. eexists. vm_compute. reflexivity.
Qed.
