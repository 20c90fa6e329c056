From Verif Require Import Base SMap F64 Fmt_Model Sst_Model Cells_Model Cells_Spec Cells_Inv Cells_Proofs Cells_Proofs2 Cells_Save Cells_Hist
  Sheet_Model Sheet_Proofs Opts_Frame Sheet_Hist Sheet_Hist2 Table_Spec.

Lemma std_reg w f w' i : std w -> reg w f = (w', i) -> std w' /\ meta w w' /\ same_opts w w' /\ data w' = data w /\ nth_error (xfs w') (N.to_nat i) = Some f.
Proof.
  intros S R. pose proof (reg_spec _ _ _ _ R) as (M & O & D & Nf & _). split; [|auto].
  unfold reg in R. destruct (format_xf_index (xfs w) f) as [l j] eqn:X. injection R as <- <-. destruct S as [A1 A2 A3 A4 A5 A6]. split; try assumption.
  exact (reg0_meta _ _ M A6).
Qed.
Lemma existsb_range r a b : existsb (N.eqb r) (range_incl a b) = (a <=? r) && (r <=? b).
Proof.
  destruct (existsb (N.eqb r) (range_incl a b)) eqn:E.
  - apply existsb_exists in E as (y & Hy & E). apply N.eqb_eq in E. subst y. apply in_range_incl in Hy.
    symmetry. apply andb_true_iff. split; apply N.leb_le; lia.
  - symmetry. apply not_true_iff_false. intros H. apply andb_true_iff in H as [H1 H2]. apply N.leb_le in H1, H2.
    assert (X : existsb (N.eqb r) (range_incl a b) = true) by (apply existsb_exists; exists r; split; [apply in_range_incl; lia|apply N.eqb_refl]). congruence.
Qed.
Definition restyled (t : tbl) (fd ld : N) (c : tcolumn) (r : N) : bool :=
  match tc_format c with
  | Some _ => (fd <=? r) && (r <=? ld) || (t_total t && match tc_total c with Some _ => true | None => false end && (r =? r1 (t_range t)))
  | None => false end.
Lemma restyle_spec t fd ld col c w : std w ->
  let w' := restyle t fd ld col c w in
  std w' /\ meta w w' /\ same_opts w w' /\
  exists i, (forall f, tc_format c = Some f -> nth_error (xfs w') (N.to_nat i) = Some f) /\
  forall r c', table_get r c' (data w') =
    if (c' =? col) && restyled t fd ld c r then match table_get r c' (data w) with Some (k, _) => Some (k, i) | None => None end else table_get r c' (data w).
Proof.
  intros S. cbv zeta. unfold restyle, restyled. destruct (tc_format c) as [f|].
  2:{ split; [exact S|]. split; [apply meta_refl|]. split; [apply same_opts_refl|]. exists 0. split; [discriminate|]. intros. rewrite andb_false_r. reflexivity. }
  destruct (reg w f) as [w1 i] eqn:R. destruct (std_reg _ _ _ _ S R) as (S1 & M1 & O1 & D1 & N1).
  destruct (ucf_fold col i (range_incl fd ld) w1 S1) as (S2 & M2 & O2 & G2). cbv zeta in *.
  set (w2 := fold_left (fun (w : ws) (r : N) => update_cell_format w r col i) (range_incl fd ld) w1) in *.
  destruct (ucf_spec w2 (r1 (t_range t)) col i S2) as (S3 & M3 & O3 & G3).
  destruct (t_total t && match tc_total c with Some _ => true | None => false end) eqn:T.
  - split; [exact S3|]. split; [exact (meta_trans _ _ _ M1 (meta_trans _ _ _ M2 M3))|]. split; [exact (same_opts_trans _ _ _ O1 (same_opts_trans _ _ _ O2 O3))|].
    exists i. split.
    { intros f' [= <-]. eapply prefix_nth; [apply M3|]. eapply prefix_nth; [apply M2|]. exact N1. }
    intros r c'. rewrite G3, !G2, D1, existsb_range. unfold here.
    destruct (N.eqb_spec (r1 (t_range t)) r) as [<-|Hr]; cbn [andb].
    + rewrite (N.eqb_refl (r1 (t_range t))), (N.eqb_sym c' col). destruct (N.eqb_spec col c') as [<-|]; [|reflexivity].
      rewrite ?N.eqb_refl, ?existsb_range. cbn [andb]. rewrite ?orb_true_r.
      destruct (table_get (r1 (t_range t)) col (data w)) as [[k x]|]; destruct ((fd <=? r1 (t_range t)) && (r1 (t_range t) <=? ld)); reflexivity.
    + destruct (N.eqb_spec r (r1 (t_range t))) as [E|_]; [congruence|]. rewrite ?existsb_range, ?andb_true_r, orb_false_r. reflexivity.
  - split; [exact S2|]. split; [exact (meta_trans _ _ _ M1 M2)|]. split; [exact (same_opts_trans _ _ _ O1 O2)|].
    exists i. split.
    { intros f' [= <-]. eapply prefix_nth; [apply M2|]. exact N1. }
    intros r c'. rewrite G2, D1, existsb_range. cbn [andb]. rewrite orb_false_r. reflexivity.
Qed.

Lemma here_row a b r c : here a b r c = true -> r = a /\ c = b.
Proof. intros H. apply here_true in H as [-> ->]. auto. Qed.

(** One column of a table. *)
Lemma column_spec t fd ld col c w w' : std w -> write_all w (column_ops t fd ld col c) = (w', None) ->
  let top := r0 (t_range t) in let bottom := r1 (t_range t) in
  top <= bottom -> (t_header t = true -> top < bottom) -> (t_total t = true -> 0 < bottom) ->
  fd = (if t_header t then top + 1 else top) -> ld = (if t_total t then bottom - 1 else bottom) ->
  let w2 := restyle t fd ld col c w' in
  std w2 /\ meta w w2 /\ same_opts w w2 /\
  (forall r c', c' <> col -> table_get r c' (data w2) = table_get r c' (data w)) /\
  column_cells (t_header t) (t_serde t) (t_total t) top bottom (default_result w) (xfs w2) c
    (fun r => table_get r col (data w)) (fun r => table_get r col (data w2)) /\
  (forall r o, In o (column_ops t fd ld col c) -> alters o r col = true -> (exists v, writes w o r col = Some v) -> covers w2 r col).
Proof.
  intros S H top bottom Htb Hhead Htot Hfd Hld w2.
  pose proof (write_all_wrote _ (column_ops_writes t fd ld col c) w w' S H) as [S1 M1 O1 Same Val].
  destruct (restyle_spec t fd ld col c w' S1) as (S2 & M2 & O2 & i & Hi & G). fold w2 in S2, M2, O2, Hi, G.
  split; [exact S2|]. split; [exact (meta_trans _ _ _ M1 M2)|]. split; [exact (same_opts_trans _ _ _ O1 O2)|].
  assert (Con : forall r k x, table_get r col (data w') = Some (k, x) -> exists x', table_get r col (data w2) = Some (k, x') /\ (restyled t fd ld c r = false -> x' = x) /\ (restyled t fd ld c r = true -> x' = i)).
  { intros r k x E. rewrite G, N.eqb_refl, E. cbn [andb]. destruct (restyled t fd ld c r); [exists i|exists x]; (split; [reflexivity|split; congruence]). }
  assert (Rng : forall r, (fd <= r <= ld) <-> ((if t_header t then top < r else top <= r) /\ (if t_total t then r < bottom else r <= bottom))).
  { intros r. rewrite Hfd, Hld. destruct (t_header t), (t_total t); try specialize (Htot eq_refl); lia. }
  (* the rows written by each group of operations *)
  assert (HO : forall o r c', In o (header_ops t col c) -> alters o r c' = true -> (t_header t = true /\ t_serde t = false) /\ r = top /\ c' = col).
  { intros o r c' Ho Ha. unfold header_ops in Ho. destruct (t_header t && negb (t_serde t)) eqn:Q; [|destruct Ho].
    apply andb_true_iff in Q as [Q1 Q2]. apply negb_true_iff in Q2. destruct Ho as [<-|[]]. cbn [alters] in Ha. apply here_row in Ha as [-> ->]. auto. }
  assert (TO : forall o r c', In o (total_ops t col c) -> alters o r c' = true -> t_total t = true /\ (tc_total_label c <> [] \/ tc_total c <> None) /\ r = bottom /\ c' = col).
  { intros o r c' Ho Ha. unfold total_ops in Ho. destruct (t_total t) eqn:Q; [|destruct Ho].
    destruct (tc_total_label c) as [|a l] eqn:L; [destruct (tc_total c) as [mk|] eqn:T; [|destruct Ho]|]; (destruct Ho as [<-|[]]; cbn [alters] in Ha; apply here_row in Ha as [-> ->];
      split; [reflexivity|]; split; [|split; reflexivity]).
    - right. discriminate.
    - left. discriminate. }
  assert (DO : forall o r c', In o (data_ops fd ld col c) -> alters o r c' = true -> tc_formula c <> None /\ fd <= r <= ld /\ c' = col).
  { intros o r c' Ho Ha. unfold data_ops in Ho. destruct (tc_formula c) as [fm|]; [|destruct Ho].
    apply in_map_iff in Ho as (q & <- & Hq). cbn [alters] in Ha. apply here_row in Ha as [-> ->]. apply in_range_incl in Hq. split; [discriminate|auto]. }
  assert (Out : forall r c', c' <> col -> table_get r c' (data w') = table_get r c' (data w)).
  { intros r c' Hc. apply Same. intros o Ho. destruct (alters o r c') eqn:A; [|reflexivity]. exfalso.
    unfold column_ops in Ho. apply in_app_iff in Ho as [Ho|Ho]; [destruct (HO _ _ _ Ho A) as (_ & _ & ?); contradiction|].
    apply in_app_iff in Ho as [Ho|Ho]; [destruct (TO _ _ _ Ho A) as (_ & _ & _ & ?)|destruct (DO _ _ _ Ho A) as (_ & _ & ?)]; contradiction. }
  split.
  { intros r c' Hc. rewrite G. destruct (N.eqb_spec c' col); [contradiction|]. cbn [andb]. apply Out. exact Hc. }
  assert (Away : forall l r, (forall o, In o l -> alters o r col = true -> False) -> forall o, In o l -> alters o r col = false).
  { intros l r Hl o Ho. destruct (alters o r col) eqn:A; [destruct (Hl o Ho A)|reflexivity]. }
  (* the three kinds of written cells *)
  assert (HV : forall v, t_header t = true -> t_serde t = false -> text_value (tc_name c) (tc_header_format c) = Some v ->
    exists k x, table_get top col (data w') = Some (k, x) /\ contents k = v /\ fmt_ok w w' top col (tc_header_format c) x /\ covers w' top col /\ in_limits top col).
  { intros v Hh Hs Hv. apply (Val [] (WriteString top col (tc_name c) (tc_header_format c)) (total_ops t col c ++ data_ops fd ld col c)).
    - unfold column_ops, header_ops. rewrite Hh, Hs. reflexivity.
    - apply Away. intros o Ho A. specialize (Hhead Hh). apply in_app_iff in Ho as [Ho|Ho].
      + destruct (TO _ _ _ Ho A) as (_ & _ & E & _). lia.
      + destruct (DO _ _ _ Ho A) as (_ & E & _). rewrite Hfd, Hh in E. lia.
    - cbn [writes]. rewrite here_refl. exact Hv. }
  assert (DV : forall fm r, tc_formula c = Some fm -> fd <= r <= ld ->
    exists k x, table_get r col (data w') = Some (k, x) /\ contents k = formula_value (default_result w) fm /\ covers w' r col).
  { intros fm r Hf Hr. assert (Hin : In r (range_incl fd ld)) by (apply in_range_incl; lia).
    apply in_split in Hin as (a & b & Eab).
    pose proof (nodup_range_incl fd ld) as Nd. rewrite Eab in Nd. apply NoDup_remove_2 in Nd. rewrite in_app_iff in Nd.
    destruct (Val (header_ops t col c ++ total_ops t col c ++ map (fun r => WriteFormula r col fm (Some (col_format c)) []) a)
      (WriteFormula r col fm (Some (col_format c)) []) (map (fun r => WriteFormula r col fm (Some (col_format c)) []) b) r col (formula_value (default_result w) fm)) as (k & x & E1 & E2 & _ & E3 & _).
    - unfold column_ops, data_ops. rewrite Hf, Eab, map_app. cbn [map]. rewrite <- !app_assoc. reflexivity.
    - apply Away. intros o Ho A. apply in_map_iff in Ho as (q & <- & Hq). cbn [alters] in A. apply here_row in A as [-> _]. tauto.
    - cbn [writes]. rewrite here_refl. reflexivity.
    - exists k, x. auto. }
  assert (TD : t_total t = true -> ~ fd <= bottom <= ld).
  { intros Ht E. rewrite Hld, Ht in E. specialize (Htot Ht). lia. }
  assert (TV : forall o v, total_ops t col c = [o] -> writes w o bottom col = Some v ->
    exists k x, table_get bottom col (data w') = Some (k, x) /\ contents k = v /\ covers w' bottom col).
  { intros o v Eo Hv. destruct (Val (header_ops t col c) o (data_ops fd ld col c) bottom col v) as (k & x & E1 & E2 & _ & E3 & _).
    - unfold column_ops. rewrite Eo. reflexivity.
    - apply Away. intros o' Ho' A. destruct (DO _ _ _ Ho' A) as (_ & E & _). apply TD; [|exact E].
      destruct (t_total t) eqn:T; [reflexivity|]. unfold total_ops in Eo. rewrite T in Eo. discriminate.
    - exact Hv.
    - exists k, x. auto. }
  assert (NoTop : t_header t = true -> restyled t fd ld c top = false).
  { intros Hh. unfold restyled. destruct (tc_format c); [|reflexivity]. specialize (Hhead Hh). apply orb_false_iff. split.
    - apply andb_false_iff. left. apply N.leb_gt. rewrite Hfd, Hh. lia.
    - apply andb_false_iff. right. apply N.eqb_neq. fold bottom. lia. }
  split.
  - split.
    + intros Hh Hs Hn. destruct (HV (VText (tc_name c)) Hh Hs) as (k & x & E & Ek & _).
      { destruct (tc_name c), (tc_header_format c); try congruence; reflexivity. }
      destruct (Con _ _ _ E) as (x' & E' & _). exists k, x'. auto.
    + intros Hh Hs f Hf Hne. destruct (text_value (tc_name c) (tc_header_format c)) as [v|] eqn:Tv; [|destruct (tc_name c); rewrite Hf in Tv; discriminate].
      destruct (HV v Hh Hs eq_refl) as (k & x & E & _ & Fo & _). destruct (Con _ _ _ E) as (x' & E' & Ex & _). rewrite (Ex (NoTop Hh)) in E'.
      exists k, x. split; [exact E'|]. rewrite Hf in Fo. cbn in Fo. eapply prefix_nth; [apply M2|]. exact (Fo (d_reg _ S) Hne).
    + intros fm r Hf Ha Hb. destruct (DV fm r Hf) as (k & x & E & Ek & _); [apply Rng; auto|].
      destruct (Con _ _ _ E) as (x' & E' & _). exists k, x'. auto.
    + intros Ht Hl. destruct (TV (WriteString bottom col (tc_total_label c) (Some (col_format c))) (VText (tc_total_label c))) as (k & x & E & Ek & _).
      { unfold total_ops. rewrite Ht. destruct (tc_total_label c); [congruence|reflexivity]. }
      { cbn [writes]. rewrite here_refl. destruct (tc_total_label c); [congruence|reflexivity]. }
      destruct (Con _ _ _ E) as (x' & E' & _). exists k, x'. auto.
    + intros Ht Hl mk Hm. destruct (TV (WriteFormula bottom col (mk (tc_name c)) (Some (col_format c)) []) (formula_value (default_result w) (mk (tc_name c)))) as (k & x & E & Ek & _).
      { unfold total_ops. rewrite Ht, Hl, Hm. reflexivity. }
      { cbn [writes]. rewrite here_refl. reflexivity. }
      destruct (Con _ _ _ E) as (x' & E' & _). exists k, x'. auto.
    + intros r N1 N2 N3. assert (E : table_get r col (data w') = table_get r col (data w)).
      { apply Same. apply Away. intros o Ho A. unfold column_ops in Ho. apply in_app_iff in Ho as [Ho|Ho].
        - destruct (HO _ _ _ Ho A) as ((? & ?) & ? & _). apply N1. auto.
        - apply in_app_iff in Ho as [Ho|Ho].
          + destruct (TO _ _ _ Ho A) as (? & ? & ? & _). apply N3. auto.
          + destruct (DO _ _ _ Ho A) as (? & Hr & _). apply N2. split; [assumption|]. apply Rng. exact Hr. }
      unfold same_contents. rewrite G, N.eqb_refl, E. cbn [andb].
      destruct (table_get r col (data w)) as [[k x]|]; destruct (restyled t fd ld c r); auto.
    + intros f r Hf Ha Hb Hn. rewrite G, N.eqb_refl in Hn |- *. cbn [andb] in *.
      assert (Hr : restyled t fd ld c r = true).
      { unfold restyled. rewrite Hf. apply orb_true_iff. left. pose proof (proj2 (Rng r) (conj Ha Hb)). apply andb_true_iff. split; apply N.leb_le; lia. }
      rewrite Hr in *. destruct (table_get r col (data w')) as [[k x]|]; [|congruence]. exists k, i. split; [reflexivity|]. exact (Hi f Hf).
  - intros r o Ho A (v & Hv). apply (covers_meta _ _ _ _ M2). unfold column_ops in Ho. apply in_app_iff in Ho as [Ho|Ho].
    + pose proof (HO _ _ _ Ho A) as ((Hh & Hs) & -> & _). unfold header_ops in Ho. rewrite Hh, Hs in Ho. destruct Ho as [<-|[]].
      cbn [writes] in Hv. fold top in Hv. rewrite here_refl in Hv. destruct (HV v Hh Hs Hv) as (k & x & _ & _ & _ & Cv & _). exact Cv.
    + apply in_app_iff in Ho as [Ho|Ho].
      * pose proof (TO _ _ _ Ho A) as (Ht & _ & -> & _). destruct (total_ops t col c) as [|o1 l] eqn:Et; [destruct Ho|].
        assert (l = []). { unfold total_ops in Et. rewrite Ht in Et. destruct (tc_total_label c); [destruct (tc_total c)|]; congruence. }
        subst l. destruct Ho as [<-|[]]. destruct (TV o1 v eq_refl Hv) as (k & x & _ & _ & Cv). exact Cv.
      * pose proof (DO _ _ _ Ho A) as (Hf & Hr & _). destruct (tc_formula c) as [fm|] eqn:Ef; [|congruence].
        destruct (DV fm r eq_refl Hr) as (k & x & _ & _ & Cv). exact Cv.
Qed.
