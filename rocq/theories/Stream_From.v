(** The results of C15 and C27 for a sheet that starts with any registry of formats
    (the proofs are those of Props_Cells.v for another first state). *)
From Verif Require Import Base SMap F64 Fmt_Model Sst_Model Ref_Model Cells_Model Cells_Spec Cells_Proofs Cells_Proofs2 Cells_Inv Cells_Save Cells_Hist Props_Cells Const_Proofs Const_Sim Const_Run Props_Const.

Section From.
Variable rg : list Format.
Hypothesis first : nth_error rg 0 = Some format_default.
Definition start : ws := ws_new false false false rg sst_new.
Let start_std : std start := std_new rg sst_new first.

Lemma last_write_from pre o post w1 r c v t g :
  step (run start pre) o = (w1, None) -> writes (run start pre) o r c = Some v -> v <> VBlank ->
  undisturbed w1 post r c ->
  exists style, shown (sheet_rows (run start (pre ++ o :: post)) t g) r c = [(v, style)].
Proof.
  intros E Hv Hb Hu. rewrite run_app, run_cons, E. cbn [fst].
  destruct (std_run pre start start_std) as [H0 _].
  destruct (std_step _ _ _ _ H0 E) as [H1 F].
  destruct (sf_write _ _ _ _ F eq_refl r c v Hv) as (k & x & Hk & Hc).
  destruct (sf_cov _ _ _ _ F eq_refl r c v Hv) as [Hcov _].
  destruct (std_run post w1 H1) as [H2 M2].
  pose proof (undisturbed_run post r c w1 H1 Hu) as P. rewrite Hk in P. destruct P as [x' P].
  pose proof (sheet_shown (run w1 post) t g r c H2) as S. rewrite P, Hc in S. cbv zeta in S. rewrite S.
  apply (covers_meta _ _ _ _ M2) in Hcov as [[A B] _]. apply N.leb_le in A, B. rewrite A, B. cbn [andb].
  eexists. destruct v; try reflexivity. congruence.
Qed.
Lemma own_format_from pre o post w1 r c f t g :
  (forall i, nth_error (xfs (run start (pre ++ o :: post))) (N.to_nat i) = Some f -> g i <> 0) ->
  step (run start pre) o = (w1, None) -> gives_format o r c = Some f -> f <> format_default ->
  is_range_format o = false -> untouched w1 post r c ->
  let w := run start (pre ++ o :: post) in
  exists v i, shown (sheet_rows w t g) r c = [(v, g i)] /\ i <> 0 /\ nth_error (xfs w) (N.to_nat i) = Some f.
Proof.
  intros Hg E Hf Hne Hrf Hu. cbv zeta. rewrite run_app, run_cons, E in *. cbn [fst] in *.
  destruct (std_run pre start start_std) as [H0 _].
  destruct (std_step _ _ _ _ H0 E) as [H1 F].
  destruct (sf_fmt _ _ _ _ F eq_refl (d_reg _ H0) r c f Hf Hne) as (k & x & Hk & Hx).
  assert (Hcov : covers w1 r c).
  { destruct (is_write o) eqn:Ew.
    - destruct (gives_writes (run start pre) o r c f Ew Hf) as [_ (v & Hv)].
      destruct (sf_cov _ _ _ _ F eq_refl r c v Hv). assumption.
    - destruct o; try discriminate; cbn [gives_format] in Hf. destruct (here row col r c) eqn:EH; [|discriminate].
      apply here_true in EH as [-> ->]. cbn [step] in E. apply set_cell_format_spec in E; [|apply H0].
      destruct E as (w2 & i & _ & _ & _ & _ & Hc & ->).
      destruct (insert_cell_format_frame w2 row col i) as [d ->]. exact Hc. }
  destruct (std_run post w1 H1) as [H2 M2].
  pose proof (untouched_run post r c w1 H1 Hu) as P. rewrite Hk in P.
  assert (Hx0 : x <> 0).
  { intros ->. pose proof (d_reg _ H1) as R. unfold reg0 in R. change (N.to_nat 0) with 0%nat in Hx. congruence. }
  pose proof (sheet_shown (run w1 post) t g r c H2) as S. rewrite P in S. cbv zeta in S. rewrite effective_info in S.
  destruct (N.eqb_spec x 0) as [|_]; [contradiction|]. destruct (N.eqb_spec x 0) as [|_]; [contradiction|].
  apply (covers_meta _ _ _ _ M2) in Hcov as [[A B] _]. apply N.leb_le in A, B. rewrite A, B in S. cbn [andb] in S.
  assert (Hx' : nth_error (xfs (run w1 post)) (N.to_nat x) = Some f) by (eapply prefix_nth; [apply M2|exact Hx]).
  exists (contents k), x. split; [|split; [assumption|exact Hx']].
  rewrite S. destruct (contents k); try reflexivity. pose proof (Hg x Hx'). destruct (N.ltb_spec 0 (g x)); [reflexivity|lia].
Qed.
Lemma plain_from pre o post w1 r c v t g :
  step (run start pre) o = (w1, None) -> is_write o = true -> writes (run start pre) o r c = Some v ->
  v <> VBlank -> write_format o = None ->
  existsb (formats_row r) pre = false \/ existsb (formats_col c) pre = false ->
  untouched w1 post r c ->
  let w := run start (pre ++ o :: post) in
  let e := if row_xf w r =? 0 then col_xf w c else row_xf w r in
  shown (sheet_rows w t g) r c = [(v, if e =? 0 then 0 else g e)].
Proof.
  intros E Hw Hv Hb Hf Hn Hu. cbv zeta. rewrite run_app, run_cons, E. cbn [fst].
  destruct (std_run pre start start_std) as [H0 _].
  pose proof (write_effect _ _ _ _ (d_cm _ H0) Hw E) as HE. cbn in HE.
  destruct (e_val _ _ _ _ HE r c v Hv) as (k & x & Hk & Hc & Hx & _ & Hcov).
  assert (crossing_format (run start pre) r c = None) as HX.
  { rewrite crossing_fmt. unfold row_fmt, col_fmt. destruct Hn as [Hn|Hn].
    - rewrite (row_info_run pre r start start_std (none_formats_row _ _ Hn)). cbn. destruct (snd _); reflexivity.
    - rewrite (col_info_run pre c start start_std (none_formats_col _ _ Hn)). reflexivity. }
  rewrite Hf in Hx. cbn in Hx. rewrite HX in Hx. subst x.
  destruct (std_step _ _ _ _ H0 E) as [H1 F]. destruct (std_run post w1 H1) as [H2 M2].
  pose proof (untouched_run post r c w1 H1 Hu) as P. rewrite Hk in P.
  pose proof (sheet_shown (run w1 post) t g r c H2) as S. rewrite P in S. cbv zeta in S. rewrite effective_info in S. cbn [N.eqb] in S.
  apply (covers_meta _ _ _ _ M2) in Hcov as [[A B] _]. apply N.leb_le in A, B. rewrite A, B in S. cbn [andb] in S.
  rewrite S, Hc. destruct v; congruence || reflexivity.
Qed.
Lemma row_format_from ops a b r f : ops = a ++ SetRowFormat r f :: b -> r < 1048576 ->
  existsb (formats_row r) b = false -> nth_error (xfs (run start ops)) (N.to_nat (row_xf (run start ops) r)) = Some f.
Proof.
  intros -> Hr Hb. rewrite run_app, run_cons. destruct (std_run a start start_std) as [H0 _].
  destruct (step (run start a) (SetRowFormat r f)) as [w1 e] eqn:E. cbn [fst].
  destruct (std_step _ _ _ _ H0 E) as [H1 F]. destruct (std_run b w1 H1) as [H2 M2].
  unfold row_xf. rewrite (row_info_run b r w1 H1 (none_formats_row _ _ Hb)).
  assert (e = None) as ->.
  { cbn [step] in E. unfold set_row_format in E. destruct (check_dimensions (run start a) r _) as [w2 bb] eqn:E2.
    destruct bb; cbn [negb] in E; [destruct (reg w2 f); apply pair_equal_spec in E as [_ <-]; reflexivity|].
    exfalso. apply check_dimensions_spec in E2 as (_ & _ & _ & _ & _ & Fb & _). destruct (Fb eq_refl) as [Hl _]. apply Hl.
    split; [exact Hr|]. unfold get_min_col. destruct (N.eqb_spec (first_col (run start a)) COL_MAX) as [|Hn]; [reflexivity|].
    destruct (std_run a start start_std) as [_ M0]. pose proof (m_fc _ _ M0) as L. cbn [start ws_new first_col] in L. lia. }
  pose proof (proj1 (step_rc _ _ _ _ H0 E) r) as R. cbn [sets_row_format] in R. rewrite N.eqb_refl in R.
  eapply prefix_nth; [apply M2|apply R].
Qed.
Lemma col_format_from ops a b c f : ops = a ++ SetColumnFormat c f :: b -> c < 16384 ->
  existsb (formats_col c) b = false -> nth_error (xfs (run start ops)) (N.to_nat (col_xf (run start ops) c)) = Some f.
Proof.
  intros -> Hr Hb. rewrite run_app, run_cons. destruct (std_run a start start_std) as [H0 _].
  destruct (step (run start a) (SetColumnFormat c f)) as [w1 e] eqn:E. cbn [fst].
  destruct (std_step _ _ _ _ H0 E) as [H1 F]. destruct (std_run b w1 H1) as [H2 M2].
  unfold col_xf. rewrite (col_info_run b c w1 H1 (none_formats_col _ _ Hb)).
  assert (e = None) as ->.
  { cbn [step] in E. unfold set_column_format in E. destruct (check_dimensions (run start a) _ c) as [w2 bb] eqn:E2.
    destruct bb; cbn [negb] in E; [destruct (reg w2 f); apply pair_equal_spec in E as [_ <-]; reflexivity|].
    exfalso. apply check_dimensions_spec in E2 as (_ & _ & _ & _ & _ & Fb & _). destruct (Fb eq_refl) as [Hl _]. apply Hl.
    split; [|exact Hr]. unfold get_min_row. destruct (N.eqb_spec (first_row (run start a)) ROW_MAX) as [|Hn]; [reflexivity|].
    destruct (std_run a start start_std) as [_ M0]. pose proof (m_fr _ _ M0) as L. cbn [start ws_new first_row] in L. lia. }
  pose proof (proj2 (step_rc _ _ _ _ H0 E) c) as R. cbn [sets_col_format] in R. rewrite N.eqb_refl in R.
  eapply prefix_nth; [apply M2|apply R].
Qed.
Lemma row_next_from pre o post w1 r c v f a b t g :
  step (run start pre) o = (w1, None) -> is_write o = true -> writes (run start pre) o r c = Some v ->
  v <> VBlank -> write_format o = None -> untouched w1 post r c ->
  existsb (formats_row r) pre = false \/ existsb (formats_col c) pre = false ->
  pre ++ o :: post = a ++ SetRowFormat r f :: b -> existsb (formats_row r) b = false ->
  r < 1048576 -> f <> format_default ->
  let w := run start (pre ++ o :: post) in
  exists i, shown (sheet_rows w t g) r c = [(v, g i)] /\ nth_error (xfs w) (N.to_nat i) = Some f.
Proof.
  intros E Hw Hv Hb Hf Hu Hn Hl Hlast Hr Hne. cbv zeta.
  pose proof (plain_from pre o post w1 r c v t g E Hw Hv Hb Hf Hn Hu) as P. cbv zeta in P.
  pose proof (row_format_from _ a b r f Hl Hr Hlast) as L.
  set (w := run start (pre ++ o :: post)) in *.
  assert (Hx : row_xf w r <> 0).
  { intros E0. rewrite E0 in L. destruct (std_run (pre ++ o :: post) start start_std) as [HS _]. pose proof (d_reg _ HS) as R.
    unfold reg0 in R. fold w in R. change (N.to_nat 0) with 0%nat in L. congruence. }
  apply N.eqb_neq in Hx. rewrite Hx in P. rewrite Hx in P. exists (row_xf w r). auto.
Qed.
Lemma column_last_from pre o post w1 r c v f a b t g :
  step (run start pre) o = (w1, None) -> is_write o = true -> writes (run start pre) o r c = Some v ->
  v <> VBlank -> write_format o = None -> untouched w1 post r c ->
  existsb (formats_row r) (pre ++ o :: post) = false ->
  pre ++ o :: post = a ++ SetColumnFormat c f :: b -> existsb (formats_col c) b = false ->
  c < 16384 -> f <> format_default ->
  let w := run start (pre ++ o :: post) in
  exists i, shown (sheet_rows w t g) r c = [(v, g i)] /\ nth_error (xfs w) (N.to_nat i) = Some f.
Proof.
  intros E Hw Hv Hb Hf Hu Hn Hl Hlast Hr Hne. cbv zeta.
  assert (Hn' : existsb (formats_row r) pre = false \/ existsb (formats_col c) pre = false).
  { left. rewrite existsb_app in Hn. apply orb_false_iff in Hn. apply Hn. }
  pose proof (plain_from pre o post w1 r c v t g E Hw Hv Hb Hf Hn' Hu) as P. cbv zeta in P.
  pose proof (col_format_from _ a b c f Hl Hr Hlast) as L.
  set (w := run start (pre ++ o :: post)) in *.
  assert (Hx : col_xf w c <> 0).
  { intros E0. rewrite E0 in L. destruct (std_run (pre ++ o :: post) start start_std) as [HS _]. pose proof (d_reg _ HS) as R.
    unfold reg0 in R. fold w in R. change (N.to_nat 0) with 0%nat in L. congruence. }
  assert (Hr0 : row_xf w r = 0).
  { unfold w, row_xf. rewrite (row_info_run _ r start start_std (none_formats_row _ _ Hn)). reflexivity. }
  rewrite Hr0 in P. cbn [N.eqb] in P. apply N.eqb_neq in Hx. rewrite Hx in P. exists (col_xf w c). auto.
Qed.
Lemma default_from pre o post w1 r c v t g :
  step (run start pre) o = (w1, None) -> is_write o = true -> writes (run start pre) o r c = Some v ->
  v <> VBlank -> write_format o = None -> untouched w1 post r c ->
  existsb (formats_row r) (pre ++ o :: post) = false -> existsb (formats_col c) (pre ++ o :: post) = false ->
  shown (sheet_rows (run start (pre ++ o :: post)) t g) r c = [(v, 0)].
Proof.
  intros E Hw Hv Hb Hf Hu Hn Hm.
  assert (Hn' : existsb (formats_row r) pre = false \/ existsb (formats_col c) pre = false).
  { left. rewrite existsb_app in Hn. apply orb_false_iff in Hn. apply Hn. }
  pose proof (plain_from pre o post w1 r c v t g E Hw Hv Hb Hf Hn' Hu) as P. cbv zeta in P.
  assert (Hr0 : row_xf (run start (pre ++ o :: post)) r = 0).
  { unfold row_xf. rewrite (row_info_run _ r start start_std (none_formats_row _ _ Hn)). reflexivity. }
  assert (Hc0 : col_xf (run start (pre ++ o :: post)) c = 0).
  { unfold col_xf. rewrite (col_info_run _ c start start_std (none_formats_col _ _ Hm)). reflexivity. }
  rewrite Hr0, Hc0 in P. exact P.
Qed.
End From.
