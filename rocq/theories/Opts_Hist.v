(** The stored settings of rows and columns are those the accepted calls said. *)
From Verif Require Import Base Note_Spec SMap F64 Fmt_Model Sst_Model Ref_Model Opts_Spec Cells_Model Cells_Proofs Sheet_Model Sheet_Spec Opts_Frame Sheet_Proofs Sheet_Proofs2 Sheet_Proofs3 Props_Group.

Lemma last_of_snoc {O A} (f : O -> option A) d h o : last_of f d (h ++ [o]) = match f o with Some v => v | None => last_of f d h end.
Proof. unfold last_of. rewrite fold_left_app. reflexivity. Qed.
Lemma existsb_snoc {A} (f : A -> bool) h o : existsb f (h ++ [o]) = existsb f h || f o.
Proof. rewrite existsb_app. cbn [existsb]. rewrite orb_false_r. reflexivity. Qed.
Lemma fold_snoc {A B} (f : A -> B -> A) h o d : fold_left f (h ++ [o]) d = f (fold_left f h d) o.
Proof. rewrite fold_left_app. reflexivity. Qed.
Definition grows (w w' : ws) : Prop := exists l, xfs w' = xfs w ++ l.
Lemma grows_refl w : grows w w. Proof. exists []. symmetry. apply app_nil_r. Qed.
Lemma grows_trans a b c : grows a b -> grows b c -> grows a c.
Proof. intros [x A] [y B]. exists (x ++ y). rewrite B, A, app_assoc. reflexivity. Qed.
Lemma grows_nth w w' i f : grows w w' -> nth_error (xfs w) i = Some f -> nth_error (xfs w') i = Some f.
Proof. intros [l E] H. rewrite E, nth_error_app1; [exact H|]. apply nth_error_Some. congruence. Qed.
Lemma kept_grows w w' : kept w w' -> grows w w'. Proof. intros []. assumption. Qed.
Lemma reg_nth w f w' i : reg w f = (w', i) -> nth_error (xfs w') (N.to_nat i) = Some f.
Proof.
  unfold reg, format_xf_index. intros H. destruct (fmt_find f (xfs w)) as [j|] eqn:E.
  - assert (A : upd_xfs w (xfs w) = w') by congruence. assert (B : j = i) by congruence. subst w' j. cbn [xfs upd_xfs]. apply fmt_find_some, E.
  - assert (A : upd_xfs w (xfs w ++ [f]) = w') by congruence. assert (B : N.of_nat (length (xfs w)) = i) by congruence. subst w' i. cbn [xfs upd_xfs].
    rewrite Nat2N.id, nth_error_app2, Nat.sub_diag by lia. reflexivity.
Qed.

(** ** Columns *)
Definition present {V} (k : N) (m : smap V) : bool := match get k m with Some _ => true | None => false end.
Record col_told (w : ws) (c : N) (h : list sop) : Prop := {
  ct_width : told_width c h = (present c (changed_cols w), c_width (col_settings w c), c_autofit (col_settings w c));
  ct_hidden : c_hidden (col_settings w c) = told_col_hidden c h;
  ct_level : c_level (col_settings w c) = told_col_level c h;
  ct_coll : c_collapsed (col_settings w c) = told_col_collapsed c h;
  ct_xf : match told_col_format c h with None => c_xf (col_settings w c) = 0 | Some f => nth_error (xfs w) (N.to_nat (c_xf (col_settings w c))) = Some f end }.
Lemma told_known c h : fst (fst (told_width c h)) = existsb (about_col c) h.
Proof.
  induction h as [|o h IH] using rev_ind; [reflexivity|]. unfold told_width in *. rewrite fold_snoc, existsb_snoc.
  destruct (fold_left _ _ _) as [[known u] fit]. cbn [fst] in IH. subst known. unfold next_width. destruct (width_call c o) as [[v a]|] eqn:W; [|reflexivity].
  assert (A : about_col c o = true).
  { unfold width_call in W. destruct o as [[]| | | | | | |]; try discriminate W. cbn [about_col]. destruct (col =? c); [reflexivity|discriminate W]. }
  rewrite A, orb_true_r. destruct (a && _ && _ && _); reflexivity.
Qed.
Lemma quiet_col w w' c h o : get c (changed_cols w') = get c (changed_cols w) -> grows w w' -> about_col c o = false -> col_told w c h -> col_told w' c (h ++ [o]).
Proof.
  intros E G A [T1 T2 T3 T4 T5]. assert (S : col_settings w' c = col_settings w c) by (unfold col_settings; rewrite E; reflexivity).
  assert (P : present c (changed_cols w') = present c (changed_cols w)) by (unfold present; rewrite E; reflexivity).
  assert (Q : width_call c o = None /\ hides_col c o = false).
  { destruct o as [[]| | | | | | |]; cbn [about_col width_call hides_col] in *; try (split; reflexivity); try (rewrite A; split; reflexivity).
    apply orb_false_iff in A as [A _]. rewrite A, andb_false_r. split; reflexivity. }
  destruct Q as [Q1 Q2]. split; rewrite ?S, ?P.
  - unfold told_width in *. rewrite fold_snoc, T1. unfold next_width. rewrite Q1, A, orb_false_r. reflexivity.
  - unfold told_col_hidden in *. rewrite existsb_snoc, Q2, orb_false_r. exact T2.
  - unfold told_col_level in *. rewrite fold_snoc. destruct o; try exact T3. cbn [about_col] in A. apply orb_false_iff in A as [A _]. rewrite A. exact T3.
  - unfold told_col_collapsed in *. rewrite existsb_snoc, T4. destruct o; rewrite ?orb_false_r; try reflexivity. cbn [about_col] in A. apply orb_false_iff in A as [_ A]. rewrite A, orb_false_r. reflexivity.
  - unfold told_col_format in *. rewrite last_of_snoc.
    assert (K : (match o with SCell (SetColumnFormat k f) => if k =? c then Some (Some f) else None | _ => None end) = None).
    { destruct o as [[]| | | | | | |]; try reflexivity. cbn [about_col] in A. rewrite A. reflexivity. }
    rewrite K. destruct (last_of _ None h) as [f|]; [exact (grows_nth _ _ _ _ G T5)|exact T5].
Qed.
Lemma rejected_col w w' c h : get c (changed_cols w') = get c (changed_cols w) -> grows w w' -> col_told w c h -> col_told w' c h.
Proof.
  intros E G [T1 T2 T3 T4 T5]. assert (S : col_settings w' c = col_settings w c) by (unfold col_settings; rewrite E; reflexivity).
  assert (P : present c (changed_cols w') = present c (changed_cols w)) by (unfold present; rewrite E; reflexivity).
  split; rewrite ?S, ?P; try assumption. destruct (told_col_format c h); [exact (grows_nth _ _ _ _ G T5)|exact T5].
Qed.

Lemma grows_step w o : grows w (fst (step w o)).
Proof.
  destruct (is_options o) eqn:E; [|exact (kept_grows _ _ (kept_step w o E))].
  destruct o; try discriminate E; cbn [step]; try exact (grows_refl w).
  - unfold set_row_height, set_row_hidden. destruct (feq h fzero); pose proof (kept_grows _ _ (kept_cd w row (get_min_col w))) as K;
      destruct (check_dimensions w row (get_min_col w)) as [w1 [|]]; exact K.
  - unfold set_row_format. pose proof (kept_grows _ _ (kept_cd w row (get_min_col w))) as K. destruct (check_dimensions w row (get_min_col w)) as [w1 [|]]; [|exact K].
    cbn [negb fst] in *. pose proof (kept_grows _ _ (kept_reg w1 f)) as K2. destruct (reg w1 f) as [w2 i]. exact (grows_trans _ _ _ K K2).
  - unfold set_row_hidden. pose proof (kept_grows _ _ (kept_cd w row (get_min_col w))) as K. destruct (check_dimensions w row (get_min_col w)) as [w1 [|]]; exact K.
  - unfold set_row_unhidden. pose proof (kept_grows _ _ (kept_cd w row (get_min_col w))) as K. destruct (check_dimensions w row (get_min_col w)) as [w1 [|]]; [|exact K].
    cbn [negb]. destruct (get row (changed_rows w1)); exact K.
  - unfold set_column_width_internal, set_column_hidden. destruct (feq width fzero); destruct (Cells_Model.COL_MAX <=? col); exact (grows_refl w).
  - unfold set_column_format. pose proof (kept_grows _ _ (kept_cd w (get_min_row w) col)) as K. destruct (check_dimensions w (get_min_row w) col) as [w1 [|]]; [|exact K].
    cbn [negb fst] in *. pose proof (kept_grows _ _ (kept_reg w1 f)) as K2. destruct (reg w1 f) as [w2 i]. exact (grows_trans _ _ _ K K2).
  - unfold set_column_hidden. destruct (Cells_Model.COL_MAX <=? col); exact (grows_refl w).
  - destruct (fle h fzero); exact (grows_refl w).
Qed.

(** *** One column call *)
Lemma hidden_told w c c' h o : about_col c' o = (c =? c') -> hides_col c' o = (c =? c') -> width_call c' o = None ->
  (forall f, o <> SCell (SetColumnFormat c' f)) -> is_group o = false -> col_told w c' h ->
  col_told (fst (set_column_hidden w c)) c' (h ++ [o]) /\ snd (set_column_hidden w c) = None \/ (snd (set_column_hidden w c) <> None /\ col_told (fst (set_column_hidden w c)) c' h).
Proof.
  intros A H W F G T. unfold set_column_hidden. destruct (Cells_Model.COL_MAX <=? c); [right; split; [discriminate|exact T]|]. left. split; [|reflexivity]. cbn [fst].
  destruct (N.eqb_spec c c') as [<-|Hn].
  2:{ apply (quiet_col w); [|exact (grows_refl w)|exact A|exact T]. cbn [changed_cols upd_cols]. rewrite get_ins. destruct (N.eqb_spec c c'); [contradiction|reflexivity]. }
  destruct T as [T1 T2 T3 T4 T5]. set (w' := upd_cols _ _ _).
  assert (S : col_settings w' c = {| c_width := c_width (col_settings w c); c_xf := c_xf (col_settings w c); c_level := c_level (col_settings w c); c_hidden := true;
     c_collapsed := c_collapsed (col_settings w c); c_autofit := c_autofit (col_settings w c); c_format := c_format (col_settings w c) |}).
  { unfold col_settings, w'. cbn [changed_cols upd_cols]. rewrite get_ins, N.eqb_refl. destruct (get c (changed_cols w)); reflexivity. }
  assert (P : present c (changed_cols w') = true) by (unfold present, w'; cbn [changed_cols upd_cols]; rewrite get_ins, N.eqb_refl; reflexivity).
  split; rewrite S, ?P; cbn [c_width c_xf c_level c_hidden c_collapsed c_autofit].
  - unfold told_width in *. rewrite fold_snoc, T1. unfold next_width. rewrite W, A, orb_true_r. reflexivity.
  - unfold told_col_hidden. rewrite existsb_snoc, H, orb_true_r. reflexivity.
  - unfold told_col_level in *. rewrite fold_snoc. destruct o; try discriminate G; exact T3.
  - unfold told_col_collapsed in *. rewrite existsb_snoc, T4. destruct o; try discriminate G; rewrite orb_false_r; reflexivity.
  - unfold told_col_format in *. rewrite last_of_snoc.
    assert (K : (match o with SCell (SetColumnFormat k f) => if k =? c then Some (Some f) else None | _ => None end) = None).
    { destruct o as [[]| | | | | | |]; try reflexivity. destruct (N.eqb_spec col c) as [->|]; [destruct (F f eq_refl)|reflexivity]. }
    rewrite K. exact T5.
Qed.
Lemma width_told w c u a c' h : col_told w c' h -> let o := SCell (SetColumnWidth c u a) in
  let w' := fst (set_column_width_internal w c u a) in
  col_told w' c' (h ++ [o]) /\ snd (set_column_width_internal w c u a) = None \/ (snd (set_column_width_internal w c u a) <> None /\ col_told w' c' h).
Proof.
  intros T. cbv zeta. unfold set_column_width_internal. destruct (feq u fzero) eqn:Z.
  { apply hidden_told; cbn [about_col hides_col width_call is_group]; rewrite ?Z, ?andb_true_r, ?andb_false_r; try reflexivity; [|exact T]. intros f. discriminate. }
  destruct (Cells_Model.COL_MAX <=? c); [right; split; [discriminate|exact T]|]. left. split; [|reflexivity]. cbn [fst].
  destruct (N.eqb_spec c c') as [<-|Hn].
  2:{ assert (E : (c =? c') = false) by (apply N.eqb_neq; exact Hn). apply (quiet_col w); [|exact (grows_refl w)|exact E|exact T].
      unfold store_column_width. cbv zeta. cbn [changed_cols upd_cols]. rewrite get_ins, E. reflexivity. }
  destruct T as [T1 T2 T3 T4 T5]. set (w' := store_column_width w c u a). set (v := if fgt u (f_of_N 255) then f_of_N 255 else u).
  set (keep := a && present c (changed_cols w) && negb (c_autofit (col_settings w c)) && negb (fgt v (c_width (col_settings w c)))).
  assert (S : col_settings w' c = {| c_width := if keep then c_width (col_settings w c) else v; c_xf := c_xf (col_settings w c); c_level := c_level (col_settings w c); c_hidden := c_hidden (col_settings w c);
     c_collapsed := c_collapsed (col_settings w c); c_autofit := if keep then false else a; c_format := c_format (col_settings w c) |} /\ present c (changed_cols w') = true).
  { unfold present, w', store_column_width, keep, col_settings, present. cbv zeta. fold v. cbn [changed_cols upd_cols]. rewrite !get_ins, !N.eqb_refl.
    destruct (get c (changed_cols w)) as [o|]; [|rewrite andb_false_r; split; reflexivity]. split; [|reflexivity]. destruct o as [ow ox ol oh oc oa of]. cbn [c_width c_xf c_level c_hidden c_collapsed c_autofit c_format].
    destruct a, oa; cbn [andb negb]; try reflexivity. destruct (fgt v ow); reflexivity. }
  destruct S as [S P]. split; rewrite S, ?P; cbn [c_width c_xf c_level c_hidden c_collapsed c_autofit].
  - unfold told_width in *. rewrite fold_snoc, T1. unfold next_width, width_call. rewrite N.eqb_refl, Z. cbn [andb negb]. fold v. fold keep. destruct keep; reflexivity.
  - unfold told_col_hidden in *. rewrite existsb_snoc, T2. cbn [hides_col]. rewrite Z, andb_false_r, orb_false_r. reflexivity.
  - unfold told_col_level in *. rewrite fold_snoc. exact T3.
  - unfold told_col_collapsed in *. rewrite existsb_snoc, T4, orb_false_r. reflexivity.
  - unfold told_col_format in *. rewrite last_of_snoc. exact T5.
Qed.
Lemma format_told w c f c' h : col_told w c' h -> let o := SCell (SetColumnFormat c f) in
  let w' := fst (set_column_format w c f) in
  col_told w' c' (h ++ [o]) /\ snd (set_column_format w c f) = None \/ (snd (set_column_format w c f) <> None /\ col_told w' c' h).
Proof.
  intros T. cbv zeta. unfold set_column_format. pose proof (kept_cd w (get_min_row w) c) as K0. destruct (check_dimensions w (get_min_row w) c) as [w1 [|]]; cbn [negb fst snd] in *.
  2:{ right. split; [discriminate|]. apply (rejected_col w); [rewrite (k_cols _ _ K0); reflexivity|apply kept_grows, K0|exact T]. }
  left. pose proof (kept_reg w1 f) as K1. destruct (reg w1 f) as [w2 i] eqn:R. cbn [fst] in *. pose proof (kept_trans _ _ _ K0 K1) as K.
  apply reg_nth in R. split; [|reflexivity]. cbn [fst].
  assert (Ec : changed_cols w2 = changed_cols w) by apply K.
  destruct (N.eqb_spec c c') as [<-|Hn].
  2:{ assert (E : (c =? c') = false) by (apply N.eqb_neq; exact Hn). apply (quiet_col w); [|exact (kept_grows _ _ K)|exact E|exact T].
      cbn [changed_cols upd_cols]. rewrite get_ins, E, Ec. reflexivity. }
  destruct T as [T1 T2 T3 T4 T5]. set (w' := upd_cols _ _ _).
  assert (S : col_settings w' c = {| c_width := c_width (col_settings w c); c_xf := i; c_level := c_level (col_settings w c); c_hidden := c_hidden (col_settings w c);
     c_collapsed := c_collapsed (col_settings w c); c_autofit := c_autofit (col_settings w c); c_format := match get c (changed_cols w) with Some o => c_format o | None => Some f end |} /\ present c (changed_cols w') = true).
  { unfold present, w', col_settings. cbn [changed_cols upd_cols]. rewrite !get_ins, !N.eqb_refl, Ec. destruct (get c (changed_cols w)); split; reflexivity. }
  destruct S as [S P]. split; rewrite S, ?P; cbn [c_width c_xf c_level c_hidden c_collapsed c_autofit].
  - unfold told_width in *. rewrite fold_snoc, T1. unfold next_width, width_call. cbn [about_col]. rewrite N.eqb_refl, orb_true_r. reflexivity.
  - unfold told_col_hidden in *. rewrite existsb_snoc, T2, orb_false_r. reflexivity.
  - unfold told_col_level in *. rewrite fold_snoc. exact T3.
  - unfold told_col_collapsed in *. rewrite existsb_snoc, T4, orb_false_r. reflexivity.
  - unfold told_col_format in *. rewrite last_of_snoc, N.eqb_refl. exact R.
Qed.
