(** C92: the settings of rows and columns, from the calls to the file. *)
From Verif Require Import Base Note_Spec SMap F64 Fmt_Model Xml_Model Xml_Spec Xml_Proofs Xml_Read Xml_Read_Proofs Xml_Tree Rich_Model Rich_Proofs Sst_Model Ref_Model
  SheetXml_Spec SheetXml_Proofs SheetXml_Proofs3 View_Spec Tag_Proofs Part_Proofs Opts_Spec Cells_Model Sheet_Model Sheet_Spec Sheet_Proofs2 Sheet_Proofs3 Props_Group Opts_Hist Opts_Hist2 Opts_Hist4
  Cols_Model Cols_Spec Cols_Proofs Props_Sheet.
From Coq Require Import Sorted Permutation.
Open Scope N_scope.

(** What the file says about column [c], given the accepted calls [h]: [fs] are the
    formats of the sheet in the order they were registered, [g] their numbers in the
    style part. *)
Definition column_says (num_text : f64 -> str) (fs : list Format) (g : N -> N) (h : list sop) (c : N) (f : fcol) : Prop :=
  let '(_, width, fit) := told_width c h in
  let hidden := told_col_hidden c h in
  k_width f = num_text (file_width width hidden) /\ k_custom f = negb (feq width (f_dec 843 2)) || hidden /\ k_fit f = fit /\
  k_hidden f = hidden /\ k_level f = told_col_level c h /\ k_collapsed f = told_col_collapsed c h /\
  match told_col_format c h with
  | None => k_style f = None
  | Some fmt => exists i, nth_error fs (N.to_nat i) = Some fmt /\ k_style f = if i =? 0 then None else Some (g i) end.

Section Columns.
  Variable num_text : f64 -> str.
  Variable lower : str -> str.
  Variable g : N -> N.
  (** Numbers are printed in plain ASCII. *)
  Hypothesis NS : forall x, forallb simple (num_text x) = true.

  (** In every mode, after any history of calls in which no group was rejected: the
      text of <cols> reads back, its elements are in increasing order without
      overlap, and for every column exactly what the accepted calls said about it
      is found: nothing if no call was about it, else one element with its width,
      style, visibility, outline level and marks. *)
  Theorem C92_columns_read_back cmem inl gsst regs t ops s iter :
    let s0 := sheet_new (ws_new cmem inl gsst regs t) in
    srun lower s0 ops = Some s -> groups_accepted lower s0 ops -> Permutation iter (changed_cols (cells s)) ->
    let h := ok_calls lower s0 ops in
    exists cols, read_cols (cols_text num_text g iter) = Some cols /\
      StronglySorted (fun a b => k_max a < k_min b) cols /\
      forall c, if existsb (about_col c) h
                then exists f, found c cols = [f] /\ column_says num_text (xfs (cells s)) g h c f
                else found c cols = [].
  Proof.
    intros s0 E G P h. pose proof (opts_run lower ops s0 s (opts_new cmem inl gsst regs t) E) as [A _].
    destruct (told_run lower ops s0 s [] (opts_new cmem inl gsst regs t) E G (told_new cmem inl gsst regs t)) as [T _]. cbn [app] in T. fold h in T.
    destruct (cols_facts (cells s) iter A P) as (S & L & I4 & I5). exists (map (col_found num_text g) (write_cols iter)).
    split; [apply cols_read; exact NS|]. split.
    { clear - S. induction S as [|d D S IH F]; cbn [map]; constructor; [exact IH|]. apply Forall_forall. intros x Hx. apply in_map_iff in Hx as ([[f l] q] & <- & Hx).
      rewrite Forall_forall in F. specialize (F _ Hx). destruct d as [[f0 l0] q0]. cbn in *. lia. }
    intros c. specialize (T c). rewrite <- told_known. unfold column_says. destruct T as [T1 T2 T3 T4 T5]. rewrite T1. cbn [fst].
    assert (K : found c (map (col_found num_text g) (write_cols iter)) = match get c (changed_cols (cells s)) with
              Some o => match find (fun d : N * N * colopt => (fst (fst d) <=? c) && (c <=? snd (fst d))) (write_cols iter) with Some d => [col_found num_text g d] | None => [] end | None => [] end).
    { unfold found. assert (Q : forall d, about c (col_found num_text g d) = (fst (fst d) <=? c) && (c <=? snd (fst d))).
      { intros [[f l] q]. unfold about. cbn [col_found k_min k_max fst snd].
        destruct (N.leb_spec (f + 1) (c + 1)), (N.leb_spec f c), (N.leb_spec (c + 1) (l + 1)), (N.leb_spec c l); try reflexivity; lia. }
      assert (FM : forall D, filter (about c) (map (col_found num_text g) D) = map (col_found num_text g) (filter (fun d => (fst (fst d) <=? c) && (c <=? snd (fst d))) D)).
      { induction D as [|d D IH]; [reflexivity|]. cbn [map filter]. rewrite Q. destruct (_ && _); cbn [map]; rewrite IH; reflexivity. }
      rewrite FM, (filter_sorted (fun d : N * N * colopt => fst (fst d)) (fun d => snd (fst d)) c _ S L).
      destruct (find _ (write_cols iter)) as [[[f l] q]|] eqn:Fd; [|destruct (get c _); reflexivity].
      apply find_some in Fd as [Hin Hc]. cbn [fst snd] in Hc. apply andb_prop in Hc as [H1 H2]. apply N.leb_le in H1, H2.
      rewrite (I5 f l q c Hin (conj H1 H2)). reflexivity. }
    rewrite K. unfold present, col_settings in *. destruct (get c (changed_cols (cells s))) as [o|] eqn:Go; [|reflexivity].
    destruct (proj2 (I4 c)) as (f & l & q & Hin & Hc); [congruence|].
    destruct (find (fun d : N * N * colopt => (fst (fst d) <=? c) && (c <=? snd (fst d))) (write_cols iter)) as [[[f1 l1] q1]|] eqn:Fd.
    2:{ pose proof (find_none _ _ Fd _ Hin) as X. cbn [fst snd] in X. apply andb_false_iff in X as [X|X]; apply N.leb_gt in X; lia. }
    exists (col_found num_text g (f1, l1, q1)). split; [reflexivity|]. apply find_some in Fd as [Hin1 Hc1]. cbn [fst snd] in Hc1. apply andb_prop in Hc1 as [H1 H2]. apply N.leb_le in H1, H2.
    pose proof (I5 f1 l1 q1 c Hin1 (conj H1 H2)) as Gq. assert (q1 = o) by congruence. subst q1. cbn [col_found k_width k_custom k_fit k_hidden k_level k_collapsed k_style].
    rewrite width_is, T2, T3, T4. split; [reflexivity|]. split; [reflexivity|]. repeat (split; [reflexivity|]).
    destruct (told_col_format c h) as [fmt|]; [|rewrite T5; reflexivity]. exists (c_xf o). split; [exact T5|].
    destruct (c_xf o); reflexivity.
  Qed.
End Columns.
Print Assumptions C92_columns_read_back.
