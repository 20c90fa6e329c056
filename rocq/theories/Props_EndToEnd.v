(** C87: from the calls to the look of a cell in the saved file, across the worksheet part, the shared strings and
    the styles part. *)
From Coq Require Import Permutation Lia.
From Verif Require Import Base SMap F64 Fmt_Model Xml_Model Xml_Spec Xml_Read Xml_Tree Ref_Spec Sst_Model Cells_Model Cells_Spec Cells_Proofs Cells_Proofs2 Cells_Inv Cells_Save Cells_Hist Props_Cells Reg_Model Reg_Proofs Props_Reg
  Styles_Model Rich_Model Rich_Proofs SheetXml_Model SheetXml_Spec SheetXml_Proofs5 SheetXml_Proofs6 Props_SheetXml
  FmtOps_Model Color_Spec StylesXml_Model StylesXml_Spec StylesXml_Proofs StylesXml_Proofs2 StylesXml_Proofs3 StylesXml_Proofs5 E2E_Proofs Props_StylesXml.

(** A format made by calls whose texts can be stored in XML. *)
Definition made (f : Format) : Prop := exists chain, f = format_of chain /\ Props_StylesXml.texts_ok chain = true.
Definition link_format (f : Format) : bool := is_hyperlink (font f).

(** A workbook of standard worksheets with the calls [hist], formats [registered] in advance and the differential
    formats [dxfs] of its worksheets, when it is saved. *)
(** The worksheets' flag has_hyperlink_style (src/worksheet.rs:16018-16031, 16090-16105), some sheet's being set. *)
Definition sheets_link (hist : list (list op)) (dxfs : list Format) : bool :=
  existsb (existsb link_format) (map xfs (sheets_of hist)) || existsb link_format dxfs.
(** The workbook's flag (src/workbook.rs:2047-2066). *)
Definition book_link (hist : list (list op)) (registered dxfs : list Format) : bool := sheets_link hist dxfs || existsb link_format registered.
(** src/workbook.rs:2047-2117: the registry and the style map of every sheet. *)
Definition saved_registry (hist : list (list op)) (registered dxfs : list Format) : hmap * list (list N) :=
  save_registry (fst (register_list hm_new registered)) (sheets_link hist dxfs) (map xfs (sheets_of hist)).
(** src/worksheet.rs:16034-16040: the style written for local style [i] of sheet [k]. *)
Definition style_map (hist : list (list op)) (registered dxfs : list Format) (k : nat) (i : N) : N := get_global_xf_index (nth k (snd (saved_registry hist registered dxfs)) []) i.

(** *** Which formats are in the file *)
Lemma register_list_keys fs m f : In f (map fst (fst (register_list m fs))) -> In f (map fst m) \/ In f fs.
Proof.
  revert m. induction fs as [|g fs IH]; intros m; cbn [register_list]; [now left|].
  destruct (hm_register m g) as [m1 i] eqn:E1. specialize (IH m1). destruct (register_list m1 fs) as [m2 is]. cbn [fst] in *. intros H. destruct (IH H) as [A|A]; [|right; now right].
  unfold hm_register, read_section, write_section in E1. destruct (hm_get m g) as [j|] eqn:G.
  - assert (m = m1) by congruence. subst. now left.
  - rewrite (hm_insert_fresh m g _ G) in E1. assert (X : m ++ [(g, hm_len m)] = m1) by congruence. subst m1. rewrite map_app in A. apply in_app_iff in A as [A|[A|[]]]; [now left|right; left; exact A].
Qed.
Lemma register_sheets_keys ss m f : In f (map fst (fst (register_sheets m ss))) -> In f (map fst m) \/ exists s, In s ss /\ In f s.
Proof.
  revert m. induction ss as [|s ss IH]; intros m; cbn [register_sheets]; [now left|].
  pose proof (register_list_keys s m f) as K. destruct (register_list m s) as [m1 is]. specialize (IH m1). destruct (register_sheets m1 ss) as [m2 iss]. cbn [fst] in *. intros H.
  destruct (IH H) as [A|(t & A & B)]; [|right; exists t; split; [now right|exact B]]. destruct (K A) as [C|C]; [now left|]. right. exists s. split; [now left|exact C].
Qed.
Lemma written_formats hist registered dxfs iter f : Permutation iter (fst (saved_registry hist registered dxfs)) -> In f (xf_formats_of iter) ->
  f = format_default \/ In f registered \/ (f = format_hyperlink /\ sheets_link hist dxfs = true) \/ exists ops, In ops hist /\ In f (xfs (run ws_standard ops)).
Proof.
  intros P H. unfold xf_formats_of in H. apply in_map_iff in H as ([g i] & E & H). cbn [fst] in E. subst g.
  apply (Permutation_in _ (Permutation_sym (SortLib.sort_by_perm _ _))) in H || apply (Permutation_in _ (SortLib.sort_by_perm _ _)) in H.
  apply (Permutation_in _ P) in H. apply (in_map fst) in H. cbn [fst] in H. unfold saved_registry, save_registry in H.
  apply register_sheets_keys in H as [H|(s & Hs & Hf)].
  - assert (K : In f (map fst (fst (register_list hm_new registered))) -> f = format_default \/ In f registered).
    { intros A. apply register_list_keys in A as [[A|[]]|A]; [left; now symmetry|now right]. }
    unfold register_hyperlink in H. destruct (sheets_link hist dxfs) eqn:L; [|destruct (K H); auto].
    change (fst (hm_register (fst (register_list hm_new registered)) format_hyperlink)) with (fst (hm_register (fst (register_list hm_new registered)) format_hyperlink)) in H.
    assert (Q : In f (map fst (fst (register_list (fst (register_list hm_new registered)) [format_hyperlink])))).
    { cbn [register_list]. destruct (hm_register (fst (register_list hm_new registered)) format_hyperlink) as [m1 i1]. exact H. }
    apply register_list_keys in Q as [Q|[Q|[]]]; [destruct (K Q); auto|]. right. right. left. split; [now symmetry|reflexivity].
  - right. right. right. apply in_map_iff in Hs as (w & <- & Hw). unfold sheets_of in Hw. apply in_map_iff in Hw as (ops & <- & Ho). exists ops. auto.
Qed.
(** The file has a hyperlink cell style whenever some format in it uses it. *)
Lemma links_flagged hist registered dxfs iter f : Permutation iter (fst (saved_registry hist registered dxfs)) -> In f (xf_formats_of iter) ->
  is_hyperlink (font f) = true -> book_link hist registered dxfs = true.
Proof.
  intros P H L. unfold book_link. destruct (written_formats _ _ _ _ f P H) as [->|[A|[[_ A]|(ops & A & B)]]].
  - discriminate.
  - apply orb_true_iff. right. apply existsb_exists. exists f. auto.
  - now rewrite A.
  - apply orb_true_iff. left. unfold sheets_link. apply orb_true_iff. left. apply existsb_exists. exists (xfs (run ws_standard ops)). split.
    + apply in_map, in_map_iff. exists ops. auto.
    + apply existsb_exists. exists f. auto.
Qed.
Lemma made_texts f : made f -> format_texts f.
Proof. intros (chain & -> & H). apply texts_of. exact H. Qed.
Lemma or_else_ind {A} (Q : A -> Prop) dec d a b : Q a -> Q b -> Q (@or_else A dec d a b).
Proof. unfold or_else. destruct (dec a d); auto. Qed.
Lemma merge_texts a b : format_texts a -> format_texts b -> format_texts (format_merge a b).
Proof.
  intros [(A1 & A2 & A3) A4] [(B1 & B2 & B3) B4]. unfold format_texts, font_texts. cbn [format_merge font merge_font font_name font_size scheme num_format].
  repeat split; apply (or_else_ind (fun s => forallb attr_char s = true)); assumption.
Qed.
Lemma default_texts : format_texts format_default. Proof. repeat split. Qed.
Lemma hyperlink_texts : format_texts format_hyperlink. Proof. repeat split. Qed.

(** A range format reaches every cell of the range that some call wrote before (for the others see
    C27: the used range is not extended). *)
Lemma range_format_general pre fr fc lr lc f post w1 r c a o1 b w0 v t g :
  (forall i, nth_error (xfs (run ws_standard (pre ++ SetRangeFormat fr fc lr lc f :: post))) (N.to_nat i) = Some f -> g i <> 0) ->
  pre = a ++ o1 :: b -> step (run ws_standard a) o1 = (w0, None) -> writes (run ws_standard a) o1 r c = Some v ->
  step (run ws_standard pre) (SetRangeFormat fr fc lr lc f) = (w1, None) -> in_rect fr fc lr lc r c = true -> f <> format_default -> untouched w1 post r c ->
  let w := run ws_standard (pre ++ SetRangeFormat fr fc lr lc f :: post) in
  exists v i, Cells_Spec.shown (sheet_rows w t g) r c = [(v, g i)] /\ i <> 0 /\ nth_error (xfs w) (N.to_nat i) = Some f.
Proof.
  intros Hg Ep E0 Hv E Hin Hne Hu. cbv zeta. rewrite run_app, run_cons, E in *. cbn [fst] in *.
  assert (Hf : gives_format (SetRangeFormat fr fc lr lc f) r c = Some f) by (cbn; now rewrite Hin).
  destruct (std_run a ws_standard std_start) as [Ha _]. destruct (std_step _ _ _ _ Ha E0) as [Hw0 F0]. destruct (sf_cov _ _ _ _ F0 eq_refl r c v Hv) as [Hcov0 _].
  destruct (std_run b w0 Hw0) as [_ Mb].
  destruct (std_run pre ws_standard std_start) as [H0 _].
  destruct (std_step _ _ _ _ H0 E) as [H1 F].
  destruct (sf_fmt _ _ _ _ F eq_refl (d_reg _ H0) r c f Hf Hne) as (k & x & Hk & Hx).
  destruct (std_run (SetRangeFormat fr fc lr lc f :: post) (run w0 b)) as [H2 M2].
  { replace (run w0 b) with (run ws_standard pre) by (rewrite Ep, run_app, run_cons, E0; reflexivity). exact H0. }
  rewrite run_cons in H2, M2. replace (run w0 b) with (run ws_standard pre) in H2, M2, Mb by (rewrite Ep, run_app, run_cons, E0; reflexivity).
  rewrite E in H2, M2. cbn [fst] in H2, M2.
  pose proof (untouched_run post r c w1 H1 Hu) as P. rewrite Hk in P.
  assert (Hx0 : x <> 0).
  { intros ->. pose proof (d_reg _ H1) as R. unfold reg0 in R. change (N.to_nat 0) with 0%nat in Hx. congruence. }
  pose proof (sheet_shown (run w1 post) t g r c H2) as S. rewrite P in S. cbv zeta in S. rewrite effective_info in S.
  destruct (N.eqb_spec x 0) as [|_]; [contradiction|]. destruct (N.eqb_spec x 0) as [|_]; [contradiction|].
  assert (Hcov : covers (run w1 post) r c) by (apply (covers_meta _ _ _ _ M2), (covers_meta _ _ _ _ Mb); exact Hcov0).
  destruct Hcov as [[A B] _]. apply N.leb_le in A, B. rewrite A, B in S. cbn [andb] in S.
  destruct (std_run post w1 H1) as [_ M1].
  assert (Hx' : nth_error (xfs (run w1 post)) (N.to_nat x) = Some f) by (eapply prefix_nth; [apply M1|exact Hx]).
  exists (contents k), x. split; [|split; [assumption|exact Hx']].
  rewrite S. destruct (contents k); try reflexivity. pose proof (Hg x Hx'). destruct (N.ltb_spec 0 (g x)); [reflexivity|lia].
Qed.

Section File.
  Variables (hist : list (list op)) (registered dxfs : list Format) (iter : list (Format * N)) (comments : bool).
  Hypothesis order : Permutation iter (fst (saved_registry hist registered dxfs)).
  (** Excel's limit on the number of cell formats. *)
  Hypothesis few : N.of_nat (length (xf_formats_of iter) + length dxfs) <= 65000.
  Hypothesis good : Forall made (registered ++ dxfs ++ flat_map op_formats (concat hist)).
  Definition styles_file : str := styles_part (xf_formats_of iter) dxfs (book_link hist registered dxfs) comments.
  Let doc : node := node_of (styles_root (xf_formats_of iter) dxfs (book_link hist registered dxfs) comments).

  Lemma sheet_texts ops : In ops hist -> Forall format_texts (xfs (run ws_standard ops)).
  Proof.
    intros H. apply (run_fp format_texts merge_texts ops ws_standard); [|apply standard_fp, default_texts].
    pose proof good as G. apply Forall_app in G as [_ G]. apply Forall_app in G as [_ G]. rewrite Forall_forall in G. apply Forall_forall. intros f Hf. apply made_texts, G.
    apply in_flat_map in Hf as (o & Ho & Hf). apply in_flat_map. exists o. split; [|exact Hf]. apply in_concat. exists ops. auto.
  Qed.
  Lemma all_texts : Forall format_texts (xf_formats_of iter ++ dxfs).
  Proof.
    pose proof good as G. apply Forall_app in G as [G1 G]. apply Forall_app in G as [G2 _]. apply Forall_app. split; [|eapply Forall_impl; [|exact G2]; apply made_texts].
    apply Forall_forall. intros f H. destruct (written_formats _ _ _ _ f order H) as [->|[A|[[-> _]|(ops & A & B)]]].
    - apply default_texts.
    - rewrite Forall_forall in G1. apply made_texts, G1, A.
    - apply hyperlink_texts.
    - pose proof (sheet_texts ops A) as Q. rewrite Forall_forall in Q. apply Q, B.
  Qed.
  Lemma styles_reads : read_document styles_file = Some doc.
  Proof. apply document_reads. apply styles_wx; [exact few|exact all_texts]. Qed.
  Lemma selected_reads style chain : selects (xf_formats_of iter) style (format_of chain) -> calls_ok (forallb attr_char) chain = true ->
    read_style doc style = Some (style_asked chain).
  Proof.
    intros S Ok. destruct (calls_style chain Ok) as [Fo E]. rewrite <- E, <- (N2Nat.id style). apply style_reads; [exact few| |exact S|exact Fo].
    intros f Hf Hl. exact (links_flagged _ _ _ _ f order Hf Hl).
  Qed.

  (** A cell of the file: in the worksheet part [sheet_text], with shared strings [items], cell (r, c) is written
      once; its value is [v] and its style number selects, in the styles part, the look [look]. *)
  Definition cell_looks (read_num : str -> option f64) (image_id : N -> N) (items : list node) (sheet_text : str) (r c : N) (v : value) (look : rstyle) : Prop :=
    exists rows f number styles_doc, read_sheet_data items sheet_text = Some rows /\ cells_at rows r c = [(f, number)] /\ value_read read_num image_id v f /\
      read_document styles_file = Some styles_doc /\ read_style styles_doc number = Some look.

  Section Sheet.
  (** Sheet [k], with the calls [ops]; [before] and [after] are the strings of the sheets before and after it. *)
  Variables (num_text : f64 -> str) (read_num : str -> option f64) (m : ovf) (image_id : N -> N) (before after : list str) (k : nat) (ops : list op) (x14 : bool) (entries : list (str * N)).
  Hypothesis kth : nth_error hist k = Some ops.
  Hypothesis display : number_display num_text read_num.
  Hypothesis readable : Forall op_readable ops.
  Hypothesis strings_before : Forall string_ok before.
  Hypothesis strings_after : Forall string_ok after.
  Hypothesis table_order : Permutation entries (strings (final_table before after ops)).
  Let g : N -> N := style_map hist registered dxfs k.
  (** The parts of the file. *)
  Definition parts_read (P : list node -> str -> Prop) : Prop :=
    exists text part attrs items, sheet_data_text num_text m image_id (saved_sheet before ops) g x14 = Some text /\
      shared_strings_part (final_table before after ops) entries = Some part /\ read_document part = Some (Elem (lit "sst") attrs items) /\ P items text.

  Lemma shown_looks r c v s chain : Cells_Spec.shown (sheet_rows (run ws_standard ops) (table_before before) g) r c = [(v, s)] ->
    selects (xf_formats_of iter) s (format_of chain) -> calls_ok (forallb attr_char) chain = true ->
    parts_read (fun items text => cell_looks read_num image_id items text r c v (style_asked chain)).
  Proof.
    intros S Se Ok. destruct (C51_sheet_reads_back num_text read_num m image_id before after ops g x14 entries display readable strings_before strings_after table_order)
      as (text & part & attrs & items & rows & T1 & T2 & T3 & _ & _ & T4 & [T5 _ _]).
    specialize (T5 r c). unfold Props_SheetXml.sheet in T5. rewrite S in T5. inversion T5 as [|? [f st] ? ? [V1 V2] F2]; subst. inversion F2; subst. cbn [fst snd] in *. subst st.
    exists text, part, attrs, items. split; [exact T1|]. split; [exact T2|]. split; [exact T3|].
    exists rows, f, s, doc. split; [exact T4|]. split; [now symmetry|]. split; [exact V1|]. split; [exact styles_reads|apply selected_reads; assumption].
  Qed.
  Lemma undisturbed_of o r c : alters o r c = true -> touches o r c = true. Proof. destruct o; cbn; congruence. Qed.
  Lemma untouched_undisturbed post : forall w r c, untouched w post r c -> undisturbed w post r c.
  Proof.
    induction post as [|o post IH]; intros w r c; cbn [untouched undisturbed]; [auto|]. intros [[A|A] B]; (split; [|apply IH, B]); [|now right].
    left. destruct (alters o r c) eqn:E; [|reflexivity]. apply undisturbed_of in E. congruence.
  Qed.

  (** C87: a cell written with a format: the file has the value and the look asked for. *)
  Theorem C87_written_cell_reads_back_partial pre o post w1 r c v chain :
    ops = pre ++ o :: post -> step (run ws_standard pre) o = (w1, None) ->
    writes (run ws_standard pre) o r c = Some v -> v <> VBlank ->
    gives_format o r c = Some (format_of chain) -> format_of chain <> format_default -> calls_ok (forallb attr_char) chain = true ->
    is_range_format o = false -> untouched w1 post r c ->
    parts_read (fun items text => cell_looks read_num image_id items text r c v (style_asked chain)).
  Proof.
    intros Eo E Hv Hb Hf Hne Ok Hr Hu. pose proof kth as Hk. rewrite Eo in Hk.
    destruct (C28_own_format_in_styles hist registered (sheets_link hist dxfs) iter order k pre o post w1 r c (format_of chain) (table_before before) Hk E Hf Hne Hr Hu) as (v' & s & S & Se).
    destruct (C15_last_write_wins pre o post w1 r c v (table_before before) g E Hv Hb (untouched_undisturbed post w1 r c Hu)) as [s' S'].
    assert (X : (v', s) = (v, s')).
    { assert (Y : [(v', s)] = [(v, s')]) by (rewrite <- S, <- S'; reflexivity). congruence. }
    assert (v' = v) by congruence. subst v'. apply (shown_looks r c v s chain); [rewrite Eo; exact S|exact Se|exact Ok].
  Qed.
  (** A cell whose format was set later, whatever it holds. *)
  Theorem C87_formatted_cell_reads_back_partial pre o post w1 r c chain :
    ops = pre ++ o :: post -> step (run ws_standard pre) o = (w1, None) ->
    gives_format o r c = Some (format_of chain) -> format_of chain <> format_default -> calls_ok (forallb attr_char) chain = true ->
    is_range_format o = false -> untouched w1 post r c ->
    exists v, parts_read (fun items text => cell_looks read_num image_id items text r c v (style_asked chain)).
  Proof.
    intros Eo E Hf Hne Ok Hr Hu. pose proof kth as Hk. rewrite Eo in Hk.
    destruct (C28_own_format_in_styles hist registered (sheets_link hist dxfs) iter order k pre o post w1 r c (format_of chain) (table_before before) Hk E Hf Hne Hr Hu) as (v & s & S & Se).
    exists v. apply (shown_looks r c v s chain); [rewrite Eo; exact S|exact Se|exact Ok].
  Qed.
  (** A written cell inside a range whose format was set later: its value stays, its look is the range's. *)
  Theorem C87_range_format_reads_back_partial a o1 b w0 fr fc lr lc post w1 r c v chain :
    ops = (a ++ o1 :: b) ++ SetRangeFormat fr fc lr lc (format_of chain) :: post ->
    step (run ws_standard a) o1 = (w0, None) -> writes (run ws_standard a) o1 r c = Some v -> v <> VBlank -> undisturbed w0 b r c ->
    step (run ws_standard (a ++ o1 :: b)) (SetRangeFormat fr fc lr lc (format_of chain)) = (w1, None) -> in_rect fr fc lr lc r c = true ->
    format_of chain <> format_default -> calls_ok (forallb attr_char) chain = true -> untouched w1 post r c ->
    parts_read (fun items text => cell_looks read_num image_id items text r c v (style_asked chain)).
  Proof.
    intros Eo E0 Hv Hb Hu0 E Hin Hne Ok Hu. pose proof kth as Hk. rewrite Eo in Hk.
    destruct (remap hist registered (sheets_link hist dxfs) iter order k _ Hk) as [R0 R].
    destruct (range_format_general (a ++ o1 :: b) fr fc lr lc (format_of chain) post w1 r c a o1 b w0 v (table_before before) g) as (v' & i & S & _ & Hi); try assumption; try reflexivity.
    { intros i Hi Ez. specialize (R i _ Hi). fold (saved_registry hist registered dxfs) in R. change (get_global_xf_index (nth k (snd (saved_registry hist registered dxfs)) []) i) with (g i) in R. rewrite Ez in R. unfold selects in *. congruence. }
    assert (U : undisturbed w0 (b ++ SetRangeFormat fr fc lr lc (format_of chain) :: post) r c).
    { assert (Ew : run ws_standard (a ++ o1 :: b) = run w0 b) by (rewrite run_app, run_cons, E0; reflexivity). rewrite Ew in E.
      clear - Hu0 E Hu. revert w0 Hu0 E. induction b as [|x l IH]; intros w0 Hu0 E; cbn [app undisturbed] in *.
      - split; [now left|]. change (run w0 []) with w0 in E. rewrite E. cbn [fst]. apply untouched_undisturbed, Hu.
      - split; [apply Hu0|]. apply IH; [apply Hu0|]. exact E. }
    assert (Eo' : ops = a ++ o1 :: (b ++ SetRangeFormat fr fc lr lc (format_of chain) :: post)) by (rewrite Eo, <- app_assoc; reflexivity).
    destruct (C15_last_write_wins a o1 _ w0 r c v (table_before before) g E0 Hv Hb U) as [s' S'].
    assert (X : [(v', g i)] = [(v, s')]) by (rewrite <- S, <- S', <- Eo', Eo; reflexivity).
    assert (v' = v) by congruence. subst v'. apply (shown_looks r c v (g i) chain); [rewrite Eo; exact S| |exact Ok]. exact (R i _ Hi).
  Qed.
  (** A cell without a format in a formatted row. *)
  Theorem C87_cell_of_formatted_row_partial pre o post w1 r c v chain a b :
    ops = pre ++ o :: post -> step (run ws_standard pre) o = (w1, None) -> is_write o = true -> writes (run ws_standard pre) o r c = Some v -> v <> VBlank ->
    write_format o = None -> untouched w1 post r c ->
    existsb (formats_row r) pre = false \/ existsb (formats_col c) pre = false ->
    ops = a ++ SetRowFormat r (format_of chain) :: b -> existsb (formats_row r) b = false -> r < 1048576 ->
    format_of chain <> format_default -> calls_ok (forallb attr_char) chain = true ->
    parts_read (fun items text => cell_looks read_num image_id items text r c v (style_asked chain)).
  Proof.
    intros Eo E Hw Hv Hb Hf Hu Hn Hl Hlast Hr Hne Ok. pose proof kth as Hk. rewrite Eo in Hk, Hl.
    destruct (C28_row_format_in_styles hist registered (sheets_link hist dxfs) iter order k pre o post w1 r c v (format_of chain) a b (table_before before) Hk E Hw Hv Hb Hf Hu Hn Hl Hlast Hr Hne) as (s & S & Se).
    apply (shown_looks r c v s chain); [rewrite Eo; exact S|exact Se|exact Ok].
  Qed.
  (** A cell without a format in a formatted column of an unformatted row. *)
  Theorem C87_cell_of_formatted_column_partial pre o post w1 r c v chain a b :
    ops = pre ++ o :: post -> step (run ws_standard pre) o = (w1, None) -> is_write o = true -> writes (run ws_standard pre) o r c = Some v -> v <> VBlank ->
    write_format o = None -> untouched w1 post r c -> existsb (formats_row r) ops = false ->
    ops = a ++ SetColumnFormat c (format_of chain) :: b -> existsb (formats_col c) b = false -> c < 16384 ->
    format_of chain <> format_default -> calls_ok (forallb attr_char) chain = true ->
    parts_read (fun items text => cell_looks read_num image_id items text r c v (style_asked chain)).
  Proof.
    intros Eo E Hw Hv Hb Hf Hu Hn Hl Hlast Hr Hne Ok. pose proof kth as Hk. rewrite Eo in Hk, Hl, Hn.
    destruct (C28_column_format_in_styles hist registered (sheets_link hist dxfs) iter order k pre o post w1 r c v (format_of chain) a b (table_before before) Hk E Hw Hv Hb Hf Hu Hn Hl Hlast Hr Hne) as (s & S & Se).
    apply (shown_looks r c v s chain); [rewrite Eo; exact S|exact Se|exact Ok].
  Qed.
  (** A cell without any format has the default look. *)
  Theorem C87_plain_cell_reads_back pre o post w1 r c v :
    ops = pre ++ o :: post -> step (run ws_standard pre) o = (w1, None) -> is_write o = true -> writes (run ws_standard pre) o r c = Some v -> v <> VBlank ->
    write_format o = None -> untouched w1 post r c -> existsb (formats_row r) ops = false -> existsb (formats_col c) ops = false ->
    parts_read (fun items text => cell_looks read_num image_id items text r c v (style_asked [])).
  Proof.
    intros Eo E Hw Hv Hb Hf Hu Hn Hm. pose proof kth as Hk. rewrite Eo in Hk, Hn, Hm.
    destruct (C28_default_in_styles hist registered (sheets_link hist dxfs) iter order k pre o post w1 r c v (table_before before) Hk E Hw Hv Hb Hf Hu Hn Hm) as (s & S & Se).
    apply (shown_looks r c v s []); [rewrite Eo; exact S|exact Se|reflexivity].
  Qed.
  End Sheet.
End File.
(** Two sheets whose formats were first used in different orders, one of them a hyperlink format; the cell B3 of
    the second sheet is bold on a red ground with two decimals. *)
Definition red_bold : list fmt_op := [OBold true; ONumFormat (lit "0.00"); OBackground (CRGB 16711680)].
Definition book_met : list (list op) :=
  [[WriteNumber 0 0 (f_of_N 1) (Some (format_of [OHyperlink]))];
   [WriteNumber 0 0 (f_of_N 1) (Some (format_of [OItalic true])); WriteNumber 2 1 (f_of_N 7) (Some (format_of red_bold)); WriteNumber 3 1 (f_of_N 8) None]].
Definition registry_met := fst (saved_registry book_met [format_of red_bold] []).
Lemma few_met : N.of_nat (length (xf_formats_of registry_met) + 0) <= 65000. Proof. vm_compute. discriminate. Qed.
Lemma good_met : Forall made ([format_of red_bold] ++ [] ++ flat_map op_formats (concat book_met)).
Proof. repeat constructor; eexists; split; reflexivity. Qed.
Example C87_met num_text read_num m image_id : number_display num_text read_num ->
  parts_read book_met [format_of red_bold] [] num_text m image_id [] [] 1 (nth 1 book_met []) false [] (fun items text =>
    cell_looks book_met [format_of red_bold] [] registry_met false read_num image_id items text 2 1 (VNumber (f_of_N 7)) (style_asked red_bold)) /\
  s_bold (style_asked red_bold) = true /\ s_number (style_asked red_bold) = NCode (lit "0.00") /\ s_fill (style_asked red_bold) = FSolid (Some (RRgb 16711680)) /\
  style_map book_met [format_of red_bold] [] 1 2 = 1.
Proof.
  intros D. split; [|vm_compute; repeat split; reflexivity].
  eapply (C87_written_cell_reads_back_partial book_met [format_of red_bold] [] registry_met false (Permutation_refl _) few_met good_met num_text read_num m image_id [] [] 1 (nth 1 book_met []) false []
    eq_refl D) with (pre := [WriteNumber 0 0 (f_of_N 1) (Some (format_of [OItalic true]))]) (post := [WriteNumber 3 1 (f_of_N 8) None]); try reflexivity; try discriminate; try (repeat constructor).
Qed.
