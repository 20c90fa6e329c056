(** C53: what a merged range shows, in the file. *)
From Verif Require Import Base SMap F64 Fmt_Model Sst_Model Cells_Model Cells_Spec Cells_Inv Cells_Proofs Cells_Proofs2 Cells_Save Cells_Hist
  Sheet_Model Sheet_Spec Sheet_Proofs Opts_Frame Sheet_Hist Sheet_Hist2 Sheet_Hist3 Sheet_Hist4 Sheet_Hist5 Xml_Model Xml_Spec Xml_Read Xml_Read_Proofs Xml_Tree
  Ref_Model Ref_Spec Ref_Proofs Props_Ref Merge_Model Props_Sheet Rich_Proofs SheetXml_Proofs SheetXml_Proofs3.

(** The value in cell (r, c) of a merged range with the given text. *)
Definition merged_value (fr fc : N) (text : str) (r c : N) : value :=
  if here fr fc r c then match text with [] => VBlank | _ => VText text end else VBlank.

Lemma split_unique {A} (l : list A) x : NoDup l -> In x l -> exists a b, l = a ++ x :: b /\ ~ In x b.
Proof.
  intros Nd H. apply in_split in H as (a & b & ->). exists a, b. split; [reflexivity|].
  apply NoDup_remove_2 in Nd. rewrite in_app_iff in Nd. tauto.
Qed.
Lemma merge_last fr fc lr lc text f r c : fr <= r <= lr -> fc <= c <= lc ->
  exists a o b, merge_ops fr fc lr lc text f = a ++ o :: b /\ (forall o', In o' b -> alters o' r c = false) /\
    write_format o = Some f /\ forall w, writes w o r c = Some (merged_value fr fc text r c).
Proof.
  intros Hr Hc. unfold merged_value.
  destruct (N.eq_dec r fr) as [->|Hnr]; [destruct (N.eq_dec c fc) as [->|Hnc]|].
  - exists [], (WriteString fr fc text (Some f)). eexists. split; [reflexivity|]. split; [|split].
    + intros o Ho. apply in_app_iff in Ho as [Ho|Ho].
      * apply in_map_iff in Ho as (q & <- & Hq). apply in_range_incl in Hq. cbn [alters]. unfold here. rewrite N.eqb_refl. cbn [andb]. apply N.eqb_neq. lia.
      * apply in_map_iff in Ho as ([q1 q2] & <- & Hq). apply in_range_cells in Hq. cbn [alters fst snd]. unfold here. apply andb_false_iff. left. apply N.eqb_neq. lia.
    + reflexivity.
    + intros w. cbn [writes]. rewrite here_refl. unfold text_value. destruct text; reflexivity.
  - destruct (split_unique (range_incl (fc + 1) lc) c (nodup_range_incl _ _)) as (a & b & E & Nb); [apply in_range_incl; lia|].
    exists (WriteString fr fc text (Some f) :: map (fun c => WriteBlank fr c f) a), (WriteBlank fr c f), (map (fun c => WriteBlank fr c f) b ++ map (fun p => WriteBlank (fst p) (snd p) f) (range_cells (fr + 1) fc lr lc)).
    split; [unfold merge_ops; rewrite E, map_app; cbn [map app]; rewrite <- app_assoc; reflexivity|]. split; [|split].
    + intros o Ho. apply in_app_iff in Ho as [Ho|Ho].
      * apply in_map_iff in Ho as (q & <- & Hq). cbn [alters]. unfold here. rewrite N.eqb_refl. cbn [andb]. apply N.eqb_neq. intros ->. contradiction.
      * apply in_map_iff in Ho as ([q1 q2] & <- & Hq). apply in_range_cells in Hq. cbn [alters fst snd]. unfold here. apply andb_false_iff. left. apply N.eqb_neq. lia.
    + reflexivity.
    + intros w. cbn [writes]. rewrite here_refl. unfold here. rewrite N.eqb_refl. cbn [andb]. destruct (N.eqb_spec fc c); [congruence|reflexivity].
  - destruct (split_unique (range_cells (fr + 1) fc lr lc) (r, c) (nodup_range_cells _ _ _ _)) as (a & b & E & Nb); [apply in_range_cells; lia|].
    eexists ((WriteString fr fc text (Some f) :: map (fun c => WriteBlank fr c f) (range_incl (fc + 1) lc)) ++ map (fun p => WriteBlank (fst p) (snd p) f) a), (WriteBlank r c f), (map (fun p => WriteBlank (fst p) (snd p) f) b).
    split; [unfold merge_ops; rewrite E, map_app; cbn [map app fst snd]; rewrite <- app_assoc; reflexivity|]. split; [|split].
    + intros o Ho. apply in_map_iff in Ho as ([q1 q2] & <- & Hq). cbn [alters fst snd].
      destruct (here q1 q2 r c) eqn:A; [|reflexivity]. apply here_row in A as [-> ->]. contradiction.
    + reflexivity.
    + intros w. cbn [writes]. rewrite here_refl. unfold here. destruct (N.eqb_spec fr r); [congruence|reflexivity].
Qed.

Section Lower.
(** [str::to_lowercase] is arbitrary. *)
Variable lower : str -> str.

(** After a merge is accepted, on a worksheet with any history of calls (cells,
    merges, tables, filters, groups, page breaks), and after any further calls
    that do not mention the cell: the file shows the text in the top left cell and
    an empty cell in every other cell of the range, all of them with the format
    given, which is in the list of formats under the style index written.  [g]
    renumbers the style indices at save time; it keeps 0 for the default. *)
Theorem C53_merged_cells pre s fr fc lr lc text f s1 post s2 t g r c :
  srun lower (sheet_new ws_standard) pre = Some s ->
  merge_range s fr fc lr lc text f = Some (s1, None) ->
  srun lower s1 post = Some s2 -> (forall o, In o post -> stouches o r c = false) ->
  fr <= r <= lr -> fc <= c <= lc -> f <> format_default -> (forall i, i <> 0 -> g i <> 0) ->
  exists i, nth_error (xfs (cells s2)) (N.to_nat i) = Some f /\
    shown (sheet_rows (cells s2) t g) r c = [(merged_value fr fc text r c, g i)].
Proof.
  intros Hp Hm Hpost Hn Hr Hc Hf Hg.
  destruct (srun_std lower pre (sheet_new ws_standard) s std_start Hp) as (S0 & _).
  destruct (merge_cells _ _ _ _ _ _ _ _ _ S0 Hm) as (S1 & _ & _ & W). destruct (W (or_introl eq_refl)) as (w2 & Sw & _ & _ & _ & Wr).
  destruct (srun_std lower post _ _ S1 Hpost) as (S2 & M2 & F2). specialize (F2 r c Hn).
  destruct (merge_last fr fc lr lc text f r c Hr Hc) as (a & o & b & E & Hb & Wf & Hv).
  destruct (wr_val _ _ _ Wr a o b r c _ E Hb (Hv w2)) as (k & x & G1 & G2 & G3 & G4 & _).
  rewrite Wf in G3. cbn in G3. specialize (G3 (d_reg _ Sw) Hf).
  assert (G3' : nth_error (xfs (cells s2)) (N.to_nat x) = Some f) by exact (prefix_nth _ _ _ _ (m_xfs _ _ M2) G3).
  exists x. split; [exact G3'|]. rewrite G1 in F2. rewrite <- G2.
  exact (proj1 (std_shows_format _ t g r c k x f S2 Hg F2 (covers_meta _ _ _ _ M2 G4) G3' Hf)).
Qed.
(** The text is shown whatever the format is. *)
Theorem C53_merged_text pre s fr fc lr lc text f s1 post s2 t g :
  srun lower (sheet_new ws_standard) pre = Some s ->
  merge_range s fr fc lr lc text f = Some (s1, None) ->
  srun lower s1 post = Some s2 -> (forall o, In o post -> stouches o fr fc = false) -> text <> [] ->
  exists style, shown (sheet_rows (cells s2) t g) fr fc = [(VText text, style)].
Proof.
  intros Hp Hm Hpost Hn Ht.
  destruct (srun_std lower pre (sheet_new ws_standard) s std_start Hp) as (S0 & _).
  destruct (merge_cells _ _ _ _ _ _ _ _ _ S0 Hm) as (S1 & _ & _ & W). destruct (W (or_introl eq_refl)) as (w2 & Sw & _ & _ & _ & Wr).
  destruct (srun_std lower post _ _ S1 Hpost) as (S2 & M2 & F2). specialize (F2 fr fc Hn).
  apply merge_claims in Hm as (_ & _ & _ & C). destruct C as [(_ & l & _ & _ & L1 & L2 & _)|[(Q & _)|(Q & _)]]; [|discriminate|congruence].
  destruct (merge_last fr fc lr lc text f fr fc ltac:(lia) ltac:(lia)) as (a & o & b & E & Hb & Wf & Hv).
  destruct (wr_val _ _ _ Wr a o b fr fc _ E Hb (Hv w2)) as (k & x & G1 & G2 & G3 & G4 & _).
  unfold merged_value in G2. rewrite here_refl in G2. rewrite G1 in F2.
  assert (E2 : contents k = VText text) by (destruct text; [congruence|exact G2]). rewrite <- E2.
  apply (std_shows _ t g fr fc k x S2 F2 (covers_meta _ _ _ _ M2 G4)). rewrite E2. discriminate.
Qed.
(** Cells outside the range keep their contents and format, whether or not the
    merge is accepted. *)
Theorem C53_outside_unchanged pre s fr fc lr lc text f s1 e r c :
  srun lower (sheet_new ws_standard) pre = Some s ->
  merge_range s fr fc lr lc text f = Some (s1, e) -> ~ (fr <= r <= lr /\ fc <= c <= lc) ->
  table_get r c (data (cells s1)) = table_get r c (data (cells s)).
Proof.
  intros Hp Hm Hn. destruct (srun_std lower pre (sheet_new ws_standard) s std_start Hp) as (S0 & _). apply (merge_frame _ _ _ _ _ _ _ _ _ _ _ S0 Hm).
  unfold in_rect. rewrite !andb_false_iff, !N.leb_gt. lia.
Qed.
End Lower.

(** ** The <mergeCells> element *)
Lemma all_some_map {A B} (f : A -> option B) l : (forall x, In x l -> exists y, f x = Some y) ->
  exists ys, all_some (map f l) = Some ys /\ Forall2 (fun x y => f x = Some y) l ys.
Proof.
  induction l as [|x l IH]; intros H; [exists []; split; [reflexivity|constructor]|].
  destruct (H x (or_introl eq_refl)) as (y & E). destruct IH as (ys & E2 & F); [intros; apply H; right; assumption|].
  exists (y :: ys). cbn [map all_some]. rewrite E, E2. split; [reflexivity|constructor; assumption].
Qed.
(** The ranges a reader finds in a list of elements, in order. *)
Definition attr (n : str) (l : list (str * str)) : option str :=
  match find (fun p => str_eqb (fst p) n) l with Some p => Some (snd p) | None => None end.
Definition merge_ref (n : node) : option ((N * N) * (N * N)) :=
  match n with
  | Elem tag l [] =>
    if str_eqb tag (lit "mergeCell") then
      match attr (lit "ref") l with
      | Some s => match parse_range s with
                  | Some (a, b) => Some ((a1_row a, a1_col a), (a1_row b, a1_col b)) | None => None end
      | None => None end
    else None
  | _ => None
  end.
Definition corners_of (R : rng) : (N * N) * (N * N) := ((r0 R, c0 R), (r1 R, c1 R)).

Lemma attr_range m fr fc lr lc s : fr < 2 ^ 32 - 1 -> fc < 65535 -> lr < 2 ^ 32 - 1 -> lc < 65535 -> cell_range m fr fc lr lc = Some s -> forallb attr_char s = true.
Proof.
  intros A B C D. unfold cell_range.
  destruct (row_col_to_cell m fr fc) as [x|] eqn:E1; [|discriminate]. destruct (row_col_to_cell m lr lc) as [y|] eqn:E2; [|discriminate].
  assert (K : forall r c z, r < 2 ^ 32 - 1 -> c < 65535 -> row_col_to_cell m r c = Some z -> forallb attr_char z = true).
  { clear. intros r c z Hr Hc E. destruct (row_col_to_cell_text m r c Hr Hc) as (nm & En & Ez & _). destruct (column_number_to_name_spec m c Hc) as (nm2 & En2 & U & _). assert (nm2 = nm) by congruence. subst nm2. rewrite Ez in E.
    assert (z = nm ++ dec (r + 1)) by congruence. subst z. rewrite forallb_app. apply andb_true_iff. split; apply simple_attrs; [apply upper_simple|apply dec_simple].
    exact U. }
  intros [= <-]. destruct (str_eqb x y); [exact (K _ _ _ A B E1)|].
  rewrite forallb_app. cbn [forallb]. rewrite (K _ _ _ A B E1), (K _ _ _ C D E2). reflexivity.
Qed.

(** Whatever was called before, in any mode: the element is written without a
    panic when there is a merged range, and a reader of it finds the count and,
    in order, exactly the merged ranges of the worksheet. *)
Theorem C53_merge_cells_element lower s m : reachable lower s -> ranges (merges s) <> [] ->
  exists t kids, merge_cells_xml m (ranges (merges s)) = Some [t] /\
    read_xml (write_wx t) = Some [Elem (lit "mergeCells") [(lit "count", dec (N.of_nat (length (ranges (merges s)))))] kids] /\
    map merge_ref kids = map (fun R => Some (corners_of R)) (ranges (merges s)).
Proof.
  intros H Hne. pose proof (proj2 (C22_merged_ranges_disjoint lower s H)) as L. set (Rs := ranges (merges s)) in *. clearbody Rs. clear H s.
  assert (Lim : forall R, In R Rs -> r0 R < 2 ^ 32 - 1 /\ c0 R < 65535 /\ r1 R < 2 ^ 32 - 1 /\ c1 R < 65535).
  { intros R HR. rewrite Forall_forall in L. destruct (L R HR) as [W _]. unfold within_limits in W. change (2 ^ 32 - 1) with 4294967295. lia. }
  destruct (all_some_map (range_string m) Rs) as (refs & E & F).
  { intros R HR. destruct (Lim R HR) as (A & B & C & D). destruct (C03_cell_range_roundtrip m _ _ _ _ A B C D) as (x & Ex & _). exists x. exact Ex. }
  unfold merge_cells_xml. rewrite E. destruct Rs as [|R0 Rs0] eqn:ER; [congruence|]. rewrite <- ER in *. clear ER R0 Rs0.
  eexists _, (map node_of (map (fun ref => WEmpty (lit "mergeCell") [(lit "ref", ref)]) refs)). split; [reflexivity|]. split.
  - apply reads_doc. apply (write_reads (WElem (lit "mergeCells") [(lit "count", dec (N.of_nat (length Rs)))] (map (fun ref => WEmpty (lit "mergeCell") [(lit "ref", ref)]) refs))). apply wx_ok_elem. split; [reflexivity|]. split.
    + apply attrs_one; [reflexivity|]. apply simple_attrs, dec_simple.
    + apply Forall_forall. intros x Hx. apply in_map_iff in Hx as (ref & <- & Href). cbn [wx_ok]. split; [reflexivity|]. apply attrs_one; [reflexivity|].
      clear - F Lim Href. induction F as [|R ref' Rs refs E F IH]; [destruct Href|]. destruct Href as [->|Href].
      * destruct (Lim R (or_introl eq_refl)) as (A & B & C & D). exact (attr_range m _ _ _ _ _ A B C D E).
      * apply IH; [|exact Href]. intros; apply Lim. right. assumption.
  - clear - F Lim. induction F as [|R ref Rs refs E F IH]; [reflexivity|]. cbn [map node_of]. rewrite IH by (intros; apply Lim; right; assumption). f_equal.
    destruct (Lim R (or_introl eq_refl)) as (A & B & C & D). destruct (C03_cell_range_roundtrip m _ _ _ _ A B C D) as (x & Ex & Px & _).
    unfold range_string in E. assert (x = ref) by congruence. subst x.
    unfold merge_ref. change (str_eqb (lit "mergeCell") (lit "mergeCell")) with true. cbv beta iota.
    change (attr (lit "ref") [(lit "ref", ref)]) with (Some ref). cbv beta iota. rewrite Px. reflexivity.
Qed.

(** A merge over existing cells: B2:C3 with text, then an unrelated call. *)
Example C53_example :
  let f := format_hyperlink in
  match srun (fun s => s) (sheet_new ws_standard) [SCell (WriteNumber 1 2 (f_of_N 5) None); SMerge 1 1 2 2 (lit "Title") f; SCell (WriteBool 5 5 true None)] with
  | Some s =>
    map (fun p => shown (sheet_rows (cells s) sst_new (fun i => i)) (fst p) (snd p)) [(1, 1); (1, 2); (2, 1); (2, 2); (3, 3)] =
      [[(VText (lit "Title"), 1)]; [(VBlank, 1)]; [(VBlank, 1)]; [(VBlank, 1)]; []] /\
    option_map (flat_map write_wx) (merge_cells_xml Debug (ranges (merges s))) =
      Some (lit "<mergeCells count=""1""><mergeCell ref=""B2:C3""/></mergeCells>")
  | None => False
  end.
Proof. vm_compute. split; reflexivity. Qed.

Print Assumptions C53_merged_cells.
Print Assumptions C53_merged_text.
Print Assumptions C53_outside_unchanged.
Print Assumptions C53_merge_cells_element.
