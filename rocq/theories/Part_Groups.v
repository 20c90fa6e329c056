(** The children of a worksheet part, by name. *)
From Verif Require Import Base F64 Ref_Model Ref_Spec Xml_Model Xml_Spec Xml_Proofs Xml_Read Xml_Read_Proofs Xml_Tree Fmt_Model Rich_Model Rich_Proofs
  Cells_Model SheetXml_Spec SheetXml_Proofs SheetXml_Proofs3 Doc_Spec View_Model View_Spec Part_Model Tag_Proofs Part_Proofs Props_Part.

Definition named (g : string * list node) : Prop := Forall (fun n => elem_name n = lit (fst g) /\ match n with Elem _ _ _ => True | Txt _ => False end) (snd g).
Lemma named_is g k : named g -> Forall (fun n => is_elem k n = String.eqb (fst g) k) (snd g).
Proof. intros H. eapply Forall_impl; [|exact H]. intros [t l c|s] [E F]; [|destruct F]. cbn [elem_name] in E. cbn [is_elem]. rewrite E. apply str_eqb_lit. Qed.
Lemma group_kid gs k : Forall named gs -> NoDup (map fst gs) ->
  kid k (flat_map snd gs) = match find (fun g => String.eqb (fst g) k) gs with Some g => kid k (snd g) | None => None end.
Proof.
  induction gs as [|g gs IH]; intros F N; [reflexivity|]. inversion F as [|? ? Hg Fg]; subst. inversion N as [|? ? Ng Nd]; subst. cbn [flat_map find]. rewrite kid_app.
  pose proof (named_is g k Hg) as Hk. destruct (String.eqb (fst g) k) eqn:E.
  - assert (Z : kid k (flat_map snd gs) = None).
    { rewrite (IH Fg Nd). destruct (find _ gs) as [h|] eqn:Q; [|reflexivity]. apply find_some in Q as [I Q]. apply String.eqb_eq in E, Q. exfalso. apply Ng. rewrite E, <- Q. apply in_map. exact I. }
    rewrite Z. destruct (kid k (snd g)); reflexivity.
  - rewrite (kid_other k (snd g) Hk). apply IH; assumption.
Qed.
(** All the children of that name. *)
Definition kids_named (k : string) (l : list node) : list node := filter (is_elem k) l.
Lemma group_kids gs k : Forall named gs -> NoDup (map fst gs) ->
  kids_named k (flat_map snd gs) = match find (fun g => String.eqb (fst g) k) gs with Some g => snd g | None => [] end.
Proof.
  unfold kids_named. induction gs as [|g gs IH]; intros F N; [reflexivity|]. inversion F as [|? ? Hg Fg]; subst. inversion N as [|? ? Ng Nd]; subst. cbn [flat_map find]. rewrite filter_app.
  pose proof (named_is g k Hg) as Hk. destruct (String.eqb (fst g) k) eqn:E.
  - assert (Z : filter (is_elem k) (flat_map snd gs) = []).
    { rewrite (IH Fg Nd). destruct (find _ gs) as [h|] eqn:Q; [|reflexivity]. apply find_some in Q as [I Q]. apply String.eqb_eq in E, Q. exfalso. apply Ng. rewrite E, <- Q. apply in_map. exact I. }
    rewrite Z, app_nil_r. clear - Hk. induction Hk as [|n l H Hk IH]; [reflexivity|]. cbn [filter]. rewrite H, IH. reflexivity.
  - assert (Z : filter (is_elem k) (snd g) = []) by (clear - Hk; induction Hk as [|n l H Hk IH]; [reflexivity|cbn [filter]; rewrite H; exact IH]).
    rewrite Z. apply IH; assumption.
Qed.
Lemma named_map k l : tagged k l -> named (k, map node_of l).
Proof.
  intros H. unfold named. cbn [fst snd]. apply Forall_forall. intros n Hn. apply in_map_iff in Hn as (t & <- & Ht). unfold tagged in H. rewrite Forall_forall in H.
  rewrite node_name. split; [apply H; exact Ht|destruct t; exact I].
Qed.

Section Groups.
  Variable num_text : f64 -> str.
  Variable m : ovf.
  Hypothesis plain_numbers : forall x, forallb simple (num_text x) = true.

  Definition groups (i : sheet_in) (d v : wx) (data : node) (ra rb rc rd rt : list wx) : list (string * list node) :=
    [("sheetPr", map node_of (sheet_pr_xml (n_pr i) (n_setup i))); ("dimension", map node_of [d]); ("sheetViews", map node_of [v]);
     ("sheetFormatPr", map node_of [format_pr_xml num_text i]); ("cols", map node_of (wrap "cols" (n_cols i))); ("sheetData", [data]);
     ("sheetProtection", map node_of (n_protection i)); ("protectedRanges", map node_of (n_ranges i)); ("autoFilter", map node_of (n_filter i));
     ("mergeCells", map node_of (n_merges i)); ("conditionalFormatting", map node_of (n_cf i)); ("dataValidations", map node_of (n_dv i));
     ("hyperlinks", map node_of (n_links i)); ("printOptions", map node_of (when (u_options (n_setup i)) [print_options_xml (n_setup i)]));
     ("pageMargins", map node_of [page_margins_xml num_text (n_setup i)]); ("pageSetup", map node_of (when (u_setup (n_setup i)) [page_setup_xml (n_setup i)]));
     ("headerFooter", map node_of (when (u_hf (n_setup i)) [header_footer_xml (n_setup i)]));
     ("rowBreaks", map node_of (breaks_xml "rowBreaks" "16383" (n_row_breaks i))); ("colBreaks", map node_of (breaks_xml "colBreaks" "1048575" (n_col_breaks i)));
     ("ignoredErrors", map node_of (ignored_xml (n_ignored i))); ("drawing", map node_of ra); ("legacyDrawing", map node_of rb);
     ("legacyDrawingHF", map node_of rc); ("picture", map node_of rd); ("tableParts", map node_of rt); ("extLst", ext_nodes i)]%string.
  Lemma worksheet_groups i : sections_ok i -> both_extensions i = false -> exists text root d v data ra rb rc rd rt,
    worksheet_text num_text m i = Some text /\ read_document text = Some root /\
    dimension_xml m (n_dims i) = Some d /\ sheet_views_xml m false (n_setup i) = Some v /\ reads (n_data i) [data] /\ rels_xml i = ra ++ rb ++ rc ++ rd ++ rt /\
    is_elem "worksheet" root = true /\ kids_of root = flat_map snd (groups i d v data ra rb rc rd rt) /\
    Forall named (groups i d v data ra rb rc rd rt) /\ NoDup (map fst (groups i d v data ra rb rc rd rt)).
  Proof.
    intros S B. pose proof (worksheet_reads num_text m plain_numbers i S B) as (text & head & a & k & E & Eh & Rd & R).
    destruct (head_shape num_text m i S) as (d & v & Ed & Ev & E2 & _ & _ & Td & Tv). pose proof (rels_shape i) as (ra & rb & rc & rd & rt & Er & A1 & A2 & A3 & A4 & A5).
    assert (H : head = sheet_pr_xml (n_pr i) (n_setup i) ++ [d; v; format_pr_xml num_text i] ++ wrap "cols" (n_cols i)) by congruence. subst head. clear Eh E2.
    exists text. eexists. exists d, v, (Elem (lit "sheetData") a k), ra, rb, rc, rd, rt. split; [exact E|]. split; [exact R|]. split; [exact Ed|]. split; [exact Ev|]. split; [exact Rd|].
    split; [exact Er|]. split; [reflexivity|]. split; [|split].
    - cbn [kids_of]. unfold groups. cbn [flat_map snd]. unfold part_tail, page_xml. rewrite Er, !map_app, <- !app_assoc, app_nil_r. reflexivity.
    - destruct S as [k_setup0 []]. unfold groups.
      repeat match goal with |- Forall named (_ :: _) => constructor; [first [apply named_map | unfold named; cbn [fst snd]]|] end; [..|constructor].
      + apply sheet_pr_ok; assumption.
      + constructor; [exact Td|constructor].
      + constructor; [exact Tv|constructor].
      + constructor; [reflexivity|constructor].
      + apply wrap_ok; [reflexivity|assumption].
      + constructor; [split; [reflexivity|exact I]|constructor].
      + apply k_protection.
      + apply k_ranges.
      + apply k_filter.
      + apply k_merges.
      + apply k_cf.
      + apply k_dv.
      + apply k_links.
      + apply (amo_when "printOptions"). reflexivity.
      + constructor; [reflexivity|constructor].
      + apply (amo_when "pageSetup"). reflexivity.
      + apply (amo_when "headerFooter"). unfold header_footer_xml. destruct (_ && _); reflexivity.
      + apply breaks_ok; reflexivity.
      + apply breaks_ok; reflexivity.
      + apply ignored_xml_ok; assumption.
      + apply A1.
      + apply A2.
      + apply A3.
      + apply A4.
      + apply A5.
      + unfold ext_nodes. destruct (n_x14_cf i); [|destruct (n_sparklines i)]; repeat constructor.
    - unfold groups. cbn [map fst]. repeat (constructor; [intros Hin; repeat (destruct Hin as [Hin|Hin]; [discriminate Hin|]); destruct Hin|]). constructor.
  Qed.
  (** Every named section of the part. *)
  Lemma worksheet_section i : sections_ok i -> both_extensions i = false -> exists text root,
    worksheet_text num_text m i = Some text /\ read_document text = Some root /\ is_elem "worksheet" root = true /\
    kids_named "sheetProtection" (kids_of root) = map node_of (n_protection i) /\ kids_named "protectedRanges" (kids_of root) = map node_of (n_ranges i) /\
    kids_named "autoFilter" (kids_of root) = map node_of (n_filter i) /\ kids_named "mergeCells" (kids_of root) = map node_of (n_merges i) /\
    kids_named "conditionalFormatting" (kids_of root) = map node_of (n_cf i) /\ kids_named "dataValidations" (kids_of root) = map node_of (n_dv i) /\
    kids_named "hyperlinks" (kids_of root) = map node_of (n_links i) /\ kids_named "ignoredErrors" (kids_of root) = map node_of (ignored_xml (n_ignored i)) /\
    kids_named "rowBreaks" (kids_of root) = map node_of (breaks_xml "rowBreaks" "16383" (n_row_breaks i)) /\
    kids_named "colBreaks" (kids_of root) = map node_of (breaks_xml "colBreaks" "1048575" (n_col_breaks i)) /\
    kids_named "cols" (kids_of root) = map node_of (wrap "cols" (n_cols i)) /\ kids_named "extLst" (kids_of root) = ext_nodes i.
  Proof.
    intros S B. destruct (worksheet_groups i S B) as (text & root & d & v & data & ra & rb & rc & rd & rt & E & R & _ & _ & _ & _ & W & K & F & N). exists text, root.
    split; [exact E|]. split; [exact R|]. split; [exact W|]. rewrite K, !(fun k => group_kids _ k F N). repeat (split; [reflexivity|]). reflexivity.
  Qed.
End Groups.
