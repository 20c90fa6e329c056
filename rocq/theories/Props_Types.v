(** C91: content types and relationships, as read from the text of their parts. *)
From Verif Require Import Base Xml_Model Xml_Spec Xml_Proofs Xml_Read Xml_Read_Proofs Xml_Tree Tag_Proofs Rich_Model Rich_Proofs SheetXml_Spec Doc_Spec Part_Proofs
  Book_Model Book_Proofs Book_Proofs2 Pkg_Model Pkg_Spec Url_Model Pkg_Names Pkg_Proofs Pkg_Proofs2 Pkg_Proofs3 Pkg_Proofs4 Pkg_Proofs5 Pkg_Proofs6 Pkg_Proofs7
  Pkg_Proofs8 Pkg_Proofs9 Pkg_Proofs10 Pkg_Proofs11 Embed_Model Embed_Proofs Embed_Proofs2 Types_Model Types_Spec Types_Proofs Types_Proofs2 Props_Pkg.

Definition all_plain (l : list usheet) : Prop := forall u x, In u l -> In x (u_links u ++ sheet_urls u) -> plain (relationship_link x).
(** What is read from the text of the content types part. *)
Definition types_say (b : pbook) (types : node) : Prop := read_document (saved_types_text b) = Some types.
(** What is read from the text of the relationships [es]. *)
Definition relations_say (es : list (str * rel)) (rels : list relation) : Prop :=
  exists root, read_document (relationships_part es) = Some root /\ read_relations root = Some rels.

Lemma world_of m lower b b' pkg : reach m lower b -> save_pkg m lower b = Some (b', Saved pkg) ->
  exists emb l a, world m b pkg emb l a /\ l = snd (prepare b).
Proof.
  intros Hre Hs. destruct (saved_world m lower b b' pkg Hre Hs) as (emb & l & a & W). exists emb, l, a. split; [exact W|].
  destruct (prepare b) as [e2 l2] eqn:E. apply prepare_st in E as [E1 E2]. rewrite (w_l _ _ _ _ _ _ W), (w_emb _ _ _ _ _ _ W). cbn [snd]. rewrite E2, E1. reflexivity.
Qed.

Lemma pname_sig p : p = NSig \/ p <> NSig.
Proof. destruct p; auto; right; discriminate. Qed.

Section Saved.
  Variables (m : ovf) (lower : str -> str) (b b' : pbook) (pkg : package) (types : node).
  Hypothesis history : reach m lower b.
  Hypothesis save : save_pkg m lower b = Some (b', Saved pkg).
  Hypothesis text : types_say b types.

  Lemma text_node : types = types_node (package_options b (snd (prepare b))) (snd (prepare b)).
  Proof. pose proof text as T. unfold types_say, saved_types_text in T. cbv zeta in T. rewrite types_read in T. congruence. Qed.

  (** The text lists the names and extensions of the package, each once. *)
  Theorem C91_declared_once : declared_once types /\
    find_part pkg (lit "[Content_Types].xml") = Some (CTypes (keys_declared "Default" "Extension" types) (keys_declared "Override" "PartName" types)).
  Proof.
    rewrite text_node. split; [apply types_once|].
    destruct (world_of _ _ _ _ _ history save) as (emb & l & a & W & El). rewrite <- El.
    assert (Hin : In (lit "[Content_Types].xml", content_types b (package_options b l) l) pkg) by (apply (in_pkg m b pkg emb l a W), in_parts; left; left; reflexivity).
    apply (find_in m b pkg emb l a W) in Hin. rewrite Hin, (typed_names b). do 2 f_equal;
      unfold keys_declared; rewrite kids_types, keys_app, !flat_map_concat_map, !map_map, <- !flat_map_concat_map.
    - match goal with |- ?x = ?y ++ ?z => assert (E1 : y = x); [|assert (E2 : z = []); [|rewrite E1, E2, app_nil_r; reflexivity]] end.
      + generalize (typed_defaults (package_options b l) l). intros es. induction es as [|e es IH]; [reflexivity|cbn [map]; rewrite <- IH; reflexivity].
      + generalize (typed_overrides (package_options b l) l). intros es. induction es; [reflexivity|assumption].
    - match goal with |- ?x = ?y ++ ?z => assert (E1 : z = x); [|assert (E2 : y = []); [|rewrite E1, E2; reflexivity]] end.
      + generalize (typed_overrides (package_options b l) l). intros es. induction es as [|e es IH]; [reflexivity|cbn [map]; rewrite <- IH; reflexivity].
      + generalize (typed_defaults (package_options b l) l). intros es. induction es; [reflexivity|assumption].
  Qed.

  (** The workbook part is that of a macro workbook exactly when a VBA project was added. *)
  Theorem C91_workbook_type : content_type types (lit "xl/workbook.xml") =
    Some (match w_vba b with
          | Some _ => lit "application/vnd.ms-excel.sheet.macroEnabled.main+xml"
          | None => lit "application/vnd.openxmlformats-officedocument.spreadsheetml.sheet.main+xml"
          end).
  Proof.
    rewrite text_node. change (lit "xl/workbook.xml") with (render NWb). rewrite by_override.
    - cbn [ctype package_options o_xlsm]. destruct (w_vba b); reflexivity.
    - unfold typed_overrides. rewrite map_app. apply in_or_app. left. do 4 right. left. reflexivity.
  Qed.

  (** The relationships of the package, of the workbook, of a sheet, ... as read. *)
  Section Relations.
    Hypothesis ids : rels_ok m pkg.
    Hypothesis links : urls_ok (map ps_u (w_sheets b)).
    Hypothesis counts : counts_ok (map ps_u (w_sheets b)).
    Hypothesis texts : all_plain (map ps_u (w_sheets b)).

    Lemma relations_of name es : In (name, CRels es) pkg ->
      exists rels, relations_say es rels /\ rels = map as_relation es.
    Proof.
      intros Hin. destruct (world_of _ _ _ _ _ history save) as (emb & l & a & W & El).
      destruct (all_kinds m b pkg emb l a W ids links texts name es Hin) as (src & rs & q & _ & _ & _ & Ee & K).
      exists (map as_relation es). split; [|reflexivity]. exists (relationships_node es). split.
      - apply relationships_read. rewrite Ee. apply entries_clean, Forall_forall. intros r Hr. destruct (K r Hr) as (A & B & C).
        split; [exact A|]. split; [exact B|]. destruct C as [[_ [-> |[-> _]]]|[-> _]]; reflexivity.
      - apply relations_read. apply Forall_forall. intros [id r] He. rewrite Ee in He. apply entries_In in He. cbn [snd].
        destruct (K r He) as (_ & _ & C). destruct C as [[_ [-> |[-> _]]]|[-> _]]; auto.
    Qed.

    (** Every relationship is a hyperlink, to the outside or to a place in the workbook,
        or, when the part it leads to is in the package, the content type of that part,
        read from the text, is one of those belonging to the type of the relationship. *)
    Theorem C91_relationships name es : In (name, CRels es) pkg ->
      exists rels source, relations_say es rels /\ name = rels_part_of source /\
        map (fun r => (rn_id r, rn_target r)) rels = map (fun e => (fst e, r_target (snd e))) es /\ NoDup (map rn_id rels) /\
        Forall (fun r => (rn_type r <> ODOC "hyperlink" -> exists c, In (resolve source (rn_target r), c) pkg) -> well_typed types source r) rels.
    Proof.
      intros Hin. destruct (relations_of name es Hin) as (rels & S & ->). exists (map as_relation es).
      destruct (world_of _ _ _ _ _ history save) as (emb & l & a & W & El).
      destruct (all_kinds m b pkg emb l a W ids links texts name es Hin) as (src & rs & q & _ & _ & En & Ee & K).
      exists src. split; [exact S|]. split; [exact En|]. rewrite !map_map. split; [reflexivity|]. split; [rewrite Ee; apply entries_NoDup|].
      apply Forall_forall. intros rl Hrl. apply in_map_iff in Hrl as ([id r] & <- & He). assert (He' := He). rewrite Ee in He'. apply entries_In in He'.
      unfold well_typed, as_relation. cbn [fst snd rn_type rn_target rn_external]. intros P. destruct (K r He') as (_ & _ & [[A B]|(A & B & p & C)]).
      - left. split; [exact A|]. destruct B as [-> |[_ B]]; [left; reflexivity|right; exact B].
      - right. rewrite A. split; [reflexivity|]. exists (ctype (package_options b l) p). destruct C as (C & C1 & C2). split; [|exact C1].
        rewrite text_node, <- El, C. apply by_typed.
        destruct P as [c Q].
        { intros X. rewrite X in C1. clear - C1. cbn [In relation_table] in C1. decompose [or] C1; try contradiction; match goal with H : (_, _) = (_, _) |- _ => apply (f_equal fst) in H; discriminate H end. }
        rewrite C in Q.
        assert (NT : p <> NTypes).
        { intros ->. cbn [ctype] in C1. clear - C1. cbn [In relation_table] in C1. decompose [or] C1; try contradiction; match goal with H : (_, _) = (_, _) |- _ => apply (f_equal snd) in H; discriminate H end. }
        destruct (closed_types m b pkg emb l a W counts (render p) c Q) as (d & ov & F & T).
        { intros X. apply NT. apply render_inj. exact X. }
        assert (Hin' : In (lit "[Content_Types].xml", content_types b (package_options b l) l) pkg) by (apply (in_pkg m b pkg emb l a W), in_parts; left; left; reflexivity).
        apply (find_in m b pkg emb l a W) in Hin'. rewrite Hin', (typed_names b) in F. assert (Fd : d = map fst (typed_defaults (package_options b l) l)) by congruence.
        assert (Fo : ov = map fst (typed_overrides (package_options b l) l)) by congruence. subst d ov.
        destruct (pname_sig p) as [->|Hs].
        + left. specialize (C2 eq_refl). rewrite overrides_eq, map_map. apply in_map_iff. exists NSig. split; [reflexivity|]. unfold overridden. apply in_or_app. right. rewrite C2. left. reflexivity.
        + destruct T as [T|[T1 T2]]; [left; exact T|right; auto].
    Qed.
    (** When header images, if any, come last (C48), every relationship leads to such a part. *)
    Theorem C91_all_relationships_partial : hashes_ok (map ps_u (w_sheets b)) -> hf_last (map ps_u (w_sheets b)) -> forall name es, In (name, CRels es) pkg ->
      exists rels source, relations_say es rels /\ name = rels_part_of source /\
        map (fun r => (rn_id r, rn_target r)) rels = map (fun e => (fst e, r_target (snd e))) es /\ Forall (well_typed types source) rels.
    Proof.
      intros hashes header_last name es Hin. destruct (C91_relationships name es Hin) as (rels & src & S & En & M & _ & F). exists rels, src.
      split; [exact S|]. split; [exact En|]. split; [exact M|].
      destruct (world_of _ _ _ _ _ history save) as (emb & l & a & W & El).
      destruct (closed_rels m b pkg emb l a W ids hashes header_last links name es Hin) as (_ & src' & En' & _ & P).
      assert (src' = src) by (apply rels_part_inj; congruence). subst src'.
      destruct (relations_of name es Hin) as (rels' & S' & E'). assert (R : rels = rels') by (unfold relations_say in S, S'; destruct S as (r1 & A1 & A2), S' as (r2 & B1 & B2); congruence). rewrite E' in R. clear E'. rename R into E'.
      destruct (all_kinds m b pkg emb l a W ids links texts name es Hin) as (s2 & rs & q & _ & _ & En2 & Ee & K).
      assert (s2 = src) by (apply rels_part_inj; congruence). subst s2.
      apply Forall_forall. intros rl Hrl. pose proof F as F'. rewrite Forall_forall in F'. apply (F' rl Hrl). intros NH.
      rewrite E' in Hrl. apply in_map_iff in Hrl as ([id r] & <- & He). assert (He' := He). rewrite Ee in He'. apply entries_In in He'.
      unfold as_relation in NH |- *. cbn [fst snd rn_type rn_target] in *.
      destruct (K r He') as (_ & _ & [[A _]|(A & B & _)]); [contradiction|].
      destruct (P id r He) as [Q|[[t Q]|Q]]; [rewrite A in Q; discriminate|destruct (B t Q)|exact Q].
    Qed.

    Lemma typed_part p c : In (render p, c) pkg -> p <> NTypes -> p <> NSig -> content_type types (render p) = Some (ctype (package_options b (snd (prepare b))) p).
    Proof.
      intros Q NT NS. destruct (world_of _ _ _ _ _ history save) as (emb & l & a & W & El). rewrite text_node, <- El. apply by_typed.
      destruct (closed_types m b pkg emb l a W counts (render p) c Q) as (d & ov & F & T); [intros X; apply NT; apply render_inj; exact X|].
      assert (Hin' : In (lit "[Content_Types].xml", content_types b (package_options b l) l) pkg) by (apply (in_pkg m b pkg emb l a W), in_parts; left; left; reflexivity).
      apply (find_in m b pkg emb l a W) in Hin'. rewrite Hin', (typed_names b) in F. assert (Fd : d = map fst (typed_defaults (package_options b l) l)) by congruence.
      assert (Fo : ov = map fst (typed_overrides (package_options b l) l)) by congruence. subst d ov. destruct T as [T|[T1 T2]]; [left; exact T|right; auto].
    Qed.
    (** The content type of an image file is that of its extension. *)
    Theorem C91_image_types n e c : In (lit "xl/media/image" ++ dec n ++ lit "." ++ ext_name e, c) pkg ->
      content_type types (lit "xl/media/image" ++ dec n ++ lit "." ++ ext_name e) = Some (lit "image/" ++ ext_name e).
    Proof.
      intros H. assert (E : lit "xl/media/image" ++ dec n ++ lit "." ++ ext_name e = render (NMedia n e)) by reflexivity.
      rewrite E in H |- *. rewrite (typed_part _ _ H) by discriminate. reflexivity.
    Qed.
    (** Relationships parts have the content type of relationships. *)
    Theorem C91_relationships_typed name es : In (name, CRels es) pkg ->
      content_type types name = Some (lit "application/vnd.openxmlformats-package.relationships+xml").
    Proof.
      intros H. destruct (world_of _ _ _ _ _ history save) as (emb & l & a & W & El).
      destruct (all_kinds m b pkg emb l a W ids links texts name es H) as (_ & _ & p & -> & Hp & _). rewrite (typed_part _ _ H) by (intros ->; discriminate Hp).
      destruct p; try discriminate Hp; reflexivity.
    Qed.

    (** The package leads to exactly one main part, the workbook. *)
    Theorem C91_main_part : exists es rels, find_part pkg (lit "_rels/.rels") = Some (CRels es) /\ relations_say es rels /\
      map rn_target (filter (fun r => str_eqb (rn_type r) (ODOC "officeDocument")) rels) = [lit "xl/workbook.xml"].
    Proof.
      destruct (world_of _ _ _ _ _ history save) as (emb & l & a & W & El).
      assert (Hin : In (lit "_rels/.rels", CRels (a_rr a)) pkg) by (apply (in_pkg m b pkg emb l a W), in_parts; left; right; left; reflexivity).
      destruct (relations_of _ _ Hin) as (rels & S & Er). exists (a_rr a), rels. split; [apply (find_in m b pkg emb l a W), Hin|]. split; [exact S|].
      rewrite Er, (rels_entries m pkg ids _ _ _ Hin (w_rr _ _ _ _ _ _ W)). unfold root_rels. destruct (o_custom _); reflexivity.
    Qed.
    (** The workbook part leads to each of the single parts of the package. *)
    Definition single_parts : list (str * str) :=
      [(ODOC "theme", lit "xl/theme/theme1.xml"); (ODOC "styles", lit "xl/styles.xml"); (ODOC "sharedStrings", lit "xl/sharedStrings.xml");
       (ODOC "sheetMetadata", lit "xl/metadata.xml"); (MS "2006/relationships/vbaProject", lit "xl/vbaProject.bin");
       (MS "2022/10/relationships/richValueRel", lit "xl/richData/richValueRel.xml"); (MS "2017/06/relationships/rdRichValue", lit "xl/richData/rdrichvalue.xml");
       (MS "2017/06/relationships/rdRichValueStructure", lit "xl/richData/rdrichvaluestructure.xml");
       (MS "2017/06/relationships/rdRichValueTypes", lit "xl/richData/rdRichValueTypes.xml");
       (MS "2022/11/relationships/FeaturePropertyBag", lit "xl/featurePropertyBag/featurePropertyBag.xml")].
    Lemma present_declared p c o l : l = snd (prepare b) -> o = package_options b l -> In (render p, c) pkg -> p <> NTypes ->
      In p (overridden o l) \/ In (extension (render p)) (map fst (typed_defaults o l)) /\ extension (render p) <> lit "xml".
    Proof.
      intros El Eo Q NT. destruct (world_of _ _ _ _ _ history save) as (emb & l' & a & W & El'). rewrite <- El' in El. rewrite Eo. clear Eo o. rewrite El. clear El l. rename l' into l.
      destruct (closed_types m b pkg emb l a W counts (render p) c Q) as (d & ov & F & T); [intros X; apply NT; apply render_inj; exact X|].
      assert (Hin' : In (lit "[Content_Types].xml", content_types b (package_options b l) l) pkg) by (apply (in_pkg m b pkg emb l a W), in_parts; left; left; reflexivity).
      apply (find_in m b pkg emb l a W) in Hin'. rewrite Hin', (typed_names b) in F. assert (Fd : d = map fst (typed_defaults (package_options b l) l)) by congruence.
      assert (Fo : ov = map fst (typed_overrides (package_options b l) l)) by congruence. subst d ov. destruct T as [T|[T1 T2]]; [left|right; auto].
      rewrite overrides_eq, map_map in T. apply in_map_iff in T as (q & Eq & Hq). cbn [fst] in Eq. apply slash_eq in Eq. subst q. exact Hq.
    Qed.
    Lemma sheet_rels_other ty l : str_eqb (ODOC "worksheet") ty = false -> str_eqb (ODOC "chartsheet") ty = false ->
      forall wi ci, filter (fun r => str_eqb (r_type r) ty) (sheet_rels wi ci l) = [].
    Proof.
      intros H1 H2. induction l as [|p l IH]; intros wi ci; [reflexivity|]. cbn [sheet_rels].
      destruct (u_chartsheet (p_u p)); cbn [filter doc_rel r_type].
      - match goal with |- context [str_eqb ?x ty] => change x with (ODOC "chartsheet") end. rewrite H2. apply IH.
      - match goal with |- context [str_eqb ?x ty] => change x with (ODOC "worksheet") end. rewrite H1. apply IH.
    Qed.
    Lemma targets_of ty rs : forall n, map rn_target (filter (fun r => str_eqb (rn_type r) ty) (map as_relation (entries_of n rs))) =
      map r_target (filter (fun r => str_eqb (r_type r) ty) rs).
    Proof.
      induction rs as [|r rs IH]; intros n; [reflexivity|]. unfold entries_of in *. cbn [number_from map filter as_relation snd rn_type].
      destruct (str_eqb (r_type r) ty); cbn [map]; rewrite IH; reflexivity.
    Qed.
    Theorem C91_workbook_parts : exists es rels, find_part pkg (lit "xl/_rels/workbook.xml.rels") = Some (CRels es) /\ relations_say es rels /\
      forall ty part c, In (ty, part) single_parts -> In (part, c) pkg ->
        exists target, map rn_target (filter (fun r => str_eqb (rn_type r) ty) rels) = [target] /\ resolve (lit "xl/workbook.xml") target = part.
    Proof.
      destruct (world_of _ _ _ _ _ history save) as (emb & l & a & W & El).
      assert (Hin : In (lit "xl/_rels/workbook.xml.rels", CRels (a_wr a)) pkg) by (apply (in_pkg m b pkg emb l a W), in_parts; left; do 2 right; left; reflexivity).
      destruct (relations_of _ _ Hin) as (rels & S & Er). exists (a_wr a), rels. split; [apply (find_in m b pkg emb l a W), Hin|]. split; [exact S|].
      intros ty part c Ht Hp. rewrite Er, (rels_entries m pkg ids _ _ _ Hin (w_wr _ _ _ _ _ _ W)), targets_of. unfold workbook_rels. rewrite !filter_app.
      rewrite sheet_rels_other by (cbn [In single_parts] in Ht; decompose [or] Ht; try contradiction; match goal with H : (_, _) = (_, _) |- _ => apply (f_equal fst) in H; cbn [fst] in H; subst ty; reflexivity end).
      set (o := package_options b l).
      assert (D : forall p, part = render p -> p <> NTypes -> In p (overridden o l) \/ In (extension (render p)) (map fst (typed_defaults o l)) /\ extension (render p) <> lit "xml").
      { intros p -> NT. exact (present_declared p c o l El eq_refl Hp NT). }
      assert (X : forall p (w : bool), part = render p -> p <> NTypes -> extension (render p) = lit "xml" -> (In p (overridden o l) -> w = true) -> w = true).
      { intros p w E1 E2 E3 E4. destruct (D p E1 E2) as [E5|[_ E5]]; [apply E4, E5|contradiction]. }
      clear D. cbn [In single_parts] in Ht.
      assert (V : part = render NVba -> o_xlsm o = true).
      { intros E1. assert (E3 : extension part = lit "bin") by (rewrite E1; reflexivity).
        destruct (present_declared NVba c o l El eq_refl (eq_rect _ (fun x => In (x, c) pkg) Hp _ E1) ltac:(discriminate)) as [E5|[E5 _]].
        - exfalso. unfold overridden in E5. rewrite !in_app_iff, !in_when, !in_map_iff in E5. cbn [In] in E5. decompose [or and ex] E5; try contradiction; discriminate.
        - clear - E5. unfold typed_defaults in E5. rewrite !map_app, !map_when, !in_app_iff, !in_when in E5. cbn [In map fst] in E5.
          decompose [or and] E5; try contradiction; try assumption; match goal with H : _ = extension _ |- _ => discriminate H end. }
      assert (X2 : forall p (w : bool), part = render p -> p <> NTypes -> extension (render p) = lit "xml" -> (overridden o l = overridden o l -> In p (overridden o l) -> w = true) -> w = true)
        by (intros p w E1 E2 E3 E4; apply (X p w E1 E2 E3); intros E5; apply E4; [reflexivity|exact E5]).
      Ltac flagged := intros _ E5; unfold overridden in E5; rewrite !in_app_iff, !in_when, !in_map_iff in E5; cbn [In] in E5; decompose [or and ex] E5; try contradiction; try assumption; discriminate.
      Ltac finish o := destruct (o_sst o), (o_metadata o), (o_xlsm o), (o_embedded o), (o_bags o); try discriminate; eexists; (split; [reflexivity|reflexivity]).
      repeat match type of Ht with _ \/ _ => destruct Ht as [Ht|Ht] end; try contradiction; injection Ht as <- <-.
      - finish o.
      - finish o.
      - assert (F : o_sst o = true) by (apply (X2 NSst); [reflexivity|discriminate|reflexivity|flagged]). finish o.
      - assert (F : o_metadata o = true) by (apply (X2 NMeta); [reflexivity|discriminate|reflexivity|flagged]). finish o.
      - assert (F : o_xlsm o = true) by (apply V; reflexivity). finish o.
      - assert (F : o_embedded o = true) by (apply (X2 NRvRel); [reflexivity|discriminate|reflexivity|flagged]). finish o.
      - assert (F : o_embedded o = true) by (apply (X2 NRv); [reflexivity|discriminate|reflexivity|flagged]). finish o.
      - assert (F : o_embedded o = true) by (apply (X2 NRvS); [reflexivity|discriminate|reflexivity|flagged]). finish o.
      - assert (F : o_embedded o = true) by (apply (X2 NRvT); [reflexivity|discriminate|reflexivity|flagged]). finish o.
      - assert (F : o_bags o = true) by (apply (X2 NBag); [reflexivity|discriminate|reflexivity|flagged]). finish o.
    Qed.
  End Relations.
End Saved.

(** A workbook with hyperlinks, images, charts, tables, notes and header images meets the hypotheses. *)
Example C91_example : let us := [full_sheet] in
  hashes_ok us /\ hf_last us /\ urls_ok us /\ counts_ok us /\ all_plain us /\
  exists b' pkg types, reach Debug idf (new_book us) /\ save_pkg Debug idf (new_book us) = Some (b', Saved pkg) /\ types_say (new_book us) types /\
    map ps_u (w_sheets (new_book us)) = us /\
    content_type types (lit "xl/drawings/drawing1.xml") = Some (lit "application/vnd.openxmlformats-officedocument.drawing+xml") /\ rels_ok Debug pkg.
Proof.
  cbv zeta. destruct C48_example as (A & B & C & _). split; [|split; [exact C|split; [exact A|split; [exact B|split]]]].
  - split; [|intros i H; cbn in H; decompose [or] H; try contradiction; subst i; reflexivity].
    intros i j Hi Hj. cbn in Hi, Hj. decompose [or] Hi; decompose [or] Hj; try contradiction; subst i j; intros E; try reflexivity; discriminate E.
  - intros u x [<-|[]] [<-|[<-|[<-|[<-|[]]]]]; vm_compute; reflexivity.
  - destruct (saved_now [full_sheet] (fun _ _ => True)) as (b' & pkg & Hs & _); [vm_compute; exact I|].
    destruct (prepare (new_book [full_sheet])) as [e l] eqn:El. exists b', pkg, (types_node (package_options (new_book [full_sheet]) l) l).
    split; [apply new_book_reach|]. split; [exact Hs|]. split; [unfold types_say, saved_types_text; cbv zeta; rewrite El; apply types_read|]. split; [reflexivity|].
    split; [|left; reflexivity].
    change (lit "xl/drawings/drawing1.xml") with (render (NDr 1)). rewrite by_override; [reflexivity|].
    assert (E2 : l = snd (prepare (new_book [full_sheet]))) by (rewrite El; reflexivity). rewrite E2. clear. vm_compute. tauto.
Qed.
