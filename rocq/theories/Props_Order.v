(** Property C98: the elements of the styles, workbook, comments, table and drawing
    parts stand in the order their schemas demand. *)
From Coq Require Import Lia.
From Verif Require Import Tag_Proofs. From Verif Require Import Base F64 SMap Xml_Model Xml_Spec Xml_Read Xml_Read_Proofs Xml_Tree Fmt_Model Ref_Model Rich_Model SheetXml_Spec Doc_Spec Chart_Order Chart_Order_Proofs Order_Spec Order_Proofs Order_Proofs2.
From Verif Require Book_Proofs Props_Book Note_Proofs Note_Proofs5 Part_Proofs Styles_Model FmtOps_Model StylesXml_Model Props_Styles StylesXml_Proofs3 Props_StylesXml Book_Model Book_Spec Doc_Model Props_Doc Note_Model Note_Spec Note_Proofs2 Note_Proofs3 Props_Note
  Draw_Model Draw_Spec Draw_Proofs2 Draw_Proofs3 Draw_Proofs4 Props_Draw.

(** xl/styles.xml of a workbook with the cell formats [calls] (there is always at
    least the default one) and the differential formats [dcalls]. *)
Theorem C98_styles calls dcalls hyper comments :
  N.of_nat (length calls + length dcalls) <= 65000 ->
  Forall (fun ops => Props_StylesXml.texts_ok ops = true) (calls ++ dcalls) ->
  calls <> [] ->
  exists root, read_document (Props_StylesXml.part_for calls dcalls hyper comments) = Some root /\ in_schema_order sml "styleSheet" root.
Proof.
  intros few texts Ne. eexists. split; [apply Props_StylesXml.part_reads; assumption|]. split; [reflexivity|].
  apply (styles_st (map FmtOps_Model.format_of calls) (map FmtOps_Model.format_of dcalls)).
  - destruct calls; [contradiction|discriminate].
  - apply Props_Styles.C26_ids_select_components. rewrite !map_length. exact few.
Qed.
Print Assumptions C98_styles.

(** xl/workbook.xml of any saved workbook (a saved workbook has at least one sheet). *)
Theorem C98_workbook m o b b' f x : Book_Model.save_book m o b = Some (b', Book_Model.SaveOk f) -> Props_Doc.extra_ok x ->
  Forall (fun s => Props_Doc.name_storable (Book_Model.b_name s)) (Book_Model.k_sheets b') ->
  Forall (fun e => Props_Doc.name_storable (Book_Model.ne_name e) /\ doc_text (Book_Model.ne_range e)) (Book_Model.bf_names f) ->
  Book_Model.k_sheets b' <> [] ->
  exists root, read_document (document (Doc_Model.workbook_xml x f)) = Some root /\ in_schema_order sml "workbook" root.
Proof.
  intros H X S Hn Ne. apply Book_Proofs.save_ok_inv in H as (b1 & own & l & _ & _ & _ & _ & _ & -> & Hw).
  apply Book_Proofs.write_book_inv in Hw as (Hs & Hd & _). cbn [Book_Model.k_sheets Book_Model.k_names] in *.
  eexists. split; [apply document_reads, Props_Doc.workbook_ok; [exact X| |exact Hn]|].
  - rewrite Hs. apply Forall_forall. intros e He. rewrite Forall_forall in S.
    assert (I : In (Book_Model.se_name e) (map Book_Model.b_name (Book_Model.k_sheets b1))) by (rewrite <- (Props_Doc.entries_sheet_names _ 0); apply in_map; assumption).
    apply in_map_iff in I as (s & <- & I). auto.
  - split; [reflexivity|]. apply workbook_st. rewrite Hs. destruct (Book_Model.k_sheets b1); [contradiction|discriminate].
Qed.
Print Assumptions C98_workbook.

(** xl/comments1.xml after any history of notes. *)
Theorem C98_comments v ops : Forall Note_Spec.sheet_texts ops ->
  exists part root, Note_Model.comments_part v (Note_Model.sheet_run ops) = Some part /\ read_document part = Some root /\ in_schema_order sml "comments" root.
Proof.
  intros F. unfold Note_Model.comments_part. destruct (Note_Model.prepare_notes (Note_Model.sheet_run ops)) as [s' ids] eqn:E.
  destruct (Note_Proofs3.prepared ops s' ids F E) as (Ok & Ne & L & K & Hi & D & Ft & Em).
  destruct (Note_Proofs3.list_reads v _ _ _ L K Hi D Ft) as (ws & El & W & R). destruct (Note_Proofs3.authors_read _ D) as [Wa Ra].
  assert (X : exists w, Note_Model.comments_xml v (map fst (Note_Model.ns_authors s')) (Note_Model.ns_notes s') ids = Some w /\ wx_ok w /\ is_elem "comments" (node_of w) = true).
  { unfold Note_Model.comments_xml. rewrite El. cbn [obind].
    assert (Na : Pkg_Model.is_nil (map fst (Note_Model.ns_authors s')) = false) by (destruct (map fst (Note_Model.ns_authors s')); [congruence|reflexivity]). rewrite Na.
    eexists. split; [reflexivity|]. split; [|reflexivity]. apply wx_ok_elem. split; [reflexivity|]. split; [Part_Proofs.good|]. cbn [app].
    constructor; [apply wx_ok_elem; split; [reflexivity|split; [apply Rich_Proofs.attrs_nil|exact Wa]]|].
    constructor; [apply wx_ok_elem; split; [reflexivity|split; [apply Rich_Proofs.attrs_nil|exact W]]|constructor]. }
  destruct X as (w & Ew & Ww & Iw). rewrite Ew. exists (document w), (node_of w). split; [reflexivity|]. split; [apply document_reads, Ww|].
  split; [exact Iw|]. exact (comments_st _ _ _ _ _ Ne Ew).
Qed.
Print Assumptions C98_comments.

(** xl/drawings/drawing1.xml of any list of objects. *)
Theorem C98_drawing num_text l : (forall x, Note_Spec.attr_text (num_text x)) -> Forall Draw_Spec.object_known l ->
  exists part root, Draw_Model.drawing_file num_text l = Some part /\ read_document part = Some root /\ in_schema_order dml "xdr:wsDr" root.
Proof.
  intros Num F. destruct (Draw_Proofs4.anchors_read num_text Num l 1 F) as (k & x & E & W & _).
  unfold Draw_Model.drawing_file, Draw_Model.drawing_part. rewrite E. do 2 eexists. split; [reflexivity|]. split; [apply document_reads; apply Note_Proofs5.ok_elem; [reflexivity|Part_Proofs.good|exact W]|].
  split; [reflexivity|]. exact (drawing_st num_text _ _ _ _ _ E).
Qed.
Print Assumptions C98_drawing.

(** Concrete cases: the formats of C71, the notes of C74 and the objects of C76 meet
    the hypotheses, and a part in another order is told apart. *)
Example C98_meets :
  (N.of_nat (length Props_StylesXml.demo_calls + length Props_StylesXml.demo_dcalls) <= 65000 /\
   Forall (fun ops => Props_StylesXml.texts_ok ops = true) (Props_StylesXml.demo_calls ++ Props_StylesXml.demo_dcalls) /\ Props_StylesXml.demo_calls <> []) /\
  Forall Note_Spec.sheet_texts Props_Note.demo_ops /\ Forall Draw_Spec.object_known Props_Draw.demo_objects.
Proof.
  split; [split; [apply Props_StylesXml.demo_covered|split; [apply Props_StylesXml.demo_covered|discriminate]]|].
  split; [apply Props_Note.C74_demo|apply Props_Draw.C76_demo].
Qed.
Example C98_workbook_meets : exists b b' f,
  Book_Model.book_run Debug Props_Book.ascii_book Book_Model.book_new Props_Doc.example_ops = Some b /\
  Book_Model.save_book Debug Props_Book.ascii_book b = Some (b', Book_Model.SaveOk f) /\
  map Book_Model.se_name (Book_Model.bf_sheets f) = [lit "Sheet1"; lit "Chart1"; lit "Sheet2"].
Proof. apply (Props_Book.run_save_ok Props_Doc.example_ops (fun f => map Book_Model.se_name (Book_Model.bf_sheets f) = [lit "Sheet1"; lit "Chart1"; lit "Sheet2"])). vm_compute. reflexivity. Qed.
Example C98_told_apart :
  stands sml [] (Elem (lit "dxf") [] [Elem (lit "numFmt") [] []; Elem (lit "fill") [] [Elem (lit "patternFill") [] []]]) = true /\
  stands sml [] (Elem (lit "dxf") [] [Elem (lit "fill") [] [Elem (lit "patternFill") [] []]; Elem (lit "numFmt") [] []]) = false /\
  stands sml [] (Elem (lit "comment") [] []) = false /\
  stands dml [] (Elem (lit "xdr:from") [] [Elem (lit "xdr:row") [] []]) = false.
Proof. vm_compute. repeat split. Qed.
