(** The metadata and rich value parts read back. *)
From Verif Require Import Base F64 Xml_Model Xml_Spec Xml_Proofs Xml_Read Xml_Read_Proofs Xml_Tree Ref_Model Ref_Spec Ref_Proofs Fmt_Model Cells_Model
  Pkg_Model Rich_Model Rich_Proofs SheetXml_Spec SheetXml_Proofs SheetXml_Proofs3 Doc_Spec Props_Doc View_Spec Tag_Proofs Part_Proofs Embed_Model Embed_Spec.

Ltac eqbs := cbn [String.eqb Ascii.eqb Bool.eqb].

(** ** Well-formedness *)
Lemma good_nil : attrs_good []. Proof. split; [constructor|intros p []]. Qed.
Lemma ok_elem tag attrs kids : good_name tag = true -> attrs_good attrs -> Forall wx_ok kids -> wx_ok (WElem tag attrs kids).
Proof. intros. apply wx_ok_elem. auto. Qed.
Lemma ok_empty tag attrs : good_name tag = true -> attrs_good attrs -> wx_ok (WEmpty tag attrs).
Proof. intros. split; assumption. Qed.
Lemma ok_map {A} (f : A -> wx) l : (forall x, wx_ok (f x)) -> Forall wx_ok (map f l).
Proof. intros H. apply Forall_forall. intros t Ht. apply in_map_iff in Ht as (x & <- & _). apply H. Qed.
Ltac wxs := repeat first [apply Forall_nil | apply Forall_cons | apply Forall_app; split | apply ok_elem | apply ok_empty | apply ok_map; intros | apply good_nil | reflexivity | solve [good]].

Section Parts.
  Variable o : eoptions.
  Definition metadata_node : node :=
    node_of (WElem (lit "metadata")
      ([(lit "xmlns", lit "http://schemas.openxmlformats.org/spreadsheetml/2006/main")]
       ++ when (has_embedded o) [(lit "xmlns:xlrd", lit "http://schemas.microsoft.com/office/spreadsheetml/2017/richdata")]
       ++ when (has_dynamic o) [(lit "xmlns:xda", lit "http://schemas.microsoft.com/office/spreadsheetml/2017/dynamicarray")])
      ([write_metadata_types o] ++ when (has_dynamic o) [write_cell_future_metadata] ++ when (has_embedded o) [write_value_future_metadata o]
       ++ when (has_dynamic o) [write_cell_metadata] ++ when (has_embedded o) [write_value_metadata o])).
  Lemma metadata_reads : read_document (metadata_part o) = Some metadata_node.
  Proof.
    apply document_reads. apply ok_elem; [reflexivity|destruct (has_embedded o), (has_dynamic o); cbn [when app]; good|].
    unfold write_metadata_types, write_cell_future_metadata, write_value_future_metadata, write_cell_metadata, write_value_metadata,
      write_value_bk, write_rc, write_cell_metadata_type, write_value_metadata_type.
    destruct (has_embedded o), (has_dynamic o); cbn [when app]; wxs.
  Qed.

  Lemma below_nth n k : k < n -> nth_error (below n) (N.to_nat k) = Some k.
  Proof.
    intros H. unfold below. rewrite nth_error_map. rewrite (nth_error_nth' _ 0%nat) by (rewrite seq_length; lia).
    rewrite seq_nth by lia. cbn [option_map Nat.add]. f_equal. lia.
  Qed.
  Lemma below_length n : length (below n) = N.to_nat n. Proof. unfold below. rewrite map_length, seq_length. reflexivity. Qed.
  Lemma kid_block w l : kid "rc" (kids_of (Elem w l [node_of (write_rc 1 0)])) = Some (node_of (write_rc 1 0)). Proof. reflexivity. Qed.

  (** vm="k" denotes the rich value k-1, for k from 1 to the number of images; and
      nothing else. *)
  Lemma rich_value_of_node k : rich_value_of metadata_node k =
    if has_embedded o && (1 <=? k) && (k <=? num_embedded o) then Some (k - 1) else None.
  Proof.
    unfold rich_value_of, metadata_record. destruct (N.eqb_spec k 0) as [->|K]; [rewrite andb_false_r; reflexivity|].
    assert (L : 1 <= k) by lia. apply N.leb_le in L as L'. rewrite L', andb_true_r.
    destruct (has_embedded o) eqn:Ee.
    2:{ unfold metadata_node. rewrite Ee. destruct (has_dynamic o); reflexivity. }
    assert (Kv : kid "valueMetadata" (kids_of metadata_node) = Some (node_of (write_value_metadata o))).
    { unfold metadata_node. rewrite Ee. destruct (has_dynamic o); reflexivity. }
    rewrite Kv. cbn [bind andb]. unfold write_value_metadata. cbn [node_of kids_of]. rewrite map_map. unfold at_index at 1. rewrite nth_error_map.
    destruct (N.leb_spec k (num_embedded o)) as [B|B].
    2:{ assert (E : nth_error (below (num_embedded o)) (N.to_nat (k - 1)) = None) by (apply nth_error_None; rewrite below_length; lia).
        rewrite E. reflexivity. }
    rewrite below_nth by lia. cbn [option_map bind].
    set (t := if has_dynamic o then 2 else 1).
    match goal with |- context [kid "rc" ?x] => change (kid "rc" x) with (Some (node_of (write_rc t (k - 1)))) end. cbn [bind].
    unfold write_rc. cbn [node_of attrs_of]. unfold named_index at 1 2. rewrite !attr_cons. eqbs. cbn [bind]. rewrite !number_of_dec. cbn [bind].
    assert (Et : (t =? 0) = false) by (unfold t; destruct (has_dynamic o); reflexivity). rewrite Et.
    assert (Ty : bind (kid "metadataTypes" (kids_of metadata_node)) (fun types => at_index (kids_of types) (t - 1)) = Some (node_of write_value_metadata_type)).
    { unfold metadata_node, t. rewrite Ee. destruct (has_dynamic o) eqn:Ed; cbn [when app node_of map]; unfold write_metadata_types; rewrite Ee, Ed; reflexivity. }
    destruct (kid "metadataTypes" (kids_of metadata_node)) as [ty|]; [|discriminate Ty]. cbn [bind] in *. rewrite Ty. cbn [bind].
    match goal with |- context [attr "name" ?x] => change (attr "name" x) with (Some (lit "XLRICHVALUE")) end. cbn [bind].
    assert (Ff : find (fun n => is_elem "futureMetadata" n && match attr "name" (attrs_of n) with Some x => str_eqb x (lit "XLRICHVALUE") | None => false end) (kids_of metadata_node)
                 = Some (node_of (write_value_future_metadata o))).
    { unfold metadata_node. rewrite Ee. destruct (has_dynamic o); reflexivity. }
    rewrite Ff. cbn [bind]. unfold write_value_future_metadata. cbn [node_of kids_of]. rewrite map_map. unfold at_index. rewrite nth_error_map, below_nth by lia.
    cbn [option_map bind fst snd]. rewrite str_eqb_refl. unfold write_value_bk, extension. cbn [node_of kids_of map]. 
    match goal with |- bind ?x _ = _ => change x with (Some (Elem (lit "xlrd:rvb") [(lit "i", dec (k - 1))] [])) end. cbn [bind attrs_of].
    unfold named_index. rewrite attr_cons. eqbs. cbn [bind]. apply number_of_dec.
  Qed.
  (** cm="k" denotes a dynamic array exactly for k = 1, when there is one. *)
  Lemma dynamic_node k : is_dynamic_array metadata_node k = has_dynamic o && (k =? 1).
  Proof.
    unfold is_dynamic_array, metadata_record. destruct (N.eqb_spec k 0) as [->|K]; [rewrite andb_false_r; reflexivity|].
    destruct (has_dynamic o) eqn:Ed.
    2:{ unfold metadata_node. rewrite Ed. destruct (has_embedded o); reflexivity. }
    assert (Kv : kid "cellMetadata" (kids_of metadata_node) = Some (node_of write_cell_metadata)).
    { unfold metadata_node. rewrite Ed. destruct (has_embedded o); reflexivity. }
    rewrite Kv. cbn [bind andb]. destruct (N.eqb_spec k 1) as [->|K1].
    - assert (Ty : kid "metadataTypes" (kids_of metadata_node) = Some (node_of (write_metadata_types o))).
      { unfold metadata_node. rewrite Ed. destruct (has_embedded o); reflexivity. }
      assert (Tt : at_index (kids_of (node_of (write_metadata_types o))) 0 = Some (node_of write_cell_metadata_type)).
      { unfold write_metadata_types. rewrite Ed. destruct (has_embedded o); reflexivity. }
      assert (Ff : find (fun n => is_elem "futureMetadata" n && match attr "name" (attrs_of n) with Some x => str_eqb x (lit "XLDAPR") | None => false end) (kids_of metadata_node)
                   = Some (node_of write_cell_future_metadata)).
      { unfold metadata_node. rewrite Ed. destruct (has_embedded o); reflexivity. }
      match goal with |- context [at_index (kids_of (node_of write_cell_metadata)) ?x] =>
        change (at_index (kids_of (node_of write_cell_metadata)) x) with (Some (Elem (lit "bk") [] [node_of (write_rc 1 0)])) end.
      cbn [bind]. rewrite kid_block. cbn [bind]. unfold write_rc. cbn [node_of attrs_of]. unfold named_index. rewrite !attr_cons. eqbs. cbn [bind]. rewrite !number_of_dec. cbn [bind].
      rewrite Ty. cbn [bind]. change (1 =? 0) with false. cbv iota. change (1 - 1) with 0. rewrite Tt. cbn [bind].
      match goal with |- context [attr "name" (attrs_of (node_of ?x))] => change (attr "name" (attrs_of (node_of x))) with (Some (lit "XLDAPR")) end. cbn [bind].
      rewrite Ff. reflexivity.
    - assert (E : at_index (kids_of (node_of write_cell_metadata)) (k - 1) = None); [|rewrite E; reflexivity].
      unfold at_index. apply nth_error_None. cbn. lia.
  Qed.

  (** ** The rich values *)
  Variable all : list image.
  Hypothesis alts : Forall (fun x => doc_text (i_alt x)) all.
  Definition values_node : node :=
    node_of (WElem (lit "rvData")
      [(lit "xmlns", lit "http://schemas.microsoft.com/office/spreadsheetml/2017/richdata"); (lit "count", dec (N.of_nat (length all)))]
      (write_rvs 0 all)).
  Lemma rvs_ok l : Forall (fun x => doc_text (i_alt x)) l -> forall n, Forall wx_ok (write_rvs n l).
  Proof.
    intros F. induction F as [|x l D F IH]; intros n; cbn [write_rvs]; constructor; [|apply IH].
    apply ok_elem; [reflexivity|good|]. constructor; [apply ok_data; [reflexivity|apply good_nil|apply doc_simple, dec_simple]|].
    constructor; [apply ok_data; [reflexivity|apply good_nil|destruct (i_decorative x); reflexivity]|].
    destruct (is_nil (i_alt x)); cbn [negb when]; constructor; [apply ok_data; [reflexivity|apply good_nil|exact D]|constructor].
  Qed.
  Lemma values_read : read_document (rich_value_part all) = Some values_node.
  Proof. apply document_reads. apply ok_elem; [reflexivity|good|apply rvs_ok; assumption]. Qed.
  Lemma rvs_nth l : forall n k, nth_error (map node_of (write_rvs n l)) k = option_map (fun x => node_of (write_rv (n + N.of_nat k) x)) (nth_error l k).
  Proof.
    induction l as [|x l IH]; intros n [|k]; try reflexivity; cbn [write_rvs map nth_error option_map].
    - rewrite N.add_0_r. reflexivity.
    - rewrite IH. replace (n + 1 + N.of_nat k) with (n + N.of_nat (S k)) by lia. reflexivity.
  Qed.
  Definition texts_of (n : N) (x : image) : list str :=
    [dec n; if i_decorative x then lit "6" else lit "5"] ++ when (negb (is_nil (i_alt x))) [i_alt x].
  Lemma rv_texts n x : doc_text (i_alt x) -> values_of (node_of (write_rv n x)) = Some (texts_of n x).
  Proof.
    intros D. unfold values_of, write_rv, texts_of, write_v. cbn [node_of kids_of]. rewrite map_app. cbn [map app].
    cbn [read_all]. rewrite !text_of_data. rewrite (data_simple _ (dec_simple n)).
    assert (E : data_text (if i_decorative x then lit "6" else lit "5") = if i_decorative x then lit "6" else lit "5") by (destruct (i_decorative x); reflexivity).
    rewrite E. cbn [bind]. destruct (is_nil (i_alt x)); cbn [negb when map read_all]; [reflexivity|]. rewrite text_of_data.
    rewrite (proj1 (doc_text_data _ D)). reflexivity.
  Qed.

  Definition structures_node : node :=
    node_of (WElem (lit "rvStructures")
      [(lit "xmlns", lit "http://schemas.microsoft.com/office/spreadsheetml/2017/richdata"); (lit "count", lit "1")]
      [WElem (lit "s") [(lit "t", lit "_localImage")]
        ([write_k "_rvRel:LocalImageIdentifier" "i"; write_k "CalcOrigin" "i"] ++ when (has_descriptions o) [write_k "Text" "s"])]).
  Lemma structures_read : read_document (rich_value_structure_part o) = Some structures_node.
  Proof. apply document_reads. unfold write_k. destruct (has_descriptions o); cbn [when app]; wxs. Qed.
  Definition the_keys : list str := [lit "_rvRel:LocalImageIdentifier"; lit "CalcOrigin"] ++ when (has_descriptions o) [lit "Text"].
  Lemma keys_read : keys_of structures_node 0 = Some the_keys.
  Proof. unfold structures_node, the_keys. destruct (has_descriptions o); reflexivity. Qed.

  Definition rels_node : node :=
    node_of (WElem (lit "richValueRels")
      [(lit "xmlns", lit "http://schemas.microsoft.com/office/spreadsheetml/2022/richvaluerel");
       (lit "xmlns:r", lit "http://schemas.openxmlformats.org/officeDocument/2006/relationships")]
      (map (fun index => WEmpty (lit "rel") [(lit "r:id", lit "rId" ++ dec (index + 1))]) (below (num_embedded o)))).
  Lemma rels_read : read_document (rich_value_rel_part o) = Some rels_node.
  Proof.
    apply document_reads. apply ok_elem; [reflexivity|good|]. apply ok_map. intros n. apply ok_empty; [reflexivity|].
    apply attrs_check; [reflexivity|]. constructor; [|constructor]. split; [reflexivity|]. cbn [snd]. rewrite forallb_app, dec_attr. reflexivity.
  Qed.
  Lemma rel_nth n : n < num_embedded o -> at_index (kids_of rels_node) n = Some (Elem (lit "rel") [(lit "r:id", lit "rId" ++ dec (n + 1))] []).
  Proof. intros H. unfold at_index, rels_node. cbn [node_of kids_of]. rewrite map_map, nth_error_map, below_nth by assumption. reflexivity. Qed.
End Parts.
