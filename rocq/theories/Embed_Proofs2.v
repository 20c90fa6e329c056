(** Relationship parts read back; an image number leads to its file and its texts. *)
From Verif Require Import Base F64 Xml_Model Xml_Spec Xml_Proofs Xml_Read Xml_Read_Proofs Xml_Tree Ref_Model Ref_Spec Ref_Proofs Fmt_Model Cells_Model
  Pkg_Model Pkg_Spec Pkg_Names Pkg_Proofs Pkg_Proofs8 Pkg_Proofs9 Rich_Model Rich_Proofs SheetXml_Spec SheetXml_Proofs SheetXml_Proofs3 Doc_Spec Props_Doc View_Spec Tag_Proofs Part_Proofs
  Embed_Model Embed_Spec Embed_Proofs.

Definition rel_clean (e : str * rel) : Prop :=
  attr_ok (fst e) /\ attr_ok (r_type (snd e)) /\ attr_ok (r_target (snd e)) /\ attr_ok (r_mode (snd e)).
Definition relationships_node (l : list (str * rel)) : node :=
  node_of (WElem (lit "Relationships") [(lit "xmlns", lit "http://schemas.openxmlformats.org/package/2006/relationships")]
    (map write_relationship l)).
Lemma relationships_read l : Forall rel_clean l -> read_document (relationships_part l) = Some (relationships_node l).
Proof.
  intros F. apply document_reads. apply ok_elem; [reflexivity|good|]. apply Forall_forall. intros t Ht.
  apply in_map_iff in Ht as ([id r] & <- & Hin). rewrite Forall_forall in F. destruct (F _ Hin) as (A & B & C & D). cbn [fst snd] in *.
  apply ok_empty; [reflexivity|]. destruct (is_nil (r_mode r)); cbn [negb when app]; good.
Qed.
Lemma target_found l : forall id, relationship_target (relationships_node l) id = option_map r_target (assoc id l).
Proof.
  intros id. unfold relationship_target, relationships_node. cbn [node_of kids_of]. induction l as [|[k r] l IH]; [reflexivity|].
  cbn [map find assoc]. set (hd := node_of (write_relationship (k, r))).
  assert (H1 : is_elem "Relationship" hd = true) by reflexivity. assert (H2 : attr "Id" (attrs_of hd) = Some k) by reflexivity.
  assert (H3 : attr "Target" (attrs_of hd) = Some (r_target r)) by reflexivity. rewrite H1, H2. cbn [andb].
  assert (E : str_eqb k id = str_eqb id k) by (destruct (str_eqb_spec k id) as [->|X]; [rewrite str_eqb_refl; reflexivity|]; destruct (str_eqb_spec id k); congruence).
  rewrite E. destruct (str_eqb id k); [|exact IH]. exact H3.
Qed.

Section Picture.
  Variables (o : eoptions) (m : ovf) (all : list image) (es : list (str * rel)).
  Hypothesis alts : Forall (fun x => doc_text (i_alt x)) all.
  Hypothesis rels : rich_value_rels m all = Some es.
  Hypothesis few : m = Debug \/ N.of_nat (length all) < 65535.
  Hypothesis emb : has_embedded o = true.
  Hypothesis num : num_embedded o = N.of_nat (length all).

  Lemma rich_rels_length l : forall n, length (rich_rels n l) = length l.
  Proof. induction l as [|x l IH]; intros n; [reflexivity|]. cbn [rich_rels length]. f_equal. apply IH. Qed.
  Lemma es_eq : es = entries_of 1 (rich_rels 1 (map i_img all)).
  Proof.
    eapply write_rels_ok; [exact rels|]. destruct few as [H|H]; [left; exact H|right].
    assert (L := write_rels_from_len _ _ _ _ rels). rewrite L, rich_rels_length, map_length. exact H.
  Qed.
  Lemma media_clean n e : attr_ok (media_name "../media/" n e).
  Proof. unfold attr_ok, media_name. rewrite !forallb_app, dec_attr. destruct e; reflexivity. Qed.
  Lemma rich_clean l : forall n, Forall (fun r => attr_ok (r_type r) /\ attr_ok (r_target r) /\ attr_ok (r_mode r)) (rich_rels n l).
  Proof.
    induction l as [|x l IH]; intros n; cbn [rich_rels]; constructor; [|apply IH]. cbn [doc_rel r_type r_target r_mode].
    split; [reflexivity|]. split; [apply media_clean|reflexivity].
  Qed.
  Lemma entries_clean l : Forall (fun r => attr_ok (r_type r) /\ attr_ok (r_target r) /\ attr_ok (r_mode r)) l -> forall n, Forall rel_clean (entries_of n l).
  Proof.
    intros F. induction F as [|x l D F IH]; intros n; [constructor|]. unfold entries_of in *. cbn [number_from map]. constructor; [|apply IH].
    split; [|exact D]. unfold attr_ok, rid. cbn [fst]. rewrite forallb_app, dec_attr. reflexivity.
  Qed.
  Lemma es_reads : read_document (relationships_part es) = Some (relationships_node es).
  Proof. apply relationships_read. rewrite es_eq. apply entries_clean, rich_clean. Qed.

  Definition the_parts : image_parts :=
    {| ip_metadata := metadata_node o; ip_values := values_node all; ip_structures := structures_node o; ip_rels := rels_node o;
       ip_relationships := relationships_node es |}.
  Lemma field_two a b c d e keys values : str_eqb a e = false -> str_eqb b e = false -> field e (a :: b :: keys) (c :: d :: values) = field e keys values.
  Proof. intros H1 H2. cbn [field]. rewrite H1, H2. reflexivity. Qed.
  Lemma picture_read k x : nth_error all (N.to_nat k) = Some x ->
    read_picture the_parts (k + 1) =
      Some {| pic_file := media_name "../media/" (k + 1) (im_ext (i_img x));
              pic_text := if has_descriptions o && negb (is_nil (i_alt x)) then Some (i_alt x) else None;
              pic_decorative := i_decorative x |}.
  Proof.
    intros H. assert (B : k < N.of_nat (length all)) by (assert (Q := proj1 (nth_error_Some all (N.to_nat k))); rewrite H in Q; specialize (Q ltac:(discriminate)); lia).
    unfold read_picture, the_parts. cbn [ip_metadata ip_values ip_structures ip_rels ip_relationships].
    rewrite rich_value_of_node, emb, num. cbn [andb].
    replace (1 <=? k + 1) with true by (symmetry; apply N.leb_le; lia). replace (k + 1 <=? N.of_nat (length all)) with true by (symmetry; apply N.leb_le; lia).
    cbn [andb bind]. replace (k + 1 - 1) with k by lia.
    assert (V : at_index (kids_of (values_node all)) k = Some (node_of (write_rv k x))).
    { unfold at_index, values_node. cbn [node_of kids_of]. rewrite rvs_nth, H. cbn [option_map]. rewrite N.add_0_l, N2Nat.id. reflexivity. }
    rewrite V. cbn [bind].
    change (named_index "s" (attrs_of (node_of (write_rv k x)))) with (Some 0). cbn [bind].
    rewrite keys_read. cbn [bind]. rewrite rv_texts by (rewrite Forall_forall in alts; apply alts; eapply nth_error_In, H). cbn [bind].
    unfold the_keys, texts_of. cbn [app field]. rewrite str_eqb_refl. cbn [bind]. rewrite number_of_dec. cbn [bind].
    rewrite rel_nth by (rewrite num; exact B). cbn [bind attrs_of]. rewrite attr_cons. eqbs. cbn [bind].
    rewrite target_found, es_eq.
    assert (A : assoc (lit "rId" ++ dec (k + 1)) (entries_of 1 (rich_rels 1 (map i_img all))) = Some (image_rel (1 + N.of_nat (N.to_nat k)) (i_img x))).
    { replace (lit "rId" ++ dec (k + 1)) with (rid (1 + N.of_nat (N.to_nat k))) by (unfold rid; rewrite N2Nat.id, (N.add_comm 1 k); reflexivity).
      apply assoc_entries, rich_rels_nth. rewrite nth_error_map, H. reflexivity. }
    rewrite A. cbn [option_map bind]. rewrite !str_eqb_lit. eqbs. cbv iota. cbn [bind].
    f_equal. f_equal.
    - unfold image_rel. cbn [doc_rel r_target]. rewrite N2Nat.id, (N.add_comm 1 k). reflexivity.
    - destruct (has_descriptions o); cbn [when andb field]; [|reflexivity]. destruct (is_nil (i_alt x)); cbn [negb when field]; [reflexivity|].
      rewrite str_eqb_refl. reflexivity.
    - destruct (i_decorative x); reflexivity.
  Qed.
  (** Every rich value fits its structure exactly when the descriptions are all there or
      none is announced. *)
  Lemma fits : values_fit the_parts <-> Forall (fun x => has_descriptions o = negb (is_nil (i_alt x))) all.
  Proof.
    unfold values_fit, the_parts. cbn [ip_values ip_structures]. unfold values_node. cbn [node_of kids_of].
    generalize 0. clear rels few num. pose proof alts as F. clear alts. induction F as [|x l D F IH]; intros n; [split; intros; constructor|].
    cbn [write_rvs map]. split; intros Q; pose proof (Forall_inv Q) as Q1; pose proof (Forall_inv_tail Q) as Q2; (constructor; [|eapply IH, Q2]).
    - destruct Q1 as (s & keys & values & S1 & S2 & S3 & S4). 
      change (named_index "s" (attrs_of (node_of (write_rv n x)))) with (Some 0) in S1. injection S1 as <-. rewrite keys_read in S2. injection S2 as <-.
      rewrite rv_texts in S3 by assumption. injection S3 as <-. unfold texts_of, the_keys in S4. destruct (has_descriptions o), (is_nil (i_alt x)); cbn in S4 |- *; congruence || discriminate.
    - exists 0, (the_keys o), (texts_of n x). split; [reflexivity|]. split; [apply keys_read|]. split; [apply rv_texts; assumption|].
      unfold texts_of, the_keys. rewrite Q1. destruct (is_nil (i_alt x)); reflexivity.
  Qed.
  Lemma file_there k x : nth_error all (N.to_nat k) = Some x ->
    In (media_name "xl/media/" (k + 1) (im_ext (i_img x)), im_data (i_img x)) (media_files all).
  Proof.
    clear. intros H. unfold media_files. apply in_flat_map. exists (media_name "xl/media/" (k + 1) (im_ext (i_img x)), CBytes (im_data (i_img x))). split; [|left; reflexivity].
    replace (k + 1) with (1 + N.of_nat (N.to_nat k)) by lia. apply embedded_nth. rewrite nth_error_map, H. reflexivity.
  Qed.
End Picture.
