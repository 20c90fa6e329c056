(** Drawings: what is written reads back. *)
From Verif Require Import Base F64 Xml_Model Xml_Spec Xml_Proofs Xml_Read Xml_Read_Proofs Xml_Tree Fmt_Model Rich_Model Rich_Proofs SheetXml_Spec SheetXml_Proofs SheetXml_Proofs3 Doc_Spec Props_Doc Tag_Proofs Part_Proofs
  CF_Spec CF_Model CF_Build CF_Read Ref_Proofs Note_Spec Note_Proofs Note_Proofs2 Note_Proofs4 Note_Proofs5 Dml_Model Dml_Spec Dml_Proofs Draw_Model Draw_Spec.
From Verif Require Color_Spec.

Lemma rid_ok n : attr_ok (rid n).
Proof. unfold rid, attr_ok. rewrite forallb_app. rewrite (attr_dec n). reflexivity. Qed.
Lemma num_dec k n l : num k ((lit k, dec n) :: l) = Some n.
Proof. unfold num. rewrite attr_cons, String.eqb_refl. cbn [bind]. apply number_of_dec. Qed.
Lemma num_skip k j v l : String.eqb j k = false -> num k ((lit j, v) :: l) = num k l.
Proof. intros E. unfold num. rewrite attr_cons, E. reflexivity. Qed.
Lemma kid_hit k a l r : kid k (Elem (lit k) a l :: r) = Some (Elem (lit k) a l).
Proof. rewrite kid_one, String.eqb_refl. reflexivity. Qed.
Lemma kid_miss k j a l r : String.eqb j k = false -> kid k (Elem (lit j) a l :: r) = kid k r.
Proof. intros E. rewrite kid_one, E. reflexivity. Qed.
Lemma attr_hit k v l : attr k ((lit k, v) :: l) = Some v.
Proof. rewrite attr_cons, String.eqb_refl. reflexivity. Qed.
Lemma attr_miss k j v l : String.eqb j k = false -> attr k ((lit j, v) :: l) = attr k l.
Proof. intros E. rewrite attr_cons, E. reflexivity. Qed.
Ltac kids := repeat first [rewrite kid_hit | rewrite kid_miss by reflexivity].
Ltac ats := repeat first [rewrite attr_hit | rewrite attr_miss by reflexivity].
Ltac nums := repeat first [rewrite num_dec | rewrite num_skip by reflexivity].
Lemma data_hit k s r : doc_text s -> kid_text k (node_of (WData (lit k) s []) :: r) = Some s.
Proof. intros D. unfold kid_text. rewrite node_data by exact D. rewrite kid_hit. apply text_leaf. Qed.
Lemma data_miss k j s r : String.eqb j k = false -> kid_text k (node_of (WData (lit j) s []) :: r) = kid_text k r.
Proof. intros E. unfold kid_text. cbn [node_of]. rewrite kid_miss by exact E. reflexivity. Qed.
Lemma node_elem t a l : node_of (WElem t a l) = Elem t a (map node_of l). Proof. reflexivity. Qed.
Lemma node_empty t a : node_of (WEmpty t a) = Elem t a []. Proof. reflexivity. Qed.

Lemma corner_reads k c r : read_corner k (node_of (corner_xml k c) :: r) = Some c /\ (good_name (lit k) = true -> wx_ok (corner_xml k c)).
Proof.
  unfold corner_xml. split.
  - unfold read_corner. rewrite node_elem. kids. cbn [bind kids_of]. cbv zeta. rewrite !map_cons.
    rewrite (data_hit "xdr:col") by apply dec_doc. cbn [bind]. rewrite number_of_dec. cbn [bind].
    rewrite (data_miss "xdr:colOff") by reflexivity. rewrite (data_hit "xdr:colOff") by apply dec_doc. cbn [bind]. rewrite number_of_dec. cbn [bind].
    do 2 rewrite (data_miss "xdr:row") by reflexivity. rewrite (data_hit "xdr:row") by apply dec_doc. cbn [bind]. rewrite number_of_dec. cbn [bind].
    do 3 rewrite (data_miss "xdr:rowOff") by reflexivity. rewrite (data_hit "xdr:rowOff") by apply dec_doc. cbn [bind]. rewrite number_of_dec. cbn [bind]. destruct c; reflexivity.
  - intros G. apply ok_elem; [exact G|apply attrs_nil|]. repeat (constructor; [apply ok_word; [reflexivity|apply dec_doc]|]). constructor.
Qed.
Lemma corner_skip k j c r : String.eqb j k = false -> read_corner k (node_of (corner_xml j c) :: r) = read_corner k r.
Proof. intros E. unfold read_corner, corner_xml. rewrite node_elem. rewrite kid_miss by exact E. reflexivity. Qed.

(** ** Names *)
Lemma decorative_ok : wx_ok decorative_xml.
Proof.
  unfold decorative_xml. apply ok_elem; [reflexivity|apply attrs_nil|]. repeat (constructor; [apply ok_elem; [reflexivity|good|constructor; [split; [reflexivity|good]|constructor]]|]). constructor.
Qed.
Lemma link_ok u : attr_ok (snd u) -> wx_ok (link_xml u).
Proof.
  intros A. pose proof (rid_ok (fst u)) as R. unfold link_xml, xmlns_r. split; [reflexivity|]. destruct (is_nil (snd u)); cbn [negb when]; good.
Qed.
Lemma name_ok kind i : attr_ok (lit kind) -> attr_ok (lit kind ++ lit " " ++ dec i).
Proof. intros K. unfold attr_ok in *. rewrite !forallb_app, K, (attr_dec i). reflexivity. Qed.
Definition said_name (index : N) (d : info) (kind : string) : named :=
  {| n_id := index + 1; n_name := if String.eqb kind "TextBox" then lit kind ++ lit " " ++ dec index else default_name kind index (in_name d); n_alt := in_descr d; n_decorative := in_decorative d; n_link := link_for (in_url d) |}.
Lemma named_reads index d kind r : attr_ok (lit kind) -> attr_ok (in_name d) \/ kind = "TextBox"%string -> attr_ok (in_descr d) -> url_text (in_url d) ->
  wx_ok (c_nv_pr index d kind) /\ read_named (node_of (c_nv_pr index d kind) :: r) = Some (said_name index d kind).
Proof.
  intros K An Ad Au. unfold c_nv_pr. set (shown := if _ && _ then _ else _). set (attrs := (lit "id", dec (index + 1)) :: _).
  assert (Sh : shown = n_name (said_name index d kind)). { unfold shown, said_name, default_name, is_nil. cbn [n_name]. destruct (String.eqb kind "TextBox"); [reflexivity|]. destruct (in_name d); reflexivity. }
  assert (As : attr_ok shown). { pose proof (name_ok kind index K) as A1. unfold shown. destruct An as [An| ->]; [destruct (_ && _); assumption|exact A1]. }
  assert (G : attrs_good attrs). { unfold attrs. destruct (is_nil (in_descr d)); cbn [negb when]; good. }
  set (k := match in_url d with Some u => [link_xml u] | None => [] end ++ when (in_decorative d) [decorative_xml]).
  assert (E : exists x, (if in_decorative d || match in_url d with Some _ => true | None => false end then WElem (lit "xdr:cNvPr") attrs k else WEmpty (lit "xdr:cNvPr") attrs) = x /\
      node_of x = Elem (lit "xdr:cNvPr") attrs (map node_of k) /\ wx_ok x).
  { eexists. split; [reflexivity|]. destruct (in_decorative d || _) eqn:Q.
    - split; [reflexivity|]. apply ok_elem; [reflexivity|exact G|]. unfold k. apply Forall_app. split; [|apply ok_if; constructor; [apply decorative_ok|constructor]].
      destruct (in_url d) as [u|]; [|constructor]. constructor; [apply link_ok; exact Au|constructor].
    - unfold k. destruct (in_decorative d); [discriminate|]. destruct (in_url d); [discriminate|]. split; [reflexivity|]. split; [reflexivity|exact G]. }
  destruct E as (x & -> & Ex & W). split; [exact W|]. rewrite Ex. unfold read_named. kids. cbn [bind attrs_of kids_of]. unfold attrs at 1. nums. cbn [bind]. unfold attrs at 1. ats. cbn [bind].
  assert (L : read_link (Elem (lit "xdr:cNvPr") attrs (map node_of k)) = Some (link_for (in_url d))).
  { unfold read_link. cbn [kids_of]. unfold k. destruct (in_url d) as [u|].
    - cbn [app map]. unfold link_xml. rewrite node_empty. kids. cbn [attrs_of]. unfold xmlns_r. ats. cbn [bind]. unfold link_for, rel_text, rid. cbn [option_map].
      destruct (snd u) as [|c t]; reflexivity.
    - destruct (in_decorative d); reflexivity. }
  rewrite L. cbn [bind]. unfold said_name at 1. f_equal. rewrite Sh. unfold said_name. f_equal.
  - unfold attrs. ats. destruct (in_descr d); reflexivity.
  - unfold is_decorative. cbn [kids_of]. unfold k. rewrite map_app, kid_app. destruct (in_url d) as [u|]; [unfold link_xml|]; cbn [map]; rewrite ?node_empty; kids;
      destruct (in_decorative d); reflexivity.
Qed.
Lemma xfrm_ok d : wx_ok (xfrm_xml d).
Proof. unfold xfrm_xml. apply ok_elem; [reflexivity|apply attrs_nil|]. repeat (constructor; [split; [reflexivity|good]|]). constructor. Qed.
Lemma geom_ok : wx_ok geom_xml.
Proof. unfold geom_xml. apply ok_elem; [reflexivity|good|]. constructor; [apply ok_leaf; reflexivity|constructor]. Qed.
Lemma xfrm_reads d rest l : kid "xdr:spPr" l = Some (Elem (lit "xdr:spPr") [] (node_of (xfrm_xml d) :: rest)) -> read_xfrm l = Some (in_x d, in_y d, in_cx d, in_cy d).
Proof.
  intros E. unfold read_xfrm. rewrite E. cbn [bind kids_of]. unfold xfrm_xml. rewrite node_elem. kids. cbn [bind kids_of map]. rewrite !node_empty. kids. cbn [bind attrs_of]. nums. cbn [bind]. reflexivity.
Qed.
Lemma pic_reads index d r : attr_ok (in_name d) -> attr_ok (in_descr d) -> url_text (in_url d) ->
  wx_ok (pic_xml index d) /\ read_object (node_of (pic_xml index d) :: r) = Some (said_name index d "Picture", Picture (rel_text (in_rel d)) (in_x d) (in_y d) (in_cx d) (in_cy d)).
Proof.
  intros A1 A2 A3. destruct (named_reads index d "Picture" (map node_of [WElem (lit "xdr:cNvPicPr") [] [WEmpty (lit "a:picLocks") [(lit "noChangeAspect", lit "1")]]]) eq_refl (or_introl A1) A2 A3) as [W R].
  pose proof (rid_ok (in_rel d)) as Rd. unfold pic_xml. split.
  - apply ok_elem; [reflexivity|apply attrs_nil|]. constructor.
    { apply ok_elem; [reflexivity|apply attrs_nil|]. constructor; [exact W|]. constructor; [|constructor]. apply ok_elem; [reflexivity|apply attrs_nil|]. constructor; [split; [reflexivity|good]|constructor]. }
    constructor. { apply ok_elem; [reflexivity|apply attrs_nil|]. constructor; [split; [reflexivity|unfold xmlns_r; good]|]. constructor; [|constructor]. apply ok_elem; [reflexivity|apply attrs_nil|]. constructor; [apply ok_leaf; reflexivity|constructor]. }
    constructor; [|constructor]. apply ok_elem; [reflexivity|apply attrs_nil|]. constructor; [apply xfrm_ok|]. constructor; [apply geom_ok|constructor].
  - unfold read_object. rewrite node_elem. kids. cbn [kids_of]. rewrite !map_cons. rewrite (node_elem (lit "xdr:nvPicPr")). kids. cbn [bind kids_of]. rewrite map_cons, R. cbn [bind].
    rewrite (node_elem (lit "xdr:blipFill")). kids. cbn [bind kids_of]. rewrite map_cons. rewrite node_empty. kids. cbn [bind attrs_of]. unfold xmlns_r. ats. cbn [bind].
    erewrite (xfrm_reads d); [reflexivity|]. rewrite (node_elem (lit "xdr:spPr")). kids. reflexivity.
Qed.
Lemma frame_ok index d : wx_ok (c_nv_pr index d "Chart") -> wx_ok (frame_xml index d).
Proof.
  intros W. pose proof (rid_ok (in_rel d)) as Rd. unfold frame_xml. apply ok_elem; [reflexivity|good|]. constructor.
  { apply ok_elem; [reflexivity|apply attrs_nil|]. constructor; [exact W|]. constructor; [|constructor].
    destruct (in_type d); try (apply ok_leaf; reflexivity). apply ok_elem; [reflexivity|apply attrs_nil|]. constructor; [split; [reflexivity|good]|constructor]. }
  constructor. { apply ok_elem; [reflexivity|apply attrs_nil|]. repeat (constructor; [split; [reflexivity|good]|]). constructor. }
  constructor; [|constructor]. apply ok_elem; [reflexivity|apply attrs_nil|]. constructor; [|constructor]. apply ok_elem; [reflexivity|good|]. constructor; [split; [reflexivity|unfold xmlns_r; good]|constructor].
Qed.
Lemma frame_reads index d r : attr_ok (in_name d) -> attr_ok (in_descr d) -> url_text (in_url d) -> kid "xdr:pic" r = None ->
  wx_ok (frame_xml index d) /\ read_object (node_of (frame_xml index d) :: r) = Some (said_name index d "Chart", Graph (rel_text (in_rel d))).
Proof.
  intros A1 A2 A3 Nr. split; [apply frame_ok; eapply (named_reads index d "Chart" [] eq_refl (or_introl A1) A2 A3)|].
  unfold frame_xml, read_object. rewrite node_elem. kids. rewrite Nr. cbn [kids_of]. rewrite !map_cons. rewrite (node_elem (lit "xdr:nvGraphicFramePr")). kids. cbn [bind kids_of]. rewrite map_cons.
  rewrite (proj2 (named_reads index d "Chart" _ eq_refl (or_introl A1) A2 A3)). cbn [bind]. unfold read_graph.
  rewrite (node_elem (lit "xdr:xfrm")), (node_elem (lit "a:graphic")). kids. cbn [bind kids_of]. rewrite map_cons, (node_elem (lit "a:graphicData")). kids. cbn [bind attrs_of]. ats. cbn [bind].
  rewrite str_eqb_refl. cbn [kids_of map]. rewrite node_empty. kids. cbn [bind attrs_of]. unfold xmlns_r. ats. reflexivity.
Qed.
