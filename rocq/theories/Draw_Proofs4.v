(** The anchors of a drawing part, one after the other. *)
From Verif Require Import Base F64 Xml_Model Xml_Spec Xml_Proofs Xml_Read Xml_Read_Proofs Xml_Tree Fmt_Model Rich_Model Rich_Proofs SheetXml_Spec SheetXml_Proofs SheetXml_Proofs3 Doc_Spec Props_Doc Tag_Proofs Part_Proofs
  CF_Spec CF_Model CF_Build CF_Read Ref_Proofs Note_Spec Note_Proofs Note_Proofs2 Note_Proofs4 Note_Proofs5 Dml_Model Dml_Spec Dml_Proofs Draw_Model Draw_Spec Draw_Proofs Draw_Proofs2 Draw_Proofs3.

Lemma edit_reads m : read_edit (match m with MoveOnly => [(lit "editAs", lit "oneCell")] | DontMove => [(lit "editAs", lit "absolute")] | MoveAndSize | MoveAndSizeAfter => [] end) = Some (edit_for m) /\
  attrs_good (match m with MoveOnly => [(lit "editAs", lit "oneCell")] | DontMove => [(lit "editAs", lit "absolute")] | MoveAndSize | MoveAndSizeAfter => [] end).
Proof. split; destruct m; try reflexivity; try (apply attrs_nil); good. Qed.

(** An anchor around anything that reads. *)
Lemma two_cell_reads index d body nm c t : (forall a k, t = (a, k) -> node_of body = Elem (lit a) (fst k) (snd k)) -> String.eqb "xdr:from" (fst t) = false -> String.eqb "xdr:to" (fst t) = false ->
  wx_ok body -> read_object (node_of body :: [Elem (lit "xdr:clientData") [] []]) = Some (nm, c) ->
  In (fst t) ["xdr:pic"; "xdr:graphicFrame"; "xdr:sp"]%string ->
  wx_ok (two_cell index d body) /\ read_anchor (node_of (two_cell index d body)) = Some {| i_place := Cells (in_from d) (in_to d) (edit_for (in_move d)); i_named := nm; i_content := c |}.
Proof.
  intros Eb N1 N2 W R I. destruct (edit_reads (in_move d)) as [Re Ge]. destruct (corner_reads "xdr:from" (in_from d) []) as [_ Wf]. destruct (corner_reads "xdr:to" (in_to d) []) as [_ Wt].
  unfold two_cell. split.
  - apply ok_elem; [reflexivity|exact Ge|]. constructor; [apply Wf; reflexivity|]. constructor; [apply Wt; reflexivity|]. constructor; [exact W|]. constructor; [apply ok_leaf; reflexivity|constructor].
  - rewrite node_elem. unfold read_anchor. cbn [kids_of attrs_of]. rewrite elem_is. cbn [String.eqb Ascii.eqb Bool.eqb]. rewrite Re. cbn [bind].
    rewrite !map_cons. rewrite (proj1 (corner_reads "xdr:from" (in_from d) _)). cbn [bind]. rewrite (corner_skip "xdr:to" "xdr:from") by reflexivity.
    rewrite (proj1 (corner_reads "xdr:to" (in_to d) _)). cbn [bind].
    assert (Ro : forall r, read_object (node_of (corner_xml "xdr:from" (in_from d)) :: node_of (corner_xml "xdr:to" (in_to d)) :: r) = read_object r).
    { intros r. unfold corner_xml. rewrite !node_elem. unfold read_object. kids. reflexivity. }
    rewrite Ro. cbn [map]. rewrite node_empty. rewrite R. reflexivity.
Qed.

Section Numbers.
Variable num_text : f64 -> str.
Hypothesis Num : forall x, attr_text (num_text x).

(** What an object with the number i must read as. *)
Definition told (i : N) (o : object) (x : item) : Prop :=
  i_place x = place_for o /\ i_named x = name_for i o /\ content_for o (i_content x) /\
  match o with
  | OText p t _ => forall l, t = make_tbox l -> Forall tbox_known l -> i_content x = Text (said_box num_text l) (sp_x p) (sp_y p) (sp_cx p) (sp_cy p)
  | _ => True
  end.
Definition after (i : N) (o : object) : N := if counted o then i + 1 else i.
Fixpoint all_told (i : N) (l : list object) (x : list item) : Prop :=
  match l, x with
  | [], [] => True
  | o :: l, y :: x => told i o y /\ all_told (after i o) l x
  | _, _ => False
  end.
Lemma page_reads o n a d r portrait : o = OChartSheet n a d r portrait -> attr_text n -> attr_text a ->
  wx_ok (absolute_xml (info_of o)) /\ read_anchor (node_of (absolute_xml (info_of o))) = Some {| i_place := place_for o; i_named := name_for 0 o; i_content := Graph (rel_text r) |}.
Proof.
  intros -> An Aa. set (o := OChartSheet n a d r portrait). destruct (frame_reads 1 (info_of o) [Elem (lit "xdr:clientData") [] []] An Aa I eq_refl) as [W R].
  unfold absolute_xml. split.
  - apply ok_elem; [reflexivity|apply attrs_nil|]. constructor; [split; [reflexivity|]; destruct portrait; good|]. constructor; [split; [reflexivity|]; destruct portrait; good|]. constructor; [exact W|].
    constructor; [apply ok_leaf; reflexivity|constructor].
  - rewrite node_elem. unfold read_anchor. cbn [kids_of attrs_of]. rewrite !elem_is. cbn [String.eqb Ascii.eqb Bool.eqb]. rewrite !map_cons, !node_empty. kids. cbn [bind attrs_of].
    assert (Ro : forall a1 k1 a2 k2 r, read_object (Elem (lit "xdr:pos") a1 k1 :: Elem (lit "xdr:ext") a2 k2 :: r) = read_object r) by (intros; unfold read_object; kids; reflexivity).
    rewrite Ro. cbn [map]. rewrite R. unfold o. cbn [info_of in_portrait mk_info]. destruct portrait; reflexivity.
Qed.
Lemma anchors_read l : forall i, Forall object_known l -> exists k x, anchors num_text i (shapes_in l) (map info_of l) = Some k /\ Forall wx_ok k /\ read_all read_anchor (map node_of k) = Some x /\ all_told i l x.
Proof.
  induction l as [|o l IH]; intros i F. { exists [], []. repeat split; constructor. }
  destruct (IH (after i o) (Forall_inv_tail F)) as (k & x & E & W & R & T). pose proof (Forall_inv F) as K.
  assert (Go : exists y b, anchors num_text i (shapes_in (o :: l)) (map info_of (o :: l)) = Some (b :: k) /\ wx_ok b /\ read_anchor (node_of b) = Some y /\ told i o y).
  { destruct o as [p n a d m r u|p n a d m r|n a d r portrait|p t u]; cbn [after counted] in E.
    - destruct K as (K1 & K2 & K3). set (o := OImage p n a d m r u) in *. destruct (pic_reads i (info_of o) [Elem (lit "xdr:clientData") [] []] K1 K2 K3) as [Wp Rp].
      destruct (two_cell_reads i (info_of o) (pic_xml i (info_of o)) _ _ ("xdr:pic"%string, ([], map node_of [WElem (lit "xdr:nvPicPr") [] [c_nv_pr i (info_of o) "Picture"; WElem (lit "xdr:cNvPicPr") [] [WEmpty (lit "a:picLocks") [(lit "noChangeAspect", lit "1")]]];
         WElem (lit "xdr:blipFill") [] [WEmpty (lit "a:blip") [xmlns_r; (lit "r:embed", rid (in_rel (info_of o)))]; WElem (lit "a:stretch") [] [WEmpty (lit "a:fillRect") []]];
         WElem (lit "xdr:spPr") [] [xfrm_xml (info_of o); geom_xml]])) ltac:(intros a0 k0 [= <- <-]; reflexivity) eq_refl eq_refl Wp Rp ltac:(cbn; auto)) as [W2 R2].
      do 2 eexists. split; [|split; [exact W2|split; [exact R2|]]].
      + change (shapes_in (o :: l)) with (shapes_in l). cbn [map anchors]. change (in_type (info_of o)) with TImage. cbv iota. rewrite E. reflexivity.
      + split; [reflexivity|]. split; [|split; [reflexivity|exact I]]. unfold said_name, name_for, o. reflexivity.
    - destruct K as (K1 & K2). set (o := OChart p n a d m r) in *. destruct (frame_reads i (info_of o) [Elem (lit "xdr:clientData") [] []] K1 K2 I eq_refl) as [Wp Rp].
      destruct (two_cell_reads i (info_of o) (frame_xml i (info_of o)) _ _ ("xdr:graphicFrame"%string, ([(lit "macro", [])], match node_of (frame_xml i (info_of o)) with Elem _ _ k => k | _ => [] end))
         ltac:(intros a0 k0 [= <- <-]; reflexivity) eq_refl eq_refl Wp Rp ltac:(cbn; auto)) as [W2 R2].
      do 2 eexists. split; [|split; [exact W2|split; [exact R2|]]].
      + change (shapes_in (o :: l)) with (shapes_in l). cbn [map anchors]. change (in_type (info_of o)) with TChart. cbv iota. rewrite E. reflexivity.
      + split; [reflexivity|]. split; [|split; [reflexivity|exact I]]. reflexivity.
    - destruct K as (K1 & K2). set (o := OChartSheet n a d r portrait) in *. destruct (page_reads o n a d r portrait eq_refl K1 K2) as [W2 R2].
      do 2 eexists. split; [|split; [exact W2|split; [exact R2|]]].
      + change (shapes_in (o :: l)) with (shapes_in l). cbn [map anchors]. change (in_type (info_of o)) with TChartSheet. cbv iota. rewrite E. reflexivity.
      + split; [reflexivity|]. split; [|split; [reflexivity|exact I]]. reflexivity.
    - destruct K as (K1 & c & Ec & K2). set (o := OText p t u) in *.
      assert (Sp : forall l0, t = make_tbox l0 -> Forall tbox_known l0 -> wx_ok (sp_xml num_text i (info_of o) t) /\
        read_object (node_of (sp_xml num_text i (info_of o) t) :: [Elem (lit "xdr:clientData") [] []]) = Some (said_name i (info_of o) "TextBox", Text (said_box num_text l0) (sp_x p) (sp_y p) (sp_cx p) (sp_cy p))).
      { intros l0 E0 F0. destruct (known_box l0 F0) as (_ & _ & Al & _). pose proof (made_tbox l0) as M. rewrite E0 at 1 2. apply (sp_reads num_text Num i (info_of o) l0 [Elem (lit "xdr:clientData") [] []] F0).
        - unfold o. cbn [info_of mk_info in_name]. rewrite E0, M. reflexivity.
        - unfold o. cbn [info_of mk_info in_descr]. rewrite E0, M. exact Al.
        - exact K1.
        - reflexivity.
        - reflexivity. }
      destruct (Sp c Ec K2) as [Wp Rp].
      destruct (two_cell_reads i (info_of o) (sp_xml num_text i (info_of o) t) _ _ ("xdr:sp"%string, ([(lit "macro", []); (lit "textlink", match tb_link t with Some l => l | None => [] end)], match node_of (sp_xml num_text i (info_of o) t) with Elem _ _ k => k | _ => [] end))
         ltac:(intros a0 k0 [= <- <-]; reflexivity) eq_refl eq_refl Wp Rp ltac:(cbn; auto)) as [W2 R2].
      do 2 eexists. split; [|split; [exact W2|split; [exact R2|]]].
      + change (shapes_in (o :: l)) with (t :: shapes_in l). cbn [map anchors]. change (in_type (info_of o)) with TShape. cbv iota. rewrite E. reflexivity.
      + split; [reflexivity|]. split; [reflexivity|]. split; [eexists; reflexivity|]. intros l0 E0 F0. destruct (Sp l0 E0 F0) as [_ R0]. cbn [i_content]. clear - Rp R0. congruence. }
  destruct Go as (y & b & G1 & G2 & G3 & G4). exists (b :: k), (y :: x). split; [exact G1|]. split; [constructor; assumption|]. split; [|split; assumption].
  cbn [map read_all]. rewrite G3, R. reflexivity.
Qed.
Lemma told_at l : forall i x, all_told i l x -> length x = length l /\ forall k o, nth_error l k = Some o -> exists y, nth_error x k = Some y /\ told (i + N.of_nat (length (filter counted (firstn k l)))) o y.
Proof.
  induction l as [|o l IH]; intros i [|y x] T; try (exact (False_ind _ T)). { split; [reflexivity|]. intros [|k] o H; discriminate. }
  destruct T as [T1 T2]. destruct (IH _ _ T2) as [L H]. split; [cbn; congruence|]. intros [|k] o' Hk.
  - injection Hk as <-. exists y. split; [reflexivity|]. cbn [firstn filter length]. rewrite N.add_0_r. exact T1.
  - cbn [nth_error] in Hk. destruct (H _ _ Hk) as (z & E & T3). exists z. split; [exact E|]. cbn [firstn filter]. unfold after in T3. destruct (counted o); [|exact T3].
    cbn [length]. replace (i + N.of_nat (S (length (filter counted (firstn k l))))) with (i + 1 + N.of_nat (length (filter counted (firstn k l)))) by lia. exact T3.
Qed.
(** The whole part. *)
Lemma drawing_reads l : Forall object_known l -> exists part root x, drawing_file num_text l = Some part /\ read_document part = Some root /\ read_drawing root = Some x /\
  length x = length l /\ forall k o, nth_error l k = Some o -> exists y, nth_error x k = Some y /\ told (number_at l k) o y.
Proof.
  intros F. destruct (anchors_read l 1 F) as (k & x & E & W & R & T). destruct (told_at _ _ _ T) as [L H].
  unfold drawing_file, drawing_part. rewrite E. do 3 eexists. split; [reflexivity|]. split; [apply document_reads; apply ok_elem; [reflexivity|good|exact W]|].
  split; [|split; [exact L|exact H]]. unfold read_drawing. rewrite node_elem. rewrite elem_is, String.eqb_refl. exact R.
Qed.
End Numbers.
