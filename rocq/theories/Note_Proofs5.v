(** Notes and buttons: shapes. *)
From Verif Require Import Base Xml_Model Xml_Spec Xml_Proofs Xml_Read Xml_Read_Proofs Xml_Tree SMap Fmt_Model Rich_Model Rich_Proofs SheetXml_Spec SheetXml_Proofs SheetXml_Proofs3 Doc_Spec View_Spec Props_Doc Tag_Proofs Part_Proofs
  CF_Spec Ref_Proofs Setup_Spec Note_Model Note_Spec Note_Proofs Note_Proofs2 Note_Proofs4.
From Verif Require Date_Parse Color_Spec Pkg_Model.

Ltac eqbs := repeat match goal with |- context [String.eqb ?a ?b] => first [change (String.eqb a b) with true | change (String.eqb a b) with false]; cbv iota end.
Lemma alt_get k s : String.eqb "alt" k = false -> attr k (alt_attr s) = None.
Proof. intros H. unfold alt_attr. destruct (Pkg_Model.is_nil s); [reflexivity|]. rewrite attr_cons, H. reflexivity. Qed.
Lemma alt_text s : match attr "alt" (alt_attr s) with Some t => t | None => [] end = s.
Proof. unfold alt_attr. destruct s; reflexivity. Qed.
Lemma name_attr id : attr_ok (shape_name id).
Proof. unfold shape_name, attr_ok. rewrite forallb_app, (attr_dec id). reflexivity. Qed.
Lemma pairs_get p w h z k v : String.eqb k "margin-left" = false -> String.eqb k "margin-top" = false -> String.eqb k "width" = false -> String.eqb k "height" = false ->
  String.eqb k "z-index" = false -> String.eqb k "position" = false ->
  let st := style_pairs p w h z ++ [(lit k, v)] in
  length_of "margin-left" st = Some (pl_left p * 75) /\ length_of "margin-top" st = Some (pl_top p * 75) /\ length_of "width" st = Some (w * 75) /\
  length_of "height" st = Some (h * 75) /\ bind (attr "z-index" st) number_of = Some z /\ attr k st = Some v.
Proof.
  intros A1 A2 A3 A4 A5 A6 st. unfold st, style_pairs, length_of. cbn [app]. rewrite !attr_cons. eqbs. cbn [bind].
  rewrite !hundredths_dpi, number_of_dec. rewrite (String.eqb_sym "position"), (String.eqb_sym "margin-left"), (String.eqb_sym "margin-top"), (String.eqb_sym "width"), (String.eqb_sym "height"), (String.eqb_sym "z-index").
  rewrite A1, A2, A3, A4, A5, A6, String.eqb_refl. repeat split.
Qed.
Lemma frame_reads l data p w h z k v alt : String.eqb k "margin-left" = false -> String.eqb k "margin-top" = false -> String.eqb k "width" = false -> String.eqb k "height" = false ->
  String.eqb k "z-index" = false -> String.eqb k "position" = false -> word (lit k) -> word v -> pl_anchor p <> [] ->
  attr "style" l = Some (frame_style p w h z ++ piece (lit k, v)) -> kid_text "x:Anchor" (kids_of data) = Some (join_comma (pl_anchor p)) ->
  match attr "alt" l with Some s => s | None => [] end = alt ->
  read_frame l data = Some (frame_for p w h z alt) /\ bind (attr "style" l) (fun st => attr k (read_style st)) = Some v.
Proof.
  intros A1 A2 A3 A4 A5 A6 W1 W2 Ne S T Al. destruct (pairs_get p w h z k v A1 A2 A3 A4 A5 A6) as (E1 & E2 & E3 & E4 & E5 & E6).
  unfold read_frame. rewrite S. cbn [bind]. rewrite (style_reads p w h z (lit k) v W1 W2). cbv zeta. rewrite E1. cbn [bind]. rewrite E2. cbn [bind]. rewrite E3. cbn [bind]. rewrite E4. cbn [bind].
  rewrite E5. cbn [bind]. rewrite T. cbn [bind]. rewrite (numbers_read _ Ne). cbn [bind]. split; [unfold frame_for; rewrite Al; reflexivity|exact E6].
Qed.
Lemma alt_good (a b : list (str * str)) s : attr_ok s -> attrs_good (a ++ (lit "alt", s) :: b) -> attrs_good (a ++ alt_attr s ++ b).
Proof.
  intros _ H. apply (sub_attrs _ _) with (2 := H). apply sub_app; [apply sub_refl|]. unfold alt_attr. destruct (Pkg_Model.is_nil s); [apply sub_drop, sub_refl|apply sub_refl].
Qed.
Lemma ok_elem tag attrs kids : good_name (lit tag) = true -> attrs_good attrs -> Forall wx_ok kids -> wx_ok (WElem (lit tag) attrs kids).
Proof. intros A B C. apply wx_ok_elem. auto. Qed.
Lemma ok_leaf tag : good_name (lit tag) = true -> wx_ok (WEmpty (lit tag) []).
Proof. intros A. split; [exact A|apply attrs_nil]. Qed.
Lemma ok_word tag s : good_name (lit tag) = true -> doc_text s -> wx_ok (WData (lit tag) s []).
Proof. intros A D. apply ok_data; [exact A|apply attrs_nil|exact D]. Qed.

Lemma note_reads id z k p n : fits n -> Color_Spec.real_color (xn_fill n) = true -> pl_anchor p <> [] ->
  wx_ok (note_shape id z k p n) /\
  read_shape (node_of (note_shape id z k p n)) =
    Some (ShNote (shape_name id) (k / 16384) (k mod 16384) (note_visible n) (fill_seen (xn_fill n)) (frame_for p (xn_width n) (xn_height n) z (xn_alt n))).
Proof.
  intros F R Ne. destruct (fill_color_reads _ R) as [C Ca]. pose proof (ft_alt _ F) as Aa.
  set (v := if note_visible n then lit "visible" else lit "hidden"). assert (Wv : word v) by (unfold v; destruct (note_visible n); reflexivity).
  assert (S : frame_style p (xn_width n) (xn_height n) z ++ (if note_visible n then lit "visibility:visible" else lit "visibility:hidden") =
              frame_style p (xn_width n) (xn_height n) z ++ piece (lit "visibility", v)) by (unfold v; destruct (note_visible n); reflexivity).
  pose proof (style_attr p (xn_width n) (xn_height n) z (lit "visibility") v eq_refl Wv) as Sa. pose proof (name_attr id) as Na.
  unfold note_shape. rewrite S. split.
  - apply ok_elem; [reflexivity| |].
    + apply alt_good; [exact Aa|]. cbn [app]. good.
    + constructor; [split; [reflexivity|good]|]. constructor; [split; [reflexivity|good]|]. constructor; [split; [reflexivity|good]|].
      constructor; [apply ok_elem; [reflexivity|good|constructor; [apply ok_elem; [reflexivity|good|constructor]|constructor]]|].
      constructor; [|constructor]. unfold note_data, anchor_xml. apply ok_elem; [reflexivity|good|]. apply Forall_app. split; [|destruct (note_visible n); [constructor; [apply ok_leaf; reflexivity|constructor]|constructor]].
      constructor; [apply ok_leaf; reflexivity|]. constructor; [apply ok_leaf; reflexivity|]. constructor; [apply ok_word; [reflexivity|apply join_doc]|].
      constructor; [apply ok_word; reflexivity|]. constructor; [apply ok_word; [reflexivity|apply dec_doc]|]. constructor; [apply ok_word; [reflexivity|apply dec_doc]|constructor].
  - set (l := [(lit "id", shape_name id); (lit "type", lit "#_x0000_t202")] ++ alt_attr (xn_alt n) ++
      [(lit "style", frame_style p (xn_width n) (xn_height n) z ++ piece (lit "visibility", v)); (lit "fillcolor", vml_color (xn_fill n)); (lit "o:insetmode", lit "auto")]).
    set (d := node_of (note_data p (k / 16384) (k mod 16384) (note_visible n))).
    cbn [node_of]. match goal with |- read_shape (Elem _ _ ?kk) = _ => set (kids := kk) end.
    assert (Kd : kid "x:ClientData" kids = Some d) by reflexivity.
    assert (L1 : attr "id" l = Some (shape_name id)) by reflexivity.
    assert (L2 : attr "style" l = Some (frame_style p (xn_width n) (xn_height n) z ++ piece (lit "visibility", v))).
    { unfold l. cbn [app]. rewrite !attr_cons, attr_app, (alt_get "style") by reflexivity. rewrite !attr_cons. eqbs. reflexivity. }
    assert (L3 : attr "fillcolor" l = Some (vml_color (xn_fill n))).
    { unfold l. cbn [app]. rewrite !attr_cons, attr_app, (alt_get "fillcolor") by reflexivity. rewrite !attr_cons. eqbs. reflexivity. }
    assert (L4 : match attr "alt" l with Some s => s | None => [] end = xn_alt n).
    { unfold l. cbn [app]. rewrite !attr_cons, attr_app. eqbs. rewrite !attr_cons. eqbs. rewrite attr_nil. rewrite <- (alt_text (xn_alt n)) at 2. destruct (attr "alt" (alt_attr (xn_alt n))); reflexivity. }
    assert (D1 : attr "ObjectType" (attrs_of d) = Some (lit "Note")) by reflexivity.
    assert (D2 : kid_text "x:Anchor" (kids_of d) = Some (join_comma (pl_anchor p))).
    { unfold kid_text. assert (E : kid "x:Anchor" (kids_of d) = Some (node_of (anchor_xml p))) by reflexivity. rewrite E. unfold anchor_xml. rewrite node_data by apply join_doc. apply text_leaf. }
    assert (D3 : kid_text "x:Row" (kids_of d) = Some (dec (k / 16384))).
    { unfold kid_text. assert (E : kid "x:Row" (kids_of d) = Some (node_of (WData (lit "x:Row") (dec (k / 16384)) []))) by reflexivity. rewrite E. rewrite node_data by apply dec_doc. apply text_leaf. }
    assert (D4 : kid_text "x:Column" (kids_of d) = Some (dec (k mod 16384))).
    { unfold kid_text. assert (E : kid "x:Column" (kids_of d) = Some (node_of (WData (lit "x:Column") (dec (k mod 16384)) []))) by reflexivity. rewrite E. rewrite node_data by apply dec_doc. apply text_leaf. }
    assert (D5 : match kid "x:Visible" (kids_of d) with Some _ => true | None => false end = note_visible n) by (unfold d, note_data; destruct (note_visible n); reflexivity).
    assert (Fr : read_frame l d = Some (frame_for p (xn_width n) (xn_height n) z (xn_alt n)) /\ bind (attr "style" l) (fun st => attr "visibility" (read_style st)) = Some v)
      by (apply frame_reads; [reflexivity..|exact Wv|exact Ne|exact L2|exact D2|exact L4]).
    destruct Fr as [Fr Fv]. unfold read_shape. cbn [attrs_of kids_of]. rewrite L1. cbn [bind]. rewrite Kd. cbn [bind]. rewrite D1. cbn [bind]. rewrite Fr. cbn [bind].
    change (str_eqb (lit "Note") (lit "Note")) with true. cbv iota. rewrite D3. cbn [bind]. rewrite number_of_dec. cbn [bind]. rewrite D4. cbn [bind]. rewrite number_of_dec. cbn [bind].
    rewrite L3. cbn [bind]. rewrite C. cbn [bind]. rewrite Fv. cbn [bind]. cbv zeta. rewrite D5. unfold v. rewrite str_eqb_refl. reflexivity.
Qed.

(** ** Buttons *)
Record bfits (b : button) : Prop := { bf_name : doc_text (bt_name b); bf_macro : doc_text (bt_macro b); bf_alt : attr_ok (bt_alt b) }.
Lemma doc_app a b : doc_text a -> doc_text b -> doc_text (a ++ b).
Proof. unfold doc_text. intros A B. rewrite forallb_app, A, B. reflexivity. Qed.
Lemma button_reads id z k p b : bfits b -> pl_anchor p <> [] ->
  wx_ok (button_shape id z k p b) /\
  read_shape (node_of (button_shape id z k p b)) = Some (ShButton (shape_name id) (button_caption k b) (button_macro k b) (frame_for p (bt_width b) (bt_height b) z (bt_alt b))).
Proof.
  intros F Ne. pose proof (bf_alt _ F) as Aa.
  assert (Dc : doc_text (button_caption k b)).
  { unfold button_caption. destruct (Pkg_Model.is_nil (bt_name b)); [apply (doc_app (lit "Button ")); [reflexivity|apply dec_doc]|apply F]. }
  assert (Dm : doc_text (button_macro k b)).
  { unfold button_macro. destruct (Pkg_Model.is_nil (bt_macro b)); [apply (doc_app (lit "[0]!Button")); [reflexivity|apply doc_app; [apply dec_doc|reflexivity]]|apply (doc_app (lit "[0]!")); [reflexivity|apply F]]. }
  assert (S : frame_style p (bt_width b) (bt_height b) z ++ lit "mso-wrap-style:tight" = frame_style p (bt_width b) (bt_height b) z ++ piece (lit "mso-wrap-style", lit "tight")) by reflexivity.
  pose proof (style_attr p (bt_width b) (bt_height b) z (lit "mso-wrap-style") (lit "tight") eq_refl eq_refl) as Sa. pose proof (name_attr id) as Na.
  unfold button_shape. rewrite S. split.
  - apply ok_elem; [reflexivity| |].
    + apply alt_good; [exact Aa|]. cbn [app]. good.
    + constructor; [split; [reflexivity|good]|]. constructor; [split; [reflexivity|good]|].
      constructor; [apply ok_elem; [reflexivity|good|constructor; [apply ok_elem; [reflexivity|good|constructor; [apply ok_data; [reflexivity|good|exact Dc]|constructor]]|constructor]]|].
      constructor; [|constructor]. unfold anchor_xml. apply ok_elem; [reflexivity|good|].
      constructor; [apply ok_word; [reflexivity|apply join_doc]|]. constructor; [apply ok_word; reflexivity|]. constructor; [apply ok_word; reflexivity|].
      constructor; [apply ok_word; [reflexivity|exact Dm]|]. constructor; [apply ok_word; reflexivity|]. constructor; [apply ok_word; reflexivity|constructor].
  - set (l := [(lit "id", shape_name id); (lit "type", lit "#_x0000_t201")] ++ alt_attr (bt_alt b) ++
      [(lit "style", frame_style p (bt_width b) (bt_height b) z ++ piece (lit "mso-wrap-style", lit "tight")); (lit "o:button", lit "t");
       (lit "fillcolor", lit "buttonFace [67]"); (lit "strokecolor", lit "windowText [64]"); (lit "o:insetmode", lit "auto")]).
    set (dw := WElem (lit "x:ClientData") [(lit "ObjectType", lit "Button")]
       [anchor_xml p; WData (lit "x:PrintObject") (lit "False") []; WData (lit "x:AutoFill") (lit "False") [];
        WData (lit "x:FmlaMacro") (button_macro k b) []; WData (lit "x:TextHAlign") (lit "Center") []; WData (lit "x:TextVAlign") (lit "Center") []]).
    set (cw := WData (lit "font") (button_caption k b) [(lit "face", lit "Calibri"); (lit "size", lit "220"); (lit "color", lit "#000000")]).
    cbn [node_of]. match goal with |- read_shape (Elem _ _ ?kk) = _ => set (kids := kk) end.
    assert (Kd : kid "x:ClientData" kids = Some (node_of dw)) by reflexivity.
    assert (L1 : attr "id" l = Some (shape_name id)) by reflexivity.
    assert (L2 : attr "style" l = Some (frame_style p (bt_width b) (bt_height b) z ++ piece (lit "mso-wrap-style", lit "tight"))).
    { unfold l. cbn [app]. rewrite !attr_cons, attr_app, (alt_get "style") by reflexivity. rewrite !attr_cons. eqbs. reflexivity. }
    assert (L4 : match attr "alt" l with Some s => s | None => [] end = bt_alt b).
    { unfold l. cbn [app]. rewrite !attr_cons, attr_app. eqbs. rewrite !attr_cons. eqbs. rewrite attr_nil. rewrite <- (alt_text (bt_alt b)) at 2. destruct (attr "alt" (alt_attr (bt_alt b))); reflexivity. }
    assert (D1 : attr "ObjectType" (attrs_of (node_of dw)) = Some (lit "Button")) by reflexivity.
    assert (D2 : kid_text "x:Anchor" (kids_of (node_of dw)) = Some (join_comma (pl_anchor p))).
    { unfold kid_text. assert (E : kid "x:Anchor" (kids_of (node_of dw)) = Some (node_of (anchor_xml p))) by reflexivity. rewrite E. unfold anchor_xml. rewrite node_data by apply join_doc. apply text_leaf. }
    assert (D3 : kid_text "x:FmlaMacro" (kids_of (node_of dw)) = Some (button_macro k b)).
    { unfold kid_text. assert (E : kid "x:FmlaMacro" (kids_of (node_of dw)) = Some (node_of (WData (lit "x:FmlaMacro") (button_macro k b) []))) by reflexivity. rewrite E. rewrite node_data by exact Dm. apply text_leaf. }
    assert (D4 : exists x v, kid "v:textbox" kids = Some x /\ kid "div" (kids_of x) = Some v /\ kid "font" (kids_of v) = Some (node_of cw)) by (do 2 eexists; repeat split).
    destruct D4 as (x & v & D4 & D5 & D6).
    assert (D7 : kid_text "font" (kids_of v) = Some (button_caption k b)) by (unfold kid_text; rewrite D6; unfold cw; rewrite node_data by exact Dc; apply text_leaf).
    assert (Fr : read_frame l (node_of dw) = Some (frame_for p (bt_width b) (bt_height b) z (bt_alt b)) /\ bind (attr "style" l) (fun st => attr "mso-wrap-style" (read_style st)) = Some (lit "tight"))
      by (apply frame_reads; [reflexivity..|exact Ne|exact L2|exact D2|exact L4]).
    destruct Fr as [Fr _]. unfold read_shape. cbn [attrs_of kids_of]. rewrite L1. cbn [bind]. rewrite Kd. cbn [bind]. rewrite D1. cbn [bind]. rewrite Fr. cbn [bind].
    change (str_eqb (lit "Button") (lit "Note")) with false. change (str_eqb (lit "Button") (lit "Button")) with true. cbv iota. rewrite D4. cbn [bind]. rewrite D5. cbn [bind]. rewrite D7. cbn [bind].
    rewrite D3. reflexivity.
Qed.
Lemma button_fits l : Forall button_texts l -> bfits (make_button l).
Proof.
  intros F. unfold make_button. assert (G : forall l b, Forall button_texts l -> bfits b -> bfits (fold_left button_step l b)).
  { clear. induction l as [|o l IH]; intros b F B; [exact B|]. cbn [fold_left]. apply IH; [exact (Forall_inv_tail F)|]. apply Forall_inv in F. destruct B as [B1 B2 B3].
    destruct o; cbn [button_step button_texts] in *; try (destruct (over 255 s)); try (destruct (n =? 0)); split; assumption. }
  apply G; [exact F|split; reflexivity].
Qed.
