(** Text boxes and the whole part read back. *)
From Verif Require Import Base F64 Xml_Model Xml_Spec Xml_Proofs Xml_Read Xml_Read_Proofs Xml_Tree Fmt_Model Rich_Model Rich_Proofs SheetXml_Spec SheetXml_Proofs SheetXml_Proofs3 Doc_Spec Props_Doc Tag_Proofs Part_Proofs
  CF_Spec CF_Model CF_Build CF_Read Ref_Proofs Note_Spec Note_Proofs Note_Proofs2 Note_Proofs4 Note_Proofs5 Dml_Model Dml_Spec Dml_Proofs Draw_Model Draw_Spec Draw_Proofs Draw_Proofs2.
From Verif Require Color_Spec.

(** ** Lines *)
Definition said_line (fmt : list format_op) : line :=
  {| li_width := Some (match box_points fmt with Some w => line_emus w | None => 9525 end); li_fill := Some (fst (box_line fmt)); li_dash := snd (box_line fmt) |}.
Lemma line_fill_reads : reads_as line_fill_xml grey.
Proof. split; [|split; reflexivity]. unfold line_fill_xml, default_scheme. apply ok_elem; [reflexivity|apply attrs_nil|]. constructor; [|constructor]. apply ok_elem; [reflexivity|good|]. constructor; [split; [reflexivity|good]|constructor]. Qed.
Lemma dash_word n : n < 8 -> dash_name n = word_at dashes n /\ attr_ok (dash_name n).
Proof.
  intros H. split; [reflexivity|]. unfold dash_name. assert (F : Forall (fun s => attr_ok (lit s)) dash_names) by (repeat constructor).
  assert (I : In (nth (N.to_nat n) dash_names EmptyString) dash_names) by (apply nth_In; change (length dash_names) with (N.to_nat 8); lia). rewrite Forall_forall in F. exact (F _ I).
Qed.
Lemma ln_reads n x f d : reads_as x f -> d < 8 ->
  let k := WElem (lit "a:ln") [(lit "w", dec n); (lit "cmpd", lit "sng")] ([x] ++ dash_xml d) in
  wx_ok k /\ read_line (node_of k) = Some {| li_width := Some n; li_fill := Some f; li_dash := word_at dashes d |}.
Proof.
  intros (W & R & Fx) Hd. cbv zeta. destruct (dash_word d Hd) as [E A]. split.
  - apply ok_elem; [reflexivity|good|]. cbn [app]. constructor; [exact W|]. unfold dash_xml. apply ok_if. constructor; [split; [reflexivity|good]|constructor].
  - rewrite node_elem. unfold read_line. cbn [attrs_of kids_of]. ats. rewrite number_of_dec. cbn [bind]. rewrite map_app. cbn [map app].
    assert (Fi : fill_of (node_of x :: map node_of (dash_xml d)) = Some (Some f)).
    { unfold fill_of. cbn [filter]. rewrite Fx. unfold dash_xml. destruct (negb (d =? 0)); cbn [when map filter]; [rewrite node_empty, is_fill_named; cbn [existsb fill_names]; eqbs|]; rewrite R; reflexivity. }
    rewrite Fi. cbn [bind]. assert (Nx : is_elem "a:prstDash" (node_of x) = false).
    { unfold is_fill in Fx. destruct (is_elem "a:prstDash" (node_of x)) eqn:Q; [|reflexivity]. exfalso. destruct (node_of x) as [nm a l|]; [|discriminate Q]. cbn [is_elem] in Q. apply str_eqb_eq in Q. subst nm.
      revert Fx. fold (is_fill (Elem (lit "a:prstDash") a l)). rewrite is_fill_named. discriminate. }
    unfold kid at 1. cbn [find]. rewrite Nx. fold (kid "a:prstDash" (map node_of (dash_xml d))). unfold dash_xml. destruct (N.eqb_spec d 0) as [->|Nz]; cbn [negb when map]; [reflexivity|].
    rewrite node_empty. kids. cbn [attrs_of]. ats. cbn [bind]. rewrite E. reflexivity.
Qed.
Lemma nofill_reads : reads_as (WEmpty (lit "a:noFill") []) NoFill. Proof. split; [split; [reflexivity|apply attrs_nil]|split; reflexivity]. Qed.
Lemma line_reads l : Forall line_known l ->
  let d := make_line (Some three_quarters) l in
  wx_ok (line_xml d) /\ read_line (node_of (line_xml d)) =
    Some {| li_width := Some (match wanted_width (Some three_quarters) l with Some w => line_emus w | None => line_emus (f_of_N 0) end); li_fill := Some (fst (line_for l)); li_dash := snd (line_for l) |}.
Proof.
  intros F. cbv zeta. rewrite made_line. unfold line_xml. cbn [ln_color ln_width ln_transparency ln_dash ln_hidden].
  set (n := line_emus _).
  assert (Hn : match wanted_width (Some three_quarters) l with Some w => line_emus w | None => line_emus (f_of_N 0) end = n) by (unfold n; destruct (wanted_width _ l); reflexivity). rewrite Hn.
  assert (Hd : wanted_dash l < 8). { apply (last_all (fun n => n < 8) line_known); [|reflexivity|exact F]. intros o v H E. destruct o; try discriminate. injection E as <-. exact H. }
  assert (Hc : Color_Spec.real_color (wanted_color l) = true). { apply (last_all (fun c => Color_Spec.real_color c = true) line_known); [|reflexivity|exact F]. intros o v H E. destruct o; try discriminate. exact (real_kept _ H _ E). }
  assert (Ht : wanted_transparency l <= 100). { apply (last_all (fun n => n <= 100) (fun _ : line_op => True)); [|discriminate|apply Forall_forall; auto]. intros o v _ E. destruct o; try discriminate. destruct (N.leb_spec n0 100); [|discriminate]. injection E as <-. assumption. }
  assert (Body : (if negb (is_default (wanted_color l)) || negb (wanted_dash l =? 0) || wanted_hidden l then
       if wanted_hidden l then [WEmpty (lit "a:noFill") []]
       else (if is_default (wanted_color l) then [line_fill_xml] else [solid_xml (wanted_color l) (wanted_transparency l)]) ++ dash_xml (wanted_dash l)
     else [line_fill_xml]) =
     [if wanted_hidden l then WEmpty (lit "a:noFill") [] else if is_default (wanted_color l) then line_fill_xml else solid_xml (wanted_color l) (wanted_transparency l)] ++ dash_xml (if wanted_hidden l then 0 else wanted_dash l)).
  { destruct (wanted_hidden l); rewrite ?orb_true_r, ?orb_false_r; [reflexivity|]. destruct (wanted_color l); cbn [is_default negb orb]; try reflexivity. destruct (N.eqb_spec (wanted_dash l) 0) as [->|]; reflexivity. }
  rewrite Body. unfold line_for. destruct (wanted_hidden l); cbn [fst snd].
  - exact (ln_reads n _ _ 0 nofill_reads eq_refl).
  - apply ln_reads; [|exact Hd]. destruct (wanted_color l) eqn:Ec; cbn [is_default]; try (apply solid_reads; assumption). exact line_fill_reads.
Qed.
Lemma box_line_reads fmt : Forall format_known fmt ->
  let f := make_format (Some three_quarters) fmt in wx_ok (tbox_line f) /\ read_line (node_of (tbox_line f)) = Some (said_line fmt) /\ exists a k, node_of (tbox_line f) = Elem (lit "a:ln") a k.
Proof.
  intros F. cbv zeta. destruct (made_format (Some three_quarters) fmt) as (_ & E1 & E2 & _). unfold tbox_line, said_line, box_line, box_points. rewrite E1, E2. destruct (no_line fmt).
  - split; [|split; [|do 2 eexists; reflexivity]]; apply (ln_reads 9525 _ _ 0 nofill_reads eq_refl).
  - destruct (the_line fmt) as [l|] eqn:El; cbn [option_map].
    + assert (Fl : Forall line_known l).
      { assert (G : match the_line fmt with Some s => Forall line_known s | None => True end).
        { apply (last_all (fun x => match x with Some s => Forall line_known s | None => True end) format_known); [|exact I|exact F]. intros o v H Ev. destruct o; try discriminate. injection Ev as <-. exact H. }
        rewrite El in G. exact G. }
      destruct (line_reads l Fl) as [W R]. split; [exact W|]. split; [|do 2 eexists; reflexivity]. rewrite R.
      destruct (wanted_width (Some three_quarters) l) eqn:Ew; [reflexivity|]. exfalso. revert Ew.
      apply (last_all (fun w : option f64 => w <> None) (fun _ : line_op => True)); [|discriminate|apply Forall_forall; auto]. intros o v _ Ev. destruct o; try discriminate. destruct (fle w _); [injection Ev as <-; discriminate|discriminate].
    + destruct (line_reads [] ltac:(constructor)) as [W R]. split; [exact W|]. split; [exact R|do 2 eexists; reflexivity].
Qed.

(** ** Boxes *)
Section Numbers.
Variable num_text : f64 -> str.
Hypothesis Num : forall x, attr_text (num_text x).
Definition said_box (l : list tbox_op) : box :=
  let t := make_tbox l in
  {| b_source := match box_link l with Some s => s | None => [] end; b_fill := Some (box_fill (box_format l)); b_line := Some (said_line (box_format l)); b_vert := lit (vert_for (text_direction (box_options l)));
     b_anchor := lit (fst (anchor_for (text_valign (box_options l)))); b_centered := snd (anchor_for (text_valign (box_options l))); b_paras := map (said_para num_text t) (paras_of (box_text l)) |}.
Lemma style_ok : wx_ok style_xml.
Proof.
  unfold style_xml, scrgb, default_scheme. apply ok_elem; [reflexivity|apply attrs_nil|]. repeat (constructor; [apply ok_elem; [reflexivity|good|constructor; [split; [reflexivity|good]|constructor]]|]). constructor.
Qed.
Lemma body_ok t : wx_ok (body_pr t).
Proof. split; [reflexivity|]. destruct (st_dir t), (st_v t); cbn [app]; good. Qed.
Lemma known_box l : Forall tbox_known l -> doc_text (box_text l) /\ (match box_link l with Some s => attr_ok s | None => True end) /\ attr_ok (box_alt l) /\ Forall format_known (box_format l) /\ font_fits (make_sfont (box_font l)).
Proof.
  intros F. split; [|split; [|split; [|split]]].
  - apply (last_all doc_text tbox_known); [|reflexivity|exact F]. intros o v H E. destruct o; try discriminate. injection E as <-. exact H.
  - apply (last_all (fun x => match x with Some s => attr_ok s | None => True end) tbox_known); [|exact I|exact F]. intros o v H E. destruct o; try discriminate. injection E as <-. exact H.
  - apply (last_all attr_ok tbox_known); [|reflexivity|exact F]. intros o v H E. destruct o; try discriminate. destruct (short 255 s); [|discriminate]. injection E as <-. exact H.
  - apply (last_all (Forall format_known) tbox_known); [|constructor|exact F]. intros o v H E. destruct o; try discriminate. injection E as <-. exact H.
  - assert (K : Forall sfont_known (box_font l)). { apply (last_all (Forall sfont_known) tbox_known); [|constructor|exact F]. intros o v H E. destruct o; try discriminate. injection E as <-. exact H. }
    rewrite made_sfont. split; cbn [sf_name sf_color].
    + apply (last_all attr_ok sfont_known); [|reflexivity|exact K]. intros o v H E. destruct o; try discriminate. injection E as <-. exact H.
    + apply (last_all (fun c => Color_Spec.real_color c = true) sfont_known); [|reflexivity|exact K]. intros o v H E. destruct o; try discriminate. exact (real_kept _ H _ E).
Qed.
Lemma box_fill_reads fmt : Forall format_known fmt -> reads_as (tbox_fill (make_format (Some three_quarters) fmt)) (box_fill fmt).
Proof.
  intros F. pose proof (fill_reads (Some three_quarters) fmt F) as R. unfold tbox_fill, box_fill. destruct (fill_xml _), (wanted_fill fmt); try (exact (False_ind _ R)); [exact R|].
  split; [|split; reflexivity]. unfold default_scheme. apply ok_elem; [reflexivity|apply attrs_nil|]. constructor; [split; [reflexivity|good]|constructor].
Qed.
Lemma sp_reads index d l r : Forall tbox_known l -> in_name d = box_text l -> attr_ok (in_descr d) -> url_text (in_url d) -> kid "xdr:pic" r = None -> kid "xdr:graphicFrame" r = None ->
  wx_ok (sp_xml num_text index d (make_tbox l)) /\
  read_object (node_of (sp_xml num_text index d (make_tbox l)) :: r) = Some (said_name index d "TextBox", Text (said_box l) (in_x d) (in_y d) (in_cx d) (in_cy d)).
Proof.
  intros F En Ad Au N1 N2. destruct (known_box l F) as (K1 & K2 & K3 & K4 & K5). destruct (box_line_reads (box_format l) K4) as (Wl & Rl & al & kl & Sl). destruct (box_fill_reads (box_format l) K4) as (Wf & Rf & If).
  pose proof (made_tbox l) as M. set (t := make_tbox l) in *.
  assert (Ef : tb_format t = make_format (Some three_quarters) (box_format l)) by (rewrite M; reflexivity). assert (Eo : tb_options t = make_stext (box_options l)) by (rewrite M; reflexivity).
  assert (Ek : tb_link t = box_link l) by (rewrite M; reflexivity). assert (Ft : font_fits (tb_font t)) by (rewrite M; exact K5).
  destruct (paras_join _ K1) as (_ & Pd & _). assert (Pd' : Forall doc_text (paras_of (box_text l))) by (eapply Forall_impl; [|exact Pd]; intros a [H _]; exact H).
  destruct (paras_read num_text Num t _ Ft Pd') as [Wp Rp].
  assert (As : attr_ok (match tb_link t with Some s => s | None => [] end)) by (rewrite Ek; destruct (box_link l); [exact K2|reflexivity]).
  unfold sp_xml, tx_body. rewrite En. fold (paras_of (box_text l)). rewrite Ef. split.
  - apply ok_elem; [reflexivity|good|]. constructor.
    { apply ok_elem; [reflexivity|apply attrs_nil|]. constructor; [eapply (named_reads index d "TextBox" []); auto; reflexivity|]. constructor; [split; [reflexivity|good]|constructor]. }
    constructor. { apply ok_elem; [reflexivity|apply attrs_nil|]. constructor; [apply xfrm_ok|]. constructor; [apply geom_ok|]. constructor; [exact Wf|]. constructor; [exact Wl|constructor]. }
    constructor; [apply style_ok|]. constructor; [|constructor]. apply ok_elem; [reflexivity|apply attrs_nil|]. constructor; [apply body_ok|]. constructor; [apply ok_leaf; reflexivity|exact Wp].
  - unfold read_object. rewrite node_elem. kids. rewrite N1, N2. cbn [kids_of bind]. rewrite !map_cons. rewrite (node_elem (lit "xdr:nvSpPr")). kids. cbn [bind kids_of]. rewrite map_cons.
    rewrite (proj2 (named_reads index d "TextBox" _ eq_refl (or_intror eq_refl) Ad Au)). cbn [bind]. rewrite (node_elem (lit "xdr:spPr")). rewrite !map_cons.
    assert (Bx : forall a, a = [(lit "macro", []); (lit "textlink", match tb_link t with Some s => s | None => [] end)] -> forall k0 k2 k3, kid "xdr:spPr" [k0] = None ->
        kid "xdr:txBody" [k0] = None -> kid "xdr:txBody" [k2] = None ->
        k3 = Elem (lit "xdr:txBody") [] (node_of (body_pr (tb_options t)) :: Elem (lit "a:lstStyle") [] [] :: map node_of (map (para_xml num_text t) (paras_of (box_text l)))) ->
        read_box (Elem (lit "xdr:sp") a [k0; Elem (lit "xdr:spPr") [] [node_of (xfrm_xml d); node_of geom_xml; node_of (tbox_fill (make_format (Some three_quarters) (box_format l))); node_of (tbox_line (make_format (Some three_quarters) (box_format l)))]; k2; k3]) = Some (said_box l)).
    { intros a -> k0 k2 k3 Z1 Z2 Z3 ->. unfold read_box. cbn [attrs_of kids_of]. ats. cbn [bind]. change [k0; ?x; k2; ?y] with ([k0] ++ [x] ++ [k2] ++ [y]).
      rewrite (kid_app "xdr:spPr"), Z1. cbn [app]. kids. cbn [bind kids_of].
      assert (Fi : fill_of [node_of (xfrm_xml d); node_of geom_xml; node_of (tbox_fill (make_format (Some three_quarters) (box_format l))); node_of (tbox_line (make_format (Some three_quarters) (box_format l)))] = Some (Some (box_fill (box_format l)))).
      { unfold fill_of. cbn [filter]. rewrite If, Sl, is_fill_named. change (is_fill (node_of (xfrm_xml d))) with false. change (is_fill (node_of geom_xml)) with false. cbn [existsb fill_names]. eqbs. cbn [orb]. rewrite Rf. reflexivity. }
      rewrite Fi. cbn [bind].
      assert (Kl : kid "a:ln" [node_of (xfrm_xml d); node_of geom_xml; node_of (tbox_fill (make_format (Some three_quarters) (box_format l))); node_of (tbox_line (make_format (Some three_quarters) (box_format l)))] =
        Some (node_of (tbox_line (make_format (Some three_quarters) (box_format l))))).
      { unfold kid. cbn [find]. change (is_elem "a:ln" (node_of (xfrm_xml d))) with false. change (is_elem "a:ln" (node_of geom_xml)) with false. cbv iota.
        assert (Nl : is_elem "a:ln" (node_of (tbox_fill (make_format (Some three_quarters) (box_format l)))) = false).
        { destruct (is_elem "a:ln" (node_of (tbox_fill (make_format (Some three_quarters) (box_format l))))) eqn:Q; [|reflexivity]. exfalso. destruct (node_of (tbox_fill _)) as [nm a0 l0|]; [|discriminate Q]. cbn [is_elem] in Q.
          apply str_eqb_eq in Q. subst nm. rewrite is_fill_named in If. discriminate If. }
        rewrite Nl. rewrite Sl. rewrite elem_is. eqbs. reflexivity. }
      rewrite Kl, Rl. cbn [bind]. change [k0; ?x; k2; ?y] with ([k0] ++ [x] ++ [k2] ++ [y]).
      match goal with |- context [kid "xdr:txBody" ?q] => change q with ([k0] ++ (firstn 1 (tl q)) ++ [k2] ++ (tl (tl (tl q)))) end.
      rewrite !(kid_app "xdr:txBody"), Z2, Z3. cbn [app firstn tl]. kids. try change (kid "xdr:txBody" []) with (@None node). cbv iota. cbn [bind kids_of].
      assert (Fp : filter (is_elem "a:p") (node_of (body_pr (tb_options t)) :: Elem (lit "a:lstStyle") [] [] :: map node_of (map (para_xml num_text t) (paras_of (box_text l)))) =
        filter (is_elem "a:p") (map node_of (map (para_xml num_text t) (paras_of (box_text l))))) by reflexivity.
      rewrite Fp, Rp. unfold body_pr at 1. rewrite node_empty. kids. cbn [bind attrs_of].
      rewrite made_stext in Eo. unfold said_box. cbv zeta. fold t. rewrite <- Ek. rewrite Eo. cbn [st_h st_v st_dir].
      destruct (text_direction (box_options l)), (text_valign (box_options l)); cbn [app]; ats; cbn [bind]; unfold flag_of; ats; reflexivity. }
    rewrite (Bx _ eq_refl); [|reflexivity|reflexivity|reflexivity|reflexivity]. cbn [bind].
    erewrite (xfrm_reads d); [reflexivity|]. kids. reflexivity.
Qed.
End Numbers.
