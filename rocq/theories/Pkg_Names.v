(** Part names: injectivity, resolution of relationship targets, extensions. *)
From Verif Require Import Base Xml_Model Url_Model Book_Model Book_Proofs Pkg_Model Pkg_Spec.

Inductive pname :=
| NTypes | NRoot | NWbR | NTheme | NStyles | NWb | NWs (n : N) | NWsR (n : N) | NCs (n : N) | NCsR (n : N)
| NSst | NCore | NApp | NCustom | NDr (n : N) | NVml (n : N) | NVmlR (n : N) | NCom (n : N)
| NMedia (n : N) (e : img_ext) | NChart (n : N) | NTable (n : N) | NVba | NSig | NVbaR | NDrR (n : N)
| NMeta | NRichR | NRv | NRvT | NRvS | NRvRel | NBag.
Definition render (p : pname) : str :=
  match p with
  | NTypes => lit "[Content_Types].xml" | NRoot => lit "_rels/.rels" | NWbR => lit "xl/_rels/workbook.xml.rels"
  | NTheme => lit "xl/theme/theme1.xml" | NStyles => lit "xl/styles.xml" | NWb => lit "xl/workbook.xml"
  | NWs n => numbered "xl/worksheets/sheet" n ".xml" | NWsR n => numbered "xl/worksheets/_rels/sheet" n ".xml.rels"
  | NCs n => numbered "xl/chartsheets/sheet" n ".xml" | NCsR n => numbered "xl/chartsheets/_rels/sheet" n ".xml.rels"
  | NSst => lit "xl/sharedStrings.xml" | NCore => lit "docProps/core.xml" | NApp => lit "docProps/app.xml"
  | NCustom => lit "docProps/custom.xml" | NDr n => numbered "xl/drawings/drawing" n ".xml"
  | NVml n => numbered "xl/drawings/vmlDrawing" n ".vml" | NVmlR n => numbered "xl/drawings/_rels/vmlDrawing" n ".vml.rels"
  | NCom n => numbered "xl/comments" n ".xml" | NMedia n e => media_name "xl/media/" n e
  | NChart n => numbered "xl/charts/chart" n ".xml" | NTable n => numbered "xl/tables/table" n ".xml"
  | NVba => lit "xl/vbaProject.bin" | NSig => lit "xl/vbaProjectSignature.bin" | NVbaR => lit "xl/_rels/vbaProject.bin.rels"
  | NDrR n => numbered "xl/drawings/_rels/drawing" n ".xml.rels" | NMeta => lit "xl/metadata.xml"
  | NRichR => lit "xl/richData/_rels/richValueRel.xml.rels" | NRv => lit "xl/richData/rdrichvalue.xml"
  | NRvT => lit "xl/richData/rdRichValueTypes.xml" | NRvS => lit "xl/richData/rdrichvaluestructure.xml"
  | NRvRel => lit "xl/richData/richValueRel.xml" | NBag => lit "xl/featurePropertyBag/featurePropertyBag.xml"
  end.


Lemma dec_digits n : forallb is_ascii_digit (dec n) = true.
Proof. apply Ref_Proofs.dec_spec. Qed.

(** Two decimal numbers followed by something that does not start with a digit. *)
Lemma digits_split a b c c' r r' :
  forallb is_ascii_digit a = true -> forallb is_ascii_digit b = true ->
  is_ascii_digit c = false -> is_ascii_digit c' = false ->
  a ++ c :: r = b ++ c' :: r' -> a = b /\ c :: r = c' :: r'.
Proof.
  revert b; induction a as [|x a IH]; intros [|y b] Ha Hb Hc Hc' E; cbn [app forallb] in *.
  - auto.
  - injection E as E1 E2. apply andb_true_iff in Hb as [Hb _]. congruence.
  - injection E as E1 E2. apply andb_true_iff in Ha as [Ha _]. congruence.
  - injection E as <- E. apply andb_true_iff in Ha as [_ Ha]. apply andb_true_iff in Hb as [_ Hb].
    destruct (IH b Ha Hb Hc Hc' E) as [-> ?]. auto.
Qed.
Lemma dec_split a b c c' r r' : is_ascii_digit c = false -> is_ascii_digit c' = false ->
  dec a ++ c :: r = dec b ++ c' :: r' -> a = b /\ c :: r = c' :: r'.
Proof.
  intros Hc Hc' E. destruct (digits_split _ _ _ _ _ _ (dec_digits a) (dec_digits b) Hc Hc' E) as [E1 E2].
  split; [apply dec_inj, E1|exact E2].
Qed.

Lemma numbered_inj pre suf a b : (exists c r, lit suf = c :: r /\ is_ascii_digit c = false) ->
  numbered pre a suf = numbered pre b suf -> a = b.
Proof.
  intros (c & r & Es & Hc) E. unfold numbered in E. apply app_inv_head in E. rewrite Es in E.
  apply dec_split in E; tauto.
Qed.
Lemma media_inj d a b e e' : media_name d a e = media_name d b e' -> a = b /\ e = e'.
Proof.
  unfold media_name. intros E. do 2 apply app_inv_head in E.
  change (lit ".") with [46] in E. cbn [app] in E.
  apply dec_split in E; try reflexivity. destruct E as [-> E]. split; [reflexivity|].
  destruct e, e'; try reflexivity; discriminate E.
Qed.
Lemma rid_inj a b : rid a = rid b -> a = b.
Proof. intros E. apply app_inv_head in E. apply dec_inj, E. Qed.

Lemma render_inj p q : render p = render q -> p = q.
Proof.
  destruct p, q; intros E; try reflexivity;
  try (exfalso; discriminate E);
  cbn [render] in E;
  try (f_equal; refine (numbered_inj _ _ _ _ _ E); eexists _, _; split; reflexivity).
  apply media_inj in E as [-> ->]. reflexivity.
Qed.

(** ** Path segments *)
Lemma segs_nonnil s : segs s <> [].
Proof. destruct s as [|c s]; cbn [segs]; [discriminate|]. destruct (c =? 47); [discriminate|]. destruct (segs s); discriminate. Qed.
Lemma segs_app a b : segs (a ++ 47 :: b) = segs a ++ segs b.
Proof.
  induction a as [|c a IH]; cbn [segs app]; [reflexivity|].
  destruct (c =? 47); rewrite IH; [reflexivity|].
  destruct (segs a) eqn:E; [destruct (segs_nonnil a E)|reflexivity].
Qed.
Lemma segs_one s : existsb (N.eqb 47) s = false -> segs s = [s].
Proof.
  induction s as [|c s IH]; cbn [segs existsb]; [reflexivity|].
  intros H. apply orb_false_iff in H as [Hc Hs]. rewrite N.eqb_sym, Hc, (IH Hs). reflexivity.
Qed.
Lemma dec_noslash n : existsb (N.eqb 47) (dec n) = false.
Proof.
  assert (H := dec_digits n). induction (dec n) as [|c l IH]; [reflexivity|].
  cbn [forallb existsb] in *. apply andb_true_iff in H as [Hc Hl]. rewrite (IH Hl), orb_false_r.
  unfold is_ascii_digit in Hc. lia.
Qed.
Lemma seg_num pre n suf : existsb (N.eqb 47) (lit pre) = false -> existsb (N.eqb 47) (lit suf) = false ->
  segs (numbered pre n suf) = [numbered pre n suf].
Proof.
  intros Ha Hb. apply segs_one. unfold numbered. rewrite !existsb_app, Ha, Hb, dec_noslash. reflexivity.
Qed.
Lemma seg_media n e : segs (lit "image" ++ dec n ++ lit "." ++ ext_name e) = [lit "image" ++ dec n ++ lit "." ++ ext_name e].
Proof. apply segs_one. rewrite !existsb_app, dec_noslash. destruct e; reflexivity. Qed.

Lemma segs_ws n : segs (render (NWs n)) = [lit "xl"; lit "worksheets"; numbered "sheet" n ".xml"].
Proof.
  change (render (NWs n)) with (lit "xl" ++ 47 :: lit "worksheets" ++ 47 :: numbered "sheet" n ".xml").
  rewrite !segs_app, seg_num by reflexivity. reflexivity.
Qed.
Lemma segs_cs n : segs (render (NCs n)) = [lit "xl"; lit "chartsheets"; numbered "sheet" n ".xml"].
Proof.
  change (render (NCs n)) with (lit "xl" ++ 47 :: lit "chartsheets" ++ 47 :: numbered "sheet" n ".xml").
  rewrite !segs_app, seg_num by reflexivity. reflexivity.
Qed.
Lemma segs_dr n : segs (render (NDr n)) = [lit "xl"; lit "drawings"; numbered "drawing" n ".xml"].
Proof.
  change (render (NDr n)) with (lit "xl" ++ 47 :: lit "drawings" ++ 47 :: numbered "drawing" n ".xml").
  rewrite !segs_app, seg_num by reflexivity. reflexivity.
Qed.
Lemma segs_vml n : segs (render (NVml n)) = [lit "xl"; lit "drawings"; numbered "vmlDrawing" n ".vml"].
Proof.
  change (render (NVml n)) with (lit "xl" ++ 47 :: lit "drawings" ++ 47 :: numbered "vmlDrawing" n ".vml").
  rewrite !segs_app, seg_num by reflexivity. reflexivity.
Qed.

(** The relationship parts. *)
Lemma rels_ws n : rels_part_of (render (NWs n)) = render (NWsR n).
Proof.
  unfold rels_part_of, dir_of. rewrite segs_ws. cbn [removelast last app join render].
  unfold numbered. rewrite <- !app_assoc. reflexivity.
Qed.
Lemma rels_cs n : rels_part_of (render (NCs n)) = render (NCsR n).
Proof.
  unfold rels_part_of, dir_of. rewrite segs_cs. cbn [removelast last app join render].
  unfold numbered. rewrite <- !app_assoc. reflexivity.
Qed.
Lemma rels_dr n : rels_part_of (render (NDr n)) = render (NDrR n).
Proof.
  unfold rels_part_of, dir_of. rewrite segs_dr. cbn [removelast last app join render].
  unfold numbered. rewrite <- !app_assoc. reflexivity.
Qed.
Lemma rels_vml n : rels_part_of (render (NVml n)) = render (NVmlR n).
Proof.
  unfold rels_part_of, dir_of. rewrite segs_vml. cbn [removelast last app join render].
  unfold numbered. rewrite <- !app_assoc. reflexivity.
Qed.
Lemma rels_wb : rels_part_of (render NWb) = render NWbR. Proof. reflexivity. Qed.
Lemma rels_root : rels_part_of [] = render NRoot. Proof. reflexivity. Qed.
Lemma rels_vba : rels_part_of (render NVba) = render NVbaR. Proof. reflexivity. Qed.
Lemma rels_rich : rels_part_of (render NRvRel) = render NRichR. Proof. reflexivity. Qed.

(** Targets of worksheet, chartsheet, drawing and VML relationships: "../x/y". *)
Lemma resolve_up2 src a b rest (c d : string) :
  segs src = [lit "xl"; a; b] -> existsb (N.eqb 47) (lit c) = false -> str_eqb (lit c) (lit "..") = false ->
  segs rest = [rest] -> str_eqb rest (lit "..") = false ->
  resolve src (lit ".." ++ 47 :: lit c ++ 47 :: rest) = lit "xl" ++ 47 :: lit c ++ 47 :: rest.
Proof.
  intros Hs Hc Hc2 Hr Hr2. unfold resolve, dir_of. rewrite Hs, !segs_app, Hr, (segs_one (lit c) Hc).
  change (segs (lit "..")) with [lit ".."]. cbn [removelast rev app walk tl].
  rewrite str_eqb_refl, Hc2, Hr2. cbn [walk rev app join tl]. reflexivity.
Qed.
Lemma resolve_up1 src a b rest :
  segs src = [lit "xl"; a; b] -> segs rest = [rest] -> str_eqb rest (lit "..") = false ->
  resolve src (lit ".." ++ 47 :: rest) = lit "xl" ++ 47 :: rest.
Proof.
  intros Hs Hr Hr2. unfold resolve, dir_of. rewrite Hs, !segs_app, Hr.
  change (segs (lit "..")) with [lit ".."]. cbn [removelast rev app walk tl].
  rewrite str_eqb_refl, Hr2. reflexivity.
Qed.
Definition xl3 (src : str) : Prop := exists a b, segs src = [lit "xl"; a; b].
Lemma xl3_ws n : xl3 (render (NWs n)). Proof. eexists _, _. apply segs_ws. Qed.
Lemma xl3_cs n : xl3 (render (NCs n)). Proof. eexists _, _. apply segs_cs. Qed.
Lemma xl3_dr n : xl3 (render (NDr n)). Proof. eexists _, _. apply segs_dr. Qed.
Lemma xl3_vml n : xl3 (render (NVml n)). Proof. eexists _, _. apply segs_vml. Qed.
Lemma xl3_rich : xl3 (render NRvRel). Proof. eexists _, _. reflexivity. Qed.

Lemma res_drawing src n : xl3 src -> resolve src (numbered "../drawings/drawing" n ".xml") = render (NDr n).
Proof.
  intros (a & b & Hs).
  change (numbered "../drawings/drawing" n ".xml") with (lit ".." ++ 47 :: lit "drawings" ++ 47 :: numbered "drawing" n ".xml").
  rewrite (resolve_up2 src a b _ "drawings" "" Hs); try reflexivity. apply seg_num; reflexivity.
Qed.
Lemma res_vml src n : xl3 src -> resolve src (numbered "../drawings/vmlDrawing" n ".vml") = render (NVml n).
Proof.
  intros (a & b & Hs).
  change (numbered "../drawings/vmlDrawing" n ".vml") with (lit ".." ++ 47 :: lit "drawings" ++ 47 :: numbered "vmlDrawing" n ".vml").
  rewrite (resolve_up2 src a b _ "drawings" "" Hs); try reflexivity. apply seg_num; reflexivity.
Qed.
Lemma res_chart src n : xl3 src -> resolve src (numbered "../charts/chart" n ".xml") = render (NChart n).
Proof.
  intros (a & b & Hs).
  change (numbered "../charts/chart" n ".xml") with (lit ".." ++ 47 :: lit "charts" ++ 47 :: numbered "chart" n ".xml").
  rewrite (resolve_up2 src a b _ "charts" "" Hs); try reflexivity. apply seg_num; reflexivity.
Qed.
Lemma res_table src n : xl3 src -> resolve src (numbered "../tables/table" n ".xml") = render (NTable n).
Proof.
  intros (a & b & Hs).
  change (numbered "../tables/table" n ".xml") with (lit ".." ++ 47 :: lit "tables" ++ 47 :: numbered "table" n ".xml").
  rewrite (resolve_up2 src a b _ "tables" "" Hs); try reflexivity. apply seg_num; reflexivity.
Qed.
Lemma res_comments src n : xl3 src -> resolve src (numbered "../comments" n ".xml") = render (NCom n).
Proof.
  intros (a & b & Hs).
  change (numbered "../comments" n ".xml") with (lit ".." ++ 47 :: numbered "comments" n ".xml").
  rewrite (resolve_up1 src a b _ Hs); try reflexivity. apply seg_num; reflexivity.
Qed.
Lemma res_media src n e : xl3 src -> resolve src (media_name "../media/" n e) = render (NMedia n e).
Proof.
  intros (a & b & Hs).
  change (media_name "../media/" n e) with (lit ".." ++ 47 :: lit "media" ++ 47 :: (lit "image" ++ dec n ++ lit "." ++ ext_name e)).
  rewrite (resolve_up2 src a b _ "media" "" Hs); try reflexivity. apply seg_media.
Qed.
Lemma res_wb_ws n : resolve (render NWb) (numbered "worksheets/sheet" n ".xml") = render (NWs n).
Proof.
  change (numbered "worksheets/sheet" n ".xml") with (lit "worksheets" ++ 47 :: numbered "sheet" n ".xml").
  unfold resolve. rewrite segs_app, seg_num by reflexivity. reflexivity.
Qed.
Lemma res_wb_cs n : resolve (render NWb) (numbered "chartsheets/sheet" n ".xml") = render (NCs n).
Proof.
  change (numbered "chartsheets/sheet" n ".xml") with (lit "chartsheets" ++ 47 :: numbered "sheet" n ".xml").
  unfold resolve. rewrite segs_app, seg_num by reflexivity. reflexivity.
Qed.

(** ** Extensions *)
Definition no_dot (s : str) : bool := negb (existsb (N.eqb 46) s).
Lemma extension_app a b : no_dot b = true -> extension (a ++ 46 :: b) = b.
Proof.
  intros Hb. unfold extension. generalize (@nil N).
  induction a as [|c a IH]; intros acc; cbn [app].
  - cbn. unfold no_dot in Hb. apply negb_true_iff in Hb. revert Hb.
    assert (G : forall s acc0, existsb (N.eqb 46) s = false ->
      (fix go (s acc : str) {struct s} := match s with [] => acc | c :: s' => if c =? 46 then go s' s' else go s' acc end) s acc0 = acc0).
    { intros s. induction s as [|x s IHs]; intros acc0 Hs; [reflexivity|].
      cbn [existsb] in Hs. apply orb_false_iff in Hs as [Hx Hs]. rewrite N.eqb_sym, Hx. apply IHs, Hs. }
    intros Hb. apply G, Hb.
  - destruct (c =? 46); apply IH.
Qed.
Lemma extension_num pre n suf ext : lit suf = 46 :: lit ext -> no_dot (lit ext) = true ->
  extension (numbered pre n suf) = lit ext.
Proof. intros E H. unfold numbered. rewrite E, app_assoc. apply extension_app, H. Qed.
Lemma extension_num2 pre n suf a ext : lit suf = a ++ 46 :: lit ext -> no_dot (lit ext) = true ->
  extension (numbered pre n suf) = lit ext.
Proof. intros E H. unfold numbered. rewrite E, !app_assoc. apply extension_app, H. Qed.
Lemma extension_media d n e : extension (media_name d n e) = ext_name e.
Proof.
  unfold media_name. change (lit ".") with [46]. cbn [app].
  rewrite !app_assoc. apply extension_app. destruct e; reflexivity.
Qed.
