(** Relationships: their types, and the content types of the parts they lead to (C91). *)
From Verif Require Import Base Xml_Model Xml_Spec Xml_Proofs Xml_Read Xml_Read_Proofs Xml_Tree Tag_Proofs Rich_Model Rich_Proofs SheetXml_Spec Doc_Spec Part_Proofs
  Book_Model Book_Proofs Book_Proofs2 Pkg_Model Pkg_Spec Url_Model Pkg_Names Pkg_Proofs Pkg_Proofs2 Pkg_Proofs3 Pkg_Proofs4 Pkg_Proofs5 Pkg_Proofs6 Pkg_Proofs7
  Pkg_Proofs8 Pkg_Proofs9 Pkg_Proofs10 Pkg_Proofs11 Embed_Model Embed_Proofs Embed_Proofs2 Types_Model Types_Spec Types_Proofs.

(** ** A relationships part belongs to one source *)
Lemma join_segs s : join (segs s) = s.
Proof.
  induction s as [|c s IH]; [reflexivity|]. cbn [segs]. destruct (N.eqb_spec c 47) as [->|Hc].
  - pose proof (segs_nonnil s). cbn [join]. destruct (segs s) eqn:E; [contradiction|]. rewrite IH. reflexivity.
  - pose proof (segs_nonnil s). destruct (segs s) as [|h t] eqn:E; [contradiction|]. cbn [join] in *. destruct t; rewrite <- IH; reflexivity.
Qed.
Lemma segs_noslash s : Forall (fun x => existsb (N.eqb 47) x = false) (segs s).
Proof.
  induction s as [|c s IH]; [repeat constructor|]. cbn [segs]. destruct (N.eqb_spec c 47) as [->|Hc]; [constructor; [reflexivity|exact IH]|].
  destruct (segs s) as [|h t]; [constructor; [|constructor]|]; [cbn [existsb]; rewrite orb_false_r; apply N.eqb_neq; congruence|].
  pose proof (Forall_inv IH) as H1. pose proof (Forall_inv_tail IH) as H2. constructor; [|exact H2]. cbn [existsb]. rewrite H1, orb_false_r. apply N.eqb_neq. congruence.
Qed.
Lemma segs_join l : l <> [] -> Forall (fun x => existsb (N.eqb 47) x = false) l -> segs (join l) = l.
Proof.
  induction l as [|x l IH]; [congruence|]. intros _ F. pose proof (Forall_inv F) as H1. pose proof (Forall_inv_tail F) as H2.
  destruct l as [|y l]; [apply segs_one, H1|]. change (join (x :: y :: l)) with (x ++ 47 :: join (y :: l)). rewrite segs_app, (segs_one x H1), IH; [reflexivity|congruence|exact H2].
Qed.
Lemma removelast_last_eq {A} (d : A) l : l <> [] -> l = removelast l ++ [last l d].
Proof. apply app_removelast_last. Qed.
Lemma forall_removelast {A} (P : A -> Prop) l : Forall P l -> Forall P (removelast l).
Proof. intros F. induction F as [|x l H F IH]; [constructor|]. cbn [removelast]. destruct l; [constructor|constructor; assumption]. Qed.
Lemma rels_part_segs s : segs (rels_part_of s) = removelast (segs s) ++ [lit "_rels"; last (segs s) [] ++ lit ".rels"].
Proof.
  unfold rels_part_of, dir_of. apply segs_join; [destruct (removelast _); discriminate|]. apply Forall_app. split; [apply forall_removelast, segs_noslash|].
  constructor; [reflexivity|]. constructor; [|constructor]. rewrite existsb_app.
  pose proof (segs_noslash s) as F. rewrite (removelast_last_eq [] (segs s) (segs_nonnil s)) in F. apply Forall_app in F as [_ F]. rewrite (Forall_inv F). reflexivity.
Qed.
Lemma rels_part_inj a b : rels_part_of a = rels_part_of b -> a = b.
Proof.
  intros E. apply (f_equal segs) in E. rewrite !rels_part_segs in E.
  assert (E2 : (removelast (segs a) ++ [lit "_rels"]) ++ [last (segs a) [] ++ lit ".rels"] = (removelast (segs b) ++ [lit "_rels"]) ++ [last (segs b) [] ++ lit ".rels"])
    by (rewrite <- !app_assoc; exact E).
  apply app_inj_tail in E2 as [E2 E3]. apply app_inj_tail in E2 as [E2 _]. apply app_inv_tail in E3.
  rewrite <- (join_segs a), <- (join_segs b), (removelast_last_eq [] (segs a) (segs_nonnil a)), (removelast_last_eq [] (segs b) (segs_nonnil b)), E2, E3. reflexivity.
Qed.

(** ** The kinds of relationships *)
Section World.
Variables (m : ovf) (b : pbook) (pkg : package) (emb : list img) (l : list prep) (a : parts).
Hypothesis W : world m b pkg emb l a.
Hypothesis Hr : rels_ok m pkg.
Notation us := (map ps_u (w_sheets b)).
Hypothesis Hurl : urls_ok us.
(** The targets of the hyperlinks of the workbook have no characters XML excludes. *)
Definition clean_links (us : list usheet) : Prop := forall u x, In u us -> In x (u_links u ++ sheet_urls u) -> attr_ok (relationship_link x).
Hypothesis clean : clean_links us.
Let Hin_pkg : forall x, In x (all_parts b emb l a) -> In x pkg := in_pkg m b pkg emb l a W.
Let o := package_options b l.

Definition in_table (ty ct : str) : bool := existsb (fun e => str_eqb (fst e) ty && str_eqb (snd e) ct) relation_table.
Lemma in_table_ok ty ct : in_table ty ct = true -> In (ty, ct) relation_table.
Proof.
  unfold in_table. intros H. apply existsb_exists in H as ([x y] & Hin & E). apply andb_true_iff in E as [E1 E2]. cbn [fst snd] in *.
  apply str_eqb_eq in E1. apply str_eqb_eq in E2. subst. exact Hin.
Qed.
Definition leads (src : str) (r : rel) : Prop :=
  r_mode r = [] /\ (forall t, r_target r <> 35 :: t) /\ exists p, resolve src (r_target r) = render p /\ In (r_type r, ctype o p) relation_table /\ (p = NSig -> o_sig o = true).
Definition kind (src : str) (r : rel) : Prop :=
  attr_ok (r_type r) /\ attr_ok (r_target r) /\
  ((r_type r = ODOC "hyperlink" /\ ((r_mode r = lit "External") \/ (r_mode r = [] /\ exists t, r_target r = 35 :: t))) \/ leads src r).
Lemma kind_part src r p : attr_ok (r_type r) -> attr_ok (r_target r) -> r_mode r = [] -> resolve src (r_target r) = render p -> in_table (r_type r) (ctype o p) = true ->
  p <> NSig -> (forall t, r_target r <> 35 :: t) -> kind src r.
Proof. intros A B C D E F H. split; [exact A|]. split; [exact B|]. right. split; [exact C|]. split; [exact H|]. exists p. split; [exact D|]. split; [apply in_table_ok, E|]. intros G. contradiction. Qed.
Lemma kind_link src u x : In u us -> In x (u_links u ++ sheet_urls u) -> kind src (hl_rel x).
Proof.
  intros Hu Hx. pose proof (clean u x Hu Hx) as Cx. pose proof (Hurl u x Hu Hx) as Ax. unfold hl_rel, doc_rel. split; [reflexivity|]. split.
  - exact Cx.
  - left. cbn [r_type r_mode r_target]. split; [reflexivity|]. unfold url_mode, target_external. destruct (ltype x) eqn:E; cbn [link_type_eqb negb]; auto.
    right. split; [reflexivity|]. apply internal_target; assumption.
Qed.
Lemma kind_image src n i : xl3 src -> kind src (image_rel n i).
Proof.
  intros X. apply (kind_part _ _ (NMedia n (im_ext i))); try reflexivity; unfold image_rel, doc_rel; cbn [r_target r_type].
  - apply media_clean.
  - apply res_media, X.
  - cbn [ctype]. destruct (im_ext i); reflexivity.
  - discriminate.
  - intros t; discriminate.
Qed.

Lemma dobj_kind pre p post src r : l = pre ++ p :: post -> xl3 src -> In r (p_dobj p) -> kind src r.
Proof.
  intros E X Hr1. destruct (split_l m b pkg emb l a W pre p post E) as (l1 & s & l2 & E1 & Eu & Epre & Ep & Hl1 & Hs & _).
  destruct (prep1_facts (N.of_nat (length emb)) l1 s Hl1 Hs) as (F1 & _). rewrite <- Ep, <- Eu in F1. rewrite F1 in Hr1.
  rewrite !in_app_iff in Hr1. destruct Hr1 as [H|[H|H]].
  - destruct (has_dr (p_u p)) eqn:Hd; [|destruct H]. destruct H as [<-|[]].
    eapply kind_part; try reflexivity; [apply numbered_ok; reflexivity|apply res_drawing, X|reflexivity|discriminate|intros t; discriminate].
  - destruct (has_vml (p_u p)) eqn:Hd; [|destruct H]. destruct H as [<-|[]].
    eapply kind_part; try reflexivity; [apply numbered_ok; reflexivity|apply res_vml, X|reflexivity|discriminate|intros t; discriminate].
  - destruct (is_nil (u_hf (p_u p))) eqn:Hd; [destruct H|]. destruct H as [<-|[]].
    eapply kind_part; try reflexivity; [apply numbered_ok; reflexivity|apply res_vml, X|reflexivity|discriminate|intros t; discriminate].
Qed.
Lemma bg_kind pre p post src r : l = pre ++ p :: post -> xl3 src -> In r (d_bg (p_d p)) -> kind src r.
Proof.
  intros E X Hr1. destruct (split_l m b pkg emb l a W pre p post E) as (l1 & s & l2 & E1 & Eu & Epre & Ep & Hl1 & Hs & Hsus).
  rewrite Ep in Hr1. set (st := after _ l1) in *.
  change (p_d (prep1 st s)) with (snd (prepare_sheet_drawings (s_g st) (h_linkage (ps_h s)) (ps_u s))) in Hr1.
  destruct (drawings_parts (s_g st) (h_linkage (ps_h s)) (ps_u s)) as (-> & _) in Hr1.
  unfold bg_step in Hr1. destruct (u_bg (ps_u s)) as [im|]; [|destruct Hr1].
  destruct (am_get (im_hash im) (g_bg (s_g st))) as [n|] eqn:Eg; cbn [fst snd] in *; destruct Hr1 as [<-|[]]; apply kind_image, X.
Qed.
Lemma table_kind pre p post src r : l = pre ++ p :: post -> xl3 src -> In r (t_rels (p_t p)) -> kind src r.
Proof.
  intros E X Hr1. destruct (split_l m b pkg emb l a W pre p post E) as (l1 & s & l2 & E1 & Eu & Epre & Ep & Hl1 & Hs & Hsus).
  destruct (prep1_facts (N.of_nat (length emb)) l1 s Hl1 Hs) as (_ & _ & _ & _ & F5 & _). rewrite <- Ep in F5. rewrite F5 in Hr1.
  apply in_map_iff in Hr1 as (k & <- & Hk).
  eapply kind_part; try reflexivity; [apply numbered_ok; reflexivity|apply res_table, X|reflexivity|discriminate|intros t; discriminate].
Qed.
Lemma comment_kind pre p post src r : l = pre ++ p :: post -> xl3 src -> In r (v_comment (p_v p)) -> kind src r.
Proof.
  intros E X Hr1. destruct (split_l m b pkg emb l a W pre p post E) as (l1 & s & l2 & E1 & Eu & Epre & Ep & Hl1 & Hs & Hsus).
  destruct (prep1_facts (N.of_nat (length emb)) l1 s Hl1 Hs) as (_ & _ & _ & _ & _ & F6 & _). rewrite <- Ep, <- Eu in F6. rewrite F6 in Hr1.
  destruct (is_nil (u_notes (p_u p))) eqn:En; [destruct Hr1|]. destruct Hr1 as [<-|[]].
  eapply kind_part; try reflexivity; [apply numbered_ok; reflexivity|apply res_comments, X|reflexivity|discriminate|intros t; discriminate].
Qed.
Lemma drels_kind pre p post src r : l = pre ++ p :: post -> xl3 src -> In r (d_rels (p_d p)) -> kind src r.
Proof.
  intros E X Hr1. destruct (split_l m b pkg emb l a W pre p post E) as (l1 & s & l2 & E1 & Eu & Epre & Ep & Hl1 & Hs & Hsus).
  rewrite Ep in Hr1. set (st := after _ l1) in *. set (u := ps_u s) in *. set (g := s_g st) in *.
  change (p_d (prep1 st s)) with (snd (prepare_sheet_drawings g (h_linkage (ps_h s)) u)) in Hr1.
  destruct (drawings_parts g (h_linkage (ps_h s)) u) as (_ & Er & _). rewrite Er in Hr1.
  unfold sh_step in Hr1. destruct (shapes_loop (g_shape g) (ch_rids g u) (ch_rels g u) (u_shapes u)) as [[x1 x2] x3] eqn:Es.
  cbn [fst snd] in Hr1.
  destruct (shapes_loop_in _ _ _ _ _ _ _ Es r Hr1) as [H|(x & v & A1 & A2 & ->)].
  2:{ eapply kind_link; [exact Hsus|]. apply in_or_app. right. unfold sheet_urls. apply in_or_app. right.
      apply in_flat_map. exists x. split; [exact A1|]. rewrite A2. left. reflexivity. }
  unfold ch_rels in H. apply in_app_iff in H as [H|H].
  - unfold im_rels, im_ids in *. destruct (im_step g u) as [[[[y1 y2] y3] y4] y5] eqn:Em. unfold im_step in Em.
    destruct (images_loop_in _ _ _ _ _ _ _ _ _ _ Em) as [_ HI].
    destruct (HI r H) as [[]|[(i & n & A1 & A2 & ->)|(x & v & A1 & A2 & ->)]].
    + apply kind_image, X.
    + eapply kind_link; [exact Hsus|]. apply in_or_app. right. unfold sheet_urls. apply in_or_app. left.
      apply in_flat_map. exists x. split; [exact A1|]. rewrite A2. left. reflexivity.
  - apply in_map_iff in H as (k & <- & Hk).
    eapply kind_part; try reflexivity; [apply numbered_ok; reflexivity|apply res_chart, X|reflexivity|discriminate|intros t; discriminate].
Qed.
Lemma vmlrels_kind pre p post src r : l = pre ++ p :: post -> xl3 src -> In r (d_vmlrels (p_d p)) -> kind src r.
Proof.
  intros E X Hr1. destruct (split_l m b pkg emb l a W pre p post E) as (l1 & s & l2 & E1 & Eu & Epre & Ep & Hl1 & Hs & Hsus).
  rewrite Ep in Hr1. set (st := after _ l1) in *. set (u := ps_u s) in *. set (g := s_g st) in *.
  change (p_d (prep1 st s)) with (snd (prepare_sheet_drawings g (h_linkage (ps_h s)) u)) in Hr1.
  destruct (drawings_parts g (h_linkage (ps_h s)) u) as (_ & _ & _ & Er & _). rewrite Er in Hr1.
  unfold hf_step in *. destruct (hf_loop (g_hf g) _ [] [] (u_hf u)) as [[x1 x2] x3] eqn:Es. cbn [fst snd] in *.
  apply hf_loop_in in Es as [_ HI]. destruct (HI r Hr1) as [[]|(i & n & A1 & A2 & ->)]. apply kind_image, X.
Qed.

Definition is_rels (p : pname) : bool := match p with NRoot | NWbR | NWsR _ | NCsR _ | NVmlR _ | NVbaR | NDrR _ | NRichR => true | _ => false end.
Lemma rels_kind src q name es rs : name = render q -> rels_part_of src = name -> is_rels q = true -> In (name, CRels es) pkg -> write_rels m rs = Some es -> (forall r, In r rs -> kind src r) ->
  exists src rs q', name = render q' /\ is_rels q' = true /\ name = rels_part_of src /\ es = entries_of 1 rs /\ forall r, In r rs -> kind src r.
Proof. intros E Hn Hq Hi Hw Hp. exists src, rs, q. split; [exact E|]. split; [exact Hq|]. split; [symmetry; exact Hn|]. split; [eapply rels_entries; eassumption|exact Hp]. Qed.
Theorem all_kinds name es : In (name, CRels es) pkg ->
  exists src rs q, name = render q /\ is_rels q = true /\ name = rels_part_of src /\ es = entries_of 1 rs /\ forall r, In r rs -> kind src r.
Proof.
  assert (Hinf := infos_l m b pkg emb l a W).
  intros Hi. assert (Hi' := Hi). rewrite (w_pkg _ _ _ _ _ _ W) in Hi. apply in_parts in Hi. fold o in Hi.
  repeat match type of Hi with _ \/ _ => destruct Hi as [Hi|Hi] end; try discriminate Hi.
  - (* package *) injection Hi as -> ->.
    eapply (rels_kind [] NRoot); [reflexivity|apply rels_root|reflexivity|exact Hi'|apply (w_rr _ _ _ _ _ _ W)|].
    intros r H. unfold root_rels in H. rewrite in_app_iff, in_when in H. cbn [In] in H.
    destruct H as [[<-|[<-|[<-|[]]]]|[Ho [<-|[]]]].
    + apply (kind_part _ _ NWb); try reflexivity; [|discriminate|intros t; discriminate]. cbn [ctype]. destruct (o_xlsm o); reflexivity.
    + apply (kind_part _ _ NCore); try reflexivity; try (intros t; discriminate); discriminate.
    + apply (kind_part _ _ NApp); try reflexivity; try (intros t; discriminate); discriminate.
    + apply (kind_part _ _ NCustom); try reflexivity; try (intros t; discriminate); discriminate.
  - (* workbook *) injection Hi as -> ->.
    eapply (rels_kind (render NWb) NWbR); [reflexivity|apply rels_wb|reflexivity|exact Hi'|apply (w_wr _ _ _ _ _ _ W)|].
    intros r H. unfold workbook_rels in H. rewrite !in_app_iff, !in_when in H. cbn [In] in H.
    destruct H as [H|[[<-|[<-|[]]]|[[Ho [<-|[]]]|[[Ho [<-|[]]]|[[Ho [<-|[]]]|[[Ho H]|[Ho [<-|[]]]]]]]]].
    + destruct (sheet_rels_in _ _ _ _ H) as [(pre & p & post & E & Hc & ->)|(pre & p & post & E & Hc & ->)];
        eapply kind_part; try reflexivity; [apply numbered_ok; reflexivity|apply res_wb_cs|reflexivity|discriminate|intros t; discriminate|apply numbered_ok; reflexivity|apply res_wb_ws|reflexivity|discriminate|intros t; discriminate].
    + apply (kind_part _ _ NTheme); try reflexivity; try (intros t; discriminate); discriminate.
    + apply (kind_part _ _ NStyles); try reflexivity; try (intros t; discriminate); discriminate.
    + apply (kind_part _ _ NSst); try reflexivity; try (intros t; discriminate); discriminate.
    + apply (kind_part _ _ NMeta); try reflexivity; try (intros t; discriminate); discriminate.
    + apply (kind_part _ _ NVba); try reflexivity; try (intros t; discriminate); discriminate.
    + destruct H as [<-|[<-|[<-|[<-|[]]]]].
      * apply (kind_part _ _ NRvRel); try reflexivity; try (intros t; discriminate); discriminate.
      * apply (kind_part _ _ NRv); try reflexivity; try (intros t; discriminate); discriminate.
      * apply (kind_part _ _ NRvS); try reflexivity; try (intros t; discriminate); discriminate.
      * apply (kind_part _ _ NRvT); try reflexivity; try (intros t; discriminate); discriminate.
    + apply (kind_part _ _ NBag); try reflexivity; try (intros t; discriminate); discriminate.
  - (* worksheets *)
    apply (in_worksheets m l 1 _ (w_ws _ _ _ _ _ _ W)) in Hi as (pre & p & post & E & Hc & [H|(_ & es' & Hw & H)]); [discriminate H|].
    assert (En : name = render (NWsR (1 + cnt n_ws pre)) /\ es = es') by (split; congruence). destruct En as [-> ->].
    eapply (rels_kind (render (NWs _)) (NWsR (1 + cnt n_ws pre))); [reflexivity|apply rels_ws|reflexivity|exact Hi'|exact Hw|].
    intros r Hr1. unfold sheet_rel_list in Hr1. rewrite !in_app_iff in Hr1. destruct Hr1 as [H1|[H1|[H1|[H1|H1]]]].
    + unfold write_sheet_doc in H1. destruct (write_links 1 (u_links (p_u p))) as [[ids lr] n1] eqn:Ew.
      repeat (destruct (bump _ _) in H1). cbn [snd] in H1.
      destruct (write_links_in _ _ _ _ _ Ew r H1) as (x & Hx & ->). eapply (kind_link _ (p_u p)).
      * rewrite <- (us_l m b pkg emb l a W), E, map_app. apply in_elt.
      * apply in_or_app. left. exact Hx.
    + eapply dobj_kind; [exact E|apply xl3_ws|exact H1].
    + eapply bg_kind; [exact E|apply xl3_ws|exact H1].
    + eapply table_kind; [exact E|apply xl3_ws|exact H1].
    + eapply comment_kind; [exact E|apply xl3_ws|exact H1].
  - (* chartsheets *)
    apply (in_chartsheets m l 1 _ (w_cs _ _ _ _ _ _ W)) in Hi as (pre & p & post & E & Hc & [H|(_ & es' & Hw & H)]); [discriminate H|].
    assert (En : name = render (NCsR (1 + cnt n_cs pre)) /\ es = es') by (split; congruence). destruct En as [-> ->].
    eapply (rels_kind (render (NCs _)) (NCsR (1 + cnt n_cs pre))); [reflexivity|apply rels_cs|reflexivity|exact Hi'|exact Hw|].
    intros r Hr1. eapply dobj_kind; [exact E|apply xl3_cs|exact Hr1].
  - apply in_when in Hi as [_ [Hi|[]]]. discriminate Hi.
  - apply in_when in Hi as [_ [Hi|[]]]. discriminate Hi.
  - apply (in_drawings l Hinf) in Hi as (pre & p & post & E & _ & Hi). discriminate Hi.
  - (* VML *)
    apply (in_vmls m l 1 1 _ (w_vml _ _ _ _ _ _ W)), at_vml_split in Hi as (pre & p & post & E & [[_ Hi]|[Hne [Hi|(es' & Hw & Hi)]]]); try discriminate Hi.
    assert (En : name = render (NVmlR (1 + cnt n_vml pre + b2n (has_vml (p_u p)))) /\ es = es') by (split; congruence). destruct En as [-> ->].
    eapply (rels_kind (render (NVml _)) (NVmlR (1 + cnt n_vml pre + b2n (has_vml (p_u p))))); [reflexivity|apply rels_vml|reflexivity|exact Hi'|exact Hw|].
    intros r Hr1. eapply vmlrels_kind; [exact E|apply xl3_vml|exact Hr1].
  - apply in_comments in Hi as (pre & p & post & E & _ & Hi). discriminate Hi.
  - (* images *) exfalso. assert (G := images_bytes emb (map p_u l)). destruct (G _ Hi) as [d Hd]. discriminate Hd.
  - apply in_charts in Hi as (k & body & _ & _ & Hi). discriminate Hi.
  - rewrite (w_l _ _ _ _ _ _ W) in Hi. apply in_tables in Hi as (k & t & _ & _ & Hi). discriminate Hi.
  - (* VBA *)
    unfold vba_parts in Hi. destruct (w_vba b) as [v|] eqn:Ev; [|destruct Hi]. destruct Hi as [Hi|Hi]; [discriminate Hi|].
    apply in_when in Hi as [Hs [Hi|[Hi|[]]]]; [discriminate Hi|]. injection Hi as <- <-.
    eapply (rels_kind (render NVba) NVbaR); [reflexivity|apply rels_vba|reflexivity|exact Hi'|apply (w_vr _ _ _ _ _ _ W)|].
    intros r [<-|[]]. split; [reflexivity|]. split; [reflexivity|]. right. split; [reflexivity|]. split; [intros t; discriminate|]. exists NSig. split; [reflexivity|]. split; [apply in_table_ok; reflexivity|].
    intros _. unfold o. cbn. rewrite Ev, Hs. reflexivity.
  - (* drawing rels *)
    apply (in_drawing_rels m l Hinf 0 _ (w_dr _ _ _ _ _ _ W)) in Hi as (pre & p & post & E & Hne & es' & Hw & Hi).
    assert (Hd : has_dr (p_u p) = true).
    { assert (H : Forall (fun p => d_rels (p_d p) <> [] -> has_dr (p_u p) = true) l) by (rewrite (w_l _ _ _ _ _ _ W); apply prep_rels_dr).
      rewrite E in H. apply Forall_mid in H as (_ & H & _). apply H, Hne. }
    assert (K : n_dr (p_u p) = 1) by (unfold n_dr; rewrite Hd; reflexivity). rewrite K in Hi. replace (0 + cnt n_dr pre + 1) with (1 + cnt n_dr pre) in Hi by lia.
    assert (En : name = render (NDrR (1 + cnt n_dr pre)) /\ es = es') by (split; congruence). destruct En as [-> ->].
    eapply (rels_kind (render (NDr _)) (NDrR (1 + cnt n_dr pre))); [reflexivity|apply rels_dr|reflexivity|exact Hi'|exact Hw|].
    intros r Hr1. eapply drels_kind; [exact E|apply xl3_dr|exact Hr1].
  - apply in_when in Hi as [_ [Hi|[]]]. discriminate Hi.
  - (* rich *)
    unfold rich_parts in Hi. apply in_when in Hi as [Ho Hi]. cbn [In] in Hi.
    destruct Hi as [Hi|[Hi|[Hi|[Hi|[Hi|[]]]]]]; try discriminate Hi. injection Hi as <- <-.
    eapply (rels_kind (render NRvRel) NRichR); [reflexivity|apply rels_rich|reflexivity|exact Hi'|apply (w_ri _ _ _ _ _ _ W)|].
    intros r Hr1. destruct (in_rich_rels _ _ _ Hr1) as (j & i & Hj & ->). apply kind_image, xl3_rich.
  - apply in_when in Hi as [_ [Hi|[]]]. discriminate Hi.
Qed.
End World.

(** ** The text of a relationships part *)
Definition as_relation (e : str * rel) : relation :=
  {| rn_id := fst e; rn_type := r_type (snd e); rn_target := r_target (snd e); rn_external := negb (is_nil (r_mode (snd e))) |}.
Lemma relations_read l : Forall (fun e : str * rel => r_mode (snd e) = [] \/ r_mode (snd e) = lit "External") l ->
  read_relations (relationships_node l) = Some (map as_relation l).
Proof.
  intros F. unfold read_relations, relationships_node. cbn [node_of is_elem kids_of].
  change (str_eqb (lit "Relationships") (lit "Relationships")) with true. cbv iota.
  induction F as [|[id r] l D F IH]; [reflexivity|]. cbn [map read_all].
  assert (E : read_relation (node_of (write_relationship (id, r))) = Some (as_relation (id, r))).
  { unfold read_relation, as_relation. destruct r as [ty tg md]. cbn [fst snd r_type r_target r_mode] in *. destruct D as [-> | ->]; reflexivity. }
  rewrite E. rewrite IH. reflexivity.
Qed.
