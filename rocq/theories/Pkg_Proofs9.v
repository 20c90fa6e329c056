(** Package level, part 9: images and links of drawing objects, in the package (C32). *)
From Verif Require Import Base Xml_Model Url_Model Book_Model Book_Proofs Book_Proofs2 Pkg_Model Pkg_Spec Pkg_Names Pkg_Proofs Pkg_Proofs2 Pkg_Proofs3 Pkg_Proofs4 Pkg_Proofs5 Pkg_Proofs6 Pkg_Proofs7 Pkg_Proofs8.

Lemma embed_loop_nil ids nx acc : embed_loop ids nx acc [] = (ids, nx, acc, []).
Proof. reflexivity. Qed.
Lemma embed_none l : forall ids nx acc, (forall u, In u l -> u_embedded u = []) -> fst (embed_sheets ids nx acc l) = acc.
Proof.
  induction l as [|u l IH]; intros ids nx acc H; cbn [embed_sheets]; [reflexivity|].
  rewrite (H u (or_introl eq_refl)). cbn [embed_loop].
  specialize (IH ids nx acc (fun v Hv => H v (or_intror Hv))). destruct (embed_sheets ids nx acc l). exact IH.
Qed.
Lemma rich_rels_nth l : forall ix j i, nth_error l j = Some i -> nth_error (rich_rels ix l) j = Some (image_rel (ix + N.of_nat j) i).
Proof.
  induction l as [|x l IH]; intros ix [|j] i H; try discriminate; cbn [rich_rels nth_error] in *.
  - injection H as ->. rewrite N.add_0_r. reflexivity.
  - rewrite (IH (ix + 1) j i H). f_equal. f_equal. lia.
Qed.
Lemma embedded_nth l : forall ix j i, nth_error l j = Some i ->
  In (render (NMedia (ix + N.of_nat j) (im_ext i)), CBytes (im_data i)) (write_embedded ix l).
Proof.
  induction l as [|x l IH]; intros ix [|j] i H; try discriminate; cbn [write_embedded nth_error] in *.
  - injection H as ->. left. rewrite N.add_0_r. reflexivity.
  - right. replace (ix + N.of_nat (S j)) with (ix + 1 + N.of_nat j) by lia. apply IH, H.
Qed.

Section World.
Variables (m : ovf) (b : pbook) (pkg : package) (emb : list img) (l : list prep) (a : parts).
Hypothesis W : world m b pkg emb l a.
Hypothesis Hr : rels_ok m pkg.
Notation us := (map ps_u (w_sheets b)).
Hypothesis Hh : hashes_ok us.

Lemma shows_intro src id n i : xl3 src -> rel_of pkg src id = Some (image_rel n i) ->
  In (render (NMedia n (im_ext i)), CBytes (im_data i)) pkg -> shows pkg src id i.
Proof.
  intros X H1 H2. exists n.
  apply (opens_intro m b pkg emb l a W _ _ _ _ _ (image_rel n i)); [exact H1|reflexivity|reflexivity|apply res_media, X|exact H2].
Qed.
Lemma images_in_pkg : incl (write_sheet_images (1 + N.of_nat (length emb)) [] [] [] us) pkg.
Proof.
  intros x Hx. eapply in_pkg; [exact W|]. apply in_parts. do 9 right. left. unfold write_images. apply in_or_app. right.
  rewrite (w_l _ _ _ _ _ _ W), prep_st_us. exact Hx.
Qed.
Lemma emb_len_none : (forall u, In u us -> u_embedded u = []) -> emb = [].
Proof. intros H. rewrite (w_emb _ _ _ _ _ _ W). apply embed_none, H. Qed.

Lemma stored_at : hf_last us -> forall l1 s l2, w_sheets b = l1 ++ s :: l2 ->
  let g := s_g (after (st0 (N.of_nat (length emb))) l1) in let u := ps_u s in
  stored (book_imgs us) pkg (fst (fst (bg_step g u))) /\ stored (book_imgs us) pkg (im_ids g u) /\
  stored (book_imgs us) pkg (fst (fst (hf_step g u))).
Proof.
  intros Hhf l1 s l2 E. eapply all_images; [apply Hh| | | |apply images_in_pkg|exact E].
  - intros v Hv x Hx. unfold book_imgs. apply in_or_app. right. apply in_flat_map. exists (ps_u v). split; [apply in_map, Hv|exact Hx].
  - unfold in_step. cbn [st0 s_g g0 g_hf g_image g_bg g_ws]. repeat (split; [first [intros h; reflexivity|intros i n _ H; discriminate]|]). change (am_len []) with 0. lia.
  - unfold rest_ok. cbn [st0 s_g g0 g_hf g_image g_bg g_ws]. change (am_len []) with 0. destruct Hhf as [H|[H1 (x1 & u0 & x2 & H2 & H3 & H4)]].
    + left. auto.
    + right. rewrite (emb_len_none H1). split; [reflexivity|]. left. split; [reflexivity|]. exists x1, u0, x2. auto.
Qed.

Lemma book_img_in s x : In s (w_sheets b) -> In x (sheet_imgs (ps_u s)) -> In x (book_imgs us).
Proof. intros H1 H2. apply in_or_app. right. apply in_flat_map. exists (ps_u s). split; [apply in_map, H1|exact H2]. Qed.

(** The background image. *)
Lemma background i s name d id : hf_last us -> nth_error (w_sheets b) i = Some s -> u_chartsheet (ps_u s) = false ->
  sheet_part pkg i (ps_u s) name d -> sd_picture d = Some id -> forall im, u_bg (ps_u s) = Some im -> shows pkg name id im.
Proof.
  intros Hhf Hi Hc Hp Hid im Hbg.
  destruct (worksheet_refs m b pkg emb l a W Hr i s Hi Hc) as (n' & d' & P1 & (nn & Hnn) & _ & _ & _ & _ & P2 & _).
  destruct (sheet_part_det _ _ _ _ _ _ _ Hp P1) as [<- <-].
  rewrite Hbg in P2. cbn [is_some ref_when] in P2. destruct P2 as (k & Hk & r & R1 & R2).
  assert (k = id) by congruence. subst k.
  destruct (sheet_at m b pkg emb l a W i s Hi) as (l1 & l2 & pre & post & E1 & El & E2 & Hlen & Epre & Hf & Hcnt & Hl1 & Hs). cbn zeta in *.
  set (st := after _ l1) in *.
  assert (Hnth : nth i l (prep1 (st0 0) s) = prep1 st s).
  { rewrite E2, <- Hlen, app_nth2, Nat.sub_diag by lia. reflexivity. }
  rewrite Hnth in R2. change (p_d (prep1 st s)) with (snd (prepare_sheet_drawings (s_g st) (h_linkage (ps_h s)) (ps_u s))) in R2.
  destruct (drawings_parts (s_g st) (h_linkage (ps_h s)) (ps_u s)) as (G & _). rewrite G in R2. clear G.
  destruct (stored_at Hhf l1 s l2 E1) as (S1 & _). fold st in S1.
  assert (Hin : In im (book_imgs us)).
  { eapply book_img_in; [eapply nth_error_In, Hi|]. unfold sheet_imgs. rewrite Hbg. left. reflexivity. }
  assert (G : exists n, am_get (im_hash im) (fst (fst (bg_step (s_g st) (ps_u s)))) = Some n /\ r = image_rel n im).
  { unfold bg_step in R2 |- *. rewrite Hbg in R2 |- *. destruct (am_get (im_hash im) (g_bg (s_g st))) as [n|] eqn:Eg; cbn [fst snd] in *.
    - exists n. split; [exact Eg|]. injection R2 as <-. reflexivity.
    - exists (g_image (s_g st) + 1). rewrite am_get_insert, str_eqb_refl. split; [reflexivity|]. injection R2 as <-. reflexivity. }
  destruct G as (n & G1 & ->).
  eapply shows_intro; [rewrite Hnn; apply xl3_ws|exact R1|]. apply S1; assumption.
Qed.

(** Pictures and their links, and the links of shapes. *)
Lemma link_click src o x u : (forall k r, at_id o k r -> rel_of pkg src (rid k) = Some r) ->
  links_ok u -> (forall y, x = Some y -> In y (sheet_urls u)) ->
  forall d, link_ok (sheet_urls u) o x (di_url d) -> click_ok pkg src x (click_of d).
Proof.
  intros Ho Hl Hx d. unfold click_of. destruct x as [x|]; cbn [link_ok click_ok].
  - intros (k & u' & -> & H1 & H2 & H3). exists (rid k). split; [reflexivity|]. apply Ho in H3. apply hl_links in H3.
    unfold links_to in *. rewrite H3. destruct Hl as [Hl _]. destruct (Hl u' x H1 (Hx x eq_refl) H2) as [-> ->]. reflexivity.
  - intros ->. reflexivity.
Qed.
Lemma at_rel src rels k r : (forall j r, nth_error rels j = Some r -> rel_of pkg src (rid (1 + N.of_nat j)) = Some r) ->
  at_id rels k r -> rel_of pkg src (rid k) = Some r.
Proof. intros H [H1 H2]. rewrite <- (H _ _ H2). f_equal. f_equal. lia. Qed.
Lemma rinv_chart U V ids rids rels v r0 : rinv U V false ids rids rels ->
  (forall i, In i U -> forallb is_ascii_digit (im_hash i) = true) -> (forall u, In u V -> link u <> lit "Chart") ->
  rinv U V true ids (am_insert (lit "Chart") v rids) (rels ++ [r0]).
Proof.
  intros [H1 H2] HD HV.
  assert (Hn : am_get (lit "Chart") rids = None).
  { destruct (am_get (lit "Chart") rids) as [k|] eqn:E; [|reflexivity]. exfalso.
    destruct (H2 _ _ E) as [(i & n & A1 & A2 & _)|[(u & A1 & A2 & _)|[A _]]].
    - apply HD in A1. rewrite A2 in A1. discriminate.
    - apply HV in A1. contradiction.
    - discriminate. }
  split; [rewrite am_len_insert by exact Hn; rewrite app_length; cbn [length]; lia|].
  intros k r Hk. rewrite am_get_insert in Hk. destruct (str_eqb_spec k (lit "Chart")) as [->|_]; [auto|].
  destruct (H2 k r Hk) as [(i & n & A1 & A2 & A3 & A4)|[(u & A1 & A2 & A3)|[A _]]].
  - left. exists i, n. eauto 8 using at_id_app.
  - right; left. exists u. eauto 6 using at_id_app.
  - discriminate.
Qed.
Lemma objects i s part anchors : hf_last us -> nth_error (w_sheets b) i = Some s -> links_ok (ps_u s) ->
  sheet_drawing pkg i (ps_u s) part anchors -> has_objects (ps_u s) = true ->
  Forall2 (fun x pic => shows pkg part (fst pic) (fst x) /\ click_ok pkg part (snd x) (snd pic)) (u_images (ps_u s)) (pics_in anchors) /\
  ((length (u_charts (ps_u s)) <= 1)%nat ->
   Forall2 (fun x sh => fst sh = Some (fst x) /\ click_ok pkg part (snd x) (snd sh)) (u_shapes (ps_u s)) (shapes_in anchors)).
Proof.
  intros Hhf Hi Hlk Hd Ho. destruct (sheet_drawing_det _ _ _ _ _ _ _ Hd (drawing_of_sheet m b pkg emb l a W Hr i s Hi Ho)) as [-> ->].
  destruct (sheet_at m b pkg emb l a W i s Hi) as (l1 & l2 & pre & post & E1 & El & E2 & Hlen & Epre & Hf & Hcnt & Hl1 & Hs). cbn zeta in *.
  unfold dr_name. rewrite Hf. set (st := after _ l1) in *. set (u := ps_u s) in *. set (g := s_g st).
  rewrite (sheet_anchors_eq st s Hs). cbn [fst]. fold u g.
  set (R := N.of_nat (length (im_rels g u)) + 1).
  destruct (anchors_parts (im_infos g u) (fun d => rid (di_rel d)) click_of (seq_from R (length (u_charts u)))
              (combine (map fst (u_shapes u)) (snd (sh_step g u))) (fun x => Some (fst x)) (fun x => click_of (snd x)) (u_chartsheet u)) as (Q1 & Q2 & Q3).
  rewrite Q1, Q3. clear Q1 Q2 Q3.
  destruct (drawings_parts g (h_linkage (ps_h s)) u) as (_ & Er & _).
  set (src := render (NDr (1 + sumN n_dr (map ps_u l1)))).
  assert (Hrel : forall j r, nth_error (snd (fst (sh_step g u))) j = Some r -> rel_of pkg src (rid (1 + N.of_nat j)) = Some r).
  { intros j r Hj. unfold src. rewrite <- Hcnt. eapply dr_rel_at; [exact W|exact Hr|exact E2|].
    change (p_d (prep1 st s)) with (snd (prepare_sheet_drawings g (h_linkage (ps_h s)) u)). rewrite Er. exact Hj. }
  assert (HD : forall i, In i (book_imgs us) -> forallb is_ascii_digit (im_hash i) = true) by apply Hh.
  assert (HV : forall x, In x (sheet_urls u) -> forallb is_ascii_digit (link x) = false /\ link x <> lit "Chart") by apply Hlk.
  assert (Hims : forall x, In x (u_images u) -> In (fst x) (book_imgs us)).
  { intros x Hx. eapply book_img_in; [eapply nth_error_In, Hi|]. unfold sheet_imgs. fold u. rewrite !in_app_iff. right; left. apply in_map, Hx. }
  assert (Hur1 : forall x v, In x (u_images u) -> snd x = Some v -> In v (sheet_urls u)).
  { intros x v Hx Hv. unfold sheet_urls. apply in_or_app. left. apply in_flat_map. exists x. split; [exact Hx|]. rewrite Hv. left. reflexivity. }
  assert (Hur2 : forall x v, In x (u_shapes u) -> snd x = Some v -> In v (sheet_urls u)).
  { intros x v Hx Hv. unfold sheet_urls. apply in_or_app. right. apply in_flat_map. exists x. split; [exact Hx|]. rewrite Hv. left. reflexivity. }
  assert (IM : rinv (book_imgs us) (sheet_urls u) false (im_ids g u) (im_rids g u) (im_rels g u) /\
               Forall2 (pic_ok (sheet_urls u) (im_ids g u) (im_rels g u)) (u_images u) (im_infos g u)).
  { unfold im_ids, im_rids, im_rels, im_infos. destruct (im_step g u) as [[[[x1 x2] x3] x4] x5] eqn:Em. unfold im_step in Em.
    destruct (images_loop_ok (book_imgs us) (sheet_urls u) (proj1 Hh) HD HV _ _ _ _ _ _ _ _ _ _ Em Hims Hur1) as (A1 & _ & _ & A2); [apply rinv_nil|].
    auto. }
  destruct IM as [IM1 IM2].
  assert (Hext : exists e, snd (fst (sh_step g u)) = ch_rels g u ++ e).
  { unfold sh_step. destruct (shapes_loop (g_shape g) (ch_rids g u) (ch_rels g u) (u_shapes u)) as [[x1 x2] x3] eqn:Es. eapply shapes_loop_rels, Es. }
  assert (Hext2 : exists e, snd (fst (sh_step g u)) = im_rels g u ++ e).
  { destruct Hext as [e ->]. unfold ch_rels. rewrite <- app_assoc. eauto. }
  split.
  - destruct (stored_at Hhf l1 s l2 E1) as (_ & S2 & _). fold st g u in S2.
    destruct Hext2 as [e He]. 
    assert (G : forall xs ds, incl xs (u_images u) -> Forall2 (pic_ok (sheet_urls u) (im_ids g u) (im_rels g u)) xs ds ->
        Forall2 (fun x pic => shows pkg src (fst pic) (fst x) /\ click_ok pkg src (snd x) (snd pic)) xs (map (fun d => (rid (di_rel d), click_of d)) ds)).
    { intros xs ds Hin HF. induction HF as [|x d xs ds Hx HF IH]; cbn [map]; [constructor|].
      constructor; [|apply IH; intros y Hy; apply Hin; right; exact Hy]. cbn [fst snd].
      apply (pic_ok_ext _ _ (im_ids g u) _ e) in Hx; [|apply sub_refl]. destruct Hx as [(n & N1 & N2) N3]. rewrite <- He in N2, N3.
      assert (Hx : In x (u_images u)) by (apply Hin; left; reflexivity). split.
      - eapply shows_intro; [apply xl3_dr|eapply at_rel; [exact Hrel|exact N2]|]. apply S2; [apply Hims, Hx|exact N1].
      - eapply link_click; [intros k r; apply at_rel, Hrel|exact Hlk|intros y Hy; eapply Hur1; eassumption|exact N3]. }
    apply G; [apply incl_refl|exact IM2].
  - intros Hch.
    assert (RI : exists c, rinv (book_imgs us) (sheet_urls u) c (im_ids g u) (ch_rids g u) (ch_rels g u)).
    { unfold ch_rids, ch_rels. destruct (u_charts u) as [|c0 [|? ?]]; [| |cbn in Hch; lia].
      - exists false. cbn. rewrite app_nil_r. exact IM1.
      - exists true. cbn [is_nil length seq_from map]. apply rinv_chart; [exact IM1|exact HD|]. intros x Hx. apply HV, Hx. }
    destruct RI as [c RI].
    unfold sh_step in Hrel |- *. destruct (shapes_loop (g_shape g) (ch_rids g u) (ch_rels g u) (u_shapes u)) as [[x1 x2] x3] eqn:Es.
    cbn [fst snd] in *.
    assert (HF := shapes_loop_ok _ _ HD HV c (im_ids g u) _ _ _ _ _ _ _ Es Hur2 RI).
    assert (G : forall xs ds, incl xs (u_shapes u) -> Forall2 (fun x d => link_ok (sheet_urls u) x2 (snd x) (di_url d)) xs ds ->
        Forall2 (fun x sh => fst sh = Some (fst x) /\ click_ok pkg src (snd x) (snd sh)) xs
          (map (fun x => (Some (fst x), click_of (snd x))) (combine (map fst xs) ds))).
    { intros xs ds Hin HF'. induction HF' as [|x d xs ds Hx HF' IH]; cbn [map combine]; [constructor|].
      constructor; [|apply IH; intros y Hy; apply Hin; right; exact Hy]. cbn [fst snd]. split; [reflexivity|].
      eapply link_click; [intros k r; apply at_rel, Hrel|exact Hlk|intros y Hy; eapply Hur2; [apply Hin; left; reflexivity|exact Hy]|exact Hx]. }
    apply G; [apply incl_refl|exact HF].
Qed.

(** Header and footer images. *)
Lemma header_images i s name d id part v : hf_last us -> nth_error (w_sheets b) i = Some s ->
  (u_chartsheet (ps_u s) = true -> u_notes (ps_u s) = [] /\ u_buttons (ps_u s) = []) ->
  sheet_part pkg i (ps_u s) name d -> sd_legacy_hf d = Some id -> opens pkg name id "vmlDrawing" part (CVml v) ->
  Forall2 (fun x sh => shows pkg part (snd sh) x) (u_hf (ps_u s)) (vd_images v).
Proof.
  intros Hhf Hi Hnc Hp Hid Hop.
  destruct (sheet_at m b pkg emb l a W i s Hi) as (l1 & l2 & pre & post & E1 & El & E2 & Hlen & Epre & Hf & Hcnt & Hl1 & Hs). cbn zeta in *.
  set (st := after _ l1) in *. set (u := ps_u s) in *. set (g := s_g st).
  destruct (prep1_facts (N.of_nat (length emb)) l1 s Hl1 Hs) as (F1 & F2 & F3 & F4 & F5 & F6 & F7). fold st u in F1, F2, F3, F4, F5, F6, F7.
  set (vn := render (NVml (1 + sumN n_vml (map ps_u l1) + b2n (has_vml u)))).
  assert (G : u_hf u <> [] -> part = vn /\ v = hf_vml (1 + cnt n_hf pre) (prep1 st s)).
  { intros Hne.
    assert (Hin : In (vn, CVml (hf_vml (1 + cnt n_hf pre) (prep1 st s))) pkg).
    { unfold vn. rewrite <- Hcnt. eapply (hf_vml_in m b pkg emb l a W pre (prep1 st s) post E2). exact Hne. }
    apply is_nil_false in Hne.
    assert (Hvr : rel_of pkg name id = Some (vml_link (1 + sumN n_vml (map ps_u l1) + b2n (has_vml u))) /\ xl3 name).
    { destruct (u_chartsheet u) eqn:Hc.
      - destruct (Hnc eq_refl) as [Hn0 Hb0].
        assert (Hv : has_vml u = false) by (unfold has_vml; rewrite Hn0, Hb0; reflexivity).
        rewrite Hv in *. cbn [b2n] in *. rewrite N.add_0_r in *.
        assert (P1 := cs_opens m b pkg emb l a W Hr pre (prep1 st s) post E2 Hc). rewrite Hlen in P1.
        destruct (sheet_part_det _ _ _ _ _ _ _ Hp P1) as [-> ->].
        split; [|apply xl3_cs].
        unfold write_chartsheet_doc in Hid. rewrite F2, negb_involutive in Hid. change (p_u (prep1 st s)) with u in Hid. rewrite Hne in Hid. cbn [negb] in Hid.
        assert (Hb' : bump (has_dr u) 0 = (if has_dr u then Some (rid 1) else None, b2n (has_dr u))) by (destruct (has_dr u); reflexivity).
        rewrite Hb' in Hid. unfold bump in Hid. cbn [sd_legacy_hf] in Hid. injection Hid as <-.
        replace (b2n (has_dr u) + 1) with (1 + N.of_nat (N.to_nat (b2n (has_dr u)))) by lia.
        eapply cs_rel_at; [exact W|exact Hr|exact E2|exact Hc|]. rewrite F1, Hne. destruct (has_dr u); reflexivity.
      - assert (P1 := ws_opens m b pkg emb l a W Hr pre (prep1 st s) post E2 Hc). rewrite Hlen in P1.
        destruct (sheet_part_det _ _ _ _ _ _ _ Hp P1) as [-> ->]. split; [|apply xl3_ws].
        unfold write_sheet_doc in Hid. destruct (write_links 1 (u_links (p_u (prep1 st s)))) as [[ids lrels] n1] eqn:Ew.
        pose proof Ew as Ew'. apply write_links_spec in Ew as [-> _]. change (p_u (prep1 st s)) with u in Hid.
        rewrite F2, negb_involutive, Hne in Hid. cbn [negb] in Hid.
        replace (1 + N.of_nat (length lrels) - 1) with (N.of_nat (length lrels)) in Hid by lia.
        set (j := (length lrels + length (if has_dr u then [drawing_link (1 + sumN n_dr (map ps_u l1))] else [])
                   + length (if has_vml u then [vml_link (1 + sumN n_vml (map ps_u l1))] else []))%nat).
        assert (Hj : id = rid (1 + N.of_nat j)).
        { unfold j. destruct (has_dr u), (has_vml u); cbn [bump fst snd length] in Hid |- *; destruct (bump (is_some (u_bg u)) _) in Hid; cbn [fst sd_legacy_hf] in Hid;
            injection Hid as <-; f_equal; lia. }
        rewrite Hj. eapply ws_rel_at; [exact W|exact Hr|exact E2|exact Hc| |].
        + unfold has_relationships. rewrite F1, Hne. rewrite !is_nil_app. cbn [is_nil]. rewrite !andb_false_r. reflexivity.
        + unfold sheet_rel_list, write_sheet_doc. rewrite Ew'. repeat (destruct (bump _ _)). cbn [snd]. rewrite F1, Hne.
          unfold j. rewrite <- Nat.add_assoc, nth_app_r, <- !app_assoc, nth_app_r.
          replace (length (if has_vml u then [vml_link (1 + sumN n_vml (map ps_u l1))] else []))
            with (length (if has_vml u then [vml_link (1 + sumN n_vml (map ps_u l1))] else []) + 0)%nat by lia.
          rewrite nth_app_r. reflexivity. }
    destruct Hvr as [Hvr X3].
    destruct (opens_det _ _ _ _ _ _ _ _ Hop (opens_intro m b pkg emb l a W name id "vmlDrawing" vn _ _ Hvr eq_refl eq_refl (res_vml _ _ X3) Hin)) as [E E'].
    split; [exact E|congruence]. }
  destruct (u_hf u) as [|h0 hs] eqn:Eh.
  - exfalso. destruct (u_chartsheet u) eqn:Hc.
    + assert (P1 := cs_opens m b pkg emb l a W Hr pre (prep1 st s) post E2 Hc). rewrite Hlen in P1.
      destruct (sheet_part_det _ _ _ _ _ _ _ Hp P1) as [-> ->].
      unfold write_chartsheet_doc in Hid. change (p_u (prep1 st s)) with u in Hid. rewrite Eh in Hid. cbn [is_nil negb bump] in Hid.
      destruct (bump _ _) in Hid. discriminate.
    + assert (P1 := ws_opens m b pkg emb l a W Hr pre (prep1 st s) post E2 Hc). rewrite Hlen in P1.
      destruct (sheet_part_det _ _ _ _ _ _ _ Hp P1) as [-> ->].
      unfold write_sheet_doc in Hid. change (p_u (prep1 st s)) with u in Hid. rewrite Eh in Hid. cbn [is_nil negb] in Hid.
      destruct (write_links 1 (u_links u)) as [[ids lrels] n1]. destruct (bump (negb (is_nil (d_infos _))) _) in Hid.
      destruct (bump (has_vml u) _) in Hid. unfold bump at 1 in Hid. destruct (bump (is_some (u_bg u)) _) in Hid. discriminate.
  - destruct G as [-> ->]; [discriminate|]. rewrite <- Eh.
    unfold hf_vml. cbn [vd_images].
    destruct (drawings_parts g (h_linkage (ps_h s)) u) as (_ & _ & _ & Hvr & Hdh & _).
    change (p_d (prep1 st s)) with (snd (prepare_sheet_drawings g (h_linkage (ps_h s)) u)). rewrite Hdh.
    destruct (stored_at Hhf l1 s l2 E1) as (_ & _ & S3). fold st g u in S3.
    unfold hf_step in *. destruct (hf_loop (g_hf g) _ [] [] (u_hf u)) as [[x1 x2] x3] eqn:Ehf. cbn [fst snd] in *.
    assert (HD : forall i, In i (book_imgs us) -> forallb is_ascii_digit (im_hash i) = true) by apply Hh.
    assert (Hims : forall x, In x (u_hf u) -> In x (book_imgs us)).
    { intros x Hx. eapply book_img_in; [eapply nth_error_In, Hi|]. unfold sheet_imgs. fold u. rewrite !in_app_iff. auto. }
    destruct (hf_loop_ok (book_imgs us) [] (proj1 Hh) HD (fun u (H : In u []) => match H with end) _ _ _ _ _ _ _ _ Ehf Hims (rinv_nil _ _ _ _)) as (_ & _ & HF).
    assert (Hne : u_hf (p_u (prep1 st s)) <> []) by (change (p_u (prep1 st s)) with u; rewrite Eh; discriminate).
    assert (Hrel : forall j r, nth_error x2 j = Some r -> rel_of pkg vn (rid (1 + N.of_nat j)) = Some r).
    { intros j r Hj. unfold vn. rewrite <- Hcnt. eapply (vml_rel_at m b pkg emb l a W Hr pre (prep1 st s) post j r E2 Hne).
      change (p_d (prep1 st s)) with (snd (prepare_sheet_drawings g (h_linkage (ps_h s)) u)). rewrite Hvr. exact Hj. }
    clear - W S3 HF Hrel Hims. revert HF Hims. generalize (1024 * (1 + cnt n_hf pre) + 1). generalize (u_hf u). intros hs n HF. revert n.
    induction HF as [|x r xs rs Hx HF IH]; intros n Hims; cbn [map number_from]; [constructor|].
    constructor; [|apply IH; intros y Hy; apply Hims; right; exact Hy]. cbn [snd].
    destruct Hx as (k & K1 & K2). eapply shows_intro; [apply xl3_vml|eapply at_rel; [exact Hrel|exact K2]|].
    apply S3; [apply Hims; left; reflexivity|exact K1].
Qed.

(** Embedded images. *)
Lemma embedded i s name d : nth_error (w_sheets b) i = Some s -> u_chartsheet (ps_u s) = false ->
  sheet_part pkg i (ps_u s) name d -> u_embedded (ps_u s) <> [] ->
  exists ids, find_part pkg (lit "xl/richData/richValueRel.xml") = Some (CRichRel ids) /\
  Forall2 (fun x k => 1 <= k /\ exists id, nth_error ids (N.to_nat (k - 1)) = Some id /\ shows pkg (lit "xl/richData/richValueRel.xml") id x)
    (u_embedded (ps_u s)) (sd_vm d).
Proof.
  intros Hi Hc Hp Hne.
  destruct (worksheet_refs m b pkg emb l a W Hr i s Hi Hc) as (n' & d' & P1 & _ & _ & _ & _ & _ & _ & _ & _ & P2).
  destruct (sheet_part_det _ _ _ _ _ _ _ Hp P1) as [<- <-]. rewrite P2. clear P2.
  destruct (sheet_at m b pkg emb l a W i s Hi) as (l1 & l2 & pre & post & E1 & El & E2 & Hlen & Epre & Hf & Hcnt & Hl1 & Hs). cbn zeta in *.
  set (st := after _ l1) in *.
  assert (Hnth : nth i l (prep1 (st0 0) s) = prep1 st s).
  { rewrite E2, <- Hlen, app_nth2, Nat.sub_diag by lia. reflexivity. }
  rewrite Hnth.
  assert (Ho : o_embedded (package_options b l) = true).
  { cbn. unfold any. apply existsb_exists. exists (prep1 st s). split; [rewrite E2; apply in_elt|].
    change (p_u (prep1 st s)) with (ps_u s). destruct (u_embedded (ps_u s)); [contradiction|reflexivity]. }
  assert (Hrich : forall x, In x (rich_parts (package_options b l) emb (a_ri a)) -> In x pkg).
  { intros x Hx. eapply in_pkg; [exact W|]. apply in_parts. do 15 right. left. exact Hx. }
  unfold rich_parts in Hrich. rewrite Ho in Hrich. cbn [when] in Hrich.
  exists (map rid (up_to (N.of_nat (length emb)))). split.
  { eapply (find_in m b pkg emb l a W). apply Hrich. cbn [In]. tauto. }
  assert (HF : Forall2 (fun i k => 1 <= k /\ nth_error emb (N.to_nat (k - 1)) = Some i) (u_embedded (ps_u s)) (p_emb (prep1 st s))).
  { assert (He : forall v, In v (w_sheets b) -> incl (u_embedded (ps_u v)) (book_imgs us)).
    { intros v Hv x Hx. apply in_or_app. left. apply in_flat_map. exists (ps_u v). split; [apply in_map, Hv|exact Hx]. }
    destruct (embed_all (book_imgs us) (w_sheets b) (proj1 Hh) He (st0 (N.of_nat (length emb)))) as [_ G].
    - cbn. split; [reflexivity|]. intros h n H. discriminate.
    - specialize (G l1 s l2 E1). fold st in G. cbn [st0 s_ids s_nx s_acc] in G.
      change (embed_sheets [] 0 [] us) with (prepare_embedded us) in G. rewrite <- (w_emb _ _ _ _ _ _ W) in G. exact G. }
  clear Hnth Hne. induction HF as [|x k xs ks [K1 K2] HF IH]; [constructor|]. constructor; [|exact IH].
  split; [exact K1|]. exists (rid (1 + N.of_nat (N.to_nat (k - 1)))).
  assert (Hlt : (N.to_nat (k - 1) < length emb)%nat) by (apply nth_error_Some; congruence).
  split.
  - unfold up_to. rewrite nth_error_map, Nnat.Nat2N.id, seq_from_nth by exact Hlt. reflexivity.
  - apply (shows_intro _ _ (1 + N.of_nat (N.to_nat (k - 1)))); [apply xl3_rich| |].
    + eapply (rel_at m b pkg emb l a W Hr); [apply rels_rich|apply Hrich; left; reflexivity|apply (w_ri _ _ _ _ _ _ W)|]. apply rich_rels_nth, K2.
    + eapply in_pkg; [exact W|]. apply in_parts. do 9 right. left. unfold write_images. apply in_or_app. left. apply embedded_nth, K2.
Qed.
End World.
