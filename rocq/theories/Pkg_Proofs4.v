(** Package level, part 4: the anchors of a drawing, reachable states, the parts of the saved package. *)
From Verif Require Import Base Xml_Model Url_Model Book_Model Book_Proofs Pkg_Model Pkg_Spec Pkg_Names Pkg_Proofs Pkg_Proofs2 Pkg_Proofs3.

(** ** prepare_sheet_drawings taken apart *)
Definition bg_step (g : dstate) (u : usheet) : amap * N * list rel :=
  match u_bg u with
  | None => (g_bg g, g_image g, [])
  | Some i =>
      let '(ids, nxt, n) := match am_get (im_hash i) (g_bg g) with
                            | Some n => (g_bg g, g_image g, n)
                            | None => (am_insert (im_hash i) (g_image g + 1) (g_bg g), g_image g + 1, g_image g + 1)
                            end in
      (ids, nxt, [doc_rel (lit "image") (media_name "../media/" n (im_ext i)) []])
  end.
Definition im_step (g : dstate) (u : usheet) := images_loop (g_ws g) (snd (fst (bg_step g u))) [] [] (u_images u).
Definition im_ids g u : amap := let '(a, _, _, _, _) := im_step g u in a.
Definition im_next g u : N := let '(_, a, _, _, _) := im_step g u in a.
Definition im_rids g u : amap := let '(_, _, a, _, _) := im_step g u in a.
Definition im_rels g u : list rel := let '(_, _, _, a, _) := im_step g u in a.
Definition im_infos g u : list dinfo := let '(_, _, _, _, a) := im_step g u in a.
Definition ch_rids g u : amap :=
  if is_nil (u_charts u) then im_rids g u else am_insert (lit "Chart") (N.of_nat (length (im_rels g u))) (im_rids g u).
Definition ch_rels g u : list rel := im_rels g u ++ map chart_rel (seq_from (g_chart g) (length (u_charts u))).
Definition ch_infos g u : list dinfo :=
  map (chart_info (u_chartsheet u)) (seq_from (N.of_nat (length (im_rels g u)) + 1) (length (u_charts u))).
Definition sh_step g u := shapes_loop (g_shape g) (ch_rids g u) (ch_rels g u) (u_shapes u).
Definition hf_step g u := hf_loop (g_hf g) (am_len (fst (fst (bg_step g u))) + am_len (im_ids g u)) [] [] (u_hf u).
Lemma drawings_parts g lk u :
  let d := snd (prepare_sheet_drawings g lk u) in let g' := fst (prepare_sheet_drawings g lk u) in
  d_bg d = snd (bg_step g u) /\ d_rels d = snd (fst (sh_step g u)) /\
  d_infos d = im_infos g u ++ ch_infos g u ++ snd (sh_step g u) /\
  d_vmlrels d = snd (fst (hf_step g u)) /\ d_hf d = snd (hf_step g u) /\
  g_image g' = im_next g u /\ g_ws g' = im_ids g u /\ g_hf g' = fst (fst (hf_step g u)) /\ g_bg g' = fst (fst (bg_step g u)) /\
  g_shape g' = g_shape g + N.of_nat (length (u_shapes u)).
Proof.
  unfold prepare_sheet_drawings. fold (bg_step g u).
  unfold hf_step, sh_step, ch_infos, ch_rels, ch_rids, im_infos, im_rels, im_rids, im_next, im_ids, im_step.
  destruct (bg_step g u) as [[bgi im0] bg]. cbn [fst snd].
  destruct (images_loop (g_ws g) im0 [] [] (u_images u)) as [[[[ws im1] rids1] rels1] infos1].
  destruct (if is_nil (u_images u) then ([], lk) else ([drawing_link (g_drawing g)], true)) as [dobj1 lk1].
  destruct (is_nil (u_charts u)) eqn:En.
  - apply is_nil_true in En. rewrite En. cbn [length seq_from map app]. rewrite app_nil_r.
    destruct (shapes_loop (g_shape g) rids1 rels1 (u_shapes u)) as [[rids3 rels3] infos3].
    destruct (if is_nil (u_shapes u) then (dobj1, lk1) else _) as [dobj3 lk3].
    destruct (hf_loop (g_hf g) (am_len bgi + am_len ws) [] [] (u_hf u)) as [[hfi vr] hf].
    cbn. auto 12.
  - rewrite charts_loop_eq.
    destruct (shapes_loop (g_shape g) _ _ (u_shapes u)) as [[rids3 rels3] infos3].
    match goal with |- context [if is_nil (u_shapes u) then ?a else ?b] => destruct (if is_nil (u_shapes u) then a else b) as [dobj3 lk3] end.
    destruct (hf_loop (g_hf g) (am_len bgi + am_len ws) [] [] (u_hf u)) as [[hfi vr] hf].
    cbn. auto 12.
Qed.

(** ** Kinds of the drawing objects *)
Lemma images_loop_kind l : forall ids id rids rels ids' id' rids' rels' ds,
  images_loop ids id rids rels l = (ids', id', rids', rels', ds) -> Forall (fun d => di_kind d = DImage) ds.
Proof.
  induction l as [|[i u] l IH]; intros ids id rids rels ids' id' rids' rels' ds; cbn [images_loop].
  - intros [= <- <- <- <- <-]. constructor.
  - destruct (match am_get (im_hash i) ids with Some n => _ | None => _ end) as [[a1 a2] a3].
    destruct (link_rel rids rels u) as [[b1 b2] b3].
    destruct (match am_get (im_hash i) b1 with Some n => _ | None => _ end) as [[c1 c2] c3].
    destruct (images_loop a1 a2 c1 c2 l) as [[[[x1 x2] x3] x4] x5] eqn:E.
    intros H. injection H as _ _ _ _ <-. constructor; [reflexivity|]. eapply IH, E.
Qed.
Lemma shapes_loop_kind l : forall k rids rels rids' rels' ds,
  shapes_loop k rids rels l = (rids', rels', ds) -> Forall (fun d => di_kind d = DShape) ds.
Proof.
  induction l as [|[i u] l IH]; intros k rids rels rids' rels' ds; cbn [shapes_loop].
  - intros [= <- <- <-]. constructor.
  - destruct (link_rel rids rels u) as [[b1 b2] b3].
    destruct (shapes_loop (k + 1) b1 b2 l) as [[x1 x2] x3] eqn:E.
    intros H. injection H as _ _ <-. constructor; [reflexivity|]. eapply IH, E.
Qed.
Lemma write_anchors_app shapes a b : forall pos,
  write_anchors shapes pos (a ++ b) =
  (fst (write_anchors shapes pos a) ++ fst (write_anchors shapes (snd (write_anchors shapes pos a)) b),
   snd (write_anchors shapes (snd (write_anchors shapes pos a)) b)).
Proof.
  induction a as [|d a IH]; intros pos; cbn [app write_anchors].
  - cbn. destruct (write_anchors shapes pos b); reflexivity.
  - destruct (match di_kind d with DImage => _ | DChart => _ | DShape => _ | DChartSheet => _ end) as [x pos'] eqn:E.
    rewrite IH. destruct (write_anchors shapes pos' a) as [r p']. cbn [fst snd app]. reflexivity.
Qed.
Definition click_of (d : dinfo) : option str := match di_url d with Some n => Some (rid n) | None => None end.
Lemma anchors_images shapes l : Forall (fun d => di_kind d = DImage) l -> forall pos,
  write_anchors shapes pos l = (map (fun d => APic (rid (di_rel d)) (click_of d)) l, pos).
Proof.
  induction 1 as [|d l Hd Hl IH]; intros pos; [reflexivity|]. cbn [write_anchors map]. rewrite Hd, IH. reflexivity.
Qed.
Lemma anchors_charts shapes cs l : forall pos,
  write_anchors shapes pos (map (chart_info cs) l) = (map (fun r => if cs then AAbsChart (rid r) else AChart (rid r)) l, pos).
Proof.
  induction l as [|r l IH]; intros pos; [reflexivity|]. cbn [write_anchors map chart_info di_kind di_rel]. destruct cs; rewrite IH; reflexivity.
Qed.
Lemma anchors_shapes old new l : Forall (fun d => di_kind d = DShape) l -> length l = length new -> 
  write_anchors (old ++ new) (N.of_nat (length old)) l =
    (map (fun x => AShape (Some (fst x)) (click_of (snd x))) (combine new l), N.of_nat (length (old ++ new))).
Proof.
  intros Hl. revert old new. induction Hl as [|d l Hd Hl IH]; intros old new Hn.
  - destruct new; [|discriminate]. rewrite app_nil_r. reflexivity.
  - destruct new as [|b new]; [discriminate|]. injection Hn as Hn. cbn [write_anchors combine map fst snd]. rewrite Hd.
    rewrite Nnat.Nat2N.id, nth_error_app2, Nat.sub_diag by lia. cbn [nth_error].
    specialize (IH (old ++ [b]) new Hn). rewrite <- app_assoc in IH. cbn [app] in IH.
    replace (N.of_nat (length (old ++ [b]))) with (N.of_nat (length old) + 1) in IH by (rewrite app_length; cbn; lia).
    rewrite IH. reflexivity.
Qed.
(** All the anchors of a sheet. *)
Lemma sheet_anchors_eq st s : hid_ok s -> let p := prep1 st s in let u := ps_u s in let g := s_g st in
  sheet_anchors p =
  (map (fun d => APic (rid (di_rel d)) (click_of d)) (im_infos g u)
   ++ map (fun r => if u_chartsheet u then AAbsChart (rid r) else AChart (rid r))
        (seq_from (N.of_nat (length (im_rels g u)) + 1) (length (u_charts u)))
   ++ map (fun x => AShape (Some (fst x)) (click_of (snd x))) (combine (map fst (u_shapes u)) (snd (sh_step g u))),
   N.of_nat (length (all_shapes p))).
Proof.
  intros (H1 & H2 & H3 & H4) p u g. unfold sheet_anchors.
  destruct (drawings_parts g (h_linkage (ps_h s)) u) as (_ & _ & Ei & _).
  subst p. unfold all_shapes, prep1. cbn [p_d p_sheet p_u]. fold u. fold g. rewrite Ei, H2.
  change (p_u {| p_sheet := s; p_d := _; p_v := _; p_t := _; p_emb := _ |}) with u.
  assert (Hi : Forall (fun d => di_kind d = DImage) (im_infos g u)).
  { unfold im_infos. destruct (im_step g u) as [[[[a b] c] d] e] eqn:E. unfold im_step in E. eapply images_loop_kind, E. }
  assert (Hs : Forall (fun d => di_kind d = DShape) (snd (sh_step g u)) /\ length (snd (sh_step g u)) = length (u_shapes u)).
  { unfold sh_step. destruct (shapes_loop _ _ _ (u_shapes u)) as [[a b] c] eqn:E. split; [eapply shapes_loop_kind, E|eapply shapes_loop_len, E]. }
  destruct Hs as [Hs Hsl].
  rewrite write_anchors_app, (anchors_images _ _ Hi). cbn [fst snd].
  unfold ch_infos. rewrite write_anchors_app, anchors_charts. cbn [fst snd].
  rewrite anchors_shapes; [reflexivity|exact Hs|]. rewrite map_length. exact Hsl.
Qed.

(** ** Reachable states *)
Lemma fresh_ok s : fresh s -> hid_ok s.
Proof.
  unfold fresh, hid_ok, set_default_note_author. intros [->|[a ->]].
  - cbn. repeat split; try discriminate; auto.
  - destruct (52 <? char_count a); cbn; repeat split; try discriminate; auto.
Qed.
Lemma edited_ok s s' : edited s s' -> hid_ok s -> hid_ok s'.
Proof.
  intros (Hh & Hi & Hs) (H1 & H2 & H3 & H4).
  assert (E : h_linkage (ps_h s') = h_linkage (ps_h s) /\ h_shape_pos (ps_h s') = h_shape_pos (ps_h s) /\
              h_shapes (ps_h s') = h_shapes (ps_h s) /\ h_cvml (ps_h s') = h_cvml (ps_h s) /\ h_bvml (ps_h s') = h_bvml (ps_h s)).
  { destruct Hh as [->|[a ->]]; [auto|]. unfold set_default_note_author. destruct (52 <? char_count a); cbn; auto. }
  destruct E as (E1 & E2 & E3 & E4 & E5). unfold hid_ok. rewrite E1, E2, E3, E4, E5.
  repeat split; try assumption. intros Hl. destruct (H1 Hl); [left|right]; auto.
Qed.
Lemma save_inv m lower b b' pkg : save_pkg m lower b = Some (b', Saved pkg) ->
  let emb := fst (prepare_embedded (map ps_u (w_sheets b))) in
  let l := prep_st (st0 (N.of_nat (length emb))) (w_sheets b) in
  assemble m b emb l = Some pkg /\ b' = with_sheets b (map (fun p => sheet_after p true true) l) /\
  w_bad_chart b = false /\ w_bad_name b = false /\
  dup_table lower [] (flat_map (fun p => map fst (t_tables (p_t p))) l) = None.
Proof.
  unfold save_pkg. destruct (prepare b) as [emb l] eqn:E. apply prepare_st in E as [E1 E2]. rewrite <- E1. cbn zeta. rewrite <- E2.
  destruct (w_bad_chart b); [discriminate|].
  destruct (dup_table lower [] _); [discriminate|].
  destruct (w_bad_name b); [discriminate|].
  destruct (assemble m b emb l) as [pk|]; cbn [obind]; [|discriminate].
  intros H. injection H as <- <-. auto 6.
Qed.
Lemma in_prep_st sheets st p : In p (prep_st st sheets) -> exists l1 s l2, sheets = l1 ++ s :: l2 /\ p = prep1 (after st l1) s.
Proof.
  intros H. apply in_split in H as (pre & post & E). apply prep_st_split in E as (l1 & s & l2 & E & _ & Ep & _). eauto.
Qed.
Lemma Forall_mid {A} (P : A -> Prop) a x b : Forall P (a ++ x :: b) -> Forall P a /\ P x /\ Forall P b.
Proof. intros H. apply Forall_app in H as [H1 H2]. inversion H2; subst. auto. Qed.
Lemma save_ok m lower b b' pkg : save_pkg m lower b = Some (b', Saved pkg) -> Forall hid_ok (w_sheets b) -> Forall hid_ok (w_sheets b').
Proof.
  intros H Hok. apply save_inv in H as (_ & -> & _). cbn [w_sheets with_sheets].
  apply Forall_forall. intros s' Hs'. apply in_map_iff in Hs' as (p & <- & Hp).
  apply in_prep_st in Hp as (l1 & s & l2 & E & ->). rewrite E in Hok. apply Forall_mid in Hok as (_ & Hs & _).
  set (st := after _ l1). unfold sheet_after, hid_ok. cbn [ps_h h_linkage h_shape_pos h_shapes h_cvml h_bvml ps_u u_images u_shapes].
  destruct (prepare_sheet_drawings (s_g st) (h_linkage (ps_h s)) (ps_u s)) as [g' d] eqn:Ed.
  assert (Hd := Ed). apply prepare_sheet_drawings_spec in Hd; [|apply Hs].
  split; [|split; [|split]].
  - unfold prep1. rewrite Ed. cbn [p_d snd]. intros Hl. apply Hd in Hl. exact Hl.
  - rewrite (sheet_anchors_eq st s Hs). reflexivity.
  - change (p_u (prep1 st s)) with (ps_u s). destruct (has_vml (ps_u s)); [reflexivity|]. cbn. apply Hs.
  - change (p_u (prep1 st s)) with (ps_u s). destruct (has_vml (ps_u s)); [reflexivity|]. cbn. apply Hs.
Qed.
Theorem reach_ok m lower b : reach m lower b -> Forall hid_ok (w_sheets b).
Proof.
  induction 1 as [b H|b b' _ IH H|b b' pkg _ IH H].
  - apply Forall_forall. intros s Hs. apply fresh_ok, H, Hs.
  - apply Forall_forall. intros s' Hs. destruct (H s' Hs) as [Hf|(s & Hs' & He)]; [apply fresh_ok, Hf|].
    eapply edited_ok; [exact He|]. rewrite Forall_forall in IH. auto.
  - eapply save_ok; eassumption.
Qed.

(** ** The saved package *)
Record parts := { a_rr : list (str * rel); a_wr : list (str * rel); a_ws : package; a_cs : package; a_vml : package;
                  a_vr : list (str * rel); a_dr : package; a_ri : list (str * rel) }.
Definition vba_parts (b : pbook) (vr : list (str * rel)) : package :=
  match w_vba b with
  | Some v => (render NVba, CBytes v)
              :: when (negb (is_nil (w_sig b))) [(render NSig, CBytes (w_sig b)); (render NVbaR, CRels vr)]
  | None => []
  end.
Definition rich_parts (o : popts) (emb : list img) (ri : list (str * rel)) : package :=
  when (o_embedded o)
    [(render NRichR, CRels ri); (render NRv, COther); (render NRvT, COther); (render NRvS, COther);
     (render NRvRel, CRichRel (map rid (up_to (N.of_nat (length emb)))))].
Definition all_parts (b : pbook) (emb : list img) (l : list prep) (a : parts) : package :=
  let o := package_options b l in
  [(render NTypes, content_types b o l); (render NRoot, CRels (a_rr a)); (render NWbR, CRels (a_wr a));
   (render NTheme, COther); (render NStyles, COther); (render NWb, COther)]
  ++ a_ws a ++ a_cs a ++ when (o_sst o) [(render NSst, COther)]
  ++ [(render NCore, COther); (render NApp, COther)] ++ when (o_custom o) [(render NCustom, COther)]
  ++ write_drawings 1 l ++ a_vml a ++ write_comments 1 l ++ write_images emb (map p_u l) ++ write_charts (map p_u l)
  ++ write_tables l ++ vba_parts b (a_vr a) ++ a_dr a ++ when (o_metadata o) [(render NMeta, COther)]
  ++ rich_parts o emb (a_ri a) ++ when (o_bags o) [(render NBag, COther)].
Definition sig_rel : rel := office_rel (lit "2006") (lit "vbaProjectSignature") (lit "vbaProjectSignature.bin").
Lemma assemble_inv m b emb l pkg : assemble m b emb l = Some pkg -> exists a,
  pkg = all_parts b emb l a /\
  write_rels m (root_rels (package_options b l)) = Some (a_rr a) /\
  write_rels m (workbook_rels (package_options b l) l) = Some (a_wr a) /\
  write_worksheets m 1 l = Some (a_ws a) /\ write_chartsheets m 1 l = Some (a_cs a) /\
  write_vmls m 1 1 l = Some (a_vml a) /\ write_rels m [sig_rel] = Some (a_vr a) /\
  write_drawing_rels m 0 l = Some (a_dr a) /\ write_rels m (rich_rels 1 emb) = Some (a_ri a).
Proof.
  unfold assemble.
  destruct (write_rels m (root_rels (package_options b l))) as [rr|]; cbn [obind]; [|discriminate].
  destruct (write_rels m (workbook_rels (package_options b l) l)) as [wr|]; cbn [obind]; [|discriminate].
  destruct (write_worksheets m 1 l) as [ws|]; cbn [obind]; [|discriminate].
  destruct (write_chartsheets m 1 l) as [cs|]; cbn [obind]; [|discriminate].
  destruct (write_vmls m 1 1 l) as [vml|]; cbn [obind]; [|discriminate].
  fold sig_rel. destruct (write_rels m [sig_rel]) as [vr|]; cbn [obind]; [|discriminate].
  destruct (write_drawing_rels m 0 l) as [dr|]; cbn [obind]; [|discriminate].
  destruct (write_rels m (rich_rels 1 emb)) as [ri|]; cbn [obind]; [|discriminate].
  intros H. exists {| a_rr := rr; a_wr := wr; a_ws := ws; a_cs := cs; a_vml := vml; a_vr := vr; a_dr := dr; a_ri := ri |}.
  cbn [a_rr a_wr a_ws a_cs a_vml a_vr a_dr a_ri]. split; [|auto 9].
  injection H as <-. reflexivity.
Qed.

Lemma prep_infos_ok sheets st : Forall hid_ok sheets -> Forall infos_ok (prep_st st sheets).
Proof.
  intros H. apply Forall_forall. intros p Hp. apply in_prep_st in Hp as (l1 & s & l2 & -> & ->).
  apply Forall_mid in H as (_ & Hs & _). unfold infos_ok, prep1. cbn [p_d].
  change (p_u _) with (ps_u s).
  destruct (prepare_sheet_drawings _ _ _) as [g' d] eqn:Ed. apply prepare_sheet_drawings_spec in Ed; [|apply Hs].
  cbn [snd]. apply Ed.
Qed.
Lemma images_loop_nil ids id rids rels ids' id' rids' rels' ds :
  images_loop ids id rids rels [] = (ids', id', rids', rels', ds) -> rels' = rels.
Proof. cbn. congruence. Qed.
Lemma prep_rels_dr sheets st : Forall (fun p => d_rels (p_d p) <> [] -> has_dr (p_u p) = true) (prep_st st sheets).
Proof.
  apply Forall_forall. intros p Hp. apply in_prep_st in Hp as (l1 & s & l2 & -> & ->).
  unfold prep1. cbn [p_d]. change (p_u _) with (ps_u s). set (g := s_g _).
  destruct (drawings_parts g (h_linkage (ps_h s)) (ps_u s)) as (_ & -> & _).
  unfold has_dr. destruct (u_images (ps_u s)) eqn:Ei, (u_charts (ps_u s)) eqn:Ec, (u_shapes (ps_u s)) eqn:Es; try reflexivity.
  intros H. exfalso. apply H. unfold sh_step, ch_rels, im_rels, im_step. rewrite Es, Ec, Ei. reflexivity.
Qed.
Lemma pkg_named m b emb sheets e pkg a : pkg = all_parts b emb (prep_st (st0 e) sheets) a ->
  Forall hid_ok sheets ->
  write_worksheets m 1 (prep_st (st0 e) sheets) = Some (a_ws a) -> write_chartsheets m 1 (prep_st (st0 e) sheets) = Some (a_cs a) ->
  write_vmls m 1 1 (prep_st (st0 e) sheets) = Some (a_vml a) ->
  write_drawing_rels m 0 (prep_st (st0 e) sheets) = Some (a_dr a) ->
  NoDup (map fst pkg).
Proof.
  intros -> Hok Hws Hcs Hvml Hdr. apply (named_NoDup 0 29). unfold all_parts.
  apply ws_named, numd_named in Hws. apply cs_named, numd_named in Hcs. apply vml_named, numd_named in Hvml.
  apply drr_named, numd_named in Hdr; [|apply prep_infos_ok, Hok|apply prep_rels_dr].
  set (l := prep_st (st0 e) sheets) in *.
  change 29 with (28 + 1).
  eapply (named_app 0 6); [|eapply (named_app 6 7 _ _ _ Hws)|lia|lia].
  { do 5 (eapply named_cons; [reflexivity| |cbn; lia]). apply (named_one NWb). }
  2,3: lia.
  eapply (named_app 7 8 _ _ _ Hcs); [|lia|lia].
  eapply (named_app 8 9 _ _ _ (named_when NSst _ _)); [|lia|lia].
  eapply (named_app 9 11); [| |lia|lia].
  { eapply named_cons; [reflexivity| |cbn; lia]. apply (named_one NApp). }
  eapply (named_app 11 12 _ _ _ (named_when NCustom _ _)); [|lia|lia].
  eapply (named_app 12 13 _ _ _ (numd_named _ _ _ (dr_named l 1))); [|lia|lia].
  eapply (named_app 13 14 _ _ _ Hvml); [|lia|lia].
  eapply (named_app 14 15 _ _ _ (numd_named _ _ _ (com_named l 1))); [|lia|lia].
  eapply (named_app 15 16 _ _ _ (numd_named _ _ _ (images_named emb _))); [|lia|lia].
  eapply (named_app 16 17 _ _ _ (numd_named _ _ _ (charts_named _))); [|lia|lia].
  eapply (named_app 17 18 _ _ _ (numd_named _ _ _ (tables_named l))); [|lia|lia].
  eapply (named_app 18 21); [| |lia|lia].
  { unfold vba_parts. destruct (w_vba b); [|apply named_nil].
    eapply named_cons; [reflexivity| |cbn; lia]. destruct (negb (is_nil (w_sig b))); [|apply named_nil].
    eapply named_cons; [reflexivity| |cbn; lia]. apply (named_one NVbaR). }
  eapply (named_app 21 22 _ _ _ Hdr); [|lia|lia].
  eapply (named_app 22 23 _ _ _ (named_when NMeta _ _)); [|lia|lia].
  eapply (named_app 23 28); [| |lia|lia].
  { unfold rich_parts. destruct (o_embedded _); [|apply named_nil].
    do 4 (eapply named_cons; [reflexivity| |cbn; lia]). apply (named_one NRvRel). }
  apply (named_when NBag).
Qed.
