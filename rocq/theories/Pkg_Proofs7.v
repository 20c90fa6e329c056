(** Package level, part 7: chartsheets, drawings and the charts in them. *)
From Verif Require Import Base Xml_Model Url_Model Book_Model Book_Proofs Pkg_Model Pkg_Spec Pkg_Names Pkg_Proofs Pkg_Proofs2 Pkg_Proofs3 Pkg_Proofs4 Pkg_Proofs5 Pkg_Proofs6.

Lemma opens_det pkg src id ty n1 c1 n2 c2 : opens pkg src id ty n1 c1 -> opens pkg src id ty n2 c2 -> n1 = n2 /\ c1 = c2.
Proof.
  intros (r1 & A1 & _ & _ & A4 & A5) (r2 & B1 & _ & _ & B4 & B5). rewrite A1 in B1. injection B1 as <-.
  subst n1 n2. rewrite A5 in B5. injection B5 as <-. auto.
Qed.
Lemma sheet_part_det pkg i u n1 d1 n2 d2 : sheet_part pkg i u n1 d1 -> sheet_part pkg i u n2 d2 -> n1 = n2 /\ d1 = d2.
Proof. intros A B. destruct (opens_det _ _ _ _ _ _ _ _ A B) as [-> E]. injection E as <-. auto. Qed.
Lemma sheet_drawing_det pkg i u n1 l1 n2 l2 : sheet_drawing pkg i u n1 l1 -> sheet_drawing pkg i u n2 l2 -> n1 = n2 /\ l1 = l2.
Proof.
  intros (na & d & id & A1 & A2 & A3) (nb & d' & id' & B1 & B2 & B3).
  destruct (sheet_part_det _ _ _ _ _ _ _ A1 B1) as [<- <-]. rewrite A2 in B2. injection B2 as <-.
  destruct (opens_det _ _ _ _ _ _ _ _ A3 B3) as [-> E]. injection E as <-. auto.
Qed.

Lemma shapes_loop_rels l : forall k rids rels rids' rels' ds, shapes_loop k rids rels l = (rids', rels', ds) -> exists e, rels' = rels ++ e.
Proof.
  induction l as [|[i u] l IH]; intros k rids rels rids' rels' ds; cbn [shapes_loop].
  - intros [= <- <- <-]. exists []. rewrite app_nil_r. reflexivity.
  - destruct (link_rel rids rels u) as [[b1 b2] b3] eqn:El.
    destruct (shapes_loop (k + 1) b1 b2 l) as [[x1 x2] x3] eqn:E.
    intros H. injection H as _ <- _. apply IH in E as [e ->].
    unfold link_rel in El. destruct u as [u|]; [destruct (am_get (link u) rids)|].
    + injection El as _ <- _. eauto.
    + injection El as _ <- _. rewrite <- app_assoc. eauto.
    + injection El as _ <- _. eauto.
Qed.
Lemma pics_in_app x y : pics_in (x ++ y) = pics_in x ++ pics_in y. Proof. apply flat_map_app. Qed.
Lemma charts_in_app x y : charts_in (x ++ y) = charts_in x ++ charts_in y. Proof. apply flat_map_app. Qed.
Lemma shapes_in_app x y : shapes_in (x ++ y) = shapes_in x ++ shapes_in y. Proof. apply flat_map_app. Qed.
Lemma anchors_parts {A B} (P : list A) (fe fc : A -> _) (C : list N) (S : list B) (sb sc : B -> _) (cs : bool) :
  let l := map (fun d => APic (fe d) (fc d)) P ++ map (fun r => if cs then AAbsChart (rid r) else AChart (rid r)) C
           ++ map (fun x => AShape (sb x) (sc x)) S in
  pics_in l = map (fun d => (fe d, fc d)) P /\ charts_in l = map rid C /\ shapes_in l = map (fun x => (sb x, sc x)) S.
Proof.
  cbn zeta. rewrite !pics_in_app, !charts_in_app, !shapes_in_app.
  assert (H1 : pics_in (map (fun d => APic (fe d) (fc d)) P) = map (fun d => (fe d, fc d)) P /\
               charts_in (map (fun d => APic (fe d) (fc d)) P) = [] /\ shapes_in (map (fun d => APic (fe d) (fc d)) P) = []).
  { induction P as [|x P (A1 & A2 & A3)]; [auto|]. cbn [map]. split; [cbn; f_equal; exact A1|]. split; [exact A2|exact A3]. }
  assert (H2 : pics_in (map (fun r => if cs then AAbsChart (rid r) else AChart (rid r)) C) = [] /\
               charts_in (map (fun r => if cs then AAbsChart (rid r) else AChart (rid r)) C) = map rid C /\
               shapes_in (map (fun r => if cs then AAbsChart (rid r) else AChart (rid r)) C) = []).
  { induction C as [|x C (A1 & A2 & A3)]; [auto|]. cbn [map]. destruct cs; (split; [exact A1|]); (split; [cbn [charts_in flat_map app]; f_equal; exact A2|exact A3]). }
  assert (H3 : pics_in (map (fun x => AShape (sb x) (sc x)) S) = [] /\ charts_in (map (fun x => AShape (sb x) (sc x)) S) = [] /\
               shapes_in (map (fun x => AShape (sb x) (sc x)) S) = map (fun x => (sb x, sc x)) S).
  { induction S as [|x S (A1 & A2 & A3)]; [auto|]. cbn [map]. split; [exact A1|]. split; [exact A2|]. cbn; f_equal; exact A3. }
  destruct H1 as (-> & -> & ->), H2 as (-> & -> & ->), H3 as (-> & -> & ->). rewrite ?app_nil_r. auto.
Qed.

Section World.
Variables (m : ovf) (b : pbook) (pkg : package) (emb : list img) (l : list prep) (a : parts).
Hypothesis W : world m b pkg emb l a.
Hypothesis Hr : rels_ok m pkg.

(** The drawing part of a sheet with objects. *)
Definition dr_name (i : nat) : str := render (NDr (1 + sumN n_dr (map ps_u (firstn i (w_sheets b))))).
Lemma sheet_at i s : nth_error (w_sheets b) i = Some s -> exists l1 l2 pre post,
  let st := after (st0 (N.of_nat (length emb))) l1 in
  w_sheets b = l1 ++ s :: l2 /\ length l1 = i /\ l = pre ++ prep1 st s :: post /\ length pre = i /\
  pre = prep_st (st0 (N.of_nat (length emb))) l1 /\
  firstn i (w_sheets b) = l1 /\ (forall f, cnt f pre = sumN f (map ps_u l1)) /\ Forall hid_ok l1 /\ hid_ok s.
Proof.
  intros Hi. destruct (nth_sheet m b pkg emb l a W i s Hi) as (l1 & l2 & E1 & El & E2 & Hl1 & Hs).
  eexists l1, l2, _, _. cbn zeta. split; [exact E1|]. split; [exact El|]. split; [exact E2|].
  split; [rewrite <- (map_length p_u), prep_st_us, map_length; exact El|]. split; [reflexivity|].
  split; [rewrite E1, <- El, firstn_app, Nat.sub_diag, firstn_all; cbn [firstn]; apply app_nil_r|].
  split; [intros f; apply cnt_st|]. auto.
Qed.
Lemma drawing_of_sheet i s : nth_error (w_sheets b) i = Some s -> has_objects (ps_u s) = true ->
  sheet_drawing pkg i (ps_u s) (dr_name i) (fst (sheet_anchors (prep1 (after (st0 (N.of_nat (length emb))) (firstn i (w_sheets b))) s))).
Proof.
  intros Hi Ho. destruct (sheet_at i s Hi) as (l1 & l2 & pre & post & E1 & El & E2 & Hlen & Epre & Hf & Hcnt & Hl1 & Hs). cbn zeta in *.
  unfold dr_name. rewrite Hf. set (st := after _ l1) in *.
  assert (Hin : In (render (NDr (1 + sumN n_dr (map ps_u l1))), CDrawing (fst (sheet_anchors (prep1 st s)))) pkg).
  { rewrite <- Hcnt. eapply drawing_in; [exact W|exact E2|]. change (p_u (prep1 st s)) with (ps_u s). rewrite has_dr_objects. exact Ho. }
  destruct (u_chartsheet (ps_u s)) eqn:Hc.
  - exists (render (NCs (1 + cnt n_cs pre))), (write_chartsheet_doc (prep1 st s)), (rid 1).
    split; [rewrite <- Hlen; exact (cs_opens m b pkg emb l a W Hr pre (prep1 st s) post E2 Hc)|].
    destruct (prep1_facts (N.of_nat (length emb)) l1 s Hl1 Hs) as (F1 & F2 & _). fold st in F1, F2.
    split.
    + unfold write_chartsheet_doc. rewrite F2, negb_involutive, has_dr_objects, Ho. cbn [bump].
      destruct (bump _ _). reflexivity.
    + assert (Hx : rel_of pkg (render (NCs (1 + cnt n_cs pre))) (rid (1 + N.of_nat 0)) = Some (drawing_link (1 + sumN n_dr (map ps_u l1)))).
      { eapply cs_rel_at; [exact W|exact Hr|exact E2|exact Hc|]. rewrite F1, has_dr_objects, Ho. reflexivity. }
      apply (opens_intro m b pkg emb l a W _ _ _ _ _ (drawing_link (1 + sumN n_dr (map ps_u l1)))); [exact Hx|reflexivity|reflexivity|apply res_drawing, xl3_cs|exact Hin].
  - destruct (worksheet_refs m b pkg emb l a W Hr i s Hi Hc) as (name & d & P1 & _ & _ & P2 & _).
    rewrite Ho in P2. cbn [ref_when] in P2. destruct P2 as (id & Hid & k & l' & -> & Hop).
    exists name, d, id. split; [exact P1|]. split; [exact Hid|].
    rewrite Hf in Hop. destruct Hop as (r & R1 & R2 & R3 & R4 & R5). exists r. split; [exact R1|]. split; [exact R2|]. split; [exact R3|]. split; [exact R4|].
    apply (find_in m b pkg emb l a W). exact Hin.
Qed.

(** Charts and shapes of the drawing. *)
Lemma drawing_charts i s part anchors : nth_error (w_sheets b) i = Some s -> sheet_drawing pkg i (ps_u s) part anchors ->
  has_objects (ps_u s) = true ->
  part = dr_name i /\
  Forall2 (fun (jc : nat * N) id =>
             opens pkg part id "chart" (numbered "xl/charts/chart" (before u_charts i b + N.of_nat (fst jc) + 1) ".xml") (CChart (snd jc)))
    (combine (seq 0 (length (u_charts (ps_u s)))) (u_charts (ps_u s))) (charts_in anchors) /\
  map fst (shapes_in anchors) = map (fun x => Some (fst x)) (u_shapes (ps_u s)) /\
  length (pics_in anchors) = length (u_images (ps_u s)).
Proof.
  intros Hi Hd Ho. destruct (sheet_drawing_det _ _ _ _ _ _ _ Hd (drawing_of_sheet i s Hi Ho)) as [-> ->].
  split; [reflexivity|].
  destruct (sheet_at i s Hi) as (l1 & l2 & pre & post & E1 & El & E2 & Hlen & Epre & Hf & Hcnt & Hl1 & Hs). cbn zeta in *.
  unfold dr_name. rewrite Hf. set (st := after _ l1) in *. set (u := ps_u s) in *. set (g := s_g st).
  rewrite (sheet_anchors_eq st s Hs). cbn [fst]. fold u g.
  set (R := N.of_nat (length (im_rels g u)) + 1).
  destruct (anchors_parts (im_infos g u) (fun d => rid (di_rel d)) click_of (seq_from R (length (u_charts u)))
              (combine (map fst (u_shapes u)) (snd (sh_step g u))) (fun x => Some (fst x)) (fun x => click_of (snd x)) (u_chartsheet u)) as (Q1 & Q2 & Q3).
  rewrite Q1, Q2, Q3. clear Q1 Q2 Q3.
  destruct (drawings_parts g (h_linkage (ps_h s)) u) as (_ & Er & _).
  split; [|split].
  - apply Forall2_nth; [rewrite map_length, seq_from_len, combine_length, seq_length; lia|].
    intros j [jj c] id Hj Hid.
    assert (Hjt : nth_error (u_charts u) j = Some c /\ jj = j).
    { clear - Hj. assert (G : forall (T : list N) k0 j jj t, nth_error (combine (seq k0 (length T)) T) j = Some (jj, t) ->
           nth_error T j = Some t /\ jj = (k0 + j)%nat).
      { induction T as [|x T IH]; intros k0 [|j0] jj0 t0; cbn [length seq combine nth_error]; try discriminate.
        - intros H. injection H as <- <-. split; [reflexivity|lia].
        - intros H. apply IH in H as [? ?]. split; [assumption|lia]. }
      apply G in Hj as [? ?]. split; [assumption|lia]. }
    destruct Hjt as [Hjt ->]. cbn [fst snd].
    assert (Hlt : (j < length (u_charts u))%nat) by (apply nth_error_Some; congruence).
    rewrite nth_error_map, seq_from_nth in Hid by exact Hlt. cbn [option_map] in Hid.
    assert (Hk : before u_charts i b = sumN n_ch (map ps_u l1)).
    { rewrite <- El, (before_split u_charts b l1 s l2 E1). unfold n_ch. rewrite sumN_len. reflexivity. }
    rewrite Hk. set (k := sumN n_ch (map ps_u l1) + N.of_nat j + 1).
    assert (Hx : rel_of pkg (render (NDr (1 + cnt n_dr pre))) (rid (1 + N.of_nat (length (im_rels g u) + j))) = Some (chart_rel k)).
    { eapply dr_rel_at; [exact W|exact Hr|exact E2|].
      change (p_d (prep1 st s)) with (snd (prepare_sheet_drawings g (h_linkage (ps_h s)) u)). rewrite Er.
      unfold sh_step. destruct (shapes_loop (g_shape g) (ch_rids g u) (ch_rels g u) (u_shapes u)) as [[x1 x2] x3] eqn:Es.
      apply shapes_loop_rels in Es as [e ->]. cbn [fst snd]. apply nth_app_l. unfold ch_rels. rewrite nth_app_r.
      rewrite nth_error_map, seq_from_nth by exact Hlt. cbn [option_map].
      destruct (prep1_facts (N.of_nat (length emb)) l1 s Hl1 Hs) as (_ & _ & _ & _ & _ & _ & F7). fold st g in F7. rewrite F7.
      f_equal. f_equal. subst k. lia. }
    injection Hid as <-.
    apply (opens_intro m b pkg emb l a W _ _ _ _ _ (chart_rel k)); [|reflexivity|reflexivity|apply res_chart, xl3_dr|].
    + rewrite <- Hx, Hcnt. f_equal. f_equal. subst R. lia.
    + eapply chart_in; [exact W|subst k; lia|]. subst k.
      replace (N.to_nat (sumN n_ch (map ps_u l1) + N.of_nat j + 1 - 1)) with (length (flat_map u_charts (map ps_u l1)) + j)%nat.
      * rewrite E1. apply flat_nth, Hjt.
      * unfold n_ch. rewrite sumN_len. lia.
  - assert (Hl : length (snd (sh_step g u)) = length (u_shapes u)).
    { unfold sh_step. destruct (shapes_loop _ _ _ (u_shapes u)) as [[x1 x2] x3] eqn:E. eapply shapes_loop_len, E. }
    clear - Hl. revert Hl. generalize (snd (sh_step g u)). induction (u_shapes u) as [|x xs IH]; intros [|y ys] H; try discriminate; [reflexivity|].
    cbn [map combine fst]. f_equal. apply IH. injection H; auto.
  - rewrite map_length. unfold im_infos. destruct (im_step g u) as [[[[x1 x2] x3] x4] x5] eqn:E. unfold im_step in E. eapply images_loop_len, E.
Qed.

(** A chartsheet without notes and buttons. *)
Lemma chartsheet_refs i s : nth_error (w_sheets b) i = Some s -> u_chartsheet (ps_u s) = true ->
  u_notes (ps_u s) = [] -> u_buttons (ps_u s) = [] -> let u := ps_u s in
  exists name d, sheet_part pkg i u name d /\
    ref_when (has_objects u) (sd_drawing d) (fun id => exists part l, opens pkg name id "drawing" part (CDrawing l)) /\
    ref_when (nonempty (u_hf u)) (sd_legacy_hf d) (fun id => exists part v,
      opens pkg name id "vmlDrawing" part (CVml v) /\ length (vd_images v) = length (u_hf u) /\ vd_notes v = [] /\ vd_buttons v = []).
Proof.
  intros Hi Hc Hn Hb u. destruct (sheet_at i s Hi) as (l1 & l2 & pre & post & E1 & El & E2 & Hlen & Epre & Hf & Hcnt & Hl1 & Hs). cbn zeta in *.
  set (st := after _ l1) in *.
  exists (render (NCs (1 + cnt n_cs pre))), (write_chartsheet_doc (prep1 st s)).
  assert (P1 : sheet_part pkg i u (render (NCs (1 + cnt n_cs pre))) (write_chartsheet_doc (prep1 st s))).
  { rewrite <- Hlen; exact (cs_opens m b pkg emb l a W Hr pre (prep1 st s) post E2 Hc). }
  split; [exact P1|].
  destruct (prep1_facts (N.of_nat (length emb)) l1 s Hl1 Hs) as (F1 & F2 & _). fold st u in F1, F2.
  assert (Hv : has_vml u = false) by (unfold has_vml, u; rewrite Hn, Hb; reflexivity).
  rewrite Hv in F1. cbn [app b2n] in F1. rewrite N.add_0_r in F1.
  split.
  - destruct (has_objects u) eqn:Ho; cbn [ref_when].
    + destruct (drawing_of_sheet i s Hi Ho) as (n' & d' & id & A1 & A2 & A3).
      destruct (sheet_part_det _ _ _ _ _ _ _ P1 A1) as [<- <-]. exists id. split; [exact A2|]. eauto.
    + unfold write_chartsheet_doc. rewrite F2, negb_involutive, has_dr_objects, Ho. cbn [bump]. destruct (bump _ _). reflexivity.
  - rewrite is_nil_nonempty. unfold write_chartsheet_doc. rewrite F2, negb_involutive. change (p_u (prep1 st s)) with u.
    destruct (is_nil (u_hf u)) eqn:Hh; cbn [negb ref_when].
    + destruct (bump (has_dr u) 0). cbn. reflexivity.
    + assert (Hb' : bump (has_dr u) 0 = (if has_dr u then Some (rid 1) else None, b2n (has_dr u))) by (destruct (has_dr u); reflexivity).
      rewrite Hb'. cbn [bump sd_legacy_hf]. eexists. split; [reflexivity|].
      assert (Hx : rel_of pkg (render (NCs (1 + cnt n_cs pre))) (rid (1 + N.of_nat (N.to_nat (b2n (has_dr u))))) = Some (vml_link (1 + sumN n_vml (map ps_u l1)))).
      { eapply cs_rel_at; [exact W|exact Hr|exact E2|exact Hc|]. rewrite F1. destruct (has_dr u); reflexivity. }
      exists (render (NVml (1 + sumN n_vml (map ps_u l1)))), (hf_vml (1 + cnt n_hf pre) (prep1 st s)). split; [|split; [|split; reflexivity]].
      * apply (opens_intro m b pkg emb l a W _ _ _ _ _ (vml_link (1 + sumN n_vml (map ps_u l1)))); [|reflexivity|reflexivity|apply res_vml, xl3_cs|].
        -- rewrite <- Hx. f_equal. f_equal. lia.
        -- assert (X := hf_vml_in m b pkg emb l a W pre (prep1 st s) post E2). change (p_u (prep1 st s)) with u in X. rewrite Hv in X.
           cbn [b2n] in X. rewrite N.add_0_r, Hcnt in X. apply X, is_nil_false, Hh.
      * unfold hf_vml. cbn [vd_images]. rewrite <- (map_length fst), number_from_fst, seq_from_len, map_length.
        change (p_d (prep1 st s)) with (snd (prepare_sheet_drawings (s_g st) (h_linkage (ps_h s)) u)).
        destruct (drawings_parts (s_g st) (h_linkage (ps_h s)) u) as (_ & _ & _ & _ & -> & _).
        unfold hf_step. generalize (am_len (fst (fst (bg_step (s_g st) u))) + am_len (im_ids (s_g st) u)).
        generalize (g_hf (s_g st)), (@nil (str * N)), (@nil rel). intros x y z w. clear. revert x y z.
        induction (u_hf u) as [|i0 hs IHh]; intros x y z; cbn [hf_loop]; [reflexivity|].
        destruct (match am_get (im_hash i0) x with Some _ => _ | None => _ end) as [q1 q2].
        destruct (match am_get (im_hash i0) y with Some _ => _ | None => _ end) as [[q3 q4] q5].
        specialize (IHh q1 q3 q4). destruct (hf_loop q1 w q3 q4 hs) as [[z1 z2] z3]. cbn [snd length] in *. f_equal. exact IHh.
Qed.
End World.
