(** Package level, part 6: the references of worksheets, chartsheets and drawings. *)
From Verif Require Import Base Xml_Model Url_Model Book_Model Book_Proofs Pkg_Model Pkg_Spec Pkg_Names Pkg_Proofs Pkg_Proofs2 Pkg_Proofs3 Pkg_Proofs4 Pkg_Proofs5.

Definition hl_rel (u : url) : rel := doc_rel (lit "hyperlink") (relationship_link u) (url_mode u).
Lemma write_links_spec l : forall n ids rels n', write_links n l = (ids, rels, n') ->
  n' = n + N.of_nat (length rels) /\
  Forall2 (fun u id => match ltype u with
                       | LUrl | LFile => exists j, id = Some (rid (n + N.of_nat j)) /\ nth_error rels j = Some (hl_rel u)
                       | _ => id = None end) l ids.
Proof.
  induction l as [|u l IH]; intros n ids rels n'; cbn [write_links].
  - intros [= <- <- <-]. split; [cbn; lia|constructor].
  - assert (G : forall ids0 rels0, Forall2 (fun u id => match ltype u with
                       | LUrl | LFile => exists j, id = Some (rid (n + 1 + N.of_nat j)) /\ nth_error rels0 j = Some (hl_rel u)
                       | _ => id = None end) l ids0 -> forall r0, Forall2 (fun u id => match ltype u with
                       | LUrl | LFile => exists j, id = Some (rid (n + N.of_nat j)) /\ nth_error (r0 :: rels0) j = Some (hl_rel u)
                       | _ => id = None end) l ids0).
    { clear IH. intros ids0 rels0 H r0. induction H as [|x y xs ys Hxy H IH']; [constructor|constructor; [|exact IH']].
      destruct (ltype x); try exact Hxy; destruct Hxy as (j & -> & Hj); exists (S j);
        (split; [f_equal; f_equal; lia|exact Hj]). }
    destruct (ltype u) eqn:Et.
    + destruct (write_links n l) as [[ids0 rels0] n0] eqn:E. intros H. injection H as <- <- <-.
      apply IH in E as [E1 E2]. split; [exact E1|]. constructor; [rewrite Et; reflexivity|exact E2].
    + destruct (write_links (n + 1) l) as [[ids0 rels0] n0] eqn:E. intros H. injection H as <- <- <-.
      apply IH in E as [E1 E2]. split; [cbn [length]; lia|]. constructor; [|apply G, E2].
      rewrite Et. exists O. split; [f_equal; f_equal; lia|reflexivity].
    + destruct (write_links n l) as [[ids0 rels0] n0] eqn:E. intros H. injection H as <- <- <-.
      apply IH in E as [E1 E2]. split; [exact E1|]. constructor; [rewrite Et; reflexivity|exact E2].
    + destruct (write_links (n + 1) l) as [[ids0 rels0] n0] eqn:E. intros H. injection H as <- <- <-.
      apply IH in E as [E1 E2]. split; [cbn [length]; lia|]. constructor; [|apply G, E2].
      rewrite Et. exists O. split; [f_equal; f_equal; lia|reflexivity].
Qed.
Lemma number_from_snd {A} (l : list A) : forall n, map snd (number_from n l) = l.
Proof. induction l as [|x l IH]; intros n; cbn [number_from map snd]; [reflexivity|]. f_equal. apply IH. Qed.
Lemma nth_app_r {A} (a b : list A) k : nth_error (a ++ b) (length a + k) = nth_error b k.
Proof. rewrite nth_error_app2 by lia. f_equal. lia. Qed.
Lemma nth_app_l {A} (a b : list A) k x : nth_error a k = Some x -> nth_error (a ++ b) k = Some x.
Proof. intros H. rewrite nth_error_app1; [exact H|]. apply nth_error_Some. congruence. Qed.
Lemma hl_links pkg src id u : rel_of pkg src id = Some (hl_rel u) -> links_to pkg src id u.
Proof.
  intros H. unfold links_to. rewrite H. unfold hl_rel, doc_rel, DOC, url_mode, target_external.
  destruct (ltype u); reflexivity.
Qed.
Lemma has_dr_objects u : has_dr u = has_objects u.
Proof. unfold has_dr, has_objects, nonempty, is_nil. destruct (u_images u), (u_charts u), (u_shapes u); reflexivity. Qed.
Lemma has_vml_spec u : has_vml u = nonempty (u_notes u) || nonempty (u_buttons u).
Proof. unfold has_vml, nonempty, is_nil. destruct (u_notes u), (u_buttons u); reflexivity. Qed.
Lemma is_nil_nonempty {A} (l : list A) : nonempty l = negb (is_nil l).
Proof. destruct l; reflexivity. Qed.

(** The numbers in the relationships of a prepared sheet. *)
Lemma prep1_facts emb l1 s : Forall hid_ok l1 -> hid_ok s ->
  let st := after (st0 emb) l1 in let p := prep1 st s in let u := ps_u s in let us := map ps_u l1 in
  p_dobj p = (if has_dr u then [drawing_link (1 + sumN n_dr us)] else [])
             ++ (if has_vml u then [vml_link (1 + sumN n_vml us)] else [])
             ++ (if is_nil (u_hf u) then [] else [vml_link (1 + sumN n_vml us + b2n (has_vml u))]) /\
  is_nil (d_infos (p_d p)) = negb (has_dr u) /\
  is_nil (d_bg (p_d p)) = negb (is_some (u_bg u)) /\ (length (d_bg (p_d p)) <= 1)%nat /\
  t_rels (p_t p) = map (fun k => doc_rel (lit "table") (numbered "../tables/table" k ".xml") []) (seq_from (1 + sumN n_tb us) (length (u_tables u))) /\
  v_comment (p_v p) = (if is_nil (u_notes u) then [] else [doc_rel (lit "comments") (numbered "../comments" (1 + sumN n_com us) ".xml") []]) /\
  g_chart (s_g st) = 1 + sumN n_ch us.
Proof.
  intros Hl Hs st p u us. subst p. unfold p_dobj, prep1. cbn [p_d p_v p_t t_rels].
  destruct (after_counters l1 Hl (st0 emb)) as (C1 & C2 & C3 & C4 & C5). fold st us in C1, C2, C3, C4, C5.
  cbn [st0 s_g s_q s_t g0 q0 g_chart g_drawing q_vml q_comment] in C1, C2, C3, C4, C5.
  destruct (prepare_sheet_drawings (s_g st) (h_linkage (ps_h s)) (ps_u s)) as [g' d] eqn:Ed.
  destruct (prepare_sheet_vml (s_q st) (h_authors (ps_h s)) (ps_u s)) as [q' v] eqn:Ev.
  apply prepare_sheet_drawings_spec in Ed; [|apply Hs]. apply prepare_sheet_vml_spec in Ev. cbn [snd].
  destruct Ed as (_ & _ & E3 & -> & _ & E5 & E6), Ev as (_ & _ & -> & -> & _).
  rewrite C2, C3, C4, <- C5. fold u. rewrite name_tables_eq. cbn [snd].
  split; [reflexivity|]. split; [exact E3|]. split; [exact E5|]. split; [exact E6|]. split; [reflexivity|]. split; [reflexivity|exact C1].
Qed.

Lemma sumN_len {A} (f : usheet -> list A) (us : list usheet) : sumN (fun u => N.of_nat (length (f u))) us = N.of_nat (length (flat_map f us)).
Proof. induction us as [|u us IH]; [reflexivity|]. cbn [sumN flat_map]. rewrite IH, app_length. lia. Qed.
Lemma before_split {A} (f : usheet -> list A) b l1 s l2 : w_sheets b = l1 ++ s :: l2 ->
  before f (length l1) b = N.of_nat (length (flat_map f (map ps_u l1))).
Proof.
  intros E. unfold before. rewrite E, firstn_app, Nat.sub_diag, firstn_all. cbn [firstn]. rewrite app_nil_r. reflexivity.
Qed.
Lemma flat_nth {A} (f : usheet -> list A) l1 s l2 j x : nth_error (f (ps_u s)) j = Some x ->
  nth_error (flat_map f (map ps_u (l1 ++ s :: l2))) (length (flat_map f (map ps_u l1)) + j) = Some x.
Proof.
  intros H. rewrite map_app, flat_map_app, nth_app_r. cbn [map flat_map]. apply nth_app_l, H.
Qed.
Lemma seq_from_nth k : forall n j, (j < k)%nat -> nth_error (seq_from n k) j = Some (n + N.of_nat j).
Proof.
  induction k as [|k IH]; intros n [|j] H; cbn [seq_from nth_error]; try lia.
  - f_equal. lia.
  - rewrite IH by lia. f_equal. lia.
Qed.
Lemma Forall2_nth {A B} (R : A -> B -> Prop) la lb : length la = length lb ->
  (forall j x y, nth_error la j = Some x -> nth_error lb j = Some y -> R x y) -> Forall2 R la lb.
Proof.
  revert lb. induction la as [|x la IH]; intros [|y lb] Hl H; try discriminate; constructor.
  - apply (H O); reflexivity.
  - apply IH; [injection Hl; auto|]. intros j. apply (H (S j)).
Qed.

Section World.
Variables (m : ovf) (b : pbook) (pkg : package) (emb : list img) (l : list prep) (a : parts).
Hypothesis W : world m b pkg emb l a.
Hypothesis Hr : rels_ok m pkg.

Lemma opens_intro src id ty name c r :
  rel_of pkg src id = Some r -> r_type r = DOC ty -> r_mode r = [] -> resolve src (r_target r) = name -> In (name, c) pkg ->
  opens pkg src id ty name c.
Proof. intros H1 H2 H3 H4 H5. exists r. repeat split; try assumption. eapply find_in; eassumption. Qed.

(** A worksheet. *)
Theorem worksheet_refs i s : nth_error (w_sheets b) i = Some s -> u_chartsheet (ps_u s) = false ->
  let u := ps_u s in
  exists name d, sheet_part pkg i u name d /\
    (exists n, name = numbered "xl/worksheets/sheet" n ".xml") /\
    hyperlinks_ok pkg name (u_links u) (sd_links d) /\
    ref_when (has_objects u) (sd_drawing d) (fun id => exists k l, k = 1 + sumN n_dr (map ps_u (firstn i (w_sheets b))) /\
      opens pkg name id "drawing" (numbered "xl/drawings/drawing" k ".xml") (CDrawing l)) /\
    ref_when (nonempty (u_notes u) || nonempty (u_buttons u)) (sd_legacy d) (fun id => exists part v,
      opens pkg name id "vmlDrawing" part (CVml v) /\ map snd (vd_notes v) = u_notes u /\ map snd (vd_buttons v) = u_buttons u /\ vd_images v = []) /\
    ref_when (nonempty (u_hf u)) (sd_legacy_hf d) (fun id => exists part v,
      opens pkg name id "vmlDrawing" part (CVml v) /\ length (vd_images v) = length (u_hf u) /\ vd_notes v = [] /\ vd_buttons v = []) /\
    ref_when (is_some (u_bg u)) (sd_picture d) (fun id => exists r, rel_of pkg name id = Some r /\ d_bg (p_d (nth i l (prep1 (st0 0) s))) = [r]) /\
    Forall2 (fun (tj : nat * (str * N)) id => let k := before u_tables i b + N.of_nat (fst tj) + 1 in
               opens pkg name id "table" (numbered "xl/tables/table" k ".xml")
                 (CTable k (table_name (fst (snd tj)) k) (snd (snd tj))))
            (combine (seq 0 (length (u_tables u))) (u_tables u)) (sd_tables d) /\
    (nonempty (u_notes u) = true -> exists id part c, opens pkg name id "comments" part (CComments c) /\
       map (fun x => (fst (fst x), snd (fst x))) (cd_list c) = map (fun n => (nt_row n, nt_col n)) (u_notes u) /\
       (exists j, nth_error l j = Some (nth i l (prep1 (st0 0) s)) /\ j = i /\ c = comments_of (nth i l (prep1 (st0 0) s)))) /\
    sd_vm d = p_emb (nth i l (prep1 (st0 0) s)).
Proof.
  intros Hi Hc u. destruct (nth_sheet m b pkg emb l a W i s Hi) as (l1 & l2 & E1 & El & E2 & Hl1 & Hs).
  set (pre := prep_st (st0 (N.of_nat (length emb))) l1) in *.
  set (st := after (st0 (N.of_nat (length emb))) l1) in *.
  set (p := prep1 st s) in *. set (post := prep_st (next st s) l2) in *.
  assert (Hp : p_u p = u) by reflexivity.
  assert (Hlen : length pre = i).
  { subst pre. rewrite <- (map_length p_u), prep_st_us, map_length. exact El. }
  assert (Hnth : nth i l (prep1 (st0 0) s) = p).
  { rewrite E2, <- Hlen, app_nth2, Nat.sub_diag by lia. reflexivity. }
  assert (Hcnt : forall f, cnt f pre = sumN f (map ps_u l1)) by (intros f; apply cnt_st).
  destruct (prep1_facts (N.of_nat (length emb)) l1 s Hl1 Hs) as (F1 & F2 & F3 & F4 & F5 & F6 & F7). fold st p u in F1, F2, F3, F4, F5, F6, F7.
  rewrite Hnth.
  assert (Hc' : u_chartsheet (p_u p) = false) by exact Hc.
  assert (Hfirst : firstn i (w_sheets b) = l1).
  { rewrite E1, <- El, firstn_app, Nat.sub_diag, firstn_all. cbn [firstn]. apply app_nil_r. }
  exists (render (NWs (1 + cnt n_ws pre))), (fst (write_sheet_doc p)).
  split; [rewrite <- Hlen, <- Hp; eapply ws_opens; eassumption|].
  split; [eexists; reflexivity|].
  set (name := render (NWs (1 + cnt n_ws pre))).
  assert (X3 : xl3 name) by apply xl3_ws.
  (* relationship lookup *)
  assert (Hrel : forall j r, nth_error (sheet_rel_list p) j = Some r ->
            (forall k, k < N.of_nat (length (snd (write_sheet_doc p)) + length (p_dobj p) + length (d_bg (p_d p)) + length (t_rels (p_t p))) -> True) ->
            rel_of pkg name (rid (1 + N.of_nat j)) = Some r).
  { intros j r Hj _. eapply ws_rel_at; try eassumption.
    unfold has_relationships. apply negb_true_iff.
    destruct (snd (write_sheet_doc p)) eqn:Q1; [|reflexivity]. destruct (p_dobj p) eqn:Q2; [|reflexivity].
    destruct (t_rels (p_t p)) eqn:Q3; [|apply andb_false_iff; left; reflexivity]. destruct (d_bg (p_d p)) eqn:Q4; [|reflexivity].
    exfalso. unfold sheet_rel_list in Hj. rewrite Q1, Q2, Q3, Q4 in Hj. cbn [app] in Hj. rewrite F6 in Hj.
    destruct (is_nil (u_notes u)) eqn:Qn; [destruct j; discriminate|].
    symmetry in F1. apply app_eq_nil in F1 as [_ F1]. apply app_eq_nil in F1 as [F1 _].
    unfold has_vml in F1. rewrite Qn in F1. discriminate. }
  assert (Hrel' : forall j r, nth_error (sheet_rel_list p) j = Some r -> rel_of pkg name (rid (1 + N.of_nat j)) = Some r).
  { intros j r Hj. apply (Hrel j r Hj). auto. }
  clear Hrel.
  unfold sheet_rel_list, write_sheet_doc in *. rewrite Hp in *.
  destruct (write_links 1 (u_links u)) as [[ids lrels] n1] eqn:Ew. apply write_links_spec in Ew as [-> EwF].
  rewrite F2, negb_involutive in *.
  replace (1 + N.of_nat (length lrels) - 1) with (N.of_nat (length lrels)) in * by lia.
  set (A := lrels) in *. rewrite F1 in Hrel'.
  set (B := if has_dr u then [drawing_link (1 + sumN n_dr (map ps_u l1))] else []) in *.
  set (C := if has_vml u then [vml_link (1 + sumN n_vml (map ps_u l1))] else []) in *.
  set (D := if is_nil (u_hf u) then [] else [vml_link (1 + sumN n_vml (map ps_u l1) + b2n (has_vml u))]) in *.
  set (G := d_bg (p_d p)) in *.
  assert (LB : bump (has_dr u) (N.of_nat (length A)) =
     (if has_dr u then Some (rid (N.of_nat (length A) + 1)) else None, N.of_nat (length (A ++ B)))).
  { subst B. unfold bump. rewrite app_length. destruct (has_dr u); cbn [length]; f_equal; lia. }
  rewrite LB in *.
  assert (LC : bump (has_vml u) (N.of_nat (length (A ++ B))) =
     (if has_vml u then Some (rid (N.of_nat (length (A ++ B)) + 1)) else None, N.of_nat (length ((A ++ B) ++ C)))).
  { subst C. unfold bump. rewrite (app_length (A ++ B)). destruct (has_vml u); cbn [length]; f_equal; lia. }
  rewrite LC in *.
  assert (LD : bump (negb (is_nil (u_hf u))) (N.of_nat (length ((A ++ B) ++ C))) =
     (if is_nil (u_hf u) then None else Some (rid (N.of_nat (length ((A ++ B) ++ C)) + 1)), N.of_nat (length (((A ++ B) ++ C) ++ D)))).
  { subst D. unfold bump. rewrite (app_length ((A ++ B) ++ C)). destruct (is_nil (u_hf u)); cbn [length negb]; f_equal; lia. }
  rewrite LD in *.
  assert (LG : bump (is_some (u_bg u)) (N.of_nat (length (((A ++ B) ++ C) ++ D))) =
     (if is_some (u_bg u) then Some (rid (N.of_nat (length (((A ++ B) ++ C) ++ D)) + 1)) else None, N.of_nat (length ((((A ++ B) ++ C) ++ D) ++ G)))).
  { unfold bump. rewrite (app_length (((A ++ B) ++ C) ++ D)).
    destruct (is_some (u_bg u)); cbn [negb] in F3.
    - apply is_nil_false in F3. fold G in F4. destruct G as [|r0 [|]]; [congruence| |cbn in F4; lia]. cbn [length]. f_equal. lia.
    - apply is_nil_true in F3. fold G in F3. rewrite F3. cbn [length]. f_equal. lia. }
  rewrite LG in *. clear LB LC LD LG.
  cbn [fst snd sd_links sd_drawing sd_legacy sd_legacy_hf sd_picture sd_tables sd_vm] in *.
  fold A in Hrel'. rewrite <- !app_assoc in Hrel'.
  split; [|split; [|split; [|split; [|split; [|split; [|split]]]]]].
  - (* hyperlinks *)
    unfold hyperlinks_ok. clear - EwF Hrel'. induction EwF as [|x y xs ys Hxy H IH]; [constructor|constructor; [|exact IH]].
    destruct (ltype x); try exact Hxy; destruct Hxy as (j & -> & Hj); eexists; (split; [reflexivity|]); apply hl_links, Hrel', nth_app_l, Hj.
  - (* drawing *)
    unfold ref_when. rewrite <- has_dr_objects. subst B. destruct (has_dr u) eqn:Hd; [|reflexivity].
    eexists; split; [reflexivity|].
    assert (Hx : rel_of pkg name (rid (1 + N.of_nat (length A + 0))) = Some (drawing_link (1 + sumN n_dr (map ps_u l1)))).
    { apply Hrel'. rewrite nth_app_r. reflexivity. }
    exists (1 + sumN n_dr (map ps_u l1)), (fst (sheet_anchors p)). split; [rewrite Hfirst; reflexivity|].
    eapply opens_intro; [rewrite N.add_comm, <- (Nat.add_0_r (length A)); exact Hx|reflexivity|reflexivity|apply res_drawing, X3|].
    rewrite <- Hcnt. eapply drawing_in; eassumption.
  - (* notes and buttons *)
    unfold ref_when. rewrite <- has_vml_spec. subst C. destruct (has_vml u) eqn:Hv; [|reflexivity].
    eexists; split; [reflexivity|].
    assert (Hx : rel_of pkg name (rid (1 + N.of_nat (length (A ++ B) + 0))) = Some (vml_link (1 + sumN n_vml (map ps_u l1)))).
    { apply Hrel'. rewrite app_assoc, nth_app_r. reflexivity. }
    eexists (render (NVml (1 + sumN n_vml (map ps_u l1)))), (notes_vml p). split; [|split; [|split; [|reflexivity]]].
    + eapply opens_intro; [rewrite N.add_comm, <- (Nat.add_0_r (length (A ++ B))); exact Hx|reflexivity|reflexivity|apply res_vml, X3|].
      rewrite <- Hcnt. eapply notes_vml_in; eassumption.
    + unfold notes_vml. cbn [vd_notes]. destruct Hs as (_ & _ & Hcv & _). change (ps_h (p_sheet p)) with (ps_h s). rewrite Hcv. cbn [app]. rewrite Hp.
      apply number_from_snd.
    + unfold notes_vml. cbn [vd_buttons]. destruct Hs as (_ & _ & _ & Hcv). change (ps_h (p_sheet p)) with (ps_h s). rewrite Hcv. cbn [app]. rewrite Hp.
      apply number_from_snd.
  - (* header images *)
    unfold ref_when. rewrite is_nil_nonempty. subst D. destruct (is_nil (u_hf u)) eqn:Hh; [reflexivity|]. cbn [negb].
    eexists; split; [reflexivity|].
    assert (Hx : rel_of pkg name (rid (1 + N.of_nat (length ((A ++ B) ++ C) + 0))) = Some (vml_link (1 + sumN n_vml (map ps_u l1) + b2n (has_vml u)))).
    { apply Hrel'. rewrite !app_assoc, <- !(app_assoc ((A ++ B) ++ C)), nth_app_r. reflexivity. }
    exists (render (NVml (1 + sumN n_vml (map ps_u l1) + b2n (has_vml u)))), (hf_vml (1 + cnt n_hf pre) p). split; [|split; [|split; reflexivity]].
    + eapply opens_intro; [rewrite N.add_comm, <- (Nat.add_0_r (length ((A ++ B) ++ C))); exact Hx|reflexivity|reflexivity|apply res_vml, X3|].
      rewrite <- Hcnt, <- Hp. apply is_nil_false in Hh. eapply hf_vml_in; eassumption.
    + unfold hf_vml. cbn [vd_images]. rewrite <- (map_length fst), number_from_fst, seq_from_len, map_length.
      change (p_d p) with (snd (prepare_sheet_drawings (s_g st) (h_linkage (ps_h s)) u)).
      destruct (drawings_parts (s_g st) (h_linkage (ps_h s)) u) as (_ & _ & _ & _ & -> & _).
      unfold hf_step. generalize (am_len (fst (fst (bg_step (s_g st) u))) + am_len (im_ids (s_g st) u)).
      generalize (g_hf (s_g st)), (@nil (str * N)), (@nil rel). intros x y z w. clear. revert x y z.
      induction (u_hf u) as [|i0 hs IHh]; intros x y z; cbn [hf_loop]; [reflexivity|].
      destruct (match am_get (im_hash i0) x with Some _ => _ | None => _ end) as [q1 q2].
      destruct (match am_get (im_hash i0) y with Some _ => _ | None => _ end) as [[q3 q4] q5].
      specialize (IHh q1 q3 q4). destruct (hf_loop q1 w q3 q4 hs) as [[z1 z2] z3]. cbn [snd length] in *. f_equal. exact IHh.
  - (* background *)
    unfold ref_when. destruct (is_some (u_bg u)) eqn:Hb; [|reflexivity]. cbn [negb] in F3.
    apply is_nil_false in F3. fold G in F4. destruct G as [|r0 [|]] eqn:EG; [congruence| |cbn in F4; lia].
    eexists; split; [reflexivity|]. exists r0. split; [|reflexivity].
    rewrite N.add_comm, <- (Nat.add_0_r (length (((A ++ B) ++ C) ++ D))). apply Hrel'.
    rewrite !app_assoc, <- !(app_assoc (((A ++ B) ++ C) ++ D)), nth_app_r. reflexivity.
  - (* tables *)
    apply Forall2_nth.
    + rewrite map_length, seq_from_len, combine_length, seq_length. lia.
    + intros j [jj t] id Hj Hid.
      assert (Hjt : nth_error (u_tables u) j = Some t /\ jj = j).
      { clear - Hj. assert (G : forall (T : list (str * N)) k0 j jj t, nth_error (combine (seq k0 (length T)) T) j = Some (jj, t) ->
           nth_error T j = Some t /\ jj = (k0 + j)%nat).
        { induction T as [|x T IH]; intros k0 [|j0] jj0 t0; cbn [length seq combine nth_error]; try discriminate.
          - intros H. injection H as <- <-. split; [reflexivity|lia].
          - intros H. apply IH in H as [? ?]. split; [assumption|lia]. }
        apply G in Hj as [? ?]. split; [assumption|lia]. }
      destruct Hjt as [Hjt ->]. cbn [fst snd].
      assert (Hlt : (j < length (u_tables u))%nat) by (apply nth_error_Some; congruence).
      rewrite nth_error_map, seq_from_nth in Hid by exact Hlt. injection Hid as <-.
      assert (Hk : before u_tables i b = sumN n_tb (map ps_u l1)).
      { rewrite <- El, (before_split u_tables b l1 s l2 E1). unfold n_tb. rewrite sumN_len. reflexivity. }
      rewrite Hk. set (k := sumN n_tb (map ps_u l1) + N.of_nat j + 1).
      assert (Hx : rel_of pkg name (rid (1 + N.of_nat (length ((((A ++ B) ++ C) ++ D) ++ G) + j))) =
                   Some (doc_rel (lit "table") (numbered "../tables/table" k ".xml") [])).
      { apply Hrel'. rewrite !app_assoc, <- !(app_assoc ((((A ++ B) ++ C) ++ D) ++ G)), nth_app_r.
        apply nth_app_l. rewrite F5, nth_error_map, seq_from_nth by exact Hlt. cbn [option_map].
        replace (1 + sumN n_tb (map ps_u l1) + N.of_nat j) with k by (subst k; lia). reflexivity. }
      replace (table_name (fst t) k) with (fst (tnum k t)).
      2:{ unfold tnum, table_name. cbn [fst]. destruct (fst t); [|reflexivity]. cbn [is_nil]. unfold numbered. cbn. rewrite app_nil_r. reflexivity. }
      apply (opens_intro _ _ _ _ _ (doc_rel (lit "table") (numbered "../tables/table" k ".xml") [])); [|reflexivity|reflexivity|apply res_table, X3|].
      * rewrite <- Hx. f_equal. f_equal. lia.
      * eapply table_in; [exact W|subst k; lia|]. subst k.
        replace (N.to_nat (sumN n_tb (map ps_u l1) + N.of_nat j + 1 - 1)) with (length (flat_map u_tables (map ps_u l1)) + j)%nat.
        -- rewrite E1. apply flat_nth, Hjt.
        -- unfold n_tb. rewrite sumN_len. lia.
  - (* comments *)
    rewrite is_nil_nonempty. intros Hn. apply negb_true_iff in Hn.
    assert (Hx : rel_of pkg name (rid (1 + N.of_nat (length (((((A ++ B) ++ C) ++ D) ++ G) ++ t_rels (p_t p)) + 0))) =
                 Some (doc_rel (lit "comments") (numbered "../comments" (1 + sumN n_com (map ps_u l1)) ".xml") [])).
    { apply Hrel'. rewrite !app_assoc, nth_app_r, F6, Hn. reflexivity. }
    eexists _, _, (comments_of p). split; [|split].
    + eapply opens_intro; [exact Hx|reflexivity|reflexivity|apply res_comments, X3|].
      rewrite <- Hcnt. eapply comments_in; [exact W|exact E2|]. apply is_nil_false, Hn.
    + unfold comments_of. cbn [cd_list]. rewrite Hp.
      assert (Hids : length (v_author_ids (p_v p)) = length (u_notes u)).
      { unfold p, prep1. cbn [p_v]. destruct (prepare_sheet_vml (s_q st) (h_authors (ps_h s)) (ps_u s)) as [q' v] eqn:Ev.
        apply prepare_sheet_vml_spec in Ev. cbn [snd]. destruct Ev as (_ & _ & _ & _ & _ & -> & _). fold u. clear.
        generalize (h_authors (ps_h s)). induction (u_notes u) as [|n ns IHn]; intros mm; cbn [assign_authors]; [reflexivity|].
        destruct (nt_author n) as [au|]; [destruct (am_get au mm)|].
        - specialize (IHn mm). destruct (assign_authors mm ns). cbn [snd length] in *. congruence.
        - specialize (IHn (bt_insert au (am_len mm) mm)). destruct (assign_authors _ ns). cbn [snd length] in *. congruence.
        - specialize (IHn mm). destruct (assign_authors mm ns). cbn [snd length] in *. congruence. }
      revert Hids. generalize (v_author_ids (p_v p)). clear. induction (u_notes u) as [|n ns IHn]; intros [|i0 is0] H; try discriminate; [reflexivity|].
      cbn [zip_notes map fst snd]. f_equal. apply IHn. injection H; auto.
    + exists i. split; [|auto]. rewrite E2, <- Hlen, nth_error_app2, Nat.sub_diag by lia. reflexivity.
  - reflexivity.
Qed.
End World.
