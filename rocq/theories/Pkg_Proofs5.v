(** Package level, part 5: relationships of the sheets (C31, C33). *)
From Verif Require Import Base Xml_Model Url_Model Book_Model Book_Proofs Pkg_Model Pkg_Spec Pkg_Names Pkg_Proofs Pkg_Proofs2 Pkg_Proofs3 Pkg_Proofs4.

(** Everything known about a saved package. *)
Record world (m : ovf) (b : pbook) (pkg : package) (emb : list img) (l : list prep) (a : parts) : Prop := {
  w_emb : emb = fst (prepare_embedded (map ps_u (w_sheets b)));
  w_l : l = prep_st (st0 (N.of_nat (length emb))) (w_sheets b);
  w_hid : Forall hid_ok (w_sheets b);
  w_pkg : pkg = all_parts b emb l a;
  w_rr : write_rels m (root_rels (package_options b l)) = Some (a_rr a);
  w_wr : write_rels m (workbook_rels (package_options b l) l) = Some (a_wr a);
  w_ws : write_worksheets m 1 l = Some (a_ws a);
  w_cs : write_chartsheets m 1 l = Some (a_cs a);
  w_vml : write_vmls m 1 1 l = Some (a_vml a);
  w_vr : write_rels m [sig_rel] = Some (a_vr a);
  w_dr : write_drawing_rels m 0 l = Some (a_dr a);
  w_ri : write_rels m (rich_rels 1 emb) = Some (a_ri a);
  w_names : NoDup (map fst pkg) }.
Lemma saved_world m lower b b' pkg : reach m lower b -> save_pkg m lower b = Some (b', Saved pkg) ->
  exists emb l a, world m b pkg emb l a.
Proof.
  intros Hr Hs. apply reach_ok in Hr. apply save_inv in Hs as (Ha & _).
  apply assemble_inv in Ha as (a & E & H1 & H2 & H3 & H4 & H5 & H6 & H7 & H8).
  eexists _, _, a. constructor; try eassumption; try reflexivity.
  eapply pkg_named; try eassumption.
Qed.

Lemma in_parts x b emb l a : In x (all_parts b emb l a) <->
  (x = (render NTypes, content_types b (package_options b l) l) \/ x = (render NRoot, CRels (a_rr a)) \/ x = (render NWbR, CRels (a_wr a)) \/
   x = (render NTheme, COther) \/ x = (render NStyles, COther) \/ x = (render NWb, COther)) \/
  In x (a_ws a) \/ In x (a_cs a) \/ In x (when (o_sst (package_options b l)) [(render NSst, COther)]) \/
  (x = (render NCore, COther) \/ x = (render NApp, COther)) \/ In x (when (o_custom (package_options b l)) [(render NCustom, COther)]) \/
  In x (write_drawings 1 l) \/ In x (a_vml a) \/ In x (write_comments 1 l) \/ In x (write_images emb (map p_u l)) \/
  In x (write_charts (map p_u l)) \/ In x (write_tables l) \/ In x (vba_parts b (a_vr a)) \/ In x (a_dr a) \/
  In x (when (o_metadata (package_options b l)) [(render NMeta, COther)]) \/ In x (rich_parts (package_options b l) emb (a_ri a)) \/
  In x (when (o_bags (package_options b l)) [(render NBag, COther)]).
Proof.
  unfold all_parts. rewrite !in_app_iff.
  apply or_iff_compat; [cbn [In]; intuition (subst; auto)|].
  do 3 (apply or_iff_compat; [reflexivity|]).
  apply or_iff_compat; [cbn [In]; intuition (subst; auto)|]. reflexivity.
Qed.

Section World.
Variables (m : ovf) (b : pbook) (pkg : package) (emb : list img) (l : list prep) (a : parts).
Hypothesis W : world m b pkg emb l a.
Hypothesis Hr : rels_ok m pkg.

Lemma in_pkg x : In x (all_parts b emb l a) -> In x pkg.
Proof. rewrite <- (w_pkg _ _ _ _ _ _ W). auto. Qed.
Lemma find_in n c : In (n, c) pkg -> find_part pkg n = Some c.
Proof. apply In_assoc, (w_names _ _ _ _ _ _ W). Qed.
Lemma rels_entries n es rs : In (n, CRels es) pkg -> write_rels m rs = Some es -> es = entries_of 1 rs.
Proof.
  intros H1 H2. apply (write_rels_ok m); [exact H2|]. destruct Hr as [H|H]; [auto|right; eapply H, H1].
Qed.
Lemma rel_at src n es rs j r : rels_part_of src = n -> In (n, CRels es) pkg -> write_rels m rs = Some es ->
  nth_error rs j = Some r -> rel_of pkg src (rid (1 + N.of_nat j)) = Some r.
Proof.
  intros Hn Hi Hw Hj. unfold rel_of. rewrite Hn, (find_in _ _ Hi).
  rewrite (rels_entries _ _ _ Hi Hw). apply assoc_entries, Hj.
Qed.

(** The i-th sheet. *)
Lemma nth_sheet i s : nth_error (w_sheets b) i = Some s -> exists l1 l2,
  w_sheets b = l1 ++ s :: l2 /\ length l1 = i /\
  l = prep_st (st0 (N.of_nat (length emb))) l1 ++ prep1 (after (st0 (N.of_nat (length emb))) l1) s
      :: prep_st (next (after (st0 (N.of_nat (length emb))) l1) s) l2 /\
  Forall hid_ok l1 /\ hid_ok s.
Proof.
  intros H. apply nth_error_split in H as (l1 & l2 & E & Hl). exists l1, l2.
  split; [exact E|]. split; [exact Hl|]. rewrite (w_l _ _ _ _ _ _ W), E, prep_st_app. split; [reflexivity|].
  assert (H := w_hid _ _ _ _ _ _ W). rewrite E in H. apply Forall_mid in H. tauto.
Qed.
Lemma sheet_rels_nth pre p post : forall wi ci, nth_error (sheet_rels wi ci (pre ++ p :: post)) (length pre) =
  Some (if u_chartsheet (p_u p) then doc_rel (lit "chartsheet") (numbered "chartsheets/sheet" (ci + cnt n_cs pre) ".xml") []
        else doc_rel (lit "worksheet") (numbered "worksheets/sheet" (wi + cnt n_ws pre) ".xml") []).
Proof.
  induction pre as [|q pre IH]; intros wi ci; cbn [app sheet_rels length].
  - change (cnt n_cs []) with 0. change (cnt n_ws []) with 0. rewrite !N.add_0_r. destruct (u_chartsheet (p_u p)); reflexivity.
  - rewrite !cnt_cons. unfold n_cs at 1, n_ws at 1. destruct (u_chartsheet (p_u q)); cbn [nth_error negb b2n]; rewrite IH, ?N.add_0_l, ?N.add_assoc; reflexivity.
Qed.
Lemma sheet_rels_app_nth pre p post rest wi ci : nth_error (sheet_rels wi ci (pre ++ p :: post) ++ rest) (length pre) =
  nth_error (sheet_rels wi ci (pre ++ p :: post)) (length pre).
Proof.
  apply nth_error_app1. apply nth_error_Some. rewrite sheet_rels_nth. discriminate.
Qed.
Lemma wb_rels_in : In (render NWbR, CRels (a_wr a)) pkg.
Proof. apply in_pkg, in_parts. left. tauto. Qed.

Lemma ws_opens pre p post : l = pre ++ p :: post -> u_chartsheet (p_u p) = false ->
  sheet_part pkg (length pre) (p_u p) (render (NWs (1 + cnt n_ws pre))) (fst (write_sheet_doc p)).
Proof.
  intros E Hc. unfold sheet_part. rewrite Hc.
  assert (Hrel : rel_of pkg (lit "xl/workbook.xml") (rid (1 + N.of_nat (length pre))) =
    Some (doc_rel (lit "worksheet") (numbered "worksheets/sheet" (1 + cnt n_ws pre) ".xml") [])).
  { eapply rel_at; [apply rels_wb|apply wb_rels_in|apply (w_wr _ _ _ _ _ _ W)|].
    unfold workbook_rels. rewrite E, sheet_rels_app_nth, sheet_rels_nth, Hc. reflexivity. }
  exists (doc_rel (lit "worksheet") (numbered "worksheets/sheet" (1 + cnt n_ws pre) ".xml") []).
  split; [rewrite <- Hrel, N.add_comm; reflexivity|]. split; [reflexivity|]. split; [reflexivity|]. split; [apply res_wb_ws|].
  apply find_in, in_pkg, in_parts. right; left.
  apply (in_worksheets m l 1 _ (w_ws _ _ _ _ _ _ W)). exists pre, p, post. split; [exact E|]. split; [exact Hc|]. auto.
Qed.
Lemma cs_opens pre p post : l = pre ++ p :: post -> u_chartsheet (p_u p) = true ->
  sheet_part pkg (length pre) (p_u p) (render (NCs (1 + cnt n_cs pre))) (write_chartsheet_doc p).
Proof.
  intros E Hc. unfold sheet_part. rewrite Hc.
  assert (Hrel : rel_of pkg (lit "xl/workbook.xml") (rid (1 + N.of_nat (length pre))) =
    Some (doc_rel (lit "chartsheet") (numbered "chartsheets/sheet" (1 + cnt n_cs pre) ".xml") [])).
  { eapply rel_at; [apply rels_wb|apply wb_rels_in|apply (w_wr _ _ _ _ _ _ W)|].
    unfold workbook_rels. rewrite E, sheet_rels_app_nth, sheet_rels_nth, Hc. reflexivity. }
  exists (doc_rel (lit "chartsheet") (numbered "chartsheets/sheet" (1 + cnt n_cs pre) ".xml") []).
  split; [rewrite <- Hrel, N.add_comm; reflexivity|]. split; [reflexivity|]. split; [reflexivity|]. split; [apply res_wb_cs|].
  apply find_in, in_pkg, in_parts. right; right; left.
  apply (in_chartsheets m l 1 _ (w_cs _ _ _ _ _ _ W)). exists pre, p, post. split; [exact E|]. split; [exact Hc|]. auto.
Qed.

(** Relationships of a worksheet. *)
Lemma ws_rel_at pre p post j r : l = pre ++ p :: post -> u_chartsheet (p_u p) = false ->
  has_relationships (snd (write_sheet_doc p)) p = true ->
  nth_error (sheet_rel_list p) j = Some r -> rel_of pkg (render (NWs (1 + cnt n_ws pre))) (rid (1 + N.of_nat j)) = Some r.
Proof.
  intros E Hc Hh Hj.
  destruct (write_rels m (sheet_rel_list p)) as [es|] eqn:Ew.
  - eapply rel_at; [apply rels_ws| |exact Ew|exact Hj].
    apply in_pkg, in_parts. right; left.
    apply (in_worksheets m l 1 _ (w_ws _ _ _ _ _ _ W)). exists pre, p, post. split; [exact E|]. split; [exact Hc|]. right. eauto.
  - exfalso. clear - W E Hc Hh Ew. assert (H := w_ws _ _ _ _ _ _ W). rewrite E in H. revert H. generalize 1 at 1. generalize (a_ws a).
    clear W E. induction pre as [|q pre IH]; intros ps ix; cbn [app write_worksheets].
    + rewrite Hc. unfold sheet_rel_list in Ew. destruct (write_sheet_doc p) as [doc links]. cbn [snd] in *. rewrite Hh, Ew. discriminate.
    + destruct (u_chartsheet (p_u q)); [apply IH|]. destruct (write_sheet_doc q).
      destruct (if has_relationships _ q then _ else _); cbn [obind]; [|discriminate].
      destruct (write_worksheets m (ix + 1) (pre ++ p :: post)) eqn:Ex; cbn [obind]; [|discriminate]. intros _. eapply IH, Ex.
Qed.
Lemma cs_rel_at pre p post j r : l = pre ++ p :: post -> u_chartsheet (p_u p) = true ->
  nth_error (p_dobj p) j = Some r -> rel_of pkg (render (NCs (1 + cnt n_cs pre))) (rid (1 + N.of_nat j)) = Some r.
Proof.
  intros E Hc Hj.
  assert (Hh : has_relationships [] p = true).
  { unfold has_relationships. destruct (p_dobj p); [destruct j; discriminate|reflexivity]. }
  destruct (write_rels m (p_dobj p)) as [es|] eqn:Ew.
  - eapply rel_at; [apply rels_cs| |exact Ew|exact Hj].
    apply in_pkg, in_parts. right; right; left.
    apply (in_chartsheets m l 1 _ (w_cs _ _ _ _ _ _ W)). exists pre, p, post. split; [exact E|]. split; [exact Hc|]. right. eauto.
  - exfalso. clear - W E Hc Hh Ew. assert (H := w_cs _ _ _ _ _ _ W). rewrite E in H. revert H. generalize 1 at 1. generalize (a_cs a).
    clear W E. induction pre as [|q pre IH]; intros ps ix; cbn [app write_chartsheets].
    + rewrite Hc. cbn [negb]. rewrite Hh, Ew. discriminate.
    + destruct (negb (u_chartsheet (p_u q))); [apply IH|].
      destruct (if has_relationships _ q then _ else _); cbn [obind]; [|discriminate].
      destruct (write_chartsheets m (ix + 1) (pre ++ p :: post)) eqn:Ex; cbn [obind]; [|discriminate]. intros _. eapply IH, Ex.
Qed.
Lemma dr_rel_at pre p post j r : l = pre ++ p :: post -> 
  nth_error (d_rels (p_d p)) j = Some r -> rel_of pkg (render (NDr (1 + cnt n_dr pre))) (rid (1 + N.of_nat j)) = Some r.
Proof.
  intros E Hj.
  assert (Hi : Forall infos_ok l) by (rewrite (w_l _ _ _ _ _ _ W); apply prep_infos_ok, (w_hid _ _ _ _ _ _ W)).
  assert (Hd : has_dr (p_u p) = true).
  { assert (H : Forall (fun p => d_rels (p_d p) <> [] -> has_dr (p_u p) = true) l) by (rewrite (w_l _ _ _ _ _ _ W); apply prep_rels_dr).
    rewrite E in H. apply Forall_mid in H as (_ & H & _). apply H. destruct (d_rels (p_d p)); [destruct j; discriminate|discriminate]. }
  assert (Hn : d_rels (p_d p) <> []) by (intros X; rewrite X in Hj; destruct j; discriminate).
  destruct (write_rels m (d_rels (p_d p))) as [es|] eqn:Ew.
  - eapply rel_at; [apply rels_dr| |exact Ew|exact Hj].
    apply in_pkg, in_parts. do 13 right. left.
    apply (in_drawing_rels m l Hi 0 _ (w_dr _ _ _ _ _ _ W)). exists pre, p, post. split; [exact E|].
    unfold drr_part. split; [exact Hn|]. exists es. split; [exact Ew|]. unfold n_dr at 3. rewrite Hd. cbn [b2n].
    replace (0 + cnt n_dr pre + 1) with (1 + cnt n_dr pre) by lia. reflexivity.
  - exfalso. clear - W E Hn Ew. assert (H := w_dr _ _ _ _ _ _ W). rewrite E in H. revert H. generalize 0. generalize (a_dr a).
    clear W E. induction pre as [|q pre IH]; intros ps ix; cbn [app write_drawing_rels].
    + apply is_nil_false in Hn. rewrite Hn, Ew. discriminate.
    + destruct (if is_nil (d_rels (p_d q)) then _ else _); cbn [obind]; [|discriminate].
      destruct (write_drawing_rels m _ (pre ++ p :: post)) eqn:Ex; cbn [obind]; [|discriminate]. intros _. eapply IH, Ex.
Qed.
Lemma vml_rel_at pre p post j r : l = pre ++ p :: post -> u_hf (p_u p) <> [] ->
  nth_error (d_vmlrels (p_d p)) j = Some r ->
  rel_of pkg (render (NVml (1 + cnt n_vml pre + b2n (has_vml (p_u p))))) (rid (1 + N.of_nat j)) = Some r.
Proof.
  intros E Hn Hj.
  destruct (write_rels m (d_vmlrels (p_d p))) as [es|] eqn:Ew.
  - eapply rel_at; [apply rels_vml| |exact Ew|exact Hj].
    apply in_pkg, in_parts. do 7 right. left.
    apply (in_vmls m l 1 1 _ (w_vml _ _ _ _ _ _ W)). apply at_vml_split. exists pre, p, post. split; [exact E|].
    right. split; [exact Hn|]. right. eauto.
  - exfalso. clear - W E Hn Ew. assert (H := w_vml _ _ _ _ _ _ W). rewrite E in H. revert H. generalize 1 at 1. generalize 1 at 1. generalize (a_vml a).
    clear W E. induction pre as [|q pre IH]; intros ps h ix; cbn [app write_vmls].
    + apply is_nil_false in Hn. rewrite Hn, Ew. discriminate.
    + destruct (if is_nil (u_hf (p_u q)) then Some [] else _); cbn [obind]; [|discriminate].
      destruct (write_vmls m _ _ (pre ++ p :: post)) eqn:Ex; cbn [obind]; [|discriminate]. intros _. eapply IH, Ex.
Qed.

(** Parts of a sheet. *)
Lemma drawing_in pre p post : l = pre ++ p :: post -> has_dr (p_u p) = true ->
  In (render (NDr (1 + cnt n_dr pre)), CDrawing (fst (sheet_anchors p))) pkg.
Proof.
  intros E Hd. apply in_pkg, in_parts. do 6 right. left.
  assert (Hi : Forall infos_ok l) by (rewrite (w_l _ _ _ _ _ _ W); apply prep_infos_ok, (w_hid _ _ _ _ _ _ W)).
  apply (in_drawings l Hi). exists pre, p, post. split; [exact E|]. split; [exact Hd|reflexivity].
Qed.
Lemma notes_vml_in pre p post : l = pre ++ p :: post -> has_vml (p_u p) = true ->
  In (render (NVml (1 + cnt n_vml pre)), CVml (notes_vml p)) pkg.
Proof.
  intros E Hd. apply in_pkg, in_parts. do 7 right. left.
  apply (in_vmls m l 1 1 _ (w_vml _ _ _ _ _ _ W)). apply at_vml_split. exists pre, p, post. split; [exact E|]. left. auto.
Qed.
Lemma hf_vml_in pre p post : l = pre ++ p :: post -> u_hf (p_u p) <> [] ->
  In (render (NVml (1 + cnt n_vml pre + b2n (has_vml (p_u p)))), CVml (hf_vml (1 + cnt n_hf pre) p)) pkg.
Proof.
  intros E Hd. apply in_pkg, in_parts. do 7 right. left.
  apply (in_vmls m l 1 1 _ (w_vml _ _ _ _ _ _ W)). apply at_vml_split. exists pre, p, post. split; [exact E|]. right. auto.
Qed.
Lemma comments_in pre p post : l = pre ++ p :: post -> u_notes (p_u p) <> [] ->
  In (render (NCom (1 + cnt n_com pre)), CComments (comments_of p)) pkg.
Proof.
  intros E Hd. apply in_pkg, in_parts. do 8 right. left.
  apply in_comments. exists pre, p, post. split; [exact E|]. split; [exact Hd|reflexivity].
Qed.
Lemma chart_in k body : 1 <= k -> nth_error (flat_map u_charts (map ps_u (w_sheets b))) (N.to_nat (k - 1)) = Some body ->
  In (render (NChart k), CChart body) pkg.
Proof.
  intros H1 H2. apply in_pkg, in_parts. do 10 right. left. apply in_charts. exists k, body.
  rewrite (w_l _ _ _ _ _ _ W), prep_st_us. auto.
Qed.
Lemma table_in k t : 1 <= k -> nth_error (flat_map u_tables (map ps_u (w_sheets b))) (N.to_nat (k - 1)) = Some t ->
  In (render (NTable k), CTable k (fst (tnum k t)) (snd t)) pkg.
Proof.
  intros H1 H2. apply in_pkg, in_parts. do 11 right. left. rewrite (w_l _ _ _ _ _ _ W). apply in_tables. eauto.
Qed.
End World.
