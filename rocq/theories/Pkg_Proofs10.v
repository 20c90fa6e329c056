(** Package level, part 10: the package is closed (C48). *)
From Verif Require Import Base Xml_Model Url_Model Book_Model Book_Proofs Book_Proofs2 Pkg_Model Pkg_Spec Pkg_Names Pkg_Proofs Pkg_Proofs2 Pkg_Proofs3 Pkg_Proofs4 Pkg_Proofs5 Pkg_Proofs6 Pkg_Proofs7 Pkg_Proofs8 Pkg_Proofs9.

(** Internal links have a target that starts with '#'. *)
Lemma internal_target x : accepted x -> ltype x = LInternal -> exists t, relationship_link x = 35 :: t.
Proof.
  intros [v Hv] Hl. unfold initialize in Hv. destruct (parse_url v) as [u1|] eqn:E; [|discriminate].
  destruct (_ || _); [discriminate|]. destruct (_ <? _); [discriminate|]. injection Hv as <-.
  assert (Hl1 : ltype u1 = LInternal) by exact Hl.
  unfold escape_strings. cbn [relationship_link]. rewrite Hl1. cbn [link_type_eqb negb andb].
  unfold parse_url in E.
  destruct (_ || _ || _ || _) in E.
  { destruct (set_anchor_split _) in E. injection E as <-. discriminate Hl1. }
  destruct (starts_with (lit "mailto:") (link v)).
  { injection E as <-. discriminate Hl1. }
  destruct (starts_with (lit "internal:") (link v)) eqn:Es.
  - injection E as <-. cbn [relationship_link]. apply starts_with_true in Es as [r Es].
    apply strip_prefix_some in Es as Ep. exists r. destruct (link v); cbn [replace_first]; rewrite Ep; reflexivity.
  - destruct (starts_with (lit "file://") (link v)); [|discriminate].
    destruct (set_anchor_split _) in E. injection E as <-. discriminate Hl1.
Qed.

Definition present (pkg : package) (src : str) (r : rel) : Prop :=
  r_mode r = lit "External" \/ (exists t, r_target r = 35 :: t) \/ exists c, In (resolve src (r_target r), c) pkg.
Lemma hl_present pkg src x : accepted x -> present pkg src (hl_rel x).
Proof.
  intros H. unfold present, hl_rel, doc_rel. cbn [r_mode r_target]. unfold url_mode, target_external.
  destruct (ltype x) eqn:E; cbn [link_type_eqb negb]; auto. right; left. apply internal_target; assumption.
Qed.

(** Relationships written by the loops. *)
Lemma link_rel_in rids rels u rids' rels' o r : link_rel rids rels u = (rids', rels', o) -> In r rels' ->
  In r rels \/ exists x, u = Some x /\ r = hl_rel x.
Proof.
  unfold link_rel. destruct u as [x|]; [destruct (am_get (link x) rids)|]; intros H Hr; injection H as <- <- <-; auto.
  apply in_app_iff in Hr as [Hr|[<-|[]]]; [auto|]. right. eauto.
Qed.
Lemma images_loop_in l : forall ids id rids rels ids' id' rids' rels' ds,
  images_loop ids id rids rels l = (ids', id', rids', rels', ds) -> sub ids ids' /\ forall r, In r rels' ->
  In r rels \/ (exists i n, In i (map fst l) /\ am_get (im_hash i) ids' = Some n /\ r = image_rel n i)
  \/ (exists x u, In x l /\ snd x = Some u /\ r = hl_rel u).
Proof.
  induction l as [|[i u] l IH]; intros ids id rids rels ids' id' rids' rels' ds; cbn [images_loop].
  - intros [= <- <- <- <- <-]. split; [apply sub_refl|auto].
  - intros E.
    destruct (match am_get (im_hash i) ids with Some n => _ | None => _ end) as [[ids1 id1] n] eqn:E1.
    assert (H1 : am_get (im_hash i) ids1 = Some n /\ sub ids ids1).
    { destruct (am_get (im_hash i) ids) as [n0|] eqn:Eg; injection E1 as <- <- <-.
      - split; [exact Eg|apply sub_refl].
      - split; [rewrite am_get_insert, str_eqb_refl; reflexivity|apply sub_insert, Eg]. }
    destruct H1 as [Hn Hs1].
    destruct (link_rel rids rels u) as [[rids1 rels1] o] eqn:E2.
    destruct (match am_get (im_hash i) rids1 with Some n => _ | None => _ end) as [[rids2 rels2] r2] eqn:E3.
    destruct (images_loop ids1 id1 rids2 rels2 l) as [[[[x1 x2] x3] x4] x5] eqn:E4.
    injection E as <- <- <- <- <-. apply IH in E4 as [Hs HI]. split; [eapply sub_trans; eassumption|].
    intros r Hr. destruct (HI r Hr) as [H|[(j & k & A1 & A2 & A3)|(y & v & A1 & A2 & A3)]].
    + assert (H' : In r rels1 \/ r = image_rel n i).
      { destruct (am_get (im_hash i) rids1); injection E3 as <- <- <-; [auto|]. apply in_app_iff in H as [H|[<-|[]]]; auto. }
      destruct H' as [Hq|Hq]; [|subst r].
      * destruct (link_rel_in _ _ _ _ _ _ _ E2 Hq) as [Hy|(y & -> & ->)]; [auto|]. right; right. exists (i, Some y), y. cbn. auto.
      * right; left. exists i, n. cbn. auto.
    + right; left. exists j, k. cbn. auto.
    + right; right. exists y, v. cbn. auto.
Qed.
Lemma shapes_loop_in l : forall k rids rels rids' rels' ds, shapes_loop k rids rels l = (rids', rels', ds) -> forall r, In r rels' ->
  In r rels \/ exists x u, In x l /\ snd x = Some u /\ r = hl_rel u.
Proof.
  induction l as [|[i u] l IH]; intros k rids rels rids' rels' ds; cbn [shapes_loop].
  - intros [= <- <- <-]. auto.
  - destruct (link_rel rids rels u) as [[b1 b2] b3] eqn:El.
    destruct (shapes_loop (k + 1) b1 b2 l) as [[x1 x2] x3] eqn:E. intros H; injection H as <- <- <-. intros r Hr.
    destruct (IH _ _ _ _ _ _ E r Hr) as [H|(y & v & A1 & A2 & A3)].
    + destruct (link_rel_in _ _ _ _ _ _ _ El H) as [Hy|(y & -> & ->)]; [auto|]. right. exists (i, Some y), y. cbn. auto.
    + right. exists y, v. cbn. auto.
Qed.
Lemma hf_loop_in l : forall ids base rids rels ids' rels' out, hf_loop ids base rids rels l = (ids', rels', out) ->
  sub ids ids' /\ forall r, In r rels' -> In r rels \/ exists i n, In i l /\ am_get (im_hash i) ids' = Some n /\ r = image_rel n i.
Proof.
  induction l as [|i l IH]; intros ids base rids rels ids' rels' out; cbn [hf_loop].
  - intros [= <- <- <-]. split; [apply sub_refl|auto].
  - intros E. destruct (match am_get (im_hash i) ids with Some n => _ | None => _ end) as [ids1 n] eqn:E1.
    assert (H1 : am_get (im_hash i) ids1 = Some n /\ sub ids ids1).
    { destruct (am_get (im_hash i) ids) as [n0|] eqn:Eg; injection E1 as <- <-.
      - split; [exact Eg|apply sub_refl].
      - split; [rewrite am_get_insert, str_eqb_refl; reflexivity|apply sub_insert, Eg]. }
    destruct H1 as [Hn Hs1].
    destruct (match am_get (im_hash i) rids with Some n => _ | None => _ end) as [[rids2 rels2] r2] eqn:E3.
    destruct (hf_loop ids1 base rids2 rels2 l) as [[x1 x2] x3] eqn:E4. injection E as <- <- <-.
    apply IH in E4 as [Hs HI]. split; [eapply sub_trans; eassumption|].
    intros r Hr. destruct (HI r Hr) as [H|(j & k & A1 & A2 & A3)].
    + destruct (am_get (im_hash i) rids); injection E3 as <- <- <-; [auto|]. apply in_app_iff in H as [H|[<-|[]]]; [auto|].
      right. exists i, n. cbn. auto.
    + right. exists j, k. cbn. auto.
Qed.
Lemma write_links_in l : forall n ids rels n', write_links n l = (ids, rels, n') -> forall r, In r rels ->
  exists u, In u l /\ r = hl_rel u.
Proof.
  induction l as [|u l IH]; intros n ids rels n'; cbn [write_links].
  - intros [= <- <- <-] r [].
  - destruct (ltype u);
      match goal with |- context [write_links ?k l] => destruct (write_links k l) as [[i1 r1] n1] eqn:E end;
      intros H; injection H as <- <- <-; intros r Hr;
      try (destruct Hr as [<-|Hr]; [exists u; cbn; auto|]);
      destruct (IH _ _ _ _ E r Hr) as (v & ? & ?); exists v; cbn; auto.
Qed.
Lemma sheet_rels_in l : forall wi ci r, In r (sheet_rels wi ci l) ->
  (exists pre p post, l = pre ++ p :: post /\ u_chartsheet (p_u p) = true /\ r = doc_rel (lit "chartsheet") (numbered "chartsheets/sheet" (ci + cnt n_cs pre) ".xml") []) \/
  (exists pre p post, l = pre ++ p :: post /\ u_chartsheet (p_u p) = false /\ r = doc_rel (lit "worksheet") (numbered "worksheets/sheet" (wi + cnt n_ws pre) ".xml") []).
Proof.
  induction l as [|p l IH]; intros wi ci r; cbn [sheet_rels]; [intros []|].
  assert (K1 : n_cs (p_u p) = b2n (u_chartsheet (p_u p))) by reflexivity.
  assert (K2 : n_ws (p_u p) = b2n (negb (u_chartsheet (p_u p)))) by reflexivity.
  destruct (u_chartsheet (p_u p)) eqn:Hc; cbn [negb b2n] in K1, K2; intros [<-|H].
  - left. exists [], p, l. cbn. rewrite N.add_0_r. auto.
  - destruct (IH _ _ _ H) as [(pre & q & post & -> & A1 & ->)|(pre & q & post & -> & A1 & ->)]; [left|right];
      exists (p :: pre), q, post; rewrite cnt_cons, ?K1, ?K2, ?N.add_0_l, ?N.add_assoc; auto.
  - right. exists [], p, l. cbn. rewrite N.add_0_r. auto.
  - destruct (IH _ _ _ H) as [(pre & q & post & -> & A1 & ->)|(pre & q & post & -> & A1 & ->)]; [left|right];
      exists (p :: pre), q, post; rewrite cnt_cons, ?K1, ?K2, ?N.add_0_l, ?N.add_assoc; auto.
Qed.
Lemma in_rich_rels l : forall ix r, In r (rich_rels ix l) -> exists j i, nth_error l j = Some i /\ r = image_rel (ix + N.of_nat j) i.
Proof.
  induction l as [|x l IH]; intros ix r; cbn [rich_rels]; [intros []|]. intros [<-|H].
  - exists O, x. cbn [nth_error]. rewrite N.add_0_r. auto.
  - destruct (IH _ _ H) as (j & i & A1 & ->). exists (S j), i. split; [exact A1|]. f_equal. lia.
Qed.
Lemma in_when {A} (c : bool) (l : list A) x : In x (when c l) <-> c = true /\ In x l.
Proof. destruct c; cbn; intuition congruence. Qed.

Lemma images_bytes emb us x : In x (write_images emb us) -> exists d, snd x = CBytes d.
Proof.
  intros Hx. apply in_app_iff in Hx as [Hx|Hx].
  - revert Hx. generalize 1. induction emb as [|i e IH]; intros n; cbn [write_embedded In]; [intros []|].
    intros [<-|H]; [eexists; reflexivity|eapply IH, H].
  - revert Hx. enough (H : forall n s1 s2 s3, In x (write_sheet_images n s1 s2 s3 us) -> exists d, snd x = CBytes d) by apply H.
    assert (G : forall ims n seen x, In x (fst (fst (write_new_images n seen ims))) -> exists d, snd x = CBytes d).
    { induction ims as [|i ims IH]; intros n seen y; cbn [write_new_images]; [intros []|].
      destruct (existsb _ seen); [apply IH|]. specialize (IH (n + 1) (im_hash i :: seen) y).
      destruct (write_new_images (n + 1) (im_hash i :: seen) ims) as [[q1 q2] q3]. cbn [fst In] in *.
      intros [<-|H]; [eexists; reflexivity|apply IH, H]. }
    induction us as [|u v IH]; intros n s1 s2 s3; cbn [write_sheet_images]; [intros []|].
    assert (G1 := G (match u_bg u with Some i => [i] | None => [] end) n s3 x).
    destruct (write_new_images n s3 (match u_bg u with Some i => [i] | None => [] end)) as [[p1 i1] k1].
    assert (G2 := G (map fst (u_images u)) i1 s1 x). destruct (write_new_images i1 s1 (map fst (u_images u))) as [[p2 i2] k2].
    assert (G3 := G (u_hf u) i2 s2 x). destruct (write_new_images i2 s2 (u_hf u)) as [[p3 i3] k3]. cbn [fst] in *.
    rewrite !in_app_iff. intros [H|[H|[H|H]]]; [auto|auto|auto|]. eapply IH, H.
Qed.

(** Counting. *)
Lemma filter_cnt (f : prep -> bool) (g : usheet -> N) l : (forall p, In p l -> b2n (f p) = g (p_u p)) ->
  N.of_nat (length (filter f l)) = cnt g l.
Proof.
  induction l as [|p l IH]; intros H; [reflexivity|]. cbn [filter]. rewrite cnt_cons, <- (H p (or_introl eq_refl)).
  specialize (IH (fun q Hq => H q (or_intror Hq))). destruct (f p); cbn [b2n length]; lia.
Qed.
Lemma filter_len_le {A} (f : A -> bool) l : (length (filter f l) <= length l)%nat.
Proof. induction l as [|x l IH]; [auto|]. cbn [filter]. destruct (f x); cbn [length]; lia. Qed.
Lemma count_if_cnt (f : prep -> bool) (g : usheet -> N) l : N.of_nat (length l) < 65536 -> (forall p, In p l -> b2n (f p) = g (p_u p)) ->
  count_if f l = cnt g l.
Proof.
  intros Hl H. unfold count_if. assert (H1 := filter_len_le f l). rewrite N.mod_small by lia. apply filter_cnt, H.
Qed.
Lemma in_up_to n k : In k (up_to n) <-> 1 <= k <= n.
Proof. unfold up_to. rewrite seq_from_In, N2Nat.id. lia. Qed.
Lemma cnt_app f a b : cnt f (a ++ b) = cnt f a + cnt f b.
Proof. apply sumN_app. Qed.
Lemma cnt_pos f l k : 1 <= k <= cnt f l -> (forall p, In p l -> f (p_u p) <= 1) -> exists pre p post, l = pre ++ p :: post /\ f (p_u p) = 1 /\ k = 1 + cnt f pre.
Proof.
  revert k. induction l as [|p l IH]; intros k Hk H1.
  - change (cnt f []) with 0 in Hk. lia.
  - rewrite cnt_cons in Hk. assert (Hp := H1 p (or_introl eq_refl)).
    destruct (N.eq_dec (f (p_u p)) 1) as [E|E].
    + destruct (N.eq_dec k 1) as [->|Hne].
      * exists [], p, l. cbn. auto.
      * destruct (IH (k - 1)) as (pre & q & post & -> & A1 & A2); [lia|intros q Hq; apply H1; right; exact Hq|].
        exists (p :: pre), q, post. rewrite cnt_cons. split; [reflexivity|]. split; [exact A1|lia].
    + destruct (IH k) as (pre & q & post & -> & A1 & A2); [lia|intros q Hq; apply H1; right; exact Hq|].
      exists (p :: pre), q, post. rewrite cnt_cons. split; [reflexivity|]. split; [exact A1|lia].
Qed.

Section World.
Variables (m : ovf) (b : pbook) (pkg : package) (emb : list img) (l : list prep) (a : parts).
Hypothesis W : world m b pkg emb l a.
Hypothesis Hr : rels_ok m pkg.
Notation us := (map ps_u (w_sheets b)).
Hypothesis Hh : hashes_ok us.
Hypothesis Hhf : hf_last us.
Hypothesis Hurl : urls_ok us.
Hypothesis Hcnt : counts_ok us.

Let Hin_pkg : forall x, In x (all_parts b emb l a) -> In x pkg := in_pkg m b pkg emb l a W.
Lemma infos_l : Forall infos_ok l.
Proof. rewrite (w_l _ _ _ _ _ _ W). apply prep_infos_ok, (w_hid _ _ _ _ _ _ W). Qed.
Lemma us_l : map p_u l = us.
Proof. rewrite (w_l _ _ _ _ _ _ W). apply prep_st_us. Qed.
Lemma split_l pre p post : l = pre ++ p :: post -> exists l1 s l2, w_sheets b = l1 ++ s :: l2 /\ p_u p = ps_u s /\
  pre = prep_st (st0 (N.of_nat (length emb))) l1 /\ p = prep1 (after (st0 (N.of_nat (length emb))) l1) s /\ Forall hid_ok l1 /\ hid_ok s /\
  In (ps_u s) us.
Proof.
  intros E. assert (E' := w_l _ _ _ _ _ _ W). rewrite E in E'. symmetry in E'. 
  apply prep_st_split in E' as (l1 & s & l2 & E1 & E2 & E3 & _).
  exists l1, s, l2. assert (Hf := w_hid _ _ _ _ _ _ W). rewrite E1 in Hf. apply Forall_mid in Hf as (F1 & F2 & _).
  repeat (split; [first [assumption|rewrite E3; reflexivity]|]). rewrite E1, map_app. apply in_elt.
Qed.

Lemma rels_closed src n es rs : rels_part_of src = n -> In (n, CRels es) pkg -> write_rels m rs = Some es ->
  (src = [] \/ exists c, In (src, c) pkg) -> (forall r, In r rs -> present pkg src r) ->
  NoDup (map fst es) /\ exists source, n = rels_part_of source /\ (source = [] \/ exists c, In (source, c) pkg) /\
    forall id r, In (id, r) es -> r_mode r = lit "External" \/ (exists t, r_target r = 35 :: t) \/ exists c, In (resolve source (r_target r), c) pkg.
Proof.
  intros Hn Hi Hw Hs Hp. assert (Ee : es = entries_of 1 rs) by (eapply rels_entries; eassumption). rewrite Ee. split; [apply entries_NoDup|].
  exists src. split; [auto|]. split; [exact Hs|]. intros id r H. apply entries_In in H. apply Hp, H.
Qed.
Lemma present_part src r c : In (resolve src (r_target r), c) pkg -> present pkg src r.
Proof. intros H. right; right. eauto. Qed.
Lemma image_present src n i : xl3 src -> In (render (NMedia n (im_ext i)), CBytes (im_data i)) pkg -> present pkg src (image_rel n i).
Proof. intros X H. eapply present_part. unfold image_rel, doc_rel. cbn [r_target]. rewrite res_media by exact X. exact H. Qed.

(** Relationships of one sheet and its drawings. *)
Lemma url_of u x : In u us -> In x (u_links u ++ sheet_urls u) -> accepted x.
Proof. intros H1 H2. eapply Hurl; eassumption. Qed.
Lemma dobj_present pre p post src r : l = pre ++ p :: post -> xl3 src -> In r (p_dobj p) -> present pkg src r.
Proof.
  intros E X Hr1. destruct (split_l pre p post E) as (l1 & s & l2 & E1 & Eu & Epre & Ep & Hl1 & Hs & _).
  destruct (prep1_facts (N.of_nat (length emb)) l1 s Hl1 Hs) as (F1 & _). rewrite <- Ep, <- Eu in F1. rewrite F1 in Hr1.
  assert (Hc : forall f, sumN f (map ps_u l1) = cnt f pre) by (intros f; rewrite Epre; symmetry; apply cnt_st).
  rewrite !in_app_iff in Hr1. destruct Hr1 as [H|[H|H]].
  - destruct (has_dr (p_u p)) eqn:Hd; [|destruct H]. destruct H as [<-|[]].
    eapply present_part. unfold drawing_link, doc_rel. cbn [r_target]. rewrite res_drawing by exact X. rewrite Hc.
    eapply drawing_in; [exact W|exact E|exact Hd].
  - destruct (has_vml (p_u p)) eqn:Hd; [|destruct H]. destruct H as [<-|[]].
    eapply present_part. unfold vml_link, doc_rel. cbn [r_target]. rewrite res_vml by exact X. rewrite Hc.
    eapply notes_vml_in; [exact W|exact E|exact Hd].
  - destruct (is_nil (u_hf (p_u p))) eqn:Hd; [destruct H|]. destruct H as [<-|[]]. apply is_nil_false in Hd.
    eapply present_part. unfold vml_link, doc_rel. cbn [r_target]. rewrite res_vml by exact X. rewrite Hc.
    eapply hf_vml_in; [exact W|exact E|exact Hd].
Qed.
Lemma bg_present pre p post src r : l = pre ++ p :: post -> xl3 src -> In r (d_bg (p_d p)) -> present pkg src r.
Proof.
  intros E X Hr1. destruct (split_l pre p post E) as (l1 & s & l2 & E1 & Eu & Epre & Ep & Hl1 & Hs & Hsus).
  destruct (stored_at m b pkg emb l a W Hh Hhf l1 s l2 E1) as (S1 & _). cbn zeta in S1.
  rewrite Ep in Hr1. set (st := after _ l1) in *.
  change (p_d (prep1 st s)) with (snd (prepare_sheet_drawings (s_g st) (h_linkage (ps_h s)) (ps_u s))) in Hr1.
  destruct (drawings_parts (s_g st) (h_linkage (ps_h s)) (ps_u s)) as (-> & _) in Hr1.
  assert (Hx : forall im, u_bg (ps_u s) = Some im -> In im (book_imgs us)).
  { intros im Hbg. eapply book_img_in; [rewrite E1; apply in_elt|]. unfold sheet_imgs. rewrite Hbg. left. reflexivity. }
  unfold bg_step in Hr1, S1. destruct (u_bg (ps_u s)) as [im|]; [|destruct Hr1].
  destruct (am_get (im_hash im) (g_bg (s_g st))) as [n|] eqn:Eg; cbn [fst snd] in *; destruct Hr1 as [<-|[]];
    apply image_present; try exact X; apply S1; try (apply Hx; reflexivity).
  - exact Eg.
  - rewrite am_get_insert, str_eqb_refl. reflexivity.
Qed.
Lemma table_present pre p post src r : l = pre ++ p :: post -> xl3 src -> In r (t_rels (p_t p)) -> present pkg src r.
Proof.
  intros E X Hr1. destruct (split_l pre p post E) as (l1 & s & l2 & E1 & Eu & Epre & Ep & Hl1 & Hs & Hsus).
  destruct (prep1_facts (N.of_nat (length emb)) l1 s Hl1 Hs) as (_ & _ & _ & _ & F5 & _). rewrite <- Ep in F5. rewrite F5 in Hr1.
  apply in_map_iff in Hr1 as (k & <- & Hk). apply seq_from_In in Hk.
  assert (Hj : exists t, nth_error (u_tables (ps_u s)) (N.to_nat (k - (1 + sumN n_tb (map ps_u l1)))) = Some t).
  { destruct (nth_error (u_tables (ps_u s)) (N.to_nat (k - (1 + sumN n_tb (map ps_u l1))))) eqn:En; [eauto|].
    apply nth_error_None in En. lia. }
  destruct Hj as [t Ht]. eapply present_part. unfold doc_rel. cbn [r_target]. rewrite res_table by exact X. eapply table_in; [exact W|lia|].
  replace (N.to_nat (k - 1)) with (length (flat_map u_tables (map ps_u l1)) + N.to_nat (k - (1 + sumN n_tb (map ps_u l1))))%nat.
  - rewrite E1. apply flat_nth, Ht.
  - unfold n_tb in *. rewrite sumN_len in *. lia.
Qed.
Lemma comment_present pre p post src r : l = pre ++ p :: post -> xl3 src -> In r (v_comment (p_v p)) -> present pkg src r.
Proof.
  intros E X Hr1. destruct (split_l pre p post E) as (l1 & s & l2 & E1 & Eu & Epre & Ep & Hl1 & Hs & Hsus).
  destruct (prep1_facts (N.of_nat (length emb)) l1 s Hl1 Hs) as (_ & _ & _ & _ & _ & F6 & _). rewrite <- Ep, <- Eu in F6. rewrite F6 in Hr1.
  destruct (is_nil (u_notes (p_u p))) eqn:En; [destruct Hr1|]. destruct Hr1 as [<-|[]]. apply is_nil_false in En.
  eapply present_part. unfold doc_rel. cbn [r_target]. rewrite res_comments by exact X.
  replace (sumN n_com (map ps_u l1)) with (cnt n_com pre) by (rewrite Epre; apply cnt_st).
  eapply comments_in; [exact W|exact E|exact En].
Qed.
Lemma drels_present pre p post src r : l = pre ++ p :: post -> xl3 src -> In r (d_rels (p_d p)) -> present pkg src r.
Proof.
  intros E X Hr1. destruct (split_l pre p post E) as (l1 & s & l2 & E1 & Eu & Epre & Ep & Hl1 & Hs & Hsus).
  destruct (stored_at m b pkg emb l a W Hh Hhf l1 s l2 E1) as (_ & S2 & _). cbn zeta in S2.
  assert (F7 := prep1_facts (N.of_nat (length emb)) l1 s Hl1 Hs). cbn zeta in F7. destruct F7 as (_ & _ & _ & _ & _ & _ & F7).
  rewrite Ep in Hr1. set (st := after _ l1) in *. set (u := ps_u s) in *. set (g := s_g st) in *.
  change (p_d (prep1 st s)) with (snd (prepare_sheet_drawings g (h_linkage (ps_h s)) u)) in Hr1.
  destruct (drawings_parts g (h_linkage (ps_h s)) u) as (_ & Er & _). rewrite Er in Hr1.
  unfold sh_step in Hr1. destruct (shapes_loop (g_shape g) (ch_rids g u) (ch_rels g u) (u_shapes u)) as [[x1 x2] x3] eqn:Es.
  cbn [fst snd] in Hr1.
  destruct (shapes_loop_in _ _ _ _ _ _ _ Es r Hr1) as [H|(x & v & A1 & A2 & ->)].
  2:{ apply hl_present. eapply url_of; [exact Hsus|]. apply in_or_app. right. unfold sheet_urls. apply in_or_app. right.
      apply in_flat_map. exists x. split; [exact A1|]. rewrite A2. left. reflexivity. }
  unfold ch_rels in H. apply in_app_iff in H as [H|H].
  - unfold im_rels, im_ids in *. destruct (im_step g u) as [[[[y1 y2] y3] y4] y5] eqn:Em. unfold im_step in Em.
    destruct (images_loop_in _ _ _ _ _ _ _ _ _ _ Em) as [_ HI].
    destruct (HI r H) as [[]|[(i & n & A1 & A2 & ->)|(x & v & A1 & A2 & ->)]].
    + apply image_present; [exact X|]. apply S2; [|exact A2].
      eapply book_img_in; [rewrite E1; apply in_elt|]. unfold sheet_imgs. fold u. rewrite !in_app_iff. auto.
    + apply hl_present. eapply url_of; [exact Hsus|]. apply in_or_app. right. unfold sheet_urls. apply in_or_app. left.
      apply in_flat_map. exists x. split; [exact A1|]. rewrite A2. left. reflexivity.
  - apply in_map_iff in H as (k & <- & Hk). rewrite F7 in Hk. apply seq_from_In in Hk.
    assert (Hj : exists t, nth_error (u_charts u) (N.to_nat (k - (1 + sumN n_ch (map ps_u l1)))) = Some t).
    { destruct (nth_error (u_charts u) (N.to_nat (k - (1 + sumN n_ch (map ps_u l1))))) eqn:En; [eauto|].
      apply nth_error_None in En. lia. }
    destruct Hj as [t Ht]. eapply present_part. unfold chart_rel, doc_rel. cbn [r_target]. rewrite res_chart by exact X. eapply chart_in; [exact W|lia|].
    replace (N.to_nat (k - 1)) with (length (flat_map u_charts (map ps_u l1)) + N.to_nat (k - (1 + sumN n_ch (map ps_u l1))))%nat.
    + rewrite E1. apply flat_nth, Ht.
    + unfold n_ch in *. rewrite sumN_len in *. lia.
Qed.
Lemma vmlrels_present pre p post src r : l = pre ++ p :: post -> xl3 src -> In r (d_vmlrels (p_d p)) -> present pkg src r.
Proof.
  intros E X Hr1. destruct (split_l pre p post E) as (l1 & s & l2 & E1 & Eu & Epre & Ep & Hl1 & Hs & Hsus).
  destruct (stored_at m b pkg emb l a W Hh Hhf l1 s l2 E1) as (_ & _ & S3). cbn zeta in S3.
  rewrite Ep in Hr1. set (st := after _ l1) in *. set (u := ps_u s) in *. set (g := s_g st) in *.
  change (p_d (prep1 st s)) with (snd (prepare_sheet_drawings g (h_linkage (ps_h s)) u)) in Hr1.
  destruct (drawings_parts g (h_linkage (ps_h s)) u) as (_ & _ & _ & Er & _). rewrite Er in Hr1.
  unfold hf_step in *. destruct (hf_loop (g_hf g) _ [] [] (u_hf u)) as [[x1 x2] x3] eqn:Es. cbn [fst snd] in *.
  apply hf_loop_in in Es as [_ HI]. destruct (HI r Hr1) as [[]|(i & n & A1 & A2 & ->)].
  apply image_present; [exact X|]. apply S3; [|exact A2].
  eapply book_img_in; [rewrite E1; apply in_elt|]. unfold sheet_imgs. fold u. rewrite !in_app_iff. auto.
Qed.

(** Sheets. *)
Lemma ws_in pre p post : l = pre ++ p :: post -> u_chartsheet (p_u p) = false ->
  In (render (NWs (1 + cnt n_ws pre)), CSheet (fst (write_sheet_doc p))) pkg.
Proof.
  intros E Hc. apply Hin_pkg, in_parts. right; left.
  apply (in_worksheets m l 1 _ (w_ws _ _ _ _ _ _ W)). exists pre, p, post. split; [exact E|]. split; [exact Hc|]. auto.
Qed.
Lemma cs_in pre p post : l = pre ++ p :: post -> u_chartsheet (p_u p) = true ->
  In (render (NCs (1 + cnt n_cs pre)), CSheet (write_chartsheet_doc p)) pkg.
Proof.
  intros E Hc. apply Hin_pkg, in_parts. right; right; left.
  apply (in_chartsheets m l 1 _ (w_cs _ _ _ _ _ _ W)). exists pre, p, post. split; [exact E|]. split; [exact Hc|]. auto.
Qed.

Theorem closed_rels name es : In (name, CRels es) pkg ->
  NoDup (map fst es) /\ exists source, name = rels_part_of source /\ (source = [] \/ exists c, In (source, c) pkg) /\
    forall id r, In (id, r) es -> r_mode r = lit "External" \/ (exists t, r_target r = 35 :: t) \/ exists c, In (resolve source (r_target r), c) pkg.
Proof.
  intros Hi. assert (Hi' := Hi). rewrite (w_pkg _ _ _ _ _ _ W) in Hi. apply in_parts in Hi.
  set (o := package_options b l) in *.
  repeat match type of Hi with _ \/ _ => destruct Hi as [Hi|Hi] end; try discriminate Hi.
  - (* package *) injection Hi as -> ->.
    eapply rels_closed; [apply rels_root|exact Hi'|apply (w_rr _ _ _ _ _ _ W)|auto|].
    intros r H. unfold root_rels in H. rewrite in_app_iff, in_when in H. cbn [In] in H.
    destruct H as [[<-|[<-|[<-|[]]]]|[Ho [<-|[]]]]; eapply present_part; apply Hin_pkg, in_parts.
    + left. do 5 right. reflexivity.
    + do 4 right. left. left. reflexivity.
    + do 4 right. left. right. reflexivity.
    + do 5 right. left. apply in_when. split; [exact Ho|left; reflexivity].
  - (* workbook *) injection Hi as -> ->.
    eapply rels_closed; [apply rels_wb|exact Hi'|apply (w_wr _ _ _ _ _ _ W)|right; eexists; apply Hin_pkg, in_parts; left; do 5 right; reflexivity|].
    intros r H. unfold workbook_rels in H. rewrite !in_app_iff, !in_when in H. cbn [In] in H.
    destruct H as [H|[[<-|[<-|[]]]|[[Ho [<-|[]]]|[[Ho [<-|[]]]|[[Ho [<-|[]]]|[[Ho H]|[Ho [<-|[]]]]]]]]].
    + destruct (sheet_rels_in _ _ _ _ H) as [(pre & p & post & E & Hc & ->)|(pre & p & post & E & Hc & ->)]; eapply present_part;
        unfold doc_rel; cbn [r_target]; [rewrite res_wb_cs|rewrite res_wb_ws]; [eapply cs_in|eapply ws_in]; eassumption.
    + eapply present_part; apply Hin_pkg, in_parts. left. do 3 right. left. reflexivity.
    + eapply present_part; apply Hin_pkg, in_parts. left. do 4 right. left. reflexivity.
    + eapply present_part; apply Hin_pkg, in_parts. do 3 right. left. apply in_when. split; [exact Ho|left; reflexivity].
    + eapply present_part; apply Hin_pkg, in_parts. do 14 right. left. apply in_when. split; [exact Ho|left; reflexivity].
    + destruct (w_vba b) as [v|] eqn:Ev; [|unfold o in Ho; cbn in Ho; rewrite Ev in Ho; discriminate].
      apply (present_part _ _ (CBytes v)). apply Hin_pkg, in_parts. do 12 right. left. unfold vba_parts. rewrite Ev. left. reflexivity.
    + assert (HI : forall x, In x (rich_parts o emb (a_ri a)) -> In x pkg) by (intros x Hx; apply Hin_pkg, in_parts; do 15 right; left; exact Hx).
      change (o_embedded o = true) in Ho. unfold rich_parts in HI. rewrite Ho in HI. cbn [when In] in HI.
      destruct H as [<-|[<-|[<-|[<-|[]]]]]; eapply present_part; apply HI.
      * do 4 right. left. reflexivity.
      * right. left. reflexivity.
      * do 3 right. left. reflexivity.
      * do 2 right. left. reflexivity.
    + eapply present_part; apply Hin_pkg, in_parts. do 16 right. apply in_when. split; [exact Ho|left; reflexivity].
  - (* worksheets *)
    apply (in_worksheets m l 1 _ (w_ws _ _ _ _ _ _ W)) in Hi as (pre & p & post & E & Hc & [H|(_ & es' & Hw & H)]); [discriminate H|].
    assert (En : name = render (NWsR (1 + cnt n_ws pre)) /\ es = es') by (split; congruence). destruct En as [-> ->].
    eapply rels_closed; [apply rels_ws|exact Hi'|exact Hw|right; eexists; eapply ws_in; eassumption|].
    intros r Hr1. unfold sheet_rel_list in Hr1. rewrite !in_app_iff in Hr1. destruct Hr1 as [H1|[H1|[H1|[H1|H1]]]].
    + unfold write_sheet_doc in H1. destruct (write_links 1 (u_links (p_u p))) as [[ids lr] n1] eqn:Ew.
      repeat (destruct (bump _ _) in H1). cbn [snd] in H1.
      destruct (write_links_in _ _ _ _ _ Ew r H1) as (x & Hx & ->). apply hl_present. eapply (url_of (p_u p)).
      * rewrite <- us_l, E, map_app. apply in_elt.
      * apply in_or_app. left. exact Hx.
    + eapply dobj_present; [exact E|apply xl3_ws|exact H1].
    + eapply bg_present; [exact E|apply xl3_ws|exact H1].
    + eapply table_present; [exact E|apply xl3_ws|exact H1].
    + eapply comment_present; [exact E|apply xl3_ws|exact H1].
  - (* chartsheets *)
    apply (in_chartsheets m l 1 _ (w_cs _ _ _ _ _ _ W)) in Hi as (pre & p & post & E & Hc & [H|(_ & es' & Hw & H)]); [discriminate H|].
    assert (En : name = render (NCsR (1 + cnt n_cs pre)) /\ es = es') by (split; congruence). destruct En as [-> ->].
    eapply rels_closed; [apply rels_cs|exact Hi'|exact Hw|right; eexists; eapply cs_in; eassumption|].
    intros r Hr1. eapply dobj_present; [exact E|apply xl3_cs|exact Hr1].
  - apply in_when in Hi as [_ [Hi|[]]]. discriminate Hi.
  - apply in_when in Hi as [_ [Hi|[]]]. discriminate Hi.
  - apply (in_drawings l infos_l) in Hi as (pre & p & post & E & _ & Hi). discriminate Hi.
  - (* VML *)
    apply (in_vmls m l 1 1 _ (w_vml _ _ _ _ _ _ W)), at_vml_split in Hi as (pre & p & post & E & [[_ Hi]|[Hne [Hi|(es' & Hw & Hi)]]]); try discriminate Hi.
    assert (En : name = render (NVmlR (1 + cnt n_vml pre + b2n (has_vml (p_u p)))) /\ es = es') by (split; congruence). destruct En as [-> ->].
    eapply rels_closed; [apply rels_vml|exact Hi'|exact Hw|right; eexists; eapply hf_vml_in; eassumption|].
    intros r Hr1. eapply vmlrels_present; [exact E|apply xl3_vml|exact Hr1].
  - apply in_comments in Hi as (pre & p & post & E & _ & Hi). discriminate Hi.
  - (* images *) exfalso.
    assert (G := images_bytes emb (map p_u l)).
    destruct (G _ Hi) as [d Hd]. discriminate Hd.
  - apply in_charts in Hi as (k & body & _ & _ & Hi). discriminate Hi.
  - rewrite (w_l _ _ _ _ _ _ W) in Hi. apply in_tables in Hi as (k & t & _ & _ & Hi). discriminate Hi.
  - (* VBA *)
    unfold vba_parts in Hi. destruct (w_vba b) as [v|] eqn:Ev; [|destruct Hi]. destruct Hi as [Hi|Hi]; [discriminate Hi|].
    apply in_when in Hi as [Hs [Hi|[Hi|[]]]]; [discriminate Hi|]. injection Hi as <- <-.
    assert (HV : forall x, In x (vba_parts b (a_vr a)) -> In x pkg) by (intros x Hx; apply Hin_pkg, in_parts; do 12 right; left; exact Hx).
    unfold vba_parts in HV. rewrite Ev, Hs in HV. cbn [when In] in HV.
    eapply rels_closed; [apply rels_vba|exact Hi'|apply (w_vr _ _ _ _ _ _ W)|right; exists (CBytes v); apply HV; left; reflexivity|].
    intros r [<-|[]]. eapply present_part. apply HV. right. left. reflexivity.
  - (* drawing rels *)
    apply (in_drawing_rels m l infos_l 0 _ (w_dr _ _ _ _ _ _ W)) in Hi as (pre & p & post & E & Hne & es' & Hw & Hi).
    assert (Hd : has_dr (p_u p) = true).
    { assert (H : Forall (fun p => d_rels (p_d p) <> [] -> has_dr (p_u p) = true) l) by (rewrite (w_l _ _ _ _ _ _ W); apply prep_rels_dr).
      rewrite E in H. apply Forall_mid in H as (_ & H & _). apply H, Hne. }
    assert (K : n_dr (p_u p) = 1) by (unfold n_dr; rewrite Hd; reflexivity). rewrite K in Hi. replace (0 + cnt n_dr pre + 1) with (1 + cnt n_dr pre) in Hi by lia.
    assert (En : name = render (NDrR (1 + cnt n_dr pre)) /\ es = es') by (split; congruence). destruct En as [-> ->].
    eapply rels_closed; [apply rels_dr|exact Hi'|exact Hw|right; eexists; eapply drawing_in; eassumption|].
    intros r Hr1. eapply drels_present; [exact E|apply xl3_dr|exact Hr1].
  - apply in_when in Hi as [_ [Hi|[]]]. discriminate Hi.
  - (* rich *)
    unfold rich_parts in Hi. apply in_when in Hi as [Ho Hi]. cbn [In] in Hi.
    destruct Hi as [Hi|[Hi|[Hi|[Hi|[Hi|[]]]]]]; try discriminate Hi. injection Hi as <- <-.
    eapply rels_closed; [apply rels_rich|exact Hi'|apply (w_ri _ _ _ _ _ _ W)| |].
    + right. eexists. apply Hin_pkg, in_parts. do 15 right. left. unfold rich_parts. apply in_when. split; [exact Ho|]. do 4 right. left. reflexivity.
    + intros r Hr1. destruct (in_rich_rels _ _ _ Hr1) as (j & i & Hj & ->). apply image_present; [apply xl3_rich|].
      apply Hin_pkg, in_parts. do 9 right. left. unfold write_images. apply in_or_app. left. apply embedded_nth, Hj.
  - apply in_when in Hi as [_ [Hi|[]]]. discriminate Hi.
Qed.
End World.
