(** Package level, part 13: note authors (C34). *)
From Coq Require Import Permutation Sorted.
From Verif Require Import Base Xml_Model Url_Model Book_Model Book_Spec Book_Proofs Book_Proofs2 Pkg_Model Pkg_Spec Pkg_Names Pkg_Proofs Pkg_Proofs2 Pkg_Proofs3 Pkg_Proofs4 Pkg_Proofs5 Pkg_Proofs6 Pkg_Proofs7.

Lemma am_get_in k v m : am_get k m = Some v -> In (k, v) m.
Proof.
  induction m as [|[k' v'] m IH]; cbn [am_get]; [discriminate|].
  destruct (str_eqb k k') eqn:E; [apply str_eqb_eq in E; intros [= ->]; subst; left; reflexivity|]. intros H. right. auto.
Qed.
Lemma in_am_get k v m : NoDup (map fst m) -> In (k, v) m -> am_get k m = Some v.
Proof.
  induction m as [|[k' v'] m IH]; cbn [am_get map fst]; [intros _ []|]. intros Hn [E|H]; inversion Hn as [|? ? Hn1 Hn2]; subst.
  - injection E as -> ->. rewrite str_eqb_refl. reflexivity.
  - destruct (str_eqb k k') eqn:E; [|auto]. apply str_eqb_eq in E. subst k'. exfalso. apply Hn1. apply (in_map fst) in H. exact H.
Qed.
Lemma am_get_none k m : am_get k m = None -> ~ In k (map fst m).
Proof.
  induction m as [|[k' v'] m IH]; cbn [am_get map fst]; [intros _ []|].
  destruct (str_eqb k k') eqn:E; [discriminate|]. intros H [->|Hi]; [rewrite str_eqb_refl in E; discriminate|]. apply IH; assumption.
Qed.
Lemma bt_insert_perm k v m : am_get k m = None -> Permutation (bt_insert k v m) ((k, v) :: m).
Proof.
  induction m as [|[k' v'] m IH]; cbn [am_get bt_insert]; [intros _; reflexivity|].
  destruct (str_eqb k k'); [discriminate|]. intros H. destruct (str_leb k k'); [reflexivity|].
  rewrite (IH H). apply perm_swap.
Qed.
Lemma str_lt_of_not_le a b : str_leb a b = false -> str_lt b a.
Proof.
  intros H. destruct (str_lt_total a b) as [L|[E|L]]; [| |exact L]; exfalso.
  - assert (Hx : str_leb a b = true) by (apply str_leb_spec; right; exact L). congruence.
  - assert (Hx : str_leb a b = true) by (apply str_leb_spec; left; exact E). congruence.
Qed.
Lemma bt_insert_sorted k v m : am_get k m = None -> StronglySorted str_lt (map fst m) -> StronglySorted str_lt (map fst (bt_insert k v m)).
Proof.
  induction m as [|[k' v'] m IH]; cbn [am_get bt_insert]; [intros _ _; repeat constructor|].
  destruct (str_eqb k k') eqn:E; [discriminate|]. intros H Hs. cbn [map fst] in Hs. inversion Hs as [|? ? Hs1 Hs2]; subst.
  destruct (str_leb k k') eqn:L; cbn [map fst].
  - apply str_leb_spec in L as [L|L]; [subst; rewrite str_eqb_refl in E; discriminate|].
    constructor; [exact Hs|]. constructor; [exact L|]. eapply Forall_impl; [|exact Hs2]. intros x Hx. eapply str_lt_trans; eassumption.
  - constructor; [apply IH; assumption|]. rewrite Forall_forall in *. intros x Hx.
    apply (Permutation_in _ (Permutation_map fst (bt_insert_perm k v m H))) in Hx. destruct Hx as [<-|Hx]; [|auto].
    apply str_lt_of_not_le, L.
Qed.
Lemma sorted_perm_eq (l1 l2 : list str) : StronglySorted str_lt l1 -> StronglySorted str_lt l2 -> Permutation l1 l2 -> l1 = l2.
Proof.
  revert l2. induction l1 as [|x l1 IH]; intros [|y l2] H1 H2 Hp; try reflexivity.
  - apply Permutation_nil in Hp. discriminate.
  - symmetry in Hp. apply Permutation_nil in Hp. discriminate.
  - inversion H1 as [|? ? A1 A2]; inversion H2 as [|? ? B1 B2]; subst. rewrite Forall_forall in A2, B2.
    assert (x = y).
    { assert (Hx : In x (y :: l2)) by (apply (Permutation_in _ Hp); left; reflexivity).
      assert (Hy : In y (x :: l1)) by (apply (Permutation_in _ (Permutation_sym Hp)); left; reflexivity).
      destruct Hx as [E|Hx]; [auto|]. destruct Hy as [E|Hy]; [auto|].
      apply B2 in Hx. apply A2 in Hy. destruct (str_lt_irrefl x). eapply str_lt_trans; eassumption. }
    subst y. f_equal. apply IH; try assumption. apply Permutation_cons_inv in Hp. exact Hp.
Qed.
Lemma sorted_nodup (l : list str) : StronglySorted str_lt l -> NoDup l.
Proof.
  induction 1 as [|x l H IH Hf]; constructor; [|exact IH]. intros Hi. rewrite Forall_forall in Hf. apply Hf in Hi. destruct (str_lt_irrefl x Hi).
Qed.

(** The author table [m], built in the order [o]. *)
Record authors_inv (m : amap) (o : list str) : Prop := {
  ai_perm : Permutation m (combine o (seq_from 0 (length o)));
  ai_nodup : NoDup o;
  ai_sorted : StronglySorted str_lt (map fst m) }.
Lemma map_fst_combine_seq (o : list str) n : map fst (combine o (seq_from n (length o))) = o.
Proof. revert n. induction o as [|x o IH]; intros n; [reflexivity|]. cbn [length seq_from combine map fst]. f_equal. apply IH. Qed.
Lemma in_combine_seq (o : list str) a k : forall n, In (a, k) (combine o (seq_from n (length o))) <-> n <= k /\ nth_error o (N.to_nat (k - n)) = Some a.
Proof.
  induction o as [|x o IH]; intros n; cbn [length seq_from combine In].
  - split; [intros []|]. intros [_ H]. destruct (N.to_nat (k - n)); discriminate.
  - rewrite IH. split.
    + intros [E|[H1 H2]].
      * injection E as -> ->. split; [lia|]. rewrite N.sub_diag. reflexivity.
      * split; [lia|]. replace (N.to_nat (k - n)) with (S (N.to_nat (k - (n + 1)))) by lia. exact H2.
    + intros [H1 H2]. destruct (N.eq_dec n k) as [<-|Hne].
      * left. rewrite N.sub_diag in H2. cbn in H2. congruence.
      * right. split; [lia|]. replace (N.to_nat (k - n)) with (S (N.to_nat (k - (n + 1)))) in H2 by lia. exact H2.
Qed.
Lemma combine_snoc (o : list str) a n : combine (o ++ [a]) (seq_from n (length (o ++ [a]))) = combine o (seq_from n (length o)) ++ [(a, n + N.of_nat (length o))].
Proof.
  revert n. induction o as [|x o IH]; intros n; cbn [app length seq_from combine]; [rewrite N.add_0_r; reflexivity|].
  rewrite IH. cbn [app]. do 3 f_equal. f_equal. lia.
Qed.
Lemma ai_keys m o : authors_inv m o -> Permutation (map fst m) o.
Proof. intros [H _ _]. apply (Permutation_map fst) in H. rewrite map_fst_combine_seq in H. exact H. Qed.
Lemma ai_get m o a k : authors_inv m o -> (am_get a m = Some k <-> nth_error o (N.to_nat k) = Some a).
Proof.
  intros H. assert (Hn : NoDup (map fst m)) by apply sorted_nodup, H.
  transitivity (In (a, k) m); [split; [apply am_get_in|apply in_am_get, Hn]|].
  transitivity (In (a, k) (combine o (seq_from 0 (length o)))).
  - split; apply Permutation_in; [apply H|apply Permutation_sym, H].
  - rewrite in_combine_seq, N.sub_0_r. intuition lia.
Qed.
Lemma ai_known m o a : authors_inv m o -> (existsb (str_eqb a) o = true <-> exists k, am_get a m = Some k).
Proof.
  intros H. rewrite existsb_exists. split.
  - intros (x & Hx & E). apply str_eqb_eq in E. subst x. apply In_nth_error in Hx as [k Hk].
    exists (N.of_nat k). apply (ai_get m o a _ H). rewrite Nat2N.id. exact Hk.
  - intros [k Hk]. apply (ai_get m o a k H) in Hk. apply nth_error_In in Hk. exists a. split; [exact Hk|apply str_eqb_refl].
Qed.
Lemma ai_add m o a : authors_inv m o -> am_get a m = None -> authors_inv (bt_insert a (am_len m) m) (o ++ [a]).
Proof.
  intros H Hn. assert (Hl : am_len m = N.of_nat (length o)).
  { unfold am_len. rewrite (Permutation_length (ai_perm _ _ H)), combine_length.
    enough (E : length (seq_from 0 (length o)) = length o) by (rewrite E; f_equal; lia).
    generalize (length o), 0. clear. intros k. induction k as [|k IH]; intros n; [reflexivity|]. cbn. f_equal. apply IH. }
  constructor.
  - rewrite (bt_insert_perm a _ m Hn), combine_snoc, Hl. cbn [N.add].
    rewrite (ai_perm _ _ H). apply Permutation_cons_append.
  - apply NoDup_app_intro; [apply H|repeat constructor; intros []|]. intros x Hx [<-|[]].
    apply am_get_none in Hn. apply Hn. apply (Permutation_in _ (Permutation_sym (ai_keys _ _ H))), Hx.
  - apply bt_insert_sorted; [exact Hn|apply H].
Qed.
Lemma firsts_app l : forall o, exists e, firsts o l = o ++ e /\ (forall x, In x e -> In x l).
Proof.
  induction l as [|a l IH]; intros o; cbn [firsts]; [exists []; rewrite app_nil_r; split; [reflexivity|intros x []]|].
  destruct (existsb (str_eqb a) o).
  - destruct (IH o) as (e & -> & He). exists e. split; [reflexivity|]. intros x Hx. right. auto.
  - destruct (IH (o ++ [a])) as (e & -> & He). exists (a :: e). split; [rewrite <- app_assoc; reflexivity|].
    intros x [<-|Hx]; [left; reflexivity|right; auto].
Qed.
Lemma assign_ok d l : forall m o m' out, authors_inv m o -> nth_error o 0 = Some d -> assign_authors m l = (m', out) ->
  authors_inv m' (firsts o (map (author_of d) l)) /\
  Forall2 (fun n id => nth_error (firsts o (map (author_of d) l)) (N.to_nat id) = Some (author_of d n)) l out.
Proof.
  induction l as [|n l IH]; intros m o m' out H Hd; cbn [assign_authors map firsts].
  - intros [= <- <-]. split; [exact H|constructor].
  - assert (Hext : forall o' k x, nth_error o' k = Some x -> nth_error (firsts o' (map (author_of d) l)) k = Some x).
    { intros o' k x Hk. destruct (firsts_app (map (author_of d) l) o') as (e & -> & _). apply nth_app_l, Hk. }
    destruct (nt_author n) as [a|] eqn:En.
    + assert (Han : author_of d n = a) by (unfold author_of; rewrite En; reflexivity). rewrite Han.
      destruct (am_get a m) as [i|] eqn:Ea.
      * destruct (assign_authors m l) as [m1 out1] eqn:E1. intros [= <- <-].
        assert (Hk : existsb (str_eqb a) o = true) by (apply (ai_known m o a H); eauto). rewrite Hk.
        destruct (IH _ _ _ _ H Hd E1) as [A1 A2]. split; [exact A1|]. constructor; [|exact A2].
        rewrite Han. apply Hext. apply (ai_get m o a i H), Ea.
      * destruct (assign_authors (bt_insert a (am_len m) m) l) as [m1 out1] eqn:E1. intros [= <- <-].
        assert (Hk : existsb (str_eqb a) o = false).
        { apply Bool.not_true_iff_false. intros Hk. apply (ai_known m o a H) in Hk as [k Hk]. congruence. }
        rewrite Hk. assert (H' := ai_add m o a H Ea).
        destruct (IH _ _ _ _ H' (nth_app_l _ _ _ _ Hd) E1) as [A1 A2]. split; [exact A1|]. constructor; [|exact A2].
        rewrite Han. apply Hext. apply (ai_get _ _ a _ H').
        assert (Hn : NoDup (map fst (bt_insert a (am_len m) m))) by apply sorted_nodup, H'.
        apply in_am_get; [exact Hn|]. apply (Permutation_in _ (Permutation_sym (bt_insert_perm a _ m Ea))). left. reflexivity.
    + assert (Han : author_of d n = d) by (unfold author_of; rewrite En; reflexivity). rewrite Han.
      destruct (assign_authors m l) as [m1 out1] eqn:E1. intros [= <- <-].
      assert (Hk : existsb (str_eqb d) o = true).
      { apply existsb_exists. exists d. split; [eapply nth_error_In; exact Hd|apply str_eqb_refl]. }
      rewrite Hk. destruct (IH _ _ _ _ H Hd E1) as [A1 A2]. split; [exact A1|]. constructor; [|exact A2]. rewrite Han. apply Hext. exact Hd.
Qed.

(** Reachable states. *)
Definition authors_ok (s : psheet) : Prop := exists o d, authors_inv (h_authors (ps_h s)) (d :: o).
Lemma single_inv d : authors_inv [(d, 0)] [d].
Proof. constructor; [reflexivity|repeat constructor; intros []|repeat constructor]. Qed.
Lemma fresh_authors s : fresh s -> authors_ok s.
Proof.
  unfold authors_ok. intros [->|[a ->]].
  - exists [], (lit "Author"). apply single_inv.
  - unfold set_default_note_author. destruct (52 <? char_count a); cbn [h_authors hidden_new]; eexists [], _; apply single_inv.
Qed.
Lemma set_default_authors h a : h_authors (set_default_note_author h a) = h_authors h \/ h_authors (set_default_note_author h a) = [(a, 0)].
Proof. unfold set_default_note_author. destruct (52 <? char_count a); auto. Qed.
Lemma v_authors_eq q au u : v_authors (snd (prepare_sheet_vml q au u)) = fst (assign_authors au (u_notes u)).
Proof.
  unfold prepare_sheet_vml. destruct (has_vml u) eqn:Ev.
  - destruct (assign_authors au (u_notes u)) as [m out]. destruct (is_nil (u_hf u)); reflexivity.
  - assert (En : u_notes u = []).
    { unfold has_vml in Ev. apply Bool.negb_false_iff, andb_true_iff in Ev as [Ev _]. destruct (u_notes u); [reflexivity|discriminate]. }
    rewrite En. destruct (is_nil (u_hf u)); reflexivity.
Qed.
Lemma v_ids_eq q au u : u_notes u <> [] -> v_author_ids (snd (prepare_sheet_vml q au u)) = snd (assign_authors au (u_notes u)).
Proof.
  intros Hn. unfold prepare_sheet_vml. assert (Ev : has_vml u = true) by (unfold has_vml; destruct (u_notes u); [contradiction|reflexivity]).
  rewrite Ev. destruct (assign_authors au (u_notes u)) as [m out]. destruct (is_nil (u_hf u)); reflexivity.
Qed.
Theorem reach_authors m lower b : reach m lower b -> Forall authors_ok (w_sheets b).
Proof.
  induction 1 as [b H|b b' _ IH H|b b' pkg _ IH H].
  - apply Forall_forall. intros s Hs. apply fresh_authors, H, Hs.
  - apply Forall_forall. intros s' Hs. destruct (H s' Hs) as [Hf|(s & Hs' & He & _)]; [apply fresh_authors, Hf|].
    rewrite Forall_forall in IH. destruct (IH s Hs') as (o & d & Ho). unfold authors_ok. destruct He as [->|[x ->]]; [eauto|].
    destruct (set_default_authors (ps_h s) x) as [->| ->]; [eauto|]. exists [], x. apply single_inv.
  - apply save_inv in H as (_ & -> & _). cbn [w_sheets with_sheets]. apply Forall_forall. intros s' Hs'.
    apply in_map_iff in Hs' as (p & <- & Hp). apply in_prep_st in Hp as (l1 & s & l2 & E & ->).
    rewrite Forall_forall in IH. destruct (IH s) as (o & d & Ho); [rewrite E; apply in_elt|].
    unfold authors_ok, sheet_after, prep1. cbn [ps_h h_authors p_v]. rewrite v_authors_eq.
    destruct (assign_authors (h_authors (ps_h s)) (u_notes (ps_u s))) as [m' out] eqn:Ea.
    destruct (assign_ok d _ _ _ _ _ Ho eq_refl Ea) as [A _]. cbn [fst].
    destruct (firsts_app (map (author_of d) (u_notes (ps_u s))) (d :: o)) as (e & Ee & _). rewrite Ee in A. cbn [app] in A. eauto.
Qed.

Lemma zip_notes_spec (P : note -> N -> Prop) l : forall out, Forall2 P l out ->
  Forall2 (fun n e => fst e = (nt_row n, nt_col n) /\ P n (snd e)) l (zip_notes l out).
Proof. induction l as [|n l IH]; intros out H; inversion H; subst; cbn [zip_notes]; constructor; auto. Qed.

(** Comments docs of a sheet: which authors are registered, in which order. *)
Section World.
Variables (m : ovf) (b : pbook) (pkg : package) (emb : list img) (l : list prep) (a : parts).
Hypothesis W : world m b pkg emb l a.
Hypothesis Hr : rels_ok m pkg.

Lemma ws_rels_in pre p post : l = pre ++ p :: post -> u_chartsheet (p_u p) = false ->
  has_relationships (snd (write_sheet_doc p)) p = true ->
  exists es, write_rels m (sheet_rel_list p) = Some es /\ In (render (NWsR (1 + cnt n_ws pre)), CRels es) pkg.
Proof.
  intros E Hc Hh.
  destruct (write_rels m (sheet_rel_list p)) as [es|] eqn:Ew.
  - exists es. split; [reflexivity|]. eapply in_pkg; [exact W|]. apply in_parts. right; left.
    apply (in_worksheets m l 1 _ (w_ws _ _ _ _ _ _ W)). exists pre, p, post. split; [exact E|]. split; [exact Hc|]. right. eauto.
  - exfalso. clear - W E Hc Hh Ew. assert (H := w_ws _ _ _ _ _ _ W). rewrite E in H. revert H. generalize 1 at 1. generalize (a_ws a).
    clear W E. induction pre as [|q pre IH]; intros ps ix; cbn [app write_worksheets].
    + rewrite Hc. unfold sheet_rel_list in Ew. destruct (write_sheet_doc p) as [doc links]. cbn [snd] in *. rewrite Hh, Ew. discriminate.
    + destruct (u_chartsheet (p_u q)); [apply IH|]. destruct (write_sheet_doc q).
      destruct (if has_relationships _ q then _ else _); cbn [obind]; [|discriminate].
      destruct (write_worksheets m (ix + 1) (pre ++ p :: post)) eqn:Ex; cbn [obind]; [|discriminate]. intros _. eapply IH, Ex.
Qed.
Lemma assoc_In {A} k (x : A) es : assoc k es = Some x -> In (k, x) es.
Proof.
  induction es as [|[k' y] es IH]; cbn [assoc]; [discriminate|].
  destruct (str_eqb k k') eqn:E; [apply str_eqb_eq in E; intros [= ->]; subst; left; reflexivity|]. intros H. right. auto.
Qed.
(** Relationships of a worksheet are those prepared for it. *)
Lemma ws_rel_inv pre p post id r : l = pre ++ p :: post -> u_chartsheet (p_u p) = false ->
  has_relationships (snd (write_sheet_doc p)) p = true ->
  rel_of pkg (render (NWs (1 + cnt n_ws pre))) id = Some r -> In r (sheet_rel_list p).
Proof.
  intros E Hc Hh H. destruct (ws_rels_in pre p post E Hc Hh) as (es & Ew & Hi).
  unfold rel_of in H. rewrite rels_ws, (find_in m b pkg emb l a W _ _ Hi) in H. apply assoc_In in H.
  rewrite (rels_entries m pkg Hr _ _ _ Hi Ew) in H. eapply entries_In, H.
Qed.
Lemma links_types us0 : forall n r, In r (snd (fst (write_links n us0))) -> r_type r = DOC "hyperlink".
Proof.
  induction us0 as [|u v IH]; intros n r; cbn [write_links]; [intros []|].
  assert (A := IH n r). assert (B := IH (n + 1) r).
  destruct (write_links n v) as [[a1 a2] a3], (write_links (n + 1) v) as [[b1 b2] b3]. cbn [fst snd] in *.
  destruct (ltype u); cbn [fst snd In]; auto; intros [<-|H]; auto.
Qed.
Lemma bg_types g lk u r : In r (d_bg (snd (prepare_sheet_drawings g lk u))) -> r_type r = DOC "image".
Proof.
  unfold prepare_sheet_drawings.
  destruct (match u_bg u with Some i => _ | None => _ end) as [[bgi im0] bg] eqn:Ebg.
  destruct (images_loop (g_ws g) im0 [] [] (u_images u)) as [[[[ws im1] rids1] rels1] infos1] eqn:Ei.
  destruct (if is_nil (u_images u) then ([], lk) else ([drawing_link (g_drawing g)], true)) as [dobj1 lk1] eqn:E1.
  destruct (if is_nil (u_charts u) then (rids1, rels1, [], dobj1) else _) as [[[rids2 rels2] infos2] dobj2] eqn:E2.
  destruct (shapes_loop (g_shape g) rids2 rels2 (u_shapes u)) as [[rids3 rels3] infos3] eqn:E3.
  destruct (if is_nil (u_shapes u) then (dobj2, lk1) else _) as [dobj3 lk3] eqn:E4.
  destruct (hf_loop (g_hf g) (am_len bgi + am_len ws) [] [] (u_hf u)) as [[hfi vr] hf]. cbn [snd d_bg].
  destruct (u_bg u) as [i|]; [destruct (am_get (im_hash i) (g_bg g))|]; injection Ebg as _ _ <-; intros H;
    [destruct H as [<-|[]]; reflexivity|destruct H as [<-|[]]; reflexivity|destruct H].
Qed.
Lemma sheet_comments_of i s c : nth_error (w_sheets b) i = Some s -> u_chartsheet (ps_u s) = false -> u_notes (ps_u s) <> [] ->
  sheet_comments pkg i (ps_u s) c -> c = comments_of (prep1 (after (st0 (N.of_nat (length emb))) (firstn i (w_sheets b))) s).
Proof.
  intros Hi Hc Hn (name & d & id & part & H1 & H2).
  destruct (sheet_at m b pkg emb l a W i s Hi) as (l1 & l2 & pre & post & E1 & El & E2 & Hlen & Epre & Hf & Hcnt & Hl1 & Hs). cbn zeta in *.
  rewrite Hf. set (st := after (st0 (N.of_nat (length emb))) l1) in *. set (p := prep1 st s) in *.
  assert (P1 : sheet_part pkg (length pre) (p_u p) (render (NWs (1 + cnt n_ws pre))) (fst (write_sheet_doc p))) by (eapply ws_opens; eassumption).
  rewrite Hlen in P1. change (p_u p) with (ps_u s) in P1.
  destruct (sheet_part_det _ _ _ _ _ _ _ H1 P1) as [-> ->].
  destruct (prep1_facts (N.of_nat (length emb)) l1 s Hl1 Hs) as (F1 & F2 & F3 & F4 & F5 & F6 & F7). fold st p in F1, F2, F3, F4, F5, F6, F7.
  assert (Hnn := Hn). apply is_nil_false in Hnn. rewrite Hnn in F6.
  assert (Hv : has_vml (ps_u s) = true) by (unfold has_vml; rewrite Hnn; reflexivity). rewrite Hv in F1.
  assert (Hh : has_relationships (snd (write_sheet_doc p)) p = true).
  { unfold has_relationships. apply negb_true_iff.
    assert (Hd : is_nil (p_dobj p) = false) by (rewrite F1; destruct (has_dr (ps_u s)); reflexivity). rewrite Hd, andb_false_r. reflexivity. }
  destruct H2 as (r & R1 & R2 & R3 & R4 & R5).
  apply (ws_rel_inv pre p post) in R1; [|exact E2|exact Hc|exact Hh].
  assert (Er : r = doc_rel (lit "comments") (numbered "../comments" (1 + sumN n_com (map ps_u l1)) ".xml") []).
  { unfold sheet_rel_list in R1. rewrite !in_app_iff in R1. destruct R1 as [R1|[R1|[R1|[R1|R1]]]].
    - assert (Hx : r_type r = DOC "hyperlink").
      { apply (links_types (u_links (ps_u s)) 1). unfold write_sheet_doc in R1. change (p_u p) with (ps_u s) in R1.
        destruct (write_links 1 (u_links (ps_u s))) as [[ids lr] n1].
        destruct (bump _ (n1 - 1)) as [x1 c1]. destruct (bump _ c1) as [x2 c2]. destruct (bump _ c2) as [x3 c3]. destruct (bump _ c3) as [x4 c4]. exact R1. }
      rewrite Hx in R2. discriminate.
    - rewrite F1, !in_app_iff in R1. destruct R1 as [R1|[R1|R1]].
      + destruct (has_dr (ps_u s)); [destruct R1 as [<-|[]]; discriminate|destruct R1].
      + destruct R1 as [<-|[]]; discriminate.
      + destruct (is_nil (u_hf (ps_u s))); [destruct R1|destruct R1 as [<-|[]]; discriminate].
    - apply bg_types in R1. rewrite R1 in R2. discriminate.
    - rewrite F5 in R1. apply in_map_iff in R1 as (k & <- & _). discriminate.
    - rewrite F6 in R1. destruct R1 as [<-|[]]. reflexivity. }
  subst r. cbn [r_target doc_rel] in R4.
  assert (X3 : xl3 (render (NWs (1 + cnt n_ws pre)))) by apply xl3_ws.
  rewrite (res_comments _ _ X3) in R4. subst part.
  assert (Hin : In (render (NCom (1 + cnt n_com pre)), CComments (comments_of p)) pkg) by (eapply comments_in; eassumption).
  rewrite Hcnt in Hin. apply (find_in m b pkg emb l a W) in Hin. rewrite Hin in R5. injection R5 as <-. reflexivity.
Qed.

(** What the comments part says, for an author table [d :: o]. *)
Theorem comments_authors i s c d o : nth_error (w_sheets b) i = Some s -> u_chartsheet (ps_u s) = false -> u_notes (ps_u s) <> [] ->
  authors_inv (h_authors (ps_h s)) (d :: o) -> sheet_comments pkg i (ps_u s) c ->
  let order := firsts (d :: o) (map (author_of d) (u_notes (ps_u s))) in
  NoDup order /\ Permutation (cd_authors c) order /\ StronglySorted str_lt (cd_authors c) /\
  Forall2 (fun n e => fst e = (nt_row n, nt_col n) /\ nth_error order (N.to_nat (snd e)) = Some (author_of d n)) (u_notes (ps_u s)) (cd_list c).
Proof.
  intros Hi Hc Hn Ho Hcom order. rewrite (sheet_comments_of i s c Hi Hc Hn Hcom).
  unfold comments_of, prep1. cbn [cd_authors cd_list p_v]. change (p_u _) with (ps_u s). rewrite v_authors_eq, (v_ids_eq _ _ _ Hn).
  destruct (assign_authors (h_authors (ps_h s)) (u_notes (ps_u s))) as [m' out] eqn:Ea.
  destruct (assign_ok d _ _ _ _ _ Ho eq_refl Ea) as [A1 A2]. cbn [fst snd].
  split; [apply A1|]. split; [apply ai_keys, A1|]. split; [apply A1|]. exact (zip_notes_spec _ _ _ A2).
Qed.
End World.

Lemma nth_error_ext {A} (l1 l2 : list A) : (forall k, nth_error l1 k = nth_error l2 k) -> l1 = l2.
Proof.
  revert l2. induction l1 as [|x l1 IH]; intros [|y l2] H; [reflexivity|specialize (H O); discriminate|specialize (H O); discriminate|].
  assert (H0 := H O). cbn in H0. injection H0 as ->. f_equal. apply IH. intros k. exact (H (S k)).
Qed.
Lemma Forall2_use {A B} (P Q : A -> B -> Prop) l1 l2 : Forall2 P l1 l2 -> (forall x y, In x l1 -> In y l2 -> P x y -> Q x y) -> Forall2 Q l1 l2.
Proof. induction 1 as [|x y l1 l2 H1 H2 IH]; intros H; constructor; [apply H; cbn; auto|apply IH; intros; apply H; cbn; auto]. Qed.
Lemma Forall2_pick {A B} (P : A -> B -> Prop) l1 l2 x : Forall2 P l1 l2 -> In x l1 -> exists y, In y l2 /\ P x y.
Proof. induction 1 as [|a c l1 l2 H1 H2 IH]; [intros []|]. intros [<-|H]; [exists c; cbn; auto|]. destruct (IH H) as (y & ? & ?). exists y. cbn. auto. Qed.
Lemma Forall2_and {A B} (P Q : A -> B -> Prop) l1 l2 : Forall2 P l1 l2 -> Forall2 Q l1 l2 -> Forall2 (fun x y => P x y /\ Q x y) l1 l2.
Proof. induction 1 as [|x y l1 l2 H1 H2 IH]; intros H; inversion H; subst; constructor; auto. Qed.

(** Every note is attributed to its author exactly when the authors appear in increasing order. *)
Theorem attributed_iff d notes c : let order := firsts [d] (map (author_of d) notes) in
  NoDup order -> Permutation (cd_authors c) order -> StronglySorted str_lt (cd_authors c) ->
  Forall2 (fun n e => fst e = (nt_row n, nt_col n) /\ nth_error order (N.to_nat (snd e)) = Some (author_of d n)) notes (cd_list c) ->
  (attributed d notes c <-> StronglySorted str_lt order).
Proof.
  intros order Hnd Hp Hs HF. split.
  - intros Ha. enough (E : cd_authors c = order) by (rewrite <- E; exact Hs).
    assert (Hlen := Permutation_length Hp).
    assert (Hpos : forall k x, nth_error order (S k) = Some x -> nth_error (cd_authors c) (S k) = Some x).
    { intros k x Hk. destruct (firsts_app (map (author_of d) notes) [d]) as (e & Ee & He). fold order in Ee.
      assert (Hx : In x (map (author_of d) notes)).
      { apply He. rewrite Ee in Hk. cbn in Hk. eapply nth_error_In, Hk. }
      apply in_map_iff in Hx as (n & <- & Hn). unfold attributed in Ha.
      destruct (Forall2_pick _ _ _ n (Forall2_and _ _ _ _ HF Ha) Hn) as (y & _ & [_ H1] & [_ H2]).
      assert (E : N.to_nat (snd y) = S k).
      { eapply NoDup_nth_error; [exact Hnd|apply nth_error_Some; congruence|congruence]. }
      rewrite E in H2. exact H2. }
    apply nth_error_ext. intros [|k].
    + destruct (cd_authors c) as [|x t] eqn:Ec, order as [|y t'] eqn:Eo; try reflexivity; try discriminate. cbn [nth_error]. f_equal.
      assert (Hx : In x (y :: t')) by (apply (Permutation_in _ Hp); left; reflexivity).
      destruct Hx as [E|Hx]; [auto|]. apply In_nth_error in Hx as [k Hk]. specialize (Hpos k x Hk).
      apply sorted_nodup in Hs. inversion Hs as [|? ? Hni _]; subst. exfalso. apply Hni. cbn in Hpos. eapply nth_error_In, Hpos.
    + destruct (nth_error order (S k)) as [x|] eqn:Ek; [apply Hpos, Ek|]. apply nth_error_None in Ek. apply nth_error_None. lia.
  - intros Ho. assert (E : cd_authors c = order) by (apply sorted_perm_eq; assumption).
    unfold attributed. rewrite E. exact HF.
Qed.
