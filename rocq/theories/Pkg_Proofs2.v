(** Package level, part 2: where each sheet's parts are in the package. *)
From Verif Require Import Base Xml_Model Url_Model Book_Model Book_Proofs Pkg_Model Pkg_Spec Pkg_Names Pkg_Proofs.

(** ** The preparation state, sheet by sheet *)
Record pst := { s_g : dstate; s_q : vstate; s_t : N; s_ids : amap; s_nx : N; s_acc : list img }.
Definition next (st : pst) (s : psheet) : pst :=
  {| s_g := fst (prepare_sheet_drawings (s_g st) (h_linkage (ps_h s)) (ps_u s));
     s_q := fst (prepare_sheet_vml (s_q st) (h_authors (ps_h s)) (ps_u s));
     s_t := s_t st + N.of_nat (length (u_tables (ps_u s)));
     s_ids := fst (fst (fst (embed_loop (s_ids st) (s_nx st) (s_acc st) (u_embedded (ps_u s)))));
     s_nx := snd (fst (fst (embed_loop (s_ids st) (s_nx st) (s_acc st) (u_embedded (ps_u s)))));
     s_acc := snd (fst (embed_loop (s_ids st) (s_nx st) (s_acc st) (u_embedded (ps_u s)))) |}.
Definition prep1 (st : pst) (s : psheet) : prep :=
  {| p_sheet := s;
     p_d := snd (prepare_sheet_drawings (s_g st) (h_linkage (ps_h s)) (ps_u s));
     p_v := snd (prepare_sheet_vml (s_q st) (h_authors (ps_h s)) (ps_u s));
     p_t := {| t_tables := snd (fst (fst (name_tables (s_t st) (u_tables (ps_u s)))));
               t_ids := snd (fst (name_tables (s_t st) (u_tables (ps_u s))));
               t_rels := snd (name_tables (s_t st) (u_tables (ps_u s))) |};
     p_emb := snd (embed_loop (s_ids st) (s_nx st) (s_acc st) (u_embedded (ps_u s))) |}.
Fixpoint prep_st (st : pst) (l : list psheet) : list prep :=
  match l with [] => [] | s :: l' => prep1 st s :: prep_st (next st s) l' end.
Definition after (st : pst) (l : list psheet) : pst := fold_left next l st.
Lemma prep_st_app l1 l2 : forall st, prep_st st (l1 ++ l2) = prep_st st l1 ++ prep_st (after st l1) l2.
Proof. induction l1 as [|s l1 IH]; intros st; [reflexivity|]. cbn [app prep_st after fold_left]. f_equal. apply IH. Qed.

Definition tnum (tid : N) (t : str * N) : str * N := (if is_nil (fst t) then numbered "Table" tid "" else fst t, snd t).
Lemma name_tables_eq l : forall tid, name_tables tid l =
  (tid + N.of_nat (length l), map (fun kt => tnum (fst kt) (snd kt)) (number_from tid l), seq_from tid (length l),
   map (fun k => doc_rel (lit "table") (numbered "../tables/table" k ".xml") []) (seq_from tid (length l))).
Proof.
  induction l as [|[nm body] l IH]; intros tid; cbn [name_tables length number_from map seq_from].
  - rewrite N.add_0_r. reflexivity.
  - rewrite IH. cbn [fst snd]. unfold tnum at 2. cbn [fst snd].
    replace (tid + 1 + N.of_nat (length l)) with (tid + N.of_nat (S (length l))) by lia. reflexivity.
Qed.
Lemma prep_from_st l : forall st,
  prep_from (s_g st) (s_q st) (s_t st) (s_ids st) (s_nx st) (s_acc st) l = prep_st st l.
Proof.
  induction l as [|s l IH]; intros st; [reflexivity|].
  cbn [prep_from prep_st]. specialize (IH (next st s)). unfold next in IH at 1 2 3 4 5 6. cbn [s_g s_q s_t s_ids s_nx s_acc] in IH.
  unfold prep1.
  destruct (prepare_sheet_drawings (s_g st) (h_linkage (ps_h s)) (ps_u s)) as [g' d].
  destruct (prepare_sheet_vml (s_q st) (h_authors (ps_h s)) (ps_u s)) as [q' v].
  rewrite name_tables_eq.
  destruct (embed_loop (s_ids st) (s_nx st) (s_acc st) (u_embedded (ps_u s))) as [[[ids' nx'] acc'] out].
  cbn [fst snd] in *. f_equal. exact IH.
Qed.
Definition st0 (e : N) : pst := {| s_g := g0 e; s_q := q0; s_t := 1; s_ids := []; s_nx := 0; s_acc := [] |}.
Lemma prepare_st b emb l : prepare b = (emb, l) ->
  emb = fst (prepare_embedded (map ps_u (w_sheets b))) /\ l = prep_st (st0 (N.of_nat (length emb))) (w_sheets b).
Proof.
  intros H. apply prepare_eq in H as [H1 H2]. split; [exact H1|]. rewrite H2.
  apply (prep_from_st _ (st0 (N.of_nat (length emb)))).
Qed.
Lemma prep_st_us l : forall st, map p_u (prep_st st l) = map ps_u l.
Proof. induction l as [|s l IH]; intros st; [reflexivity|]. cbn [prep_st map]. f_equal. apply IH. Qed.
Lemma prep_st_split l : forall st pre p post, prep_st st l = pre ++ p :: post ->
  exists l1 s l2, l = l1 ++ s :: l2 /\ pre = prep_st st l1 /\ p = prep1 (after st l1) s /\ post = prep_st (next (after st l1) s) l2.
Proof.
  induction l as [|s0 l IH]; intros st pre p post; cbn [prep_st].
  - destruct pre; discriminate.
  - destruct pre as [|p0 pre]; cbn [app]; intros E; injection E as E1 E2.
    + exists [], s0, l. subst. auto.
    + destruct (IH _ _ _ _ E2) as (l1 & s & l2 & -> & -> & -> & ->). subst p0.
      exists (s0 :: l1), s, l2. auto.
Qed.

(** ** Counting parts *)
Definition b2n (b : bool) : N := if b then 1 else 0.
Fixpoint sumN {A} (f : A -> N) (l : list A) : N := match l with [] => 0 | x :: l' => f x + sumN f l' end.
Lemma sumN_app {A} (f : A -> N) a b : sumN f (a ++ b) = sumN f a + sumN f b.
Proof. induction a as [|x a IH]; cbn [app sumN]; [lia|]. rewrite IH. lia. Qed.
Lemma sumN_map {A B} (f : B -> N) (g : A -> B) l : sumN f (map g l) = sumN (fun x => f (g x)) l.
Proof. induction l as [|x l IH]; cbn [map sumN]; [reflexivity|]. rewrite IH. reflexivity. Qed.
Definition n_ws (u : usheet) : N := b2n (negb (u_chartsheet u)).
Definition n_cs (u : usheet) : N := b2n (u_chartsheet u).
Definition has_dr (u : usheet) : bool := negb (is_nil (u_images u) && is_nil (u_charts u) && is_nil (u_shapes u)).
Definition n_dr (u : usheet) : N := b2n (has_dr u).
Definition n_vml (u : usheet) : N := b2n (has_vml u) + b2n (negb (is_nil (u_hf u))).
Definition n_hf (u : usheet) : N := b2n (negb (is_nil (u_hf u))).
Definition n_com (u : usheet) : N := b2n (negb (is_nil (u_notes u))).
Definition n_ch (u : usheet) : N := N.of_nat (length (u_charts u)).
Definition n_tb (u : usheet) : N := N.of_nat (length (u_tables u)).
Definition cnt (f : usheet -> N) (l : list prep) : N := sumN (fun p => f (p_u p)) l.
Lemma cnt_cons f p l : cnt f (p :: l) = f (p_u p) + cnt f l. Proof. reflexivity. Qed.
Lemma cnt_st f st l : cnt f (prep_st st l) = sumN f (map ps_u l).
Proof. unfold cnt. rewrite <- (prep_st_us l st), sumN_map. reflexivity. Qed.

Lemma is_nil_false {A} (l : list A) : is_nil l = false <-> l <> [].
Proof. destruct l; cbn; split; congruence. Qed.
Lemma is_nil_true {A} (l : list A) : is_nil l = true <-> l = [].
Proof. destruct l; cbn; split; congruence. Qed.
Lemma is_nil_app {A} (a b : list A) : is_nil (a ++ b) = is_nil a && is_nil b.
Proof. destruct a; reflexivity. Qed.
Lemma is_nil_map {A B} (f : A -> B) l : is_nil (map f l) = is_nil l.
Proof. destruct l; reflexivity. Qed.

(** ** Loops *)
Lemma images_loop_len l : forall ids id rids rels ids' id' rids' rels' ds,
  images_loop ids id rids rels l = (ids', id', rids', rels', ds) -> length ds = length l.
Proof.
  induction l as [|[i u] l IH]; intros ids id rids rels ids' id' rids' rels' ds; cbn [images_loop].
  - intros [= <- <- <- <- <-]. reflexivity.
  - destruct (match am_get (im_hash i) ids with Some n => _ | None => _ end) as [[a1 a2] a3].
    destruct (link_rel rids rels u) as [[b1 b2] b3].
    destruct (match am_get (im_hash i) b1 with Some n => _ | None => _ end) as [[c1 c2] c3].
    destruct (images_loop a1 a2 c1 c2 l) as [[[[x1 x2] x3] x4] x5] eqn:E.
    intros H. injection H as _ _ _ _ <-. cbn [length]. f_equal. eapply IH, E.
Qed.
Definition chart_rel (k : N) : rel := doc_rel (lit "chart") (numbered "../charts/chart" k ".xml") [].
Definition chart_info (cs : bool) (r : N) : dinfo := {| di_kind := if cs then DChartSheet else DChart; di_rel := r; di_url := None |}.
Lemma charts_loop_eq cs l : forall cid rid rels, charts_loop cs cid rid rels l =
  (rels ++ map chart_rel (seq_from cid (length l)), map (chart_info cs) (seq_from (rid + 1) (length l))).
Proof.
  induction l as [|c l IH]; intros cid r rels; cbn [charts_loop length seq_from map].
  - rewrite app_nil_r. reflexivity.
  - rewrite IH, <- app_assoc. reflexivity.
Qed.
Lemma shapes_loop_len l : forall k rids rels rids' rels' ds,
  shapes_loop k rids rels l = (rids', rels', ds) -> length ds = length l.
Proof.
  induction l as [|[i u] l IH]; intros k rids rels rids' rels' ds; cbn [shapes_loop].
  - intros [= <- <- <-]. reflexivity.
  - destruct (link_rel rids rels u) as [[b1 b2] b3].
    destruct (shapes_loop (k + 1) b1 b2 l) as [[x1 x2] x3] eqn:E.
    intros H. injection H as _ _ <-. cbn [length]. f_equal. eapply IH, E.
Qed.
Lemma len_nil {A B} (a : list A) (b : list B) : length a = length b -> is_nil a = is_nil b.
Proof. destruct a, b; cbn; congruence. Qed.
Lemma seq_from_len k : forall n, length (seq_from n k) = k.
Proof. induction k; intros n; cbn; [reflexivity|]. f_equal. apply IHk. Qed.

(** What preparing the drawings of one sheet gives. *)
Lemma prepare_sheet_drawings_spec g lk u g' d : prepare_sheet_drawings g lk u = (g', d) ->
  (lk = true -> u_images u <> [] \/ u_shapes u <> []) ->
  g_chart g' = g_chart g + n_ch u /\ g_drawing g' = g_drawing g + n_dr u /\
  is_nil (d_infos d) = negb (has_dr u) /\
  d_dobj d = (if has_dr u then [drawing_link (g_drawing g)] else []) /\
  (d_linkage d = true -> u_images u <> [] \/ u_shapes u <> []) /\
  is_nil (d_bg d) = negb (is_some (u_bg u)) /\ (length (d_bg d) <= 1)%nat.
Proof.
  unfold prepare_sheet_drawings. intros H Hlk.
  destruct (match u_bg u with Some i => _ | None => _ end) as [[bgi im0] bg] eqn:Ebg.
  destruct (images_loop (g_ws g) im0 [] [] (u_images u)) as [[[[ws im1] rids1] rels1] infos1] eqn:Ei.
  assert (Hbg : is_nil bg = negb (is_some (u_bg u)) /\ (length bg <= 1)%nat).
  { destruct (u_bg u) as [i|]; [destruct (am_get (im_hash i) (g_bg g))|]; injection Ebg as _ _ <-; cbn; auto. }
  clear Ebg. apply images_loop_len in Ei.
  assert (Hn := len_nil _ _ Ei).
  destruct (if is_nil (u_images u) then ([], lk) else ([drawing_link (g_drawing g)], true)) as [dobj1 lk1] eqn:E1.
  destruct (if is_nil (u_charts u) then (rids1, rels1, [], dobj1) else _) as [[[rids2 rels2] infos2] dobj2] eqn:E2.
  destruct (shapes_loop (g_shape g) rids2 rels2 (u_shapes u)) as [[rids3 rels3] infos3] eqn:E3.
  destruct (if is_nil (u_shapes u) then (dobj2, lk1) else _) as [dobj3 lk3] eqn:E4.
  destruct (hf_loop (g_hf g) (am_len bgi + am_len ws) [] [] (u_hf u)) as [[hfi vr] hf].
  injection H as <- <-. cbn [g_chart g_drawing d_infos d_dobj d_linkage d_bg].
  apply shapes_loop_len in E3. assert (Hs := len_nil _ _ E3).
  assert (Hc : is_nil infos2 = is_nil (u_charts u) /\
    dobj2 = if is_nil (u_charts u) then dobj1 else if lk1 then dobj1 else dobj1 ++ [drawing_link (g_drawing g)]).
  { destruct (is_nil (u_charts u)) eqn:En.
    - injection E2 as _ _ <- <-. auto.
    - rewrite charts_loop_eq in E2. injection E2 as _ _ <- <-. split; [|reflexivity].
      rewrite is_nil_map. destruct (u_charts u); [discriminate|reflexivity]. }
  destruct Hc as [Hc ->]. rewrite !is_nil_app, Hc, Hn, Hs. unfold n_dr, n_ch, has_dr.
  assert (Hlk' : lk = true -> is_nil (u_images u) = false \/ is_nil (u_shapes u) = false).
  { intros El. destruct (Hlk El); [left|right]; apply is_nil_false; assumption. }
  assert (Hi0 : is_nil (u_images u) = false -> u_images u <> []) by apply is_nil_false.
  assert (Hs0 : is_nil (u_shapes u) = false -> u_shapes u <> []) by apply is_nil_false.
  destruct (is_nil (u_images u)), (is_nil (u_charts u)), (is_nil (u_shapes u)), lk;
    injection E1 as <- <-; cbn [negb andb app is_nil] in *; injection E4 as <- <-;
    cbn [negb andb app b2n];
    try (exfalso; destruct (Hlk' eq_refl); discriminate);
    (split; [reflexivity|]; split; [try reflexivity; lia|]; split; [reflexivity|]; split; [reflexivity|]; split; [|exact Hbg]);
    intros Hx; try discriminate Hx; auto.
Qed.
Lemma prepare_sheet_vml_spec q au u q' v : prepare_sheet_vml q au u = (q', v) ->
  q_vml q' = q_vml q + n_vml u /\ q_comment q' = q_comment q + n_com u /\
  v_dobj v = (if has_vml u then [vml_link (q_vml q)] else [])
             ++ (if is_nil (u_hf u) then [] else [vml_link (q_vml q + b2n (has_vml u))]) /\
  v_comment v = (if is_nil (u_notes u) then [] else [doc_rel (lit "comments") (numbered "../comments" (q_comment q) ".xml") []]) /\
  v_authors v = fst (assign_authors au (u_notes u)) /\ v_author_ids v = snd (assign_authors au (u_notes u)) /\
  q_shape q' = q_shape q + (if has_vml u then 1024 * ((1024 + N.of_nat (length (u_notes u))) / 1024) else 0) /\
  q_data q' = q_data q + (if has_vml u then (1024 + N.of_nat (length (u_notes u))) / 1024 else 0) /\
  (has_vml u = true -> v_shape v = q_shape q /\ v_data v = oid_map (q_data q) (N.to_nat (N.of_nat (length (u_notes u)) / 1024))).
Proof.
  unfold prepare_sheet_vml, n_vml, n_com. destruct (has_vml u) eqn:Hv.
  - destruct (assign_authors au (u_notes u)) as [a ids].
    generalize ((1024 + N.of_nat (length (u_notes u))) / 1024). intros bl.
    generalize (oid_map (q_data q) (N.to_nat (N.of_nat (length (u_notes u)) / 1024))). intros om.
    destruct (is_nil (u_hf u)), (is_nil (u_notes u)); intros H; injection H as <- <-;
      cbn [q_vml q_comment q_data q_shape v_dobj v_comment v_authors v_author_ids v_shape v_data negb b2n fst snd app];
      (split; [lia|]; split; [lia|]; split; [reflexivity|]; split; [reflexivity|]; split; [reflexivity|]; split; [reflexivity|];
       split; [reflexivity|]; split; [reflexivity|]; auto).
  - assert (Hn : u_notes u = []) by (unfold has_vml in Hv; destruct (u_notes u); [reflexivity|discriminate]).
    rewrite Hn. cbn [is_nil assign_authors negb b2n fst snd].
    destruct (is_nil (u_hf u)); intros H; injection H as <- <-;
      cbn [q_vml q_comment q_data q_shape v_dobj v_comment v_authors v_author_ids v_shape v_data negb b2n app];
      rewrite ?N.add_0_r;
      (split; [lia|]; split; [lia|]; split; [reflexivity|]; split; [reflexivity|]; split; [reflexivity|]; split; [reflexivity|];
       split; [lia|]; split; [lia|]; discriminate).
Qed.

(** ** Counters before a sheet *)
Definition hid_ok (s : psheet) : Prop :=
  (h_linkage (ps_h s) = true -> u_images (ps_u s) <> [] \/ u_shapes (ps_u s) <> []) /\
  h_shape_pos (ps_h s) = N.of_nat (length (h_shapes (ps_h s))) /\
  h_cvml (ps_h s) = [] /\ h_bvml (ps_h s) = [].
Lemma after_counters l : Forall hid_ok l -> forall st,
  let us := map ps_u l in
  g_chart (s_g (after st l)) = g_chart (s_g st) + sumN n_ch us /\
  g_drawing (s_g (after st l)) = g_drawing (s_g st) + sumN n_dr us /\
  q_vml (s_q (after st l)) = q_vml (s_q st) + sumN n_vml us /\
  q_comment (s_q (after st l)) = q_comment (s_q st) + sumN n_com us /\
  s_t (after st l) = s_t st + sumN n_tb us.
Proof.
  induction 1 as [|s l Hs Hl IH]; intros st us.
  - subst us. cbn. lia.
  - subst us. cbn [after fold_left map sumN]. fold (after (next st s) l).
    specialize (IH (next st s)). cbn zeta in IH.
    destruct IH as (-> & -> & -> & -> & ->).
    unfold next. cbn [s_g s_q s_t].
    destruct (prepare_sheet_drawings (s_g st) (h_linkage (ps_h s)) (ps_u s)) as [g' d] eqn:Ed.
    destruct (prepare_sheet_vml (s_q st) (h_authors (ps_h s)) (ps_u s)) as [q' v] eqn:Ev.
    apply prepare_sheet_drawings_spec in Ed; [|apply Hs].
    apply prepare_sheet_vml_spec in Ev. cbn [fst].
    destruct Ed as (-> & -> & _), Ev as (-> & -> & _). unfold n_tb. lia.
Qed.

(** ** Groups of parts *)

(** [P k p] holds for some sheet of [l], where [k] is [ix] plus the number of
    things counted by [f] on the sheets before it. *)
Definition at_idx (f : usheet -> N) (ix : N) (l : list prep) (P : N -> prep -> Prop) : Prop :=
  exists pre p post, l = pre ++ p :: post /\ P (ix + cnt f pre) p.
Lemma at_nil f ix P : at_idx f ix [] P <-> False.
Proof. split; [|tauto]. intros ([|] & ? & ? & ? & _); discriminate. Qed.
Lemma at_cons f ix p l P : at_idx f ix (p :: l) P <-> P ix p \/ at_idx f (ix + f (p_u p)) l P.
Proof.
  split.
  - intros ([|p0 pre] & q & post & E & H); cbn [app] in E.
    + injection E as <- <-. change (cnt f []) with 0 in H. rewrite N.add_0_r in H. auto.
    + injection E as <- ->. right. exists pre, q, post. split; [reflexivity|].
      rewrite cnt_cons, N.add_assoc in H. exact H.
  - intros [H|(pre & q & post & -> & H)].
    + exists [], p, l. change (cnt f []) with 0. rewrite N.add_0_r. auto.
    + exists (p :: pre), q, post. split; [reflexivity|]. rewrite cnt_cons, N.add_assoc. exact H.
Qed.
Lemma or_false_l (A : Prop) : False \/ A <-> A. Proof. tauto. Qed.
Lemma or_iff_compat (A B C D : Prop) : (A <-> B) -> (C <-> D) -> (A \/ C <-> B \/ D).
Proof. tauto. Qed.

Definition sheet_rel_list (p : prep) : list rel :=
  snd (write_sheet_doc p) ++ p_dobj p ++ d_bg (p_d p) ++ t_rels (p_t p) ++ v_comment (p_v p).
Definition ws_part (m : ovf) (x : str * content) (k : N) (p : prep) : Prop :=
  u_chartsheet (p_u p) = false /\
  (x = (render (NWs k), CSheet (fst (write_sheet_doc p))) \/
   has_relationships (snd (write_sheet_doc p)) p = true /\
   exists es, write_rels m (sheet_rel_list p) = Some es /\ x = (render (NWsR k), CRels es)).
Lemma in_worksheets m l : forall ix ps, write_worksheets m ix l = Some ps -> forall x, In x ps <-> at_idx n_ws ix l (ws_part m x).
Proof.
  induction l as [|p l IH]; intros ix ps; cbn [write_worksheets].
  - intros [= <-] x. rewrite at_nil. reflexivity.
  - intros H x. rewrite at_cons. destruct (u_chartsheet (p_u p)) eqn:Ec; unfold n_ws at 2; rewrite Ec; cbn [negb b2n].
    + rewrite N.add_0_r, (IH _ _ H). unfold ws_part at 2. rewrite Ec. intuition congruence.
    + destruct (write_sheet_doc p) as [doc links] eqn:Ed.
      set (R := if has_relationships links p then _ else _) in H.
      destruct R as [rels|] eqn:ER; cbn [obind] in H; [|discriminate].
      destruct (write_worksheets m (ix + 1) l) as [rest|] eqn:Er; cbn [obind] in H; [|discriminate].
      injection H as <-. subst R. rewrite app_comm_cons, in_app_iff, (IH _ _ Er). apply or_iff_compat; [|reflexivity].
      unfold ws_part, sheet_rel_list. rewrite Ed. cbn [fst snd In render].
      destruct (has_relationships links p).
      * destruct (write_rels m _) as [es|]; cbn [obind] in ER; [|discriminate]. injection ER as <-. cbn [In]. split.
        -- intros [<-|[<-|[]]]; split; auto. right. eauto.
        -- intros [_ [->|(_ & es' & E & ->)]]; [auto|]. injection E as ->. auto.
      * injection ER as <-. cbn [In]. split; [intros [<-|[]]; auto|]. intros [_ [->|[? _]]]; [auto|discriminate].
Qed.

Definition cs_part (m : ovf) (x : str * content) (k : N) (p : prep) : Prop :=
  u_chartsheet (p_u p) = true /\
  (x = (render (NCs k), CSheet (write_chartsheet_doc p)) \/
   has_relationships [] p = true /\
   exists es, write_rels m (p_dobj p) = Some es /\ x = (render (NCsR k), CRels es)).
Lemma in_chartsheets m l : forall ix ps, write_chartsheets m ix l = Some ps -> forall x, In x ps <-> at_idx n_cs ix l (cs_part m x).
Proof.
  induction l as [|p l IH]; intros ix ps; cbn [write_chartsheets].
  - intros [= <-] x. rewrite at_nil. reflexivity.
  - intros H x. rewrite at_cons. destruct (u_chartsheet (p_u p)) eqn:Ec; unfold n_cs at 2; rewrite Ec; cbn [negb b2n] in *.
    + set (R := if has_relationships [] p then _ else _) in H.
      destruct R as [rels|] eqn:ER; cbn [obind] in H; [|discriminate].
      destruct (write_chartsheets m (ix + 1) l) as [rest|] eqn:Er; cbn [obind] in H; [|discriminate].
      injection H as <-. subst R. rewrite app_comm_cons, in_app_iff, (IH _ _ Er). apply or_iff_compat; [|reflexivity].
      unfold cs_part. cbn [In render].
      destruct (has_relationships [] p).
      * destruct (write_rels m _) as [es|]; cbn [obind] in ER; [|discriminate]. injection ER as <-. cbn [In]. split.
        -- intros [<-|[<-|[]]]; split; auto. right. eauto.
        -- intros [_ [->|(_ & es' & E & ->)]]; [auto|]. injection E as ->. auto.
      * injection ER as <-. cbn [In]. split; [intros [<-|[]]; auto|]. intros [_ [->|[? _]]]; [auto|discriminate].
    + rewrite N.add_0_r, (IH _ _ H). unfold cs_part at 2. rewrite Ec. intuition congruence.
Qed.

Definition infos_ok (p : prep) : Prop := is_nil (d_infos (p_d p)) = negb (has_dr (p_u p)).
Definition dr_part (x : str * content) (k : N) (p : prep) : Prop :=
  has_dr (p_u p) = true /\ x = (render (NDr k), CDrawing (fst (sheet_anchors p))).
Lemma in_drawings l : Forall infos_ok l -> forall ix x, In x (write_drawings ix l) <-> at_idx n_dr ix l (dr_part x).
Proof.
  induction 1 as [|p l Hp Hl IH]; intros ix x; cbn [write_drawings].
  - rewrite at_nil. reflexivity.
  - rewrite at_cons, Hp. unfold n_dr at 2, dr_part at 1. destruct (has_dr (p_u p)); cbn [negb b2n].
    + cbn [In]. rewrite IH. apply or_iff_compat; [|reflexivity]. split; [intros <-; auto|intros [_ ->]; auto].
    + rewrite IH, N.add_0_r. intuition congruence.
Qed.
Definition drr_part (m : ovf) (x : str * content) (k : N) (p : prep) : Prop :=
  d_rels (p_d p) <> [] /\ exists es, write_rels m (d_rels (p_d p)) = Some es /\
  x = (render (NDrR (k + n_dr (p_u p))), CRels es).
Lemma in_drawing_rels m l : Forall infos_ok l -> forall ix ps, write_drawing_rels m ix l = Some ps ->
  forall x, In x ps <-> at_idx n_dr ix l (drr_part m x).
Proof.
  induction 1 as [|p l Hp Hl IH]; intros ix ps; cbn [write_drawing_rels].
  - intros [= <-] x. rewrite at_nil. reflexivity.
  - intros H x. rewrite at_cons.
    assert (Hk : (if is_nil (d_infos (p_d p)) then ix else ix + 1) = ix + n_dr (p_u p)).
    { rewrite Hp. unfold n_dr. destruct (has_dr (p_u p)); cbn [negb b2n]; lia. }
    rewrite Hk in H. unfold drr_part at 1.
    destruct (is_nil (d_rels (p_d p))) eqn:En.
    + destruct (write_drawing_rels m _ l) as [rest|] eqn:Er; cbn [obind] in H; [|discriminate]. injection H as <-.
      cbn [app]. rewrite (IH _ _ Er). apply is_nil_true in En. rewrite En. intuition congruence.
    + destruct (write_rels m (d_rels (p_d p))) as [es|] eqn:Ee; cbn [obind] in H; [|discriminate].
      destruct (write_drawing_rels m _ l) as [rest|] eqn:Er; cbn [obind] in H; [|discriminate]. injection H as <-.
      cbn [app In]. rewrite (IH _ _ Er). apply or_iff_compat; [|reflexivity]. apply is_nil_false in En. split.
      * intros <-. eauto.
      * intros (_ & es' & [= <-] & ->). reflexivity.
Qed.

(** The VML part for notes and buttons, and the one for header and footer images. *)
Definition notes_vml (p : prep) : vml_doc :=
  let u := p_u p in
  let buttons := h_bvml (ps_h (p_sheet p)) ++ u_buttons u in
  let notes := h_cvml (ps_h (p_sheet p)) ++ u_notes u in
  let sid := v_shape (p_v p) in
  {| vd_data := v_data (p_v p); vd_buttons := number_from (sid + 1) buttons;
     vd_notes := number_from (sid + N.of_nat (length buttons) + 1) notes; vd_images := [] |}.
Definition hf_vml (header : N) (p : prep) : vml_doc :=
  {| vd_data := dec header; vd_buttons := []; vd_notes := [];
     vd_images := number_from (1024 * header + 1) (map rid (d_hf (p_d p))) |}.
Fixpoint at_vml (ix header : N) (l : list prep) (P : N -> N -> prep -> Prop) : Prop :=
  match l with
  | [] => False
  | p :: l' => P ix header p \/ at_vml (ix + n_vml (p_u p)) (header + n_hf (p_u p)) l' P
  end.
Definition vml_part (m : ovf) (x : str * content) (k h : N) (p : prep) : Prop :=
  has_vml (p_u p) = true /\ x = (render (NVml k), CVml (notes_vml p)) \/
  u_hf (p_u p) <> [] /\ (x = (render (NVml (k + b2n (has_vml (p_u p)))), CVml (hf_vml h p)) \/
    exists es, write_rels m (d_vmlrels (p_d p)) = Some es /\
               x = (render (NVmlR (k + b2n (has_vml (p_u p)))), CRels es)).
Lemma at_vml_split l P : forall ix h, at_vml ix h l P <->
  exists pre p post, l = pre ++ p :: post /\ P (ix + cnt n_vml pre) (h + cnt n_hf pre) p.
Proof.
  induction l as [|p l IH]; intros ix h; cbn [at_vml].
  - split; [tauto|]. intros ([|] & ? & ? & ? & _); discriminate.
  - rewrite IH. split.
    + intros [H|(pre & q & post & -> & H)].
      * exists [], p, l. change (cnt n_vml []) with 0. change (cnt n_hf []) with 0. rewrite !N.add_0_r. auto.
      * exists (p :: pre), q, post. split; [reflexivity|]. rewrite !cnt_cons, !N.add_assoc. exact H.
    + intros ([|p0 pre] & q & post & E & H); cbn [app] in E.
      * injection E as <- <-. change (cnt n_vml []) with 0 in H. change (cnt n_hf []) with 0 in H. rewrite !N.add_0_r in H. auto.
      * injection E as <- ->. right. exists pre, q, post. split; [reflexivity|].
        rewrite !cnt_cons, !N.add_assoc in H. exact H.
Qed.
Lemma in_vmls m l : forall ix h ps, write_vmls m ix h l = Some ps -> forall x, In x ps <-> at_vml ix h l (vml_part m x).
Proof.
  induction l as [|p l IH]; intros ix h ps; cbn [write_vmls at_vml].
  - intros [= <-] x. reflexivity.
  - intros H x. fold (notes_vml p) in H. fold (hf_vml h p) in H.
    unfold vml_part at 1. unfold n_vml at 1, n_hf at 1.
    destruct (is_nil (u_hf (p_u p))) eqn:Eh; cbn [obind] in H.
    + destruct (write_vmls m _ h l) as [rest|] eqn:Er; cbn [obind] in H; [|discriminate]. injection H as <-.
      apply is_nil_true in Eh. rewrite Eh. cbn [negb b2n]. rewrite !N.add_0_r, in_app_iff. cbn [app].
      rewrite (IH _ _ _ Er). destruct (has_vml (p_u p)); cbn [b2n In].
      * apply or_iff_compat; [|reflexivity]. split; [intros [<-|[]]; auto|]. intros [[_ ->]|[? _]]; [auto|congruence].
      * rewrite N.add_0_r. apply or_iff_compat; [|reflexivity]. split; [tauto|]. intros [[? _]|[? _]]; congruence.
    + destruct (write_rels m (d_vmlrels (p_d p))) as [es|] eqn:Ee; cbn [obind] in H; [|discriminate].
      destruct (write_vmls m _ (h + 1) l) as [rest|] eqn:Er; cbn [obind] in H; [|discriminate]. injection H as <-.
      apply is_nil_false in Eh. cbn [negb b2n]. rewrite in_app_iff, or_assoc. cbn [app In].
      rewrite !N.add_assoc.
      assert (Hk : (if has_vml (p_u p) then ix + 1 else ix) = ix + b2n (has_vml (p_u p))) by (destruct (has_vml (p_u p)); cbn [b2n]; lia).
      rewrite Hk in *. rewrite (IH _ _ _ Er). apply or_iff_compat.
      * destruct (has_vml (p_u p)); cbn [In]; [|intuition congruence].
        split; [intros [<-|[]]; auto|]. intros [_ ->]. auto.
      * rewrite <- or_assoc. apply or_iff_compat; [|reflexivity]. split.
        -- intros [<-|<-]; split; eauto.
        -- intros [_ [->|(es' & [= <-] & ->)]]; auto.
Qed.

Definition comments_of (p : prep) : comments_doc :=
  {| cd_authors := map fst (v_authors (p_v p)); cd_list := zip_notes (u_notes (p_u p)) (v_author_ids (p_v p)) |}.
Definition com_part (x : str * content) (k : N) (p : prep) : Prop :=
  u_notes (p_u p) <> [] /\ x = (render (NCom k), CComments (comments_of p)).
Lemma in_comments l : forall ix x, In x (write_comments ix l) <-> at_idx n_com ix l (com_part x).
Proof.
  induction l as [|p l IH]; intros ix x; cbn [write_comments].
  - rewrite at_nil. reflexivity.
  - rewrite at_cons. unfold n_com at 2, com_part at 1. destruct (is_nil (u_notes (p_u p))) eqn:En; cbn [negb b2n].
    + apply is_nil_true in En. rewrite En, IH, N.add_0_r. intuition congruence.
    + apply is_nil_false in En. cbn [In]. rewrite IH. apply or_iff_compat; [|reflexivity]. split; [intros <-; auto|intros [_ ->]; auto].
Qed.

(** Charts and tables. *)
Lemma in_number_from {A} (l : list A) : forall n k x, In (k, x) (number_from n l) <-> n <= k /\ nth_error l (N.to_nat (k - n)) = Some x.
Proof.
  induction l as [|y l IH]; intros n k x; cbn [number_from In].
  - split; [tauto|]. intros [_ H]. destruct (N.to_nat (k - n)); discriminate.
  - rewrite IH. split.
    + intros [E|[H1 H2]].
      * injection E as -> ->. rewrite N.sub_diag. split; [lia|reflexivity].
      * split; [lia|]. replace (N.to_nat (k - n)) with (S (N.to_nat (k - (n + 1)))) by lia. exact H2.
    + intros [H1 H2]. destruct (N.eq_dec k n) as [->|Hne].
      * rewrite N.sub_diag in H2. injection H2 as ->. auto.
      * right. split; [lia|]. replace (N.to_nat (k - n)) with (S (N.to_nat (k - (n + 1)))) in H2 by lia. exact H2.
Qed.
Lemma in_charts us x : In x (write_charts us) <->
  exists k body, 1 <= k /\ nth_error (flat_map u_charts us) (N.to_nat (k - 1)) = Some body /\ x = (render (NChart k), CChart body).
Proof.
  unfold write_charts. rewrite in_map_iff. split.
  - intros ((k, body) & <- & H). apply in_number_from in H as [H1 H2]. exists k, body. auto.
  - intros (k & body & H1 & H2 & ->). exists (k, body). rewrite in_number_from. auto.
Qed.
