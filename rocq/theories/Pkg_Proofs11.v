(** Package level, part 11: content types (C48). *)
From Verif Require Import Base Xml_Model Url_Model Book_Model Book_Proofs Book_Proofs2 Pkg_Model Pkg_Spec Pkg_Names Pkg_Proofs Pkg_Proofs2 Pkg_Proofs3 Pkg_Proofs4 Pkg_Proofs5 Pkg_Proofs6 Pkg_Proofs7 Pkg_Proofs8 Pkg_Proofs9 Pkg_Proofs10.

Definition slash (p : pname) : str := lit "/" ++ render p.
Lemma slash_inj n p : lit "/" ++ n = slash p -> n = render p.
Proof. intros H. apply app_inv_head in H. exact H. Qed.
(** What the overrides of [Content_Types].xml list. *)
Definition declared (b : pbook) (l : list prep) (y : str) : Prop :=
  let o := package_options b l in
  y = slash NApp \/ y = slash NCore \/ y = slash NStyles \/ y = slash NTheme \/ y = slash NWb \/
  (o_sig o = true /\ y = slash NSig) \/
  (exists k, 1 <= k <= cnt n_ws l /\ y = slash (NWs k)) \/ (exists k, 1 <= k <= cnt n_cs l /\ y = slash (NCs k)) \/
  (exists k, 1 <= k <= cnt n_dr l /\ y = slash (NDr k)) \/
  (exists k, 1 <= k <= N.of_nat (length (flat_map u_charts (map p_u l))) /\ y = slash (NChart k)) \/
  (exists k, 1 <= k <= N.of_nat (length (flat_map u_tables (map p_u l))) /\ y = slash (NTable k)) \/
  (exists k, 1 <= k <= cnt n_com l /\ y = slash (NCom k)) \/
  (o_sst o = true /\ y = slash NSst) \/ (o_metadata o = true /\ y = slash NMeta) \/
  (o_embedded o = true /\ (y = slash NRvT \/ y = slash NRv \/ y = slash NRvS \/ y = slash NRvRel)) \/
  (o_bags o = true /\ y = slash NBag) \/ (o_custom o = true /\ y = slash NCustom).
Lemma in_map_up (f : N -> str) n y : In y (map f (up_to n)) <-> exists k, 1 <= k <= n /\ y = f k.
Proof.
  rewrite in_map_iff. split.
  - intros (k & <- & H). apply in_up_to in H. eauto.
  - intros (k & H & ->). exists k. rewrite in_up_to. auto.
Qed.
Lemma flat_p_u {A} (f : usheet -> list A) l : flat_map (fun p => f (p_u p)) l = flat_map f (map p_u l).
Proof. induction l as [|p l IH]; [reflexivity|]. cbn. f_equal. exact IH. Qed.

Section World.
Variables (m : ovf) (b : pbook) (pkg : package) (emb : list img) (l : list prep) (a : parts).
Hypothesis W : world m b pkg emb l a.
Notation us := (map ps_u (w_sheets b)).
Hypothesis Hcnt : counts_ok us.
Let Hin_pkg : forall x, In x (all_parts b emb l a) -> In x pkg := in_pkg m b pkg emb l a W.
Let o := package_options b l.

Lemma types_part : exists d ov, In (lit "[Content_Types].xml", CTypes d ov) pkg /\ content_types b o l = CTypes d ov /\
  (forall y, In y ov <-> declared b l y) /\ In (lit "rels") d /\ (o_vml o = true -> In (lit "vml") d) /\
  (o_xlsm o = true -> In (lit "bin") d) /\ (forall e, uses_ext e l = true -> In (ext_name e) d).
Proof.
  unfold content_types. eexists _, _. split; [apply Hin_pkg, in_parts; left; left; reflexivity|]. split; [reflexivity|].
  assert (Hus := us_l m b pkg emb l a W).
  assert (Hlen : N.of_nat (length l) < 65536).
  { rewrite <- (map_length p_u), Hus. apply Hcnt. }
  assert (Hinf := infos_l m b pkg emb l a W). rewrite Forall_forall in Hinf.
  split; [|split; [|split; [|split]]].
  - intros y.
    rewrite (count_if_cnt _ n_ws) by (try exact Hlen; intros p _; reflexivity).
    rewrite (count_if_cnt _ n_cs) by (try exact Hlen; intros p _; reflexivity).
    rewrite (count_if_cnt _ n_dr) by (try exact Hlen; intros p Hp; rewrite (Hinf p Hp), negb_involutive; reflexivity).
    rewrite (count_if_cnt _ n_com) by (try exact Hlen; intros p _; reflexivity).
    unfold sum_len. rewrite !flat_p_u, Hus. rewrite !N.mod_small by apply Hcnt.
    rewrite !in_app_iff, !in_when, !in_map_up. unfold declared. rewrite Hus. fold o. cbn [In].
    split.
    + intros H. decompose [or] H; clear H;
        repeat match goal with H : _ /\ _ |- _ => destruct H | H : False |- _ => destruct H | H : _ \/ False |- _ => destruct H as [H|[]] end; subst;
        try tauto.
      all: try match goal with H : _ \/ _ \/ _ \/ _ \/ False |- _ => destruct H as [<-|[<-|[<-|[<-|[]]]]] end.
      all: first [ left; reflexivity | do 1 right; left; reflexivity | do 2 right; left; reflexivity | do 3 right; left; reflexivity
                 | do 4 right; left; reflexivity | do 5 right; left; split; [assumption|reflexivity] | do 12 right; left; split; [assumption|reflexivity]
                 | do 13 right; left; split; [assumption|reflexivity]
                 | do 14 right; left; split; [assumption|first [left; reflexivity|do 1 right; left; reflexivity|do 2 right; left; reflexivity|do 3 right; reflexivity]]
                 | do 15 right; left; split; [assumption|reflexivity] | do 16 right; split; [assumption|reflexivity] ].
    + intros H. decompose [or] H; clear H; try tauto; repeat match goal with H : _ /\ _ |- _ => destruct H end; subst.
      * left. left. reflexivity.
      * left. right. left. reflexivity.
      * left. do 2 right. left. reflexivity.
      * left. do 3 right. left. reflexivity.
      * left. do 4 right. left. reflexivity.
      * do 1 right. left. split; [assumption|left; reflexivity].
      * do 8 right. left. split; [assumption|left; reflexivity].
      * do 9 right. left. split; [assumption|left; reflexivity].
      * do 10 right. left. split; [assumption|].
        match goal with H : _ \/ _ |- _ => destruct H as [->|[->|[->| ->]]] end; [left|do 1 right; left|do 2 right; left|do 3 right; left]; reflexivity.
      * do 11 right. left. split; [assumption|left; reflexivity].
      * do 12 right. split; [assumption|left; reflexivity].
  - left. reflexivity.
  - intros Ho. fold o in Ho |- *. rewrite Ho. do 2 right. left. reflexivity.
  - intros Ho. fold o in Ho |- *. rewrite Ho, !in_app_iff. do 6 right. left. reflexivity.
  - intros e He. rewrite !in_app_iff, !in_when. destruct e; rewrite He; cbn [In]; tauto.
Qed.

Theorem closed_declared d ov : In (lit "[Content_Types].xml", CTypes d ov) pkg -> forall n, In (lit "/" ++ n) ov -> exists c, In (n, c) pkg.
Proof.
  intros Hi n Hn. destruct types_part as (d' & ov' & H1 & _ & H2 & _).
  assert (E : CTypes d ov = CTypes d' ov').
  { apply (find_in m b pkg emb l a W) in Hi. apply (find_in m b pkg emb l a W) in H1. congruence. }
  assert (ov = ov') by congruence. subst ov'. apply H2 in Hn. unfold declared in Hn. fold o in Hn.
  assert (Hus := us_l m b pkg emb l a W).
  assert (Hb1 : forall x : bool, b2n x <= 1) by (intros []; cbn; lia).
  decompose [or] Hn; clear Hn; repeat match goal with H : _ /\ _ |- _ => destruct H | H : exists _, _ |- _ => destruct H end;
    try match goal with H : _ \/ _ |- _ => decompose [or] H; clear H end;
    match goal with H : lit "/" ++ n = slash _ |- _ => apply slash_inj in H; subst n end.
  - eexists. apply Hin_pkg, in_parts. do 4 right. left. right. reflexivity.
  - eexists. apply Hin_pkg, in_parts. do 4 right. left. left. reflexivity.
  - eexists. apply Hin_pkg, in_parts. left. do 4 right. left. reflexivity.
  - eexists. apply Hin_pkg, in_parts. left. do 3 right. left. reflexivity.
  - eexists. apply Hin_pkg, in_parts. left. do 5 right. reflexivity.
  - match goal with H : o_sig o = true |- _ => cbn in H; apply andb_true_iff in H as [Hv Hs] end.
    destruct (w_vba b) as [v|] eqn:Ev; [|discriminate].
    exists (CBytes (w_sig b)). apply Hin_pkg, in_parts. do 12 right. left. unfold vba_parts. rewrite Ev. right. rewrite Hs. left. reflexivity.
  - match goal with Ha : 1 <= x, Hc : _ <= cnt _ l |- _ => destruct (cnt_pos n_ws l x (conj Ha Hc)) as (pre & p & post & E' & A1 & ->); [intros q _; apply Hb1|] end.
    eexists. eapply (ws_in m b pkg emb l a W); [exact E'|]. unfold n_ws in A1. destruct (u_chartsheet (p_u p)); [discriminate|reflexivity].
  - match goal with Ha : 1 <= x, Hc : _ <= cnt _ l |- _ => destruct (cnt_pos n_cs l x (conj Ha Hc)) as (pre & p & post & E' & A1 & ->); [intros q _; apply Hb1|] end.
    eexists. eapply (cs_in m b pkg emb l a W); [exact E'|]. unfold n_cs in A1. destruct (u_chartsheet (p_u p)); [reflexivity|discriminate].
  - match goal with Ha : 1 <= x, Hc : _ <= cnt _ l |- _ => destruct (cnt_pos n_dr l x (conj Ha Hc)) as (pre & p & post & E' & A1 & ->); [intros q _; apply Hb1|] end.
    eexists. eapply drawing_in; [exact W|exact E'|]. unfold n_dr in A1. destruct (has_dr (p_u p)); [reflexivity|discriminate].
  - match goal with H : _ <= N.of_nat (length (flat_map u_charts (map p_u l))) |- _ => rewrite Hus in H; rename H into Hle end.
    destruct (nth_error (flat_map u_charts us) (N.to_nat (x - 1))) as [body|] eqn:En; [|apply nth_error_None in En; lia].
    eexists. eapply chart_in; [exact W|eassumption|exact En].
  - match goal with H : _ <= N.of_nat (length (flat_map u_tables (map p_u l))) |- _ => rewrite Hus in H; rename H into Hle end.
    destruct (nth_error (flat_map u_tables us) (N.to_nat (x - 1))) as [body|] eqn:En; [|apply nth_error_None in En; lia].
    eexists. eapply table_in; [exact W|eassumption|exact En].
  - match goal with Ha : 1 <= x, Hc : _ <= cnt _ l |- _ => destruct (cnt_pos n_com l x (conj Ha Hc)) as (pre & p & post & E' & A1 & ->); [intros q _; apply Hb1|] end.
    eexists. eapply comments_in; [exact W|exact E'|]. unfold n_com in A1. apply is_nil_false. destruct (is_nil (u_notes (p_u p))); [discriminate|reflexivity].
  - eexists. apply Hin_pkg, in_parts. do 3 right. left. apply in_when. split; [eassumption|left; reflexivity].
  - eexists. apply Hin_pkg, in_parts. do 14 right. left. apply in_when. split; [eassumption|left; reflexivity].
  - eexists. apply Hin_pkg, in_parts. do 15 right. left. apply in_when. split; [eassumption|]. do 2 right. left. reflexivity.
  - eexists. apply Hin_pkg, in_parts. do 15 right. left. apply in_when. split; [eassumption|]. do 1 right. left. reflexivity.
  - eexists. apply Hin_pkg, in_parts. do 15 right. left. apply in_when. split; [eassumption|]. do 3 right. left. reflexivity.
  - eexists. apply Hin_pkg, in_parts. do 15 right. left. apply in_when. split; [eassumption|]. do 4 right. left. reflexivity.
  - eexists. apply Hin_pkg, in_parts. do 16 right. apply in_when. split; [eassumption|left; reflexivity].
  - eexists. apply Hin_pkg, in_parts. do 5 right. left. apply in_when. split; [eassumption|left; reflexivity].
Qed.

(** The extensions of image files. *)
Lemma ext_eqb_refl e : ext_eqb e e = true. Proof. destruct e; reflexivity. Qed.
Lemma uses_ext_in p i : In p l -> In i (u_embedded (p_u p) ++ sheet_imgs (p_u p)) -> uses_ext (im_ext i) l = true.
Proof.
  intros Hp Hi. unfold uses_ext, any. apply existsb_exists. exists p. split; [exact Hp|].
  apply existsb_exists. exists (im_ext i). split; [|apply ext_eqb_refl].
  unfold types_of. rewrite !in_app_iff. unfold sheet_imgs in Hi. rewrite !in_app_iff in Hi.
  destruct Hi as [H|[H|[H|H]]].
  - do 4 right. apply in_map, H.
  - right; left. apply in_map, H.
  - do 2 right; left. apply in_map_iff in H as (x & <- & H). apply in_map_iff. exists x. auto.
  - do 3 right; left. apply in_map, H.
Qed.
Lemma embed_acc_in ims : forall ids nx acc, incl (snd (fst (embed_loop ids nx acc ims))) (acc ++ ims).
Proof.
  induction ims as [|i ims IH]; intros ids nx acc; cbn [embed_loop].
  - cbn. rewrite app_nil_r. apply incl_refl.
  - destruct (am_get (im_hash i) ids).
    + specialize (IH ids nx acc). destruct (embed_loop ids nx acc ims) as [[[x1 x2] x3] x4]. cbn [fst snd] in *.
      intros y Hy. apply IH in Hy. rewrite in_app_iff in *. cbn. tauto.
    + specialize (IH (am_insert (im_hash i) (nx + 1) ids) (nx + 1) (acc ++ [i])). destruct (embed_loop _ _ (acc ++ [i]) ims) as [[[x1 x2] x3] x4]. cbn [fst snd] in *.
      intros y Hy. apply IH in Hy. rewrite !in_app_iff in *. cbn in *. tauto.
Qed.
Lemma embed_sheets_in us0 : forall ids nx acc, incl (fst (embed_sheets ids nx acc us0)) (acc ++ flat_map u_embedded us0).
Proof.
  induction us0 as [|u us0 IH]; intros ids nx acc; cbn [embed_sheets flat_map].
  - cbn. rewrite app_nil_r. apply incl_refl.
  - assert (H := embed_acc_in (u_embedded u) ids nx acc).
    destruct (embed_loop ids nx acc (u_embedded u)) as [[[x1 x2] x3] x4]. cbn [fst snd] in H.
    specialize (IH x1 x2 x3). destruct (embed_sheets x1 x2 x3 us0) as [all rest]. cbn [fst] in *.
    intros y Hy. apply IH in Hy. rewrite !in_app_iff in *. destruct Hy as [Hy|Hy]; [|auto]. apply H, in_app_iff in Hy. tauto.
Qed.
Lemma image_parts emb0 us0 x : In x (write_images emb0 us0) ->
  exists n i, x = (render (NMedia n (im_ext i)), CBytes (im_data i)) /\ (In i emb0 \/ exists u, In u us0 /\ In i (sheet_imgs u)).
Proof.
  intros Hx. apply in_app_iff in Hx as [Hx|Hx].
  - revert Hx. generalize 1. induction emb0 as [|i e IH]; intros n; cbn [write_embedded In]; [intros []|].
    intros [<-|H]; [exists n, i; split; [reflexivity|left; left; reflexivity]|].
    destruct (IH _ H) as (k & j & -> & [Hj|Hj]); exists k, j; (split; [reflexivity|]); [left; right; exact Hj|right; exact Hj].
  - revert Hx. enough (H : forall n s1 s2 s3, In x (write_sheet_images n s1 s2 s3 us0) ->
        exists n i, x = (render (NMedia n (im_ext i)), CBytes (im_data i)) /\ exists u, In u us0 /\ In i (sheet_imgs u)).
    { intros Hx. destruct (H _ _ _ _ Hx) as (n & i & -> & Hu). exists n, i. auto. }
    assert (G : forall ims n seen x, In x (fst (fst (write_new_images n seen ims))) ->
      exists n i, x = (render (NMedia n (im_ext i)), CBytes (im_data i)) /\ In i ims).
    { induction ims as [|i ims IH]; intros n seen y; cbn [write_new_images]; [intros []|].
      destruct (existsb _ seen).
      - intros H. destruct (IH _ _ _ H) as (k & j & -> & Hj). exists k, j. cbn. auto.
      - specialize (IH (n + 1) (im_hash i :: seen) y).
        destruct (write_new_images (n + 1) (im_hash i :: seen) ims) as [[q1 q2] q3]. cbn [fst In] in *.
        intros [<-|H]; [exists n, i; auto|]. destruct (IH H) as (k & j & -> & Hj). exists k, j. auto. }
    induction us0 as [|u v IH]; intros n s1 s2 s3; cbn [write_sheet_images]; [intros []|].
    assert (G1 := G (match u_bg u with Some i => [i] | None => [] end) n s3 x).
    destruct (write_new_images n s3 (match u_bg u with Some i => [i] | None => [] end)) as [[p1 i1] k1].
    assert (G2 := G (map fst (u_images u)) i1 s1 x). destruct (write_new_images i1 s1 (map fst (u_images u))) as [[p2 i2] k2].
    assert (G3 := G (u_hf u) i2 s2 x). destruct (write_new_images i2 s2 (u_hf u)) as [[p3 i3] k3]. cbn [fst] in *.
    rewrite !in_app_iff. intros [H|[H|[H|H]]].
    1-3: first [destruct (G1 H) as (k & j & -> & Hj)|destruct (G2 H) as (k & j & -> & Hj)|destruct (G3 H) as (k & j & -> & Hj)];
         exists k, j; (split; [reflexivity|]); exists u; (split; [left; reflexivity|]); unfold sheet_imgs; rewrite !in_app_iff; tauto.
    destruct (IH _ _ _ _ H) as (k & j & -> & w & Hw & Hj). exists k, j. split; [reflexivity|]. exists w. split; [right; exact Hw|exact Hj].
Qed.

Theorem closed_types name c : In (name, c) pkg -> name <> lit "[Content_Types].xml" -> typed pkg name.
Proof.
  intros Hi Hne. destruct types_part as (d & ov & H1 & _ & H2 & Hrels & Hvml & Hbin & Hext).
  exists d, ov. split; [apply (find_in m b pkg emb l a W), H1|]. clear H1.
  assert (Hus := us_l m b pkg emb l a W).
  assert (Hin := infos_l m b pkg emb l a W).
  rewrite H2. unfold declared. fold o.
  assert (RELS : forall nm, extension nm = lit "rels" -> extension nm <> lit "xml" /\ In (extension nm) d) by (intros nm ->; split; [discriminate|exact Hrels]).
  rewrite (w_pkg _ _ _ _ _ _ W) in Hi. apply in_parts in Hi. fold o in Hi.
  repeat match type of Hi with _ \/ _ => destruct Hi as [Hi|Hi] end.
  - injection Hi as -> ->. contradiction.
  - injection Hi as -> ->. right. apply RELS. reflexivity.
  - injection Hi as -> ->. right. apply RELS. reflexivity.
  - injection Hi as -> ->. left. do 3 right. left. reflexivity.
  - injection Hi as -> ->. left. do 2 right. left. reflexivity.
  - injection Hi as -> ->. left. do 4 right. left. reflexivity.
  - apply (in_worksheets m l 1 _ (w_ws _ _ _ _ _ _ W)) in Hi as (pre & p & post & E & Hc & [H|(_ & es' & _ & H)]);
      (assert (En : name = fst (name, c)) by reflexivity; rewrite H in En; cbn [fst] in En; subst name).
    + left. do 6 right. left. exists (1 + cnt n_ws pre). split; [|reflexivity].
      rewrite E, cnt_app, cnt_cons. assert (Hp1 : n_ws (p_u p) = 1) by (unfold n_ws; rewrite Hc; reflexivity). lia.
    + right. apply RELS. cbn [render]. apply (extension_num2 _ _ ".xml.rels" (lit ".xml") "rels"); reflexivity.
  - apply (in_chartsheets m l 1 _ (w_cs _ _ _ _ _ _ W)) in Hi as (pre & p & post & E & Hc & [H|(_ & es' & _ & H)]);
      (assert (En : name = fst (name, c)) by reflexivity; rewrite H in En; cbn [fst] in En; subst name).
    + left. do 7 right. left. exists (1 + cnt n_cs pre). split; [|reflexivity].
      rewrite E, cnt_app, cnt_cons. assert (Hp1 : n_cs (p_u p) = 1) by (unfold n_cs; rewrite Hc; reflexivity). lia.
    + right. apply RELS. cbn [render]. apply (extension_num2 _ _ ".xml.rels" (lit ".xml") "rels"); reflexivity.
  - apply in_when in Hi as [Ho [Hi|[]]]. injection Hi as <- <-. left. do 12 right. left. split; [exact Ho|reflexivity].
  - injection Hi as -> ->. left. do 1 right. left. reflexivity.
  - injection Hi as -> ->. left. left. reflexivity.
  - apply in_when in Hi as [Ho [Hi|[]]]. injection Hi as <- <-. left. do 16 right. split; [exact Ho|reflexivity].
  - apply (in_drawings l Hin) in Hi as (pre & p & post & E & Hd & H).
    assert (En : name = fst (name, c)) by reflexivity; rewrite H in En; cbn [fst] in En; subst name.
    left. do 8 right. left. exists (1 + cnt n_dr pre). split; [|reflexivity].
    rewrite E, cnt_app, cnt_cons. assert (Hp1 : n_dr (p_u p) = 1) by (unfold n_dr; rewrite Hd; reflexivity). lia.
  - apply (in_vmls m l 1 1 _ (w_vml _ _ _ _ _ _ W)), at_vml_split in Hi as (pre & p & post & E & Hi).
    assert (Ho : o_vml o = true).
    { cbn. unfold any. apply existsb_exists. exists p. split; [rewrite E; apply in_elt|].
      destruct Hi as [[-> _]|[Hne' _]]; [reflexivity|]. apply is_nil_false in Hne'. rewrite Hne'. apply orb_true_r. }
    destruct Hi as [[_ H]|[_ [H|(es' & _ & H)]]];
      (assert (En : name = fst (name, c)) by reflexivity; rewrite H in En; cbn [fst] in En; subst name).
    + right. cbn [render]. rewrite (extension_num _ _ ".vml" "vml") by reflexivity. split; [discriminate|auto].
    + right. cbn [render]. rewrite (extension_num _ _ ".vml" "vml") by reflexivity. split; [discriminate|auto].
    + right. apply RELS. cbn [render]. apply (extension_num2 _ _ ".vml.rels" (lit ".vml") "rels"); reflexivity.
  - apply in_comments in Hi as (pre & p & post & E & Hd & H).
    assert (En : name = fst (name, c)) by reflexivity; rewrite H in En; cbn [fst] in En; subst name.
    left. do 11 right. left. exists (1 + cnt n_com pre). split; [|reflexivity].
    rewrite E, cnt_app, cnt_cons. assert (Hp1 : n_com (p_u p) = 1) by (unfold n_com; apply is_nil_false in Hd; rewrite Hd; reflexivity). lia.
  - apply image_parts in Hi as (n & i & H & Hu).
    assert (En : name = fst (name, c)) by reflexivity; rewrite H in En; cbn [fst] in En; subst name.
    right. cbn [render]. rewrite extension_media. split; [destruct (im_ext i); discriminate|]. apply Hext.
    destruct Hu as [Hu|(u & Hu & Hi')].
    + rewrite (w_emb _ _ _ _ _ _ W) in Hu. unfold prepare_embedded in Hu. apply embed_sheets_in in Hu. cbn [app] in Hu.
      rewrite <- Hus in Hu. apply in_flat_map in Hu as (u & Hu & Hi'). apply in_map_iff in Hu as (p & <- & Hp).
      apply (uses_ext_in p); [exact Hp|]. apply in_or_app. left. exact Hi'.
    + apply in_map_iff in Hu as (p & <- & Hp). apply (uses_ext_in p); [exact Hp|]. apply in_or_app. right. exact Hi'.
  - apply in_charts in Hi as (k & body & Hk & Hn & H).
    assert (En : name = fst (name, c)) by reflexivity; rewrite H in En; cbn [fst] in En; subst name.
    left. do 9 right. left. exists k. split; [|reflexivity].
    assert (Hlt : (N.to_nat (k - 1) < length (flat_map u_charts (map p_u l)))%nat) by (apply nth_error_Some; congruence). lia.
  - assert (Hi2 := Hi). rewrite (w_l _ _ _ _ _ _ W) in Hi2. apply in_tables in Hi2 as (k & t & Hk & Hn & H).
    assert (En : name = fst (name, c)) by reflexivity; rewrite H in En; cbn [fst] in En; subst name.
    left. do 10 right. left. exists k. split; [|reflexivity]. rewrite Hus.
    assert (Hlt : (N.to_nat (k - 1) < length (flat_map u_tables us))%nat) by (apply nth_error_Some; congruence). lia.
  - unfold vba_parts in Hi. destruct (w_vba b) as [v|] eqn:Ev; [|destruct Hi].
    assert (Hx : o_xlsm o = true) by (cbn; rewrite Ev; reflexivity).
    destruct Hi as [Hi|Hi].
    + injection Hi as <- <-. right. split; [discriminate|]. apply Hbin, Hx.
    + apply in_when in Hi as [Hs [Hi|[Hi|[]]]]; injection Hi as <- <-.
      * left. do 5 right. left. split; [|reflexivity]. cbn. rewrite Ev, Hs. reflexivity.
      * right. apply RELS. reflexivity.
  - apply (in_drawing_rels m l Hin 0 _ (w_dr _ _ _ _ _ _ W)) in Hi as (pre & p & post & E & _ & es' & _ & H).
    assert (En : name = fst (name, c)) by reflexivity; rewrite H in En; cbn [fst] in En; subst name.
    right. apply RELS. cbn [render]. apply (extension_num2 _ _ ".xml.rels" (lit ".xml") "rels"); reflexivity.
  - apply in_when in Hi as [Ho [Hi|[]]]. injection Hi as <- <-. left. do 13 right. left. split; [exact Ho|reflexivity].
  - unfold rich_parts in Hi. apply in_when in Hi as [Ho Hi]. cbn [In] in Hi.
    destruct Hi as [Hi|[Hi|[Hi|[Hi|[Hi|[]]]]]]; injection Hi as <- <-.
    + right. apply RELS. reflexivity.
    + left. do 14 right. left. split; [exact Ho|]. right; left. reflexivity.
    + left. do 14 right. left. split; [exact Ho|]. left. reflexivity.
    + left. do 14 right. left. split; [exact Ho|]. do 2 right; left. reflexivity.
    + left. do 14 right. left. split; [exact Ho|]. do 3 right. reflexivity.
  - apply in_when in Hi as [Ho [Hi|[]]]. injection Hi as <- <-. left. do 15 right. left. split; [exact Ho|reflexivity].
Qed.
End World.

Theorem package_closed m lower b b' pkg : reach m lower b -> save_pkg m lower b = Some (b', Saved pkg) -> rels_ok m pkg ->
  let us := map ps_u (w_sheets b) in hashes_ok us -> hf_last us -> urls_ok us -> counts_ok us -> closed pkg.
Proof.
  intros Hre Hs Hr us Hh Hhf Hu Hc. destruct (saved_world m lower b b' pkg Hre Hs) as (emb & l & a & W).
  constructor.
  - apply (w_names _ _ _ _ _ _ W).
  - intros name c. eapply closed_types; eassumption.
  - intros d o. eapply closed_declared; eassumption.
  - intros name es. eapply closed_rels; eassumption.
Qed.
