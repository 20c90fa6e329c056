(** Package level, part 12: all parts of one kind; table names (C33). *)
From Verif Require Import Base Xml_Model Url_Model Book_Model Book_Proofs Book_Proofs2 Pkg_Model Pkg_Spec Pkg_Names Pkg_Proofs Pkg_Proofs2 Pkg_Proofs3 Pkg_Proofs4 Pkg_Proofs5 Pkg_Proofs6 Pkg_Proofs7 Pkg_Proofs10 Pkg_Proofs11.

Lemma dup_table_none lower l : forall seen, dup_table lower seen l = None ->
  NoDup (map lower l) /\ forall n, In n l -> ~ In (lower n) seen.
Proof.
  induction l as [|n l IH]; intros seen; cbn [dup_table map]; [intros _; split; [constructor|intros ? []]|].
  destruct (existsb (str_eqb (lower n)) seen) eqn:E; [discriminate|]. intros H. apply IH in H as [H1 H2].
  assert (Hn : ~ In (lower n) seen).
  { intros Hi. apply Bool.not_true_iff_false in E. apply E, existsb_exists. exists (lower n). split; [exact Hi|apply str_eqb_refl]. }
  split.
  - constructor; [|exact H1]. intros Hi. apply in_map_iff in Hi as (k & Ek & Hk). apply (H2 k Hk). left. symmetry. exact Ek.
  - intros k [<-|Hk]; [exact Hn|]. intros Hi. apply (H2 k Hk). right. exact Hi.
Qed.

Section World.
Variables (m : ovf) (b : pbook) (pkg : package) (emb : list img) (l : list prep) (a : parts).
Hypothesis W : world m b pkg emb l a.
Notation us := (map ps_u (w_sheets b)).

Lemma part_cases n c : In (n, c) pkg ->
  match c with
  | CDrawing _ => In (n, c) (write_drawings 1 l)
  | CVml _ => In (n, c) (a_vml a)
  | CComments _ => In (n, c) (write_comments 1 l)
  | CChart _ => In (n, c) (write_charts us)
  | CTable _ _ _ => In (n, c) (write_tables l)
  | CSheet _ => In (n, c) (a_ws a) \/ In (n, c) (a_cs a)
  | _ => True
  end.
Proof.
  intros Hi. assert (Hus := us_l m b pkg emb l a W).
  assert (Hin := infos_l m b pkg emb l a W).
  rewrite (w_pkg _ _ _ _ _ _ W) in Hi. apply in_parts in Hi.
  repeat match type of Hi with _ \/ _ => destruct Hi as [Hi|Hi] end;
    try (injection Hi as -> ->; exact I); try (apply in_when in Hi as [_ [Hi|[]]]; injection Hi as <- <-; exact I).
  - (* worksheets *) assert (Hi' := Hi). apply (in_worksheets m l 1 _ (w_ws _ _ _ _ _ _ W)) in Hi as (pre & p & post & E & Hc & [H|(_ & es' & _ & H)]);
      apply (f_equal snd) in H; cbn [snd] in H; subst c; [left; exact Hi'|exact I].
  - (* chartsheets *) assert (Hi' := Hi). apply (in_chartsheets m l 1 _ (w_cs _ _ _ _ _ _ W)) in Hi as (pre & p & post & E & Hc & [H|(_ & es' & _ & H)]);
      apply (f_equal snd) in H; cbn [snd] in H; subst c; [right; exact Hi'|exact I].
  - (* drawings *) assert (Hi' := Hi). apply (in_drawings l Hin) in Hi as (pre & p & post & E & Hd & H).
    apply (f_equal snd) in H. cbn [snd] in H. subst c. exact Hi'.
  - (* VML *) assert (Hi' := Hi). apply (in_vmls m l 1 1 _ (w_vml _ _ _ _ _ _ W)), at_vml_split in Hi as (pre & p & post & E & Hi).
    destruct Hi as [[_ H]|[_ [H|(es' & _ & H)]]]; apply (f_equal snd) in H; cbn [snd] in H; subst c; [exact Hi'|exact Hi'|exact I].
  - (* comments *) assert (Hi' := Hi). apply in_comments in Hi as (pre & p & post & E & Hd & H).
    apply (f_equal snd) in H. cbn [snd] in H. subst c. exact Hi'.
  - (* images *) apply image_parts in Hi as (k & i & H & Hu). apply (f_equal snd) in H. cbn [snd] in H. subst c. exact I.
  - (* charts *) assert (Hi' := Hi). apply in_charts in Hi as (k & body & Hk & Hn & H).
    apply (f_equal snd) in H. cbn [snd] in H. subst c. rewrite <- Hus. exact Hi'.
  - (* tables *) assert (Hi' := Hi). rewrite (w_l _ _ _ _ _ _ W) in Hi. apply in_tables in Hi as (k & t & Hk & Hn & H).
    apply (f_equal snd) in H. cbn [snd] in H. subst c. exact Hi'.
  - (* VBA *) unfold vba_parts in Hi. destruct (w_vba b) as [v|]; [|destruct Hi]. destruct Hi as [Hi|Hi]; [injection Hi as <- <-; exact I|].
    apply in_when in Hi as [_ [Hi|[Hi|[]]]]; injection Hi as <- <-; exact I.
  - (* drawing rels *) apply (in_drawing_rels m l Hin 0 _ (w_dr _ _ _ _ _ _ W)) in Hi as (pre & p & post & E & _ & es' & _ & H).
    apply (f_equal snd) in H. cbn [snd] in H. subst c. exact I.
  - (* rich values *) unfold rich_parts in Hi. apply in_when in Hi as [Ho Hi]. cbn [In] in Hi.
    destruct Hi as [Hi|[Hi|[Hi|[Hi|[Hi|[]]]]]]; apply (f_equal snd) in Hi; cbn [snd] in Hi; subst c; exact I.
Qed.

Theorem chart_files n body : In (n, CChart body) pkg <->
  exists k, nth_error (flat_map u_charts us) k = Some body /\ n = numbered "xl/charts/chart" (N.of_nat k + 1) ".xml".
Proof.
  split.
  - intros H. apply part_cases in H. apply in_charts in H as (k & body' & H1 & H2 & H3).
    injection H3 as -> ->. exists (N.to_nat (k - 1)). split; [exact H2|]. replace (N.of_nat (N.to_nat (k - 1)) + 1) with k by lia. reflexivity.
  - intros (k & H1 & ->). assert (H := chart_in m b pkg emb l a W (N.of_nat k + 1) body). apply H; [lia|].
    replace (N.to_nat (N.of_nat k + 1 - 1)) with k by lia. exact H1.
Qed.
Lemma tnum_name k t : fst (tnum k t) = table_name (fst t) k.
Proof. unfold tnum, table_name. destruct t as [[|c nm] body]; cbn [fst is_nil]; [|reflexivity]. unfold numbered. cbn [lit]. rewrite app_nil_r. reflexivity. Qed.
Theorem table_files n id nm body : In (n, CTable id nm body) pkg <->
  exists k nm0, nth_error (flat_map u_tables us) k = Some (nm0, body) /\ id = N.of_nat k + 1 /\
              n = numbered "xl/tables/table" id ".xml" /\ nm = table_name nm0 id.
Proof.
  split.
  - intros H. apply part_cases in H. rewrite (w_l _ _ _ _ _ _ W) in H. apply in_tables in H as (k & [nm0 body0] & H1 & H2 & H3).
    assert (E : n = render (NTable k) /\ CTable id nm body = CTable k (fst (tnum k (nm0, body0))) body0).
    { split; [apply (f_equal fst) in H3; exact H3|apply (f_equal snd) in H3; exact H3]. }
    destruct E as [En Ec]. injection Ec as E1 E2 E3. subst id body n. exists (N.to_nat (k - 1)), nm0. split; [exact H2|].
    split; [lia|]. split; [reflexivity|]. rewrite E2. apply (tnum_name k (nm0, body0)).
  - intros (k & nm0 & H1 & -> & -> & ->).
    assert (H := table_in m b pkg emb l a W (N.of_nat k + 1) (nm0, body)). rewrite tnum_name in H. apply H; [lia|].
    replace (N.to_nat (N.of_nat k + 1 - 1)) with k by lia. exact H1.
Qed.
Theorem drawing_files n an : In (n, CDrawing an) pkg ->
  exists i s, nth_error (w_sheets b) i = Some s /\ has_objects (ps_u s) = true /\ n = dr_name b i.
Proof.
  intros H. apply part_cases in H. assert (Hin := infos_l m b pkg emb l a W).
  apply (in_drawings l Hin) in H as (pre & p & post & E & Hd & H).
  assert (El := w_l _ _ _ _ _ _ W). rewrite E in El. symmetry in El.
  assert (Hlen : exists s, nth_error (w_sheets b) (length pre) = Some s).
  { destruct (nth_error (w_sheets b) (length pre)) eqn:En; [eauto|]. apply nth_error_None in En.
    apply (f_equal (@length _)) in El. rewrite <- (map_length p_u (prep_st _ _)), prep_st_us, map_length in El. rewrite app_length in El. cbn [length] in El. lia. }
  destruct Hlen as [s Hs]. exists (length pre), s. split; [exact Hs|].
  destruct (sheet_at m b pkg emb l a W _ s Hs) as (l1 & l2 & pre' & post' & E1 & El1 & E2 & Hlen & Epre & Hf & Hcnt & Hl1 & Hs'). cbn zeta in *.
  rewrite E in E2. assert (Epp : pre = pre' /\ p = prep1 (after (st0 (N.of_nat (length emb))) l1) s).
  { clear -E2 Hlen. revert pre' Hlen E2. induction pre as [|x pre IH]; intros [|y pre'] Hl Ht; try discriminate.
    - injection Ht as -> _. auto.
    - injection Ht as -> Ht. injection Hl as Hl. destruct (IH _ Hl Ht) as [-> ->]. auto. }
  destruct Epp as [-> ->]. change (p_u (prep1 _ s)) with (ps_u s) in Hd. rewrite has_dr_objects in Hd. split; [exact Hd|].
  apply (f_equal fst) in H. cbn [fst] in H. rewrite H. unfold dr_name. rewrite Hf, Hcnt. reflexivity.
Qed.
End World.

(** No two tables have the same name, ignoring case. *)
Theorem table_names_distinct m lower b b' pkg : reach m lower b -> save_pkg m lower b = Some (b', Saved pkg) ->
  forall n1 id1 nm1 body1 n2 id2 nm2 body2, In (n1, CTable id1 nm1 body1) pkg -> In (n2, CTable id2 nm2 body2) pkg ->
  (n1 = n2 <-> id1 = id2) /\ (lower nm1 = lower nm2 <-> id1 = id2).
Proof.
  intros Hre Hs n1 id1 nm1 body1 n2 id2 nm2 body2 H1 H2.
  destruct (saved_world m lower b b' pkg Hre Hs) as (emb & l & a & W).
  apply save_inv in Hs as (_ & _ & _ & _ & Hd). rewrite table_names in Hd. cbn [st0 s_t] in Hd.
  apply dup_table_none in Hd as [Hd _]. rewrite map_map in Hd.
  apply (table_files m b pkg emb l a W) in H1 as (k1 & m1 & A1 & A2 & A3 & A4).
  apply (table_files m b pkg emb l a W) in H2 as (k2 & m2 & B1 & B2 & B3 & B4).
  split.
  - split; [|intros ->; congruence]. subst n1 n2. intros E. unfold numbered in E. apply app_inv_head in E.
    assert (E' := E). apply app_inv_tail in E'. apply dec_inj in E'. exact E'.
  - split; [|intros E; assert (k1 = k2) by lia; subst; congruence].
    intros E. enough (k1 = k2) by lia.
    set (L := flat_map u_tables (map ps_u (w_sheets b))) in *.
    set (f := fun x : N * (str * N) => lower (fst (tnum (fst x) (snd x)))) in *.
    assert (G : forall k t, nth_error L k = Some t -> nth_error (map f (number_from 1 L)) k = Some (f (N.of_nat k + 1, t))).
    { intros k t Hk. apply map_nth_error. clear -Hk. revert k Hk. replace (N.of_nat) with (fun k => N.of_nat k) by reflexivity.
      enough (Hg : forall n k, nth_error L k = Some t -> nth_error (number_from n L) k = Some (n + N.of_nat k, t)).
      { intros k Hk. rewrite (Hg 1 k Hk). do 2 f_equal. lia. }
      induction L as [|x L' IH]; intros n [|k] Hk; try discriminate; cbn [number_from nth_error] in *.
      - injection Hk as ->. do 2 f_equal. lia.
      - rewrite (IH (n + 1) k Hk). do 2 f_equal. lia. }
    assert (Hn : nth_error (map f (number_from 1 L)) k1 = nth_error (map f (number_from 1 L)) k2).
    { rewrite (G _ _ A1), (G _ _ B1). f_equal. unfold f. cbn [fst snd]. rewrite !tnum_name. cbn [fst]. rewrite <- A2, <- B2, <- A4, <- B4. exact E. }
    eapply NoDup_nth_error; [exact Hd| |exact Hn]. apply nth_error_Some. rewrite (G _ _ A1). discriminate.
Qed.
