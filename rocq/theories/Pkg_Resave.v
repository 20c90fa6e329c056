(** Package level: a second save without changes (C47). *)
From Verif Require Import Base Xml_Model Url_Model Book_Model Book_Proofs Pkg_Model Pkg_Spec Pkg_Names Pkg_Proofs Pkg_Proofs2 Pkg_Proofs3 Pkg_Proofs4.

(** ** One sheet *)

(** Every author of [l] is known to [m]. *)
Lemma am_get_bt_same a i m : am_get a (bt_insert a i m) = Some i.
Proof.
  induction m as [|[k v] m IH]; cbn [bt_insert am_get]; [rewrite str_eqb_refl; reflexivity|].
  destruct (str_eqb a k) eqn:E; [cbn [am_get]; rewrite str_eqb_refl; reflexivity|].
  destruct (str_leb a k); cbn [am_get]; [rewrite str_eqb_refl; reflexivity|]. rewrite E. exact IH.
Qed.
Lemma am_get_bt_other a b i m : str_eqb b a = false -> am_get b (bt_insert a i m) = am_get b m.
Proof.
  intros Hb. induction m as [|[k v] m IH]; cbn [bt_insert am_get]; [rewrite Hb; reflexivity|].
  destruct (str_eqb a k) eqn:E.
  - apply str_eqb_eq in E. subst k. cbn [am_get]. rewrite Hb. reflexivity.
  - destruct (str_leb a k); cbn [am_get]; [rewrite Hb; reflexivity|]. destruct (str_eqb b k); [reflexivity|exact IH].
Qed.
Lemma assign_keeps l : forall m b i, am_get b m = Some i -> am_get b (fst (assign_authors m l)) = Some i.
Proof.
  induction l as [|n l IH]; intros m b i H; cbn [assign_authors]; [exact H|].
  destruct (nt_author n) as [a|].
  - destruct (am_get a m) as [j|] eqn:Ea.
    + specialize (IH m b i H). destruct (assign_authors m l). exact IH.
    + assert (H' : am_get b (bt_insert a (am_len m) m) = Some i).
      { rewrite am_get_bt_other; [exact H|]. destruct (str_eqb b a) eqn:E; [|reflexivity]. apply str_eqb_eq in E. subst. congruence. }
      specialize (IH _ b i H'). destruct (assign_authors (bt_insert a (am_len m) m) l). exact IH.
  - specialize (IH m b i H). destruct (assign_authors m l). exact IH.
Qed.
Lemma assign_known l : forall m M out, assign_authors m l = (M, out) ->
  (forall M', (forall b i, am_get b M = Some i -> am_get b M' = Some i) -> assign_authors M' l = (M', out)).
Proof.
  induction l as [|n l IH]; intros m M out; cbn [assign_authors]; [intros [= <- <-]; reflexivity|].
  destruct (nt_author n) as [a|].
  - destruct (am_get a m) as [j|] eqn:Ea.
    + destruct (assign_authors m l) as [M1 o1] eqn:E1. intros H M' HM'. assert (E : M1 = M /\ j :: o1 = out) by (split; congruence).
      destruct E as [-> <-].
      pose proof (assign_keeps l m a j Ea) as K. rewrite E1 in K. cbn [fst] in K. rewrite (HM' _ _ K), (IH _ _ _ E1 M' HM'). reflexivity.
    + destruct (assign_authors (bt_insert a (am_len m) m) l) as [M1 o1] eqn:E1. intros H M' HM'.
      assert (E : M1 = M /\ am_len m :: o1 = out) by (split; congruence). destruct E as [-> <-].
      pose proof (assign_keeps l _ a _ (am_get_bt_same a (am_len m) m)) as K. rewrite E1 in K. cbn [fst] in K.
      rewrite (HM' _ _ K), (IH _ _ _ E1 M' HM'). reflexivity.
  - destruct (assign_authors m l) as [M1 o1] eqn:E1. intros H M' HM'. assert (E : M1 = M /\ 0 :: o1 = out) by (split; congruence).
    destruct E as [-> <-]. rewrite (IH _ _ _ E1 M' HM'). reflexivity.
Qed.
Lemma vml_again q au u : prepare_sheet_vml q (v_authors (snd (prepare_sheet_vml q au u))) u = prepare_sheet_vml q au u.
Proof.
  unfold prepare_sheet_vml. destruct (has_vml u) eqn:Hv.
  - destruct (assign_authors au (u_notes u)) as [M out] eqn:E.
    assert (E' : assign_authors M (u_notes u) = (M, out)) by (eapply assign_known; [exact E|auto]).
    destruct (is_nil (u_hf u)); cbn [snd v_authors]; rewrite E'; reflexivity.
  - destruct (is_nil (u_hf u)); reflexivity.
Qed.

(** Tables keep the names they were given. *)
Lemma tnum_again k k' t : tnum k' (tnum k t) = tnum k t.
Proof. destruct t as [nm body]. unfold tnum. cbn [fst snd]. destruct nm; reflexivity. Qed.
Lemma number_map_tnum l : forall k, map (fun kt => tnum (fst kt) (snd kt)) (number_from k (map (fun kt => tnum (fst kt) (snd kt)) (number_from k l)))
  = map (fun kt => tnum (fst kt) (snd kt)) (number_from k l).
Proof.
  induction l as [|t l IH]; intros k; [reflexivity|]. cbn [number_from map fst snd]. rewrite tnum_again. f_equal. apply IH.
Qed.
Lemma number_length {A} (l : list A) : forall k, length (number_from k l) = length l.
Proof. induction l as [|x l IH]; intros k; [reflexivity|]. cbn [number_from length]. f_equal. apply IH. Qed.
Lemma names_again k l : name_tables k (snd (fst (fst (name_tables k l)))) = name_tables k l.
Proof. rewrite (name_tables_eq l k). cbn [fst snd]. rewrite name_tables_eq, map_length, number_length, number_map_tnum. reflexivity. Qed.

(** ** Two preparations of the same sheet *)
Definition named (u : usheet) (t : list (str * N)) : usheet :=
  {| u_chartsheet := u_chartsheet u; u_links := u_links u; u_bg := u_bg u; u_images := u_images u;
     u_charts := u_charts u; u_shapes := u_shapes u; u_notes := u_notes u; u_buttons := u_buttons u;
     u_hf := u_hf u; u_tables := t; u_embedded := u_embedded u; u_dynamic := u_dynamic u |}.
Record twin (p q : prep) : Prop := {
  tw_u : p_u q = named (p_u p) (t_tables (p_t p));
  tw_len : length (t_tables (p_t p)) = length (u_tables (p_u p));
  tw_bg : d_bg (p_d q) = d_bg (p_d p); tw_dobj : d_dobj (p_d q) = d_dobj (p_d p);
  tw_rels : d_rels (p_d q) = d_rels (p_d p); tw_infos : d_infos (p_d q) = d_infos (p_d p);
  tw_vml : d_vmlrels (p_d q) = d_vmlrels (p_d p); tw_hf : d_hf (p_d q) = d_hf (p_d p);
  tw_v : p_v q = p_v p; tw_t : p_t q = p_t p; tw_emb : p_emb q = p_emb p;
  tw_anchors : fst (sheet_anchors q) = fst (sheet_anchors p);
  tw_c : h_cvml (ps_h (p_sheet q)) = h_cvml (ps_h (p_sheet p));
  tw_b : h_bvml (ps_h (p_sheet q)) = h_bvml (ps_h (p_sheet p));
  tw_types : forall e, existsb (ext_eqb e) (types_of q) = existsb (ext_eqb e) (types_of p) }.

Lemma dstate_ext a b : g_chart a = g_chart b -> g_drawing a = g_drawing b -> g_shape a = g_shape b -> g_image a = g_image b ->
  g_ws a = g_ws b -> g_hf a = g_hf b -> g_bg a = g_bg b -> a = b.
Proof. destruct a, b. cbn. intros; subst; reflexivity. Qed.
Lemma again st s : hid_ok s -> let s' := sheet_after (prep1 st s) true true in
  twin (prep1 st s) (prep1 st s') /\ next st s' = next st s.
Proof.
  intros Hs s'.
  assert (Hok : hid_ok s').
  { subst s'. unfold sheet_after, hid_ok. cbn [ps_h h_linkage h_shape_pos h_shapes h_cvml h_bvml ps_u u_images u_shapes].
    destruct (prepare_sheet_drawings (s_g st) (h_linkage (ps_h s)) (ps_u s)) as [g' d] eqn:Ed.
    assert (Hd := Ed). apply prepare_sheet_drawings_spec in Hd; [|apply Hs].
    split; [|split; [|split]].
    - unfold prep1. rewrite Ed. cbn [p_d snd]. intros Hl. apply Hd in Hl. exact Hl.
    - rewrite (sheet_anchors_eq st s Hs). reflexivity.
    - change (p_u (prep1 st s)) with (ps_u s). destruct (has_vml (ps_u s)); [reflexivity|]. cbn. apply Hs.
    - change (p_u (prep1 st s)) with (ps_u s). destruct (has_vml (ps_u s)); [reflexivity|]. cbn. apply Hs. }
  set (t := snd (fst (fst (name_tables (s_t st) (u_tables (ps_u s)))))).
  assert (Hu : ps_u s' = named (ps_u s) t) by reflexivity.
  assert (Ha : h_authors (ps_h s') = v_authors (snd (prepare_sheet_vml (s_q st) (h_authors (ps_h s)) (ps_u s)))) by reflexivity.
  assert (Htl : length t = length (u_tables (ps_u s))).
  { subst t. rewrite name_tables_eq. cbn [fst snd]. rewrite map_length, number_length. reflexivity. }
  assert (Hv : prepare_sheet_vml (s_q st) (h_authors (ps_h s')) (ps_u s') = prepare_sheet_vml (s_q st) (h_authors (ps_h s)) (ps_u s)).
  { rewrite Ha, Hu. change (prepare_sheet_vml (s_q st) ?a (named ?u ?t)) with (prepare_sheet_vml (s_q st) a u). apply vml_again. }
  set (g := s_g st). set (u := ps_u s) in *. set (u' := ps_u s') in *.
  destruct (drawings_parts g (h_linkage (ps_h s)) u) as (A1 & A2 & A3 & A4 & A5 & A6 & A7 & A8 & A9 & A10).
  destruct (drawings_parts g (h_linkage (ps_h s')) u') as (B1 & B2 & B3 & B4 & B5 & B6 & B7 & B8 & B9 & B10).
  destruct (prepare_sheet_drawings g (h_linkage (ps_h s)) u) as [g1 d1] eqn:E1.
  destruct (prepare_sheet_drawings g (h_linkage (ps_h s')) u') as [g2 d2] eqn:E2.
  pose proof (prepare_sheet_drawings_spec _ _ _ _ _ E1 (proj1 Hs)) as (C1 & C2 & _ & C4 & _).
  pose proof (prepare_sheet_drawings_spec _ _ _ _ _ E2 (proj1 Hok)) as (D1 & D2 & _ & D4 & _).
  cbn [fst snd] in *.
  assert (F : bg_step g u' = bg_step g u /\ sh_step g u' = sh_step g u /\ im_infos g u' = im_infos g u /\ ch_infos g u' = ch_infos g u /\
              hf_step g u' = hf_step g u /\ im_next g u' = im_next g u /\ im_ids g u' = im_ids g u /\ im_rels g u' = im_rels g u /\
              n_ch u' = n_ch u /\ n_dr u' = n_dr u /\ has_dr u' = has_dr u /\ u_shapes u' = u_shapes u /\ u_charts u' = u_charts u /\ u_chartsheet u' = u_chartsheet u).
  { rewrite Hu. repeat (split; [reflexivity|]). reflexivity. }
  destruct F as (F1 & F2 & F3 & F4 & F5 & F6 & F7 & F8 & F9 & F10 & F11 & F12 & F13 & F14).
  assert (Eg : g2 = g1).
  { apply dstate_ext; rewrite ?A6, ?A7, ?A8, ?A9, ?A10, ?B6, ?B7, ?B8, ?B9, ?B10, ?C1, ?C2, ?D1, ?D2, ?F1, ?F5, ?F6, ?F7, ?F9, ?F10, ?F12; reflexivity. }
  split.
  - constructor.
    + exact Hu.
    + exact Htl.
    + unfold prep1. cbn [p_d]. fold g. fold u. fold u'. rewrite E1, E2. cbn [snd]. rewrite A1, B1, F1. reflexivity.
    + unfold prep1. cbn [p_d]. fold g. fold u. fold u'. rewrite E1, E2. cbn [snd]. rewrite C4, D4, F11. reflexivity.
    + unfold prep1. cbn [p_d]. fold g. fold u. fold u'. rewrite E1, E2. cbn [snd]. rewrite A2, B2, F2. reflexivity.
    + unfold prep1. cbn [p_d]. fold g. fold u. fold u'. rewrite E1, E2. cbn [snd]. rewrite A3, B3, F2, F3, F4. reflexivity.
    + unfold prep1. cbn [p_d]. fold g. fold u. fold u'. rewrite E1, E2. cbn [snd]. rewrite A4, B4, F5. reflexivity.
    + unfold prep1. cbn [p_d]. fold g. fold u. fold u'. rewrite E1, E2. cbn [snd]. rewrite A5, B5, F5. reflexivity.
    + unfold prep1. cbn [p_v]. fold u'. fold u. rewrite Hv. reflexivity.
    + unfold prep1. cbn [p_t]. fold u'. fold u. rewrite Hu. cbn [named u_tables]. subst t. rewrite names_again. reflexivity.
    + reflexivity.
    + rewrite (sheet_anchors_eq st s Hs), (sheet_anchors_eq st s' Hok). cbn [fst]. fold g. fold u. fold u'. rewrite F2, F3, F8, F12, F13, F14. reflexivity.
    + destruct Hs as (_ & _ & K1 & K2), Hok as (_ & _ & K3 & K4). change (p_sheet (prep1 st s)) with s. change (p_sheet (prep1 st s')) with s'. congruence.
    + destruct Hs as (_ & _ & K1 & K2), Hok as (_ & _ & K3 & K4). change (p_sheet (prep1 st s)) with s. change (p_sheet (prep1 st s')) with s'. congruence.
    + intros e. unfold types_of at 1. change (h_types (ps_h (p_sheet (prep1 st s')))) with (types_of (prep1 st s)).
      change (p_u (prep1 st s')) with u'. rewrite Hu. cbn [named u_bg u_images u_hf u_embedded].
      unfold types_of. change (p_u (prep1 st s)) with u. rewrite !existsb_app.
      repeat match goal with |- context [existsb ?f ?l] => destruct (existsb f l); cbn [orb]; try reflexivity end.
  - unfold next. fold g. fold u. fold u'. rewrite Hv, E1, E2, Eg. cbn [fst].
    rewrite Hu. cbn [named u_tables u_embedded]. rewrite Htl. reflexivity.
Qed.

(** ** All sheets *)
Lemma again_all l : Forall hid_ok l -> forall st,
  Forall2 twin (prep_st st l) (prep_st st (map (fun p => sheet_after p true true) (prep_st st l))).
Proof.
  induction 1 as [|s l Hs _ IH]; intros st; cbn [prep_st map]; [constructor|].
  destruct (again st s Hs) as [Ht Hn]. constructor; [exact Ht|]. rewrite Hn. apply IH.
Qed.
Lemma embedded_again l : forall st ids nx acc, embed_sheets ids nx acc (map ps_u (map (fun p => sheet_after p true true) (prep_st st l)))
  = embed_sheets ids nx acc (map ps_u l).
Proof.
  induction l as [|s l IH]; intros st ids nx acc; [reflexivity|]. cbn [prep_st map embed_sheets].
  change (u_embedded (ps_u (sheet_after (prep1 st s) true true))) with (u_embedded (ps_u s)).
  destruct (embed_loop ids nx acc (u_embedded (ps_u s))) as [[[i n] a] o]. rewrite IH. reflexivity.
Qed.

(** ** What is written for twins is the same *)
Lemma tw_any {l l'} (H : Forall2 twin l l') (f : prep -> bool) : (forall p q, twin p q -> f q = f p) -> any f l' = any f l.
Proof. intros Hf. unfold any. induction H as [|p q a b Hp _ IH]; [reflexivity|]. cbn [existsb]. rewrite (Hf _ _ Hp), IH. reflexivity. Qed.
Lemma tw_count {l l'} (H : Forall2 twin l l') (f : prep -> bool) : (forall p q, twin p q -> f q = f p) -> count_if f l' = count_if f l.
Proof.
  intros Hf. unfold count_if. do 2 f_equal. induction H as [|p q a b Hp _ IH]; [reflexivity|]. cbn [filter]. rewrite (Hf _ _ Hp).
  destruct (f p); cbn [length]; rewrite IH; reflexivity.
Qed.
Lemma tw_sum {l l'} (H : Forall2 twin l l') {B} (f : prep -> list B) : (forall p q, twin p q -> length (f q) = length (f p)) -> sum_len f l' = sum_len f l.
Proof.
  intros Hf. unfold sum_len. do 2 f_equal. induction H as [|p q a b Hp _ IH]; [reflexivity|]. cbn [flat_map].
  rewrite !app_length, (Hf _ _ Hp), IH. reflexivity.
Qed.
Ltac tw Hp := destruct Hp as [Tu Tl Tbg Tdo Trl Tin Tvm Thf Tv Tt Te Ta Tc Tb Tty];
  try rewrite Tu; cbn [named u_chartsheet u_links u_bg u_images u_charts u_shapes u_notes u_buttons u_hf u_tables u_embedded u_dynamic] in *.
Lemma tw_options {l l'} (H : Forall2 twin l l') b b' : w_sst b' = w_sst b -> w_vba b' = w_vba b -> w_sig b' = w_sig b -> w_custom b' = w_custom b -> w_bags b' = w_bags b ->
  package_options b' l' = package_options b l.
Proof.
  intros E1 E2 E3 E4 E5. unfold package_options. rewrite E1, E2, E3, E4, E5.
  f_equal; apply (tw_any H); intros p q Hp; tw Hp; reflexivity.
Qed.
Lemma tw_content {l l'} (H : Forall2 twin l l') b b' o : content_types b' o l' = content_types b o l.
Proof.
  assert (He : forall e, uses_ext e l' = uses_ext e l).
  { intros e. unfold uses_ext. apply (tw_any H). intros p q Hp. apply Hp. }
  unfold content_types. rewrite !He.
  rewrite (tw_count H (fun p => negb (u_chartsheet (p_u p)))) by (intros p q Hp; tw Hp; reflexivity).
  rewrite (tw_count H (fun p => u_chartsheet (p_u p))) by (intros p q Hp; tw Hp; reflexivity).
  rewrite (tw_count H (fun p => negb (is_nil (d_infos (p_d p))))) by (intros p q Hp; tw Hp; congruence).
  rewrite (tw_sum H (fun p => u_charts (p_u p))) by (intros p q Hp; tw Hp; reflexivity).
  rewrite (tw_sum H (fun p => u_tables (p_u p))) by (intros p q Hp; tw Hp; assumption).
  rewrite (tw_count H (fun p => negb (is_nil (u_notes (p_u p))))) by (intros p q Hp; tw Hp; reflexivity).
  reflexivity.
Qed.
Lemma tw_sheet_rels {l l'} (H : Forall2 twin l l') : forall wi ci, sheet_rels wi ci l' = sheet_rels wi ci l.
Proof. induction H as [|p q a b Hp _ IH]; intros wi ci; [reflexivity|]. cbn [sheet_rels]. rewrite !IH. tw Hp. reflexivity. Qed.
Lemma tw_doc p q : twin p q -> write_sheet_doc q = write_sheet_doc p.
Proof. intros Hp. unfold write_sheet_doc. tw Hp. rewrite Tin, Te, Tl. reflexivity. Qed.
Lemma tw_has p q links : twin p q -> has_relationships links q = has_relationships links p.
Proof. intros Hp. unfold has_relationships, p_dobj. tw Hp. rewrite Tdo, Tv, Tt, Tbg. reflexivity. Qed.
Lemma tw_dobj' p q : twin p q -> p_dobj q = p_dobj p.
Proof. intros Hp. unfold p_dobj. tw Hp. rewrite Tdo, Tv. reflexivity. Qed.
Lemma tw_worksheets {l l'} (H : Forall2 twin l l') m : forall i, write_worksheets m i l' = write_worksheets m i l.
Proof.
  induction H as [|p q a b Hp _ IH]; intros i; [reflexivity|]. cbn [write_worksheets]. rewrite !IH, (tw_doc _ _ Hp).
  destruct (write_sheet_doc p) as [doc links]. rewrite (tw_has _ _ links Hp), (tw_dobj' _ _ Hp). tw Hp. rewrite Tbg, Tt, Tv. reflexivity.
Qed.
Lemma tw_chartsheets {l l'} (H : Forall2 twin l l') m : forall i, write_chartsheets m i l' = write_chartsheets m i l.
Proof.
  induction H as [|p q a b Hp _ IH]; intros i; [reflexivity|]. cbn [write_chartsheets]. rewrite !IH.
  rewrite (tw_has _ _ [] Hp), (tw_dobj' _ _ Hp). unfold write_chartsheet_doc. tw Hp. rewrite Tin. reflexivity.
Qed.
Lemma tw_drawings {l l'} (H : Forall2 twin l l') : forall i, write_drawings i l' = write_drawings i l.
Proof. induction H as [|p q a b Hp _ IH]; intros i; [reflexivity|]. cbn [write_drawings]. rewrite !IH. tw Hp. rewrite Tin, Ta. reflexivity. Qed.
Lemma tw_drawing_rels {l l'} (H : Forall2 twin l l') m : forall i, write_drawing_rels m i l' = write_drawing_rels m i l.
Proof. induction H as [|p q a b Hp _ IH]; intros i; [reflexivity|]. cbn [write_drawing_rels]. rewrite !IH. tw Hp. rewrite Tin, Trl. reflexivity. Qed.
Lemma tw_vmls {l l'} (H : Forall2 twin l l') m : forall i h, write_vmls m i h l' = write_vmls m i h l.
Proof.
  induction H as [|p q a b Hp _ IH]; intros i h; [reflexivity|]. cbn [write_vmls]. rewrite !IH. tw Hp. rewrite Tc, Tb, Tv, Tvm, Thf. reflexivity.
Qed.
Lemma tw_comments {l l'} (H : Forall2 twin l l') : forall i, write_comments i l' = write_comments i l.
Proof. induction H as [|p q a b Hp _ IH]; intros i; [reflexivity|]. cbn [write_comments]. rewrite !IH. tw Hp. rewrite Tv. reflexivity. Qed.
Lemma tw_images {l l'} (H : Forall2 twin l l') : forall i ws hf bg, write_sheet_images i ws hf bg (map p_u l') = write_sheet_images i ws hf bg (map p_u l).
Proof.
  induction H as [|p q a b Hp _ IH]; intros i ws hf bg; [reflexivity|]. cbn [map write_sheet_images]. tw Hp.
  destruct (write_new_images i bg _) as [[p1 i1] bg']. destruct (write_new_images i1 ws _) as [[p2 i2] ws'].
  destruct (write_new_images i2 hf _) as [[p3 i3] hf']. rewrite IH. reflexivity.
Qed.
Lemma tw_charts {l l'} (H : Forall2 twin l l') : write_charts (map p_u l') = write_charts (map p_u l).
Proof.
  unfold write_charts. do 2 f_equal. induction H as [|p q a b Hp _ IH]; [reflexivity|]. cbn [map flat_map]. rewrite IH. tw Hp. reflexivity.
Qed.
Lemma tw_tables {l l'} (H : Forall2 twin l l') : write_tables l' = write_tables l.
Proof.
  unfold write_tables. do 2 f_equal. induction H as [|p q a b Hp _ IH]; [reflexivity|]. cbn [flat_map]. rewrite IH. tw Hp. rewrite Tt. reflexivity.
Qed.
Lemma tw_names {l l'} (H : Forall2 twin l l') : flat_map (fun p => map fst (t_tables (p_t p))) l' = flat_map (fun p => map fst (t_tables (p_t p))) l.
Proof. induction H as [|p q a b Hp _ IH]; [reflexivity|]. cbn [flat_map]. rewrite IH. tw Hp. rewrite Tt. reflexivity. Qed.
Lemma tw_assemble {l l'} (H : Forall2 twin l l') m b sheets emb : assemble m (with_sheets b sheets) emb l' = assemble m b emb l.
Proof.
  unfold assemble. rewrite (tw_options H b (with_sheets b sheets)) by reflexivity.
  rewrite (tw_content H b). unfold workbook_rels. rewrite (tw_sheet_rels H), (tw_worksheets H), (tw_chartsheets H), (tw_vmls H), (tw_drawing_rels H).
  unfold write_images. rewrite (tw_drawings H), (tw_comments H), (tw_images H), (tw_charts H), (tw_tables H). reflexivity.
Qed.

Lemma save_again m lower b b' pkg : Forall hid_ok (w_sheets b) -> save_pkg m lower b = Some (b', Saved pkg) ->
  exists b'', save_pkg m lower b' = Some (b'', Saved pkg).
Proof.
  intros Hok Hs. apply save_inv in Hs. cbn zeta in Hs. destruct Hs as (Ha & -> & Hc & Hn & Hd).
  set (emb := fst (prepare_embedded (map ps_u (w_sheets b)))) in *. set (st := st0 (N.of_nat (length emb))) in *.
  pose proof (again_all _ Hok st) as Ht. set (l := prep_st st (w_sheets b)) in *. set (b' := with_sheets b _).
  unfold save_pkg. destruct (prepare b') as [emb' l'] eqn:Ep. apply prepare_st in Ep as [E1 E2].
  assert (Ee : emb' = emb).
  { rewrite E1. subst b' emb l. cbn [with_sheets w_sheets]. unfold prepare_embedded. rewrite embedded_again. reflexivity. }
  subst emb'. assert (El : l' = prep_st st (map (fun p => sheet_after p true true) l)) by (rewrite E2, Ee; reflexivity).
  rewrite El. rewrite (tw_names Ht). change (w_bad_chart b') with (w_bad_chart b). change (w_bad_name b') with (w_bad_name b).
  rewrite Hc, Hn, Hd. unfold b' at 1. rewrite (tw_assemble Ht), Ee, Ha. cbn [obind]. eexists. reflexivity.
Qed.
