(** Package level, part 8: images (C32). *)
From Verif Require Import Base Xml_Model Url_Model Book_Model Book_Proofs Book_Proofs2 Pkg_Model Pkg_Spec Pkg_Names Pkg_Proofs Pkg_Proofs2 Pkg_Proofs3 Pkg_Proofs4 Pkg_Proofs5 Pkg_Proofs6 Pkg_Proofs7.

Definition sub (m m' : amap) : Prop := forall h n, am_get h m = Some n -> am_get h m' = Some n.
Lemma sub_refl m : sub m m. Proof. intros h n H; exact H. Qed.
Lemma sub_trans a b c : sub a b -> sub b c -> sub a c. Proof. intros H1 H2 h n H. auto. Qed.
Lemma sub_insert k v m : am_get k m = None -> sub m (am_insert k v m).
Proof.
  intros H h n Hn. rewrite am_get_insert. destruct (str_eqb_spec h k) as [->|_]; [congruence|exact Hn].
Qed.

(** New image numbers for the images of [l] that are not yet known. *)
Fixpoint assign (ids : amap) (nx : N) (l : list img) : amap * N :=
  match l with
  | [] => (ids, nx)
  | i :: l' => match am_get (im_hash i) ids with
               | Some _ => assign ids nx l'
               | None => assign (am_insert (im_hash i) (nx + 1) ids) (nx + 1) l' end
  end.
Definition image_rel (n : N) (i : img) : rel := doc_rel (lit "image") (media_name "../media/" n (im_ext i)) [].
Lemma images_loop_assign l : forall ids id rids rels ids' id' rids' rels' ds,
  images_loop ids id rids rels l = (ids', id', rids', rels', ds) -> assign ids id (map fst l) = (ids', id').
Proof.
  induction l as [|[i u] l IH]; intros ids id rids rels ids' id' rids' rels' ds; cbn [images_loop map fst assign].
  - intros [= <- <- <- <- <-]. reflexivity.
  - destruct (am_get (im_hash i) ids);
    destruct (link_rel rids rels u) as [[b1 b2] b3];
    destruct (match am_get (im_hash i) b1 with Some n => _ | None => _ end) as [[c1 c2] c3];
    match goal with |- context [images_loop ?a ?b ?c ?d l] => destruct (images_loop a b c d l) as [[[[x1 x2] x3] x4] x5] eqn:E end;
    intros H; injection H as <- <- _ _ _; eapply IH, E.
Qed.
Lemma hf_loop_assign l : forall ids base rids rels ids' rels' out,
  hf_loop ids base rids rels l = (ids', rels', out) -> fst (assign ids (base + am_len ids) l) = ids'.
Proof.
  induction l as [|i l IH]; intros ids base rids rels ids' rels' out; cbn [hf_loop assign].
  - intros [= <- <- <-]. reflexivity.
  - destruct (am_get (im_hash i) ids) eqn:Eg;
    destruct (match am_get (im_hash i) rids with Some n => _ | None => _ end) as [[c1 c2] c3];
    match goal with |- context [hf_loop ?a ?b ?c ?d l] => destruct (hf_loop a b c d l) as [[x1 x2] x3] eqn:E end;
    intros H; injection H as <- _ _; apply IH in E; rewrite <- E; [reflexivity|].
    rewrite am_len_insert by exact Eg. replace (1 + base + am_len ids) with (base + am_len ids + 1) by lia.
    rewrite N.add_assoc. reflexivity.
Qed.

Section Images.
Variable (U : list img) (P : package).
Hypothesis HU : forall i j, In i U -> In j U -> im_hash i = im_hash j -> i = j.
Definition stored (ids : amap) : Prop := forall i n, In i U -> am_get (im_hash i) ids = Some n ->
  In (render (NMedia n (im_ext i)), CBytes (im_data i)) P.
Definition keys (ids : amap) (seen : list str) : Prop := forall h, existsb (str_eqb h) seen = is_some (am_get h ids).
Lemma assign_sub l : forall ids nx ids' nx', assign ids nx l = (ids', nx') ->
  sub ids ids' /\ nx' + am_len ids = nx + am_len ids' /\ (forall i, In i l -> am_get (im_hash i) ids' <> None).
Proof.
  induction l as [|i l IH]; intros ids nx ids' nx'; cbn [assign].
  - intros [= <- <-]. split; [apply sub_refl|]. split; [reflexivity|intros i []].
  - destruct (am_get (im_hash i) ids) as [n|] eqn:Eg; intros H; apply IH in H as (H1 & H2 & H3).
    + split; [exact H1|]. split; [exact H2|]. intros j [<-|Hj]; [rewrite (H1 _ _ Eg); discriminate|auto].
    + split; [eapply sub_trans; [apply sub_insert, Eg|exact H1]|]. rewrite am_len_insert in H2 by exact Eg.
      split; [lia|]. intros j [<-|Hj]; [|auto].
      rewrite (H1 (im_hash i) (nx + 1)); [discriminate|]. rewrite am_get_insert, str_eqb_refl. reflexivity.
Qed.
Lemma assign_ok l : forall ids nx seen ps ix' seen' ids' nx',
  incl l U -> stored ids -> keys ids seen ->
  write_new_images (nx + 1) seen l = (ps, ix', seen') -> incl ps P -> assign ids nx l = (ids', nx') ->
  ix' = nx' + 1 /\ keys ids' seen' /\ stored ids'.
Proof.
  induction l as [|i l IH]; intros ids nx seen ps ix' seen' ids' nx' Hl Hs Hk; cbn [write_new_images assign].
  - intros [= <- <- <-] _ [= <- <-]. auto.
  - assert (Hi : In i U) by (apply Hl; left; reflexivity).
    assert (Hl' : incl l U) by (intros x Hx; apply Hl; right; exact Hx).
    rewrite (Hk (im_hash i)). destruct (am_get (im_hash i) ids) as [n|] eqn:Eg; cbn [is_some].
    + apply IH; assumption.
    + destruct (write_new_images (nx + 1 + 1) (im_hash i :: seen) l) as [[ps0 ix0] seen0] eqn:E.
      intros H Hp Ha. injection H as <- <- <-.
      eapply IH; [exact Hl'| | |exact E| |exact Ha].
      * intros j n Hj Hg. rewrite am_get_insert in Hg. destruct (str_eqb_spec (im_hash j) (im_hash i)) as [Eh|_].
        -- injection Hg as <-. apply HU in Eh as ->; [|assumption|assumption]. apply Hp. left. reflexivity.
        -- eapply Hs; eassumption.
      * intros h. cbn [existsb]. rewrite am_get_insert. destruct (str_eqb h (im_hash i)); [reflexivity|apply Hk].
      * intros x Hx. apply Hp. right. exact Hx.
Qed.

(** Files and numbers stay in step. *)
Definition in_step (g : dstate) (ix : N) (ws hf bg : list str) : Prop :=
  keys (g_ws g) ws /\ keys (g_hf g) hf /\ keys (g_bg g) bg /\ stored (g_ws g) /\ stored (g_hf g) /\ stored (g_bg g) /\
  ix = g_image g + am_len (g_hf g) + 1.
Definition no_pics (u : usheet) : Prop := u_bg u = None /\ u_images u = [].
Definition rest_ok (g : dstate) (l : list usheet) : Prop :=
  (am_len (g_hf g) = 0 /\ (forall u, In u l -> u_hf u = [])) \/
  (g_image g = am_len (g_bg g) + am_len (g_ws g) /\
   ((am_len (g_hf g) = 0 /\ exists l1 u0 l2, l = l1 ++ u0 :: l2 /\ (forall u, In u l1 -> u_hf u = []) /\ (forall u, In u l2 -> no_pics u)) \/
    (forall u, In u l -> no_pics u))).
Definition bg_list (u : usheet) : list img := match u_bg u with Some i => [i] | None => [] end.
Lemma bg_step_assign g u : assign (g_bg g) (g_image g) (bg_list u) = fst (bg_step g u).
Proof.
  unfold bg_list, bg_step. destruct (u_bg u) as [i|]; [|reflexivity]. cbn [assign].
  destruct (am_get (im_hash i) (g_bg g)); reflexivity.
Qed.
Lemma im_step_assign g u : assign (g_ws g) (snd (fst (bg_step g u))) (map fst (u_images u)) = (im_ids g u, im_next g u).
Proof.
  unfold im_ids, im_next. destruct (im_step g u) as [[[[x1 x2] x3] x4] x5] eqn:E. unfold im_step in E. eapply images_loop_assign, E.
Qed.
Lemma step_images u l g lk ix ws hf bg : incl (sheet_imgs u) U ->
  in_step g ix ws hf bg -> rest_ok g (u :: l) -> incl (write_sheet_images ix ws hf bg (u :: l)) P ->
  let g' := fst (prepare_sheet_drawings g lk u) in
  (stored (fst (fst (bg_step g u))) /\ stored (im_ids g u) /\ stored (fst (fst (hf_step g u)))) /\
  exists ix' ws' hf' bg', in_step g' ix' ws' hf' bg' /\ rest_ok g' l /\ incl (write_sheet_images ix' ws' hf' bg' l) P.
Proof.
  intros Hu (K1 & K2 & K3 & S1 & S2 & S3 & Hix) Hrest Hp g'.
  destruct (drawings_parts g lk u) as (_ & _ & _ & _ & _ & G1 & G2 & G3 & G4 & _). fold g' in G1, G2, G3, G4.
  cbn [write_sheet_images] in Hp. fold (bg_list u) in Hp.
  destruct (write_new_images ix bg (bg_list u)) as [[p1 i1] bg'] eqn:E1.
  destruct (write_new_images i1 ws (map fst (u_images u))) as [[p2 i2] ws'] eqn:E2.
  destruct (write_new_images i2 hf (u_hf u)) as [[p3 i3] hf'] eqn:E3.
  assert (Hi1 : incl (bg_list u) U) by (intros x Hx; apply Hu; unfold sheet_imgs; apply in_or_app; left; exact Hx).
  assert (Hi2 : incl (map fst (u_images u)) U) by (intros x Hx; apply Hu; unfold sheet_imgs; rewrite !in_app_iff; auto).
  assert (Hi3 : incl (u_hf u) U) by (intros x Hx; apply Hu; unfold sheet_imgs; rewrite !in_app_iff; auto).
  assert (Hp1 : incl p1 P) by (intros x Hx; apply Hp; rewrite !in_app_iff; auto).
  assert (Hp2 : incl p2 P) by (intros x Hx; apply Hp; rewrite !in_app_iff; auto).
  assert (Hp3 : incl p3 P) by (intros x Hx; apply Hp; rewrite !in_app_iff; auto).
  assert (Hp4 : incl (write_sheet_images i3 ws' hf' bg' l) P) by (intros x Hx; apply Hp; rewrite !in_app_iff; auto).
  assert (Ha1 := bg_step_assign g u). destruct (bg_step g u) as [[bgi im0] bgr] eqn:Eb. cbn [fst snd] in *.
  assert (Ha2 := im_step_assign g u). rewrite Eb in Ha2. cbn [fst snd] in Ha2.
  assert (Ha3 : assign (g_hf g) (am_len bgi + am_len (im_ids g u) + am_len (g_hf g)) (u_hf u) =
                (fst (fst (hf_step g u)), snd (assign (g_hf g) (am_len bgi + am_len (im_ids g u) + am_len (g_hf g)) (u_hf u)))).
  { unfold hf_step. rewrite Eb. cbn [fst].
    destruct (hf_loop (g_hf g) (am_len bgi + am_len (im_ids g u)) [] [] (u_hf u)) as [[x1 x2] x3] eqn:E. cbn [fst].
    apply hf_loop_assign in E. rewrite <- E. apply surjective_pairing. }
  destruct (assign_sub _ _ _ _ _ Ha1) as (_ & L1 & _). destruct (assign_sub _ _ _ _ _ Ha2) as (_ & L2 & _).
  destruct (assign_sub _ _ _ _ _ Ha3) as (_ & L3 & _).
  (* either no images are written before the header images of this sheet, or no header image was written before *)
  assert (Hcase : (am_len (g_hf g) = 0) \/ no_pics u /\ g_image g = am_len (g_bg g) + am_len (g_ws g)).
  { destruct Hrest as [[H _]|[Hg [[H _]|H]]]; [auto|auto|right; split; [apply H; left; reflexivity|exact Hg]]. }
  assert (X : stored bgi /\ stored (im_ids g u) /\ keys bgi bg' /\ keys (im_ids g u) ws' /\ i2 = im_next g u + am_len (g_hf g) + 1).
  { destruct Hcase as [H0|[[Hb Hm] Hg]].
    - rewrite Hix, H0, N.add_0_r in E1.
      destruct (assign_ok _ _ _ _ _ _ _ _ _ Hi1 S3 K3 E1 Hp1 Ha1) as (-> & A2 & A3).
      destruct (assign_ok _ _ _ _ _ _ _ _ _ Hi2 S1 K1 E2 Hp2 Ha2) as (-> & B2 & B3).
      rewrite H0. split; [exact A3|]. split; [exact B3|]. split; [exact A2|]. split; [exact B2|lia].
    - unfold bg_list in E1, Ha1. rewrite Hb in E1, Ha1. cbn [write_new_images assign] in E1, Ha1.
      injection E1 as _ <- <-. injection Ha1 as <- <-. rewrite Hm in E2, Ha2. cbn [map write_new_images assign] in E2, Ha2.
      injection E2 as _ <- <-. injection Ha2 as <- <-. auto 6. }
  destruct X as (X1 & X2 & X3 & X4 & X5).
  assert (Y : stored (fst (fst (hf_step g u))) /\ keys (fst (fst (hf_step g u))) hf' /\
              i3 = im_next g u + am_len (fst (fst (hf_step g u))) + 1).
  { destruct Hrest as [[H0 Hn]|[Hg Hrest]].
    - rewrite (Hn u (or_introl eq_refl)) in E3, Ha3. cbn [write_new_images assign fst snd] in E3, Ha3.
      injection E3 as _ <- <-. injection Ha3 as <-. auto.
    - assert (Hn : im_next g u = am_len bgi + am_len (im_ids g u)) by lia.
      rewrite X5 in E3. rewrite Hn in E3.
      destruct (assign_ok _ _ _ _ _ _ _ _ _ Hi3 S2 K2 E3 Hp3 Ha3) as (-> & A2 & A3). split; [exact A3|]. split; [exact A2|]. lia. }
  destruct Y as (Y1 & Y2 & Y3).
  split; [auto|]. exists i3, ws', hf', bg'. split; [|split; [|exact Hp4]].
  - unfold in_step. rewrite G1, G2, G3, G4. auto 8.
  - unfold rest_ok. rewrite G1, G2, G3, G4. destruct Hrest as [[H0 Hn]|[Hg Hrest]].
    + left. rewrite (Hn u (or_introl eq_refl)) in Ha3. cbn [assign] in Ha3. assert (E : g_hf g = fst (fst (hf_step g u))) by congruence. rewrite <- E.
      split; [exact H0|]. intros v Hv. apply Hn. right. exact Hv.
    + right. split; [lia|]. destruct Hrest as [(H0 & l1 & u0 & l2 & El & Q1 & Q2)|H].
      * destruct l1 as [|v l1]; cbn [app] in El; injection El as -> ->.
        -- right. exact Q2.
        -- left. rewrite (Q1 v (or_introl eq_refl)) in Ha3. cbn [assign] in Ha3. assert (E : g_hf g = fst (fst (hf_step g v))) by congruence. rewrite <- E.
           split; [exact H0|]. exists l1, u0, l2. split; [reflexivity|]. split; [|exact Q2]. intros w Hw. apply Q1. right. exact Hw.
      * right. intros w Hw. apply H. right. exact Hw.
Qed.
Lemma all_images sheets : forall st ix ws hf bg, (forall s, In s sheets -> incl (sheet_imgs (ps_u s)) U) ->
  in_step (s_g st) ix ws hf bg -> rest_ok (s_g st) (map ps_u sheets) -> incl (write_sheet_images ix ws hf bg (map ps_u sheets)) P ->
  forall l1 s l2, sheets = l1 ++ s :: l2 -> let g := s_g (after st l1) in let u := ps_u s in
    stored (fst (fst (bg_step g u))) /\ stored (im_ids g u) /\ stored (fst (fst (hf_step g u))).
Proof.
  induction sheets as [|s0 sheets IH]; intros st ix ws hf bg Hu Hst Hrest Hp l1 s l2 El.
  - destruct l1; discriminate.
  - cbn [map] in Hrest, Hp.
    destruct (step_images (ps_u s0) (map ps_u sheets) (s_g st) (h_linkage (ps_h s0)) ix ws hf bg) as (HA & ix' & ws' & hf' & bg' & H1 & H2 & H3);
      try assumption; [apply Hu; left; reflexivity|].
    destruct l1 as [|s1 l1]; cbn [app] in El; injection El as <- ->.
    + exact HA.
    + cbn [after fold_left]. change (fold_left next l1 (next st s0)) with (after (next st s0) l1).
      eapply IH; try eassumption; [intros v Hv; apply Hu; right; exact Hv|reflexivity].
Qed.
End Images.

(** ** Relationship ids of images and links *)
Section Rids.
Variables (U : list img) (V : list url).
Hypothesis HU : forall i j, In i U -> In j U -> im_hash i = im_hash j -> i = j.
Hypothesis HD : forall i, In i U -> forallb is_ascii_digit (im_hash i) = true.
Hypothesis HV : forall u, In u V -> forallb is_ascii_digit (link u) = false /\ link u <> lit "Chart".

Definition at_id (rels : list rel) (k : N) (r : rel) : Prop := 1 <= k /\ nth_error rels (N.to_nat (k - 1)) = Some r.
Lemma at_id_app rels e k r : at_id rels k r -> at_id (rels ++ e) k r.
Proof. intros [H1 H2]. split; [exact H1|]. apply nth_app_l, H2. Qed.
Lemma at_id_new rels r k : k = N.of_nat (length rels) -> at_id (rels ++ [r]) (1 + k) r.
Proof.
  intros ->. split; [lia|]. replace (N.to_nat (1 + N.of_nat (length rels) - 1)) with (length rels + 0)%nat by lia.
  rewrite nth_app_r. reflexivity.
Qed.
Definition rinv (c : bool) (ids rids : amap) (rels : list rel) : Prop :=
  am_len rids = N.of_nat (length rels) /\
  forall k r, am_get k rids = Some r ->
    (exists i n, In i U /\ im_hash i = k /\ am_get k ids = Some n /\ at_id rels r (image_rel n i)) \/
    (exists u, In u V /\ link u = k /\ at_id rels r (hl_rel u)) \/ (c = true /\ k = lit "Chart").
Lemma rinv_nil c ids : rinv c ids [] [].
Proof. split; [reflexivity|]. intros k r H. discriminate. Qed.
Lemma rinv_ids c ids ids' rids rels : rinv c ids rids rels -> sub ids ids' -> rinv c ids' rids rels.
Proof.
  intros [H1 H2] Hs. split; [exact H1|]. intros k r Hk. destruct (H2 k r Hk) as [(i & n & A1 & A2 & A3 & A4)|H]; [left|right; exact H].
  exists i, n. auto 6.
Qed.
Lemma rinv_insert c ids rids rels k r0 : rinv c ids rids rels -> am_get k rids = None ->
  ((exists i n, In i U /\ im_hash i = k /\ am_get k ids = Some n /\ r0 = image_rel n i) \/ (exists u, In u V /\ link u = k /\ r0 = hl_rel u)
   \/ (c = true /\ k = lit "Chart")) ->
  rinv c ids (am_insert k (1 + am_len rids) rids) (rels ++ [r0]).
Proof.
  intros [H1 H2] Hn Hk. split; [rewrite am_len_insert by exact Hn; rewrite app_length; cbn [length]; lia|].
  intros j r Hj. rewrite am_get_insert in Hj. destruct (str_eqb_spec j k) as [->|_].
  - injection Hj as <-. assert (Ha := at_id_new rels r0 _ H1).
    destruct Hk as [(i & n & A1 & A2 & A3 & ->)|[(u & A1 & A2 & ->)|Hc]].
    + left. eauto 8.
    + right; left. eauto 6.
    + auto.
  - destruct (H2 j r Hj) as [(i & n & A1 & A2 & A3 & A4)|[(u & A1 & A2 & A3)|Hc]].
    + left. exists i, n. eauto 8 using at_id_app.
    + right; left. exists u. eauto 6 using at_id_app.
    + auto.
Qed.
Definition link_ok (rels : list rel) (u : option url) (o : option N) : Prop :=
  match u with None => o = None | Some u => exists k u', o = Some k /\ In u' V /\ link u' = link u /\ at_id rels k (hl_rel u') end.
Lemma link_ok_app rels e u o : link_ok rels u o -> link_ok (rels ++ e) u o.
Proof. destruct u; [|auto]. intros (k & u' & A1 & A2 & A3 & A4). exists k, u'. auto using at_id_app. Qed.
Lemma link_rel_ok c ids rids rels u rids' rels' o : rinv c ids rids rels -> (forall x, u = Some x -> In x V) ->
  link_rel rids rels u = (rids', rels', o) -> rinv c ids rids' rels' /\ link_ok rels' u o /\ exists e, rels' = rels ++ e.
Proof.
  intros Hi Hu. unfold link_rel. destruct u as [u|].
  - specialize (Hu u eq_refl). destruct (am_get (link u) rids) as [n|] eqn:Eg; intros H; injection H as <- <- <-.
    + split; [exact Hi|]. split; [|exists []; rewrite app_nil_r; reflexivity].
      destruct Hi as [_ Hi]. destruct (Hi _ _ Eg) as [(i & k & A1 & A2 & A3 & A4)|[(u' & A1 & A2 & A3)|[_ E]]].
      * exfalso. apply HD in A1. rewrite A2 in A1. apply HV in Hu as [Hu _]. congruence.
      * cbn. eauto 8.
      * exfalso. apply HV in Hu as [_ Hu]. contradiction.
    + split; [|split; [|eauto]].
      * apply rinv_insert; [exact Hi|exact Eg|]. right; left. eauto.
      * cbn. eexists _, u. split; [reflexivity|]. split; [exact Hu|]. split; [reflexivity|]. apply at_id_new. apply Hi.
  - intros [= <- <- <-]. split; [exact Hi|]. split; [reflexivity|]. exists []. rewrite app_nil_r. reflexivity.
Qed.
Definition pic_ok (ids : amap) (rels : list rel) (x : img * option url) (d : dinfo) : Prop :=
  (exists n, am_get (im_hash (fst x)) ids = Some n /\ at_id rels (di_rel d) (image_rel n (fst x))) /\ link_ok rels (snd x) (di_url d).
Lemma pic_ok_ext ids ids' rels e x d : pic_ok ids rels x d -> sub ids ids' -> pic_ok ids' (rels ++ e) x d.
Proof.
  intros [(n & H1 & H2) H3] Hs. split; [exists n; split; [apply Hs, H1|apply at_id_app, H2]|apply link_ok_app, H3].
Qed.
Lemma image_entry c ids rids rels i n rids' rels' r : rinv c ids rids rels -> In i U -> am_get (im_hash i) ids = Some n ->
  match am_get (im_hash i) rids with
  | Some r => (rids, rels, r)
  | None => let r := 1 + am_len rids in (am_insert (im_hash i) r rids, rels ++ [image_rel n i], r)
  end = (rids', rels', r) ->
  rinv c ids rids' rels' /\ at_id rels' r (image_rel n i) /\ exists e, rels' = rels ++ e.
Proof.
  intros Hi Hu Hn. destruct (am_get (im_hash i) rids) as [r1|] eqn:Eg; intros H; injection H as <- <- <-.
  - split; [exact Hi|]. split; [|exists []; rewrite app_nil_r; reflexivity].
    destruct Hi as [_ Hi]. destruct (Hi _ _ Eg) as [(j & k & A1 & A2 & A3 & A4)|[(u' & A1 & A2 & A3)|[_ E]]].
    + rewrite A3 in Hn. injection Hn as ->. apply HU in A2 as ->; assumption.
    + exfalso. apply HV in A1 as [A1 _]. rewrite A2 in A1. apply HD in Hu. congruence.
    + exfalso. apply HD in Hu. rewrite E in Hu. discriminate.
  - split; [|split; [|eauto]].
    + apply rinv_insert; [exact Hi|exact Eg|]. left. eauto 6.
    + apply at_id_new, Hi.
Qed.
Lemma images_loop_ok l : forall ids id rids rels ids' id' rids' rels' ds,
  images_loop ids id rids rels l = (ids', id', rids', rels', ds) ->
  (forall x, In x l -> In (fst x) U) -> (forall x u, In x l -> snd x = Some u -> In u V) -> rinv false ids rids rels ->
  rinv false ids' rids' rels' /\ sub ids ids' /\ (exists e, rels' = rels ++ e) /\ Forall2 (pic_ok ids' rels') l ds.
Proof.
  induction l as [|[i u] l IH]; intros ids id rids rels ids' id' rids' rels' ds; cbn [images_loop].
  - intros [= <- <- <- <- <-] _ _ H. split; [exact H|]. split; [apply sub_refl|]. split; [exists []; rewrite app_nil_r; reflexivity|constructor].
  - intros E HlU HlV Hi.
    assert (HiU : In i U) by (apply (HlU (i, u)); left; reflexivity).
    destruct (match am_get (im_hash i) ids with Some n => _ | None => _ end) as [[ids1 id1] n] eqn:E1.
    assert (H1 : am_get (im_hash i) ids1 = Some n /\ sub ids ids1).
    { destruct (am_get (im_hash i) ids) as [n0|] eqn:Eg; injection E1 as <- <- <-.
      - split; [exact Eg|apply sub_refl].
      - split; [rewrite am_get_insert, str_eqb_refl; reflexivity|apply sub_insert, Eg]. }
    destruct H1 as [Hn Hs1].
    destruct (link_rel rids rels u) as [[rids1 rels1] o] eqn:E2.
    apply (link_rel_ok false ids1) in E2 as (Hi1 & Hlk & e1 & Ee1); [|eapply rinv_ids; eassumption|intros x ->; apply (HlV (i, Some x)); [left; reflexivity|reflexivity]].
    destruct (match am_get (im_hash i) rids1 with Some n => _ | None => _ end) as [[rids2 rels2] r] eqn:E3.
    eapply image_entry in E3 as (Hi2 & Hat & e2 & Ee2); [|exact Hi1|exact HiU|exact Hn].
    destruct (images_loop ids1 id1 rids2 rels2 l) as [[[[x1 x2] x3] x4] x5] eqn:E4.
    injection E as <- <- <- <- <-.
    destruct (IH _ _ _ _ _ _ _ _ _ E4) as (Hi3 & Hs3 & (e3 & Ee3) & HF); [intros x Hx; apply HlU; right; exact Hx| |exact Hi2|].
    { intros x v Hx. apply HlV. right. exact Hx. }
    split; [exact Hi3|]. split; [eapply sub_trans; eassumption|].
    split; [exists (e1 ++ e2 ++ e3); rewrite Ee3, Ee2, Ee1, <- !app_assoc; reflexivity|].
    constructor; [|exact HF]. rewrite Ee3. apply pic_ok_ext with (ids := ids1); [|exact Hs3].
    split; cbn [fst snd di_rel di_url]; [exists n; auto|]. rewrite Ee2. apply link_ok_app, Hlk.
Qed.
Lemma shapes_loop_ok c ids l : forall k rids rels rids' rels' ds,
  shapes_loop k rids rels l = (rids', rels', ds) -> (forall x u, In x l -> snd x = Some u -> In u V) -> rinv c ids rids rels ->
  Forall2 (fun x d => link_ok rels' (snd x) (di_url d)) l ds.
Proof.
  induction l as [|[i u] l IH]; intros k rids rels rids' rels' ds; cbn [shapes_loop].
  - intros [= <- <- <-] _ _. constructor.
  - intros E HlV Hi. destruct (link_rel rids rels u) as [[b1 b2] b3] eqn:El.
    apply (link_rel_ok c ids) in El as (Hi1 & Hlk & e1 & Ee1); [|exact Hi|intros x ->; apply (HlV (i, Some x)); [left; reflexivity|reflexivity]].
    destruct (shapes_loop (k + 1) b1 b2 l) as [[x1 x2] x3] eqn:E1. injection E as <- <- <-.
    constructor.
    + cbn [snd di_url]. apply shapes_loop_rels in E1 as [e ->]. apply link_ok_app, Hlk.
    + eapply IH; [exact E1| |exact Hi1]. intros x v Hx. apply HlV. right. exact Hx.
Qed.
Lemma hf_loop_ok l : forall ids base rids rels ids' rels' out,
  hf_loop ids base rids rels l = (ids', rels', out) -> (forall x, In x l -> In x U) -> rinv false ids rids rels ->
  sub ids ids' /\ (exists e, rels' = rels ++ e) /\
  Forall2 (fun i r => exists n, am_get (im_hash i) ids' = Some n /\ at_id rels' r (image_rel n i)) l out.
Proof.
  induction l as [|i l IH]; intros ids base rids rels ids' rels' out; cbn [hf_loop].
  - intros [= <- <- <-] _ _. split; [apply sub_refl|]. split; [exists []; rewrite app_nil_r; reflexivity|constructor].
  - intros E HlU Hi. assert (HiU : In i U) by (apply HlU; left; reflexivity).
    destruct (match am_get (im_hash i) ids with Some n => _ | None => _ end) as [ids1 n] eqn:E1.
    assert (H1 : am_get (im_hash i) ids1 = Some n /\ sub ids ids1).
    { destruct (am_get (im_hash i) ids) as [n0|] eqn:Eg; injection E1 as <- <-.
      - split; [exact Eg|apply sub_refl].
      - split; [rewrite am_get_insert, str_eqb_refl; reflexivity|apply sub_insert, Eg]. }
    destruct H1 as [Hn Hs1].
    destruct (match am_get (im_hash i) rids with Some n => _ | None => _ end) as [[rids2 rels2] r] eqn:E3.
    apply (rinv_ids _ _ ids1) in Hi; [|exact Hs1].
    eapply image_entry in E3 as (Hi2 & Hat & e2 & Ee2); [|exact Hi|exact HiU|exact Hn].
    destruct (hf_loop ids1 base rids2 rels2 l) as [[x1 x2] x3] eqn:E4. injection E as <- <- <-.
    destruct (IH _ _ _ _ _ _ _ E4) as (Hs3 & (e3 & Ee3) & HF); [intros x Hx; apply HlU; right; exact Hx|exact Hi2|].
    split; [eapply sub_trans; eassumption|]. split; [exists (e2 ++ e3); rewrite Ee3, Ee2, <- app_assoc; reflexivity|].
    constructor; [|exact HF]. exists n. split; [apply Hs3, Hn|]. rewrite Ee3. apply at_id_app, Hat.
Qed.
End Rids.

(** ** Embedded images *)
Definition einv (U : list img) (ids : amap) (nx : N) (acc : list img) : Prop :=
  nx = N.of_nat (length acc) /\
  forall h n, am_get h ids = Some n -> exists i, In i U /\ im_hash i = h /\ 1 <= n /\ nth_error acc (N.to_nat (n - 1)) = Some i.
Lemma embed_ok U l : (forall i j, In i U -> In j U -> im_hash i = im_hash j -> i = j) -> incl l U ->
  forall ids nx acc ids' nx' acc' out, embed_loop ids nx acc l = (ids', nx', acc', out) -> einv U ids nx acc ->
  einv U ids' nx' acc' /\ (exists e, acc' = acc ++ e) /\
  Forall2 (fun i k => 1 <= k /\ nth_error acc' (N.to_nat (k - 1)) = Some i) l out.
Proof.
  intros HU. induction l as [|i l IH]; intros Hl ids nx acc ids' nx' acc' out; cbn [embed_loop].
  - intros [= <- <- <- <-] H. split; [exact H|]. split; [exists []; rewrite app_nil_r; reflexivity|constructor].
  - assert (HiU : In i U) by (apply Hl; left; reflexivity). assert (Hl' : incl l U) by (intros x Hx; apply Hl; right; exact Hx).
    destruct (am_get (im_hash i) ids) as [n|] eqn:Eg.
    + destruct (embed_loop ids nx acc l) as [[[x1 x2] x3] x4] eqn:E. intros H Hi. injection H as <- <- <- <-.
      destruct (IH Hl' _ _ _ _ _ _ _ E Hi) as (A1 & (e & A2) & A3). split; [exact A1|]. split; [eauto|].
      constructor; [|exact A3]. destruct Hi as [_ Hi]. destruct (Hi _ _ Eg) as (j & B1 & B2 & B3 & B4).
      apply HU in B2 as ->; [|assumption|assumption]. split; [exact B3|]. rewrite A2. apply nth_app_l, B4.
    + destruct (embed_loop (am_insert (im_hash i) (nx + 1) ids) (nx + 1) (acc ++ [i]) l) as [[[x1 x2] x3] x4] eqn:E.
      intros H Hi. injection H as <- <- <- <-. destruct Hi as [Hnx Hi].
      assert (Hnew : nth_error (acc ++ [i]) (N.to_nat (nx + 1 - 1)) = Some i).
      { replace (N.to_nat (nx + 1 - 1)) with (length acc + 0)%nat by lia. rewrite nth_app_r. reflexivity. }
      assert (Hi' : einv U (am_insert (im_hash i) (nx + 1) ids) (nx + 1) (acc ++ [i])).
      { split; [rewrite app_length; cbn [length]; lia|]. intros h n Hg. rewrite am_get_insert in Hg.
        destruct (str_eqb_spec h (im_hash i)) as [->|_].
        - injection Hg as <-. exists i. split; [exact HiU|]. split; [reflexivity|]. split; [lia|exact Hnew].
        - destruct (Hi _ _ Hg) as (j & B1 & B2 & B3 & B4). exists j. split; [exact B1|]. split; [exact B2|]. split; [exact B3|]. apply nth_app_l, B4. }
      destruct (IH Hl' _ _ _ _ _ _ _ E Hi') as (A1 & (e & A2) & A3). split; [exact A1|].
      split; [exists ([i] ++ e); rewrite A2, <- app_assoc; reflexivity|].
      constructor; [|exact A3]. split; [lia|]. rewrite A2. apply nth_app_l, Hnew.
Qed.
Lemma embed_all U sheets : (forall i j, In i U -> In j U -> im_hash i = im_hash j -> i = j) ->
  (forall s, In s sheets -> incl (u_embedded (ps_u s)) U) -> forall st, einv U (s_ids st) (s_nx st) (s_acc st) ->
  (exists e, fst (embed_sheets (s_ids st) (s_nx st) (s_acc st) (map ps_u sheets)) = s_acc st ++ e) /\
  forall l1 s l2, sheets = l1 ++ s :: l2 ->
  Forall2 (fun i k => 1 <= k /\ nth_error (fst (embed_sheets (s_ids st) (s_nx st) (s_acc st) (map ps_u sheets))) (N.to_nat (k - 1)) = Some i)
    (u_embedded (ps_u s)) (p_emb (prep1 (after st l1) s)).
Proof.
  intros HU. induction sheets as [|s0 sheets IH]; intros Hu st Hi.
  - split; [exists []; rewrite app_nil_r; reflexivity|]. intros [|] s l2 E; discriminate.
  - cbn [map embed_sheets].
    destruct (embed_loop (s_ids st) (s_nx st) (s_acc st) (u_embedded (ps_u s0))) as [[[ids' nx'] acc'] out] eqn:E.
    destruct (embed_ok U _ HU (Hu s0 (or_introl eq_refl)) _ _ _ _ _ _ _ E Hi) as (A1 & (e & A2) & A3).
    assert (Hn : s_ids (next st s0) = ids' /\ s_nx (next st s0) = nx' /\ s_acc (next st s0) = acc').
    { unfold next. cbn [s_ids s_nx s_acc]. rewrite E. auto. }
    destruct Hn as (N1 & N2 & N3).
    destruct (IH (fun s Hs => Hu s (or_intror Hs)) (next st s0)) as ((e2 & B1) & B2); [rewrite N1, N2, N3; exact A1|].
    rewrite N1, N2, N3 in B1, B2.
    destruct (embed_sheets ids' nx' acc' (map ps_u sheets)) as [all rest]. cbn [fst] in *.
    split; [exists (e ++ e2); rewrite B1, A2, <- app_assoc; reflexivity|].
    intros l1 s l2 El. destruct l1 as [|s1 l1]; cbn [app] in El; injection El as <- ->.
    + cbn [after fold_left]. unfold prep1. cbn [p_emb]. rewrite E. cbn [snd].
      clear - A3 B1. induction A3 as [|x k xs ks [H1 H2] A IHA]; constructor; [|exact IHA]. split; [exact H1|]. rewrite B1. apply nth_app_l, H2.
    + cbn [after fold_left]. change (fold_left next l1 (next st s0)) with (after (next st s0) l1). eapply B2. reflexivity.
Qed.
