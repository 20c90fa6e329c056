(** Package level, part 14: shape ids of VML drawings (C35). *)
From Verif Require Import Base Xml_Model Url_Model Book_Model Book_Proofs Book_Proofs2 Pkg_Model Pkg_Spec Pkg_Names Pkg_Proofs Pkg_Proofs2 Pkg_Proofs3 Pkg_Proofs4 Pkg_Proofs5 Pkg_Proofs6 Pkg_Proofs7 Pkg_Proofs10 Pkg_Proofs11 Pkg_Proofs12.

Lemma NoDup_flat_map {A B} (f : A -> list B) l : NoDup l -> (forall x, In x l -> NoDup (f x)) ->
  (forall x y z, In x l -> In y l -> In z (f x) -> In z (f y) -> x = y) -> NoDup (flat_map f l).
Proof.
  induction 1 as [|x l Hx Hl IH]; intros H1 H2; cbn [flat_map]; [constructor|].
  apply NoDup_app_intro.
  - apply H1. left. reflexivity.
  - apply IH; [intros y Hy; apply H1; right; exact Hy|]. intros y z w Hy Hz. apply H2; right; assumption.
  - intros z Hz Hz'. apply in_flat_map in Hz' as (y & Hy & Hzy). apply Hx.
    rewrite (H2 x y z (or_introl eq_refl) (or_intror Hy) Hz Hzy). exact Hy.
Qed.
Lemma in_number_ids {A} (l : list A) : forall n x, In x (map fst (number_from n l)) <-> n <= x < n + N.of_nat (length l).
Proof.
  induction l as [|y l IH]; intros n x; cbn [number_from map fst In length]; [lia|]. rewrite IH. lia.
Qed.
Lemma number_ids_NoDup {A} (l : list A) n : NoDup (map fst (number_from n l)).
Proof.
  revert n. induction l as [|y l IH]; intros n; cbn [number_from map fst]; constructor; [|apply IH].
  rewrite in_number_ids. lia.
Qed.
Definition blocks (u : usheet) : N := if has_vml u then N.of_nat (length (u_notes u)) / 1024 + 1 else 0.
Lemma blocks_eq n : (1024 + n) / 1024 = n / 1024 + 1.
Proof. replace (1024 + n) with (n + 1 * 1024) by lia. rewrite N.div_add by lia. reflexivity. Qed.
Lemma q_next q au u : let q' := fst (prepare_sheet_vml q au u) in
  q_data q' = q_data q + blocks u /\ q_shape q' = q_shape q + 1024 * blocks u.
Proof.
  unfold prepare_sheet_vml, blocks. rewrite blocks_eq. destruct (has_vml u).
  - destruct (assign_authors au (u_notes u)) as [m out]. destruct (is_nil (u_hf u)); cbn [fst q_data q_shape]; auto.
  - destruct (is_nil (u_hf u)); cbn [fst q_data q_shape]; lia.
Qed.
Lemma after_q l : forall st, let q := s_q st in let q' := s_q (after st l) in
  q_data q' = q_data q + sumN blocks (map ps_u l) /\ q_shape q' = q_shape q + 1024 * sumN blocks (map ps_u l).
Proof.
  induction l as [|s l IH]; intros st; cbn [after fold_left map sumN]; [lia|].
  change (fold_left next l (next st s)) with (after (next st s) l).
  destruct (IH (next st s)) as [A1 A2]. destruct (q_next (s_q st) (h_authors (ps_h s)) (ps_u s)) as [B1 B2].
  change (s_q (next st s)) with (fst (prepare_sheet_vml (s_q st) (h_authors (ps_h s)) (ps_u s))) in A1, A2.
  cbn zeta in *. rewrite A1, A2, B1, B2. lia.
Qed.
Lemma v_shape_eq q au u : has_vml u = true -> v_shape (snd (prepare_sheet_vml q au u)) = q_shape q /\
  v_data (snd (prepare_sheet_vml q au u)) = oid_map (q_data q) (N.to_nat (N.of_nat (length (u_notes u)) / 1024)).
Proof.
  intros Hv. unfold prepare_sheet_vml. rewrite Hv. destruct (assign_authors au (u_notes u)) as [m out].
  destruct (is_nil (u_hf u)); cbn [snd v_shape v_data]; auto.
Qed.
Lemma commas_snoc l d : l <> [] -> commas (l ++ [d]) = commas l ++ lit "," ++ dec d.
Proof.
  induction l as [|x l IH]; [congruence|]. intros _. destruct l as [|y l]; [reflexivity|].
  change (commas ((x :: y :: l) ++ [d])) with (dec x ++ lit "," ++ commas ((y :: l) ++ [d])). rewrite IH by discriminate.
  change (commas (x :: y :: l)) with (dec x ++ lit "," ++ commas (y :: l)). rewrite <- !app_assoc. reflexivity.
Qed.
Lemma seq_from_snoc k : forall d, seq_from d (S k) = seq_from d k ++ [d + N.of_nat k].
Proof.
  induction k as [|k IH]; intros d; [cbn; rewrite N.add_0_r; reflexivity|].
  change (seq_from d (S (S k))) with (d :: seq_from (d + 1) (S k)). rewrite IH. cbn [seq_from app]. do 3 f_equal. lia.
Qed.
Lemma oid_map_eq d k : oid_map d k = commas (seq_from d (S k)).
Proof.
  induction k as [|k IH]; [reflexivity|]. cbn [oid_map]. rewrite IH, (seq_from_snoc (S k)).
  rewrite commas_snoc by discriminate. reflexivity.
Qed.
Lemma in_seq_from k : forall d x, In x (seq_from d k) <-> d <= x < d + N.of_nat k.
Proof. induction k as [|k IH]; intros d x; cbn [seq_from In]; [lia|]. rewrite IH. lia. Qed.

Lemma hf_loop_len l : forall ids base rids rels, length (snd (hf_loop ids base rids rels l)) = length l.
Proof.
  induction l as [|i l IH]; intros ids base rids rels; cbn [hf_loop]; [reflexivity|].
  destruct (match am_get (im_hash i) ids with Some n => _ | None => _ end) as [ids1 n].
  destruct (match am_get (im_hash i) rids with Some r => _ | None => _ end) as [[rids1 rels1] r].
  specialize (IH ids1 base rids1 rels1). destruct (hf_loop ids1 base rids1 rels1 l) as [[x1 x2] x3]. cbn [snd length] in *. congruence.
Qed.
Lemma d_hf_len g lk u : length (d_hf (snd (prepare_sheet_drawings g lk u))) = length (u_hf u).
Proof. destruct (drawings_parts g lk u) as (_ & _ & _ & _ & H & _). rewrite H. apply hf_loop_len. Qed.
Section World.
Variables (m : ovf) (b : pbook) (pkg : package) (emb : list img) (l : list prep) (a : parts).
Hypothesis W : world m b pkg emb l a.
Notation us := (map ps_u (w_sheets b)).

(** The VML parts. *)
Lemma vml_cases n v : In (n, CVml v) pkg -> exists l1 s l2, w_sheets b = l1 ++ s :: l2 /\
  let k := 1 + sumN n_vml (map ps_u l1) in let p := prep1 (after (st0 (N.of_nat (length emb))) l1) s in
  (has_vml (ps_u s) = true /\ n = render (NVml k) /\ v = notes_vml p \/
   u_hf (ps_u s) <> [] /\ n = render (NVml (k + b2n (has_vml (ps_u s)))) /\ v = hf_vml (1 + sumN n_hf (map ps_u l1)) p).
Proof.
  intros H. apply (part_cases m b pkg emb l a W) in H.
  apply (in_vmls m l 1 1 _ (w_vml _ _ _ _ _ _ W)), at_vml_split in H as (pre & p & post & E & H).
  rewrite (w_l _ _ _ _ _ _ W) in E. apply prep_st_split in E as (l1 & s & l2 & E1 & -> & -> & ->).
  exists l1, s, l2. split; [exact E1|]. cbn zeta. rewrite !cnt_st in H.
  destruct H as [[Hv H]|[Hv [H|(es & _ & H)]]].
  - left. split; [exact Hv|]. split; [apply (f_equal fst) in H; exact H|]. apply (f_equal snd) in H. cbn [snd] in H. congruence.
  - right. split; [exact Hv|]. split; [apply (f_equal fst) in H; exact H|]. apply (f_equal snd) in H. cbn [snd] in H. congruence.
  - apply (f_equal snd) in H. discriminate.
Qed.
Lemma notes_vml_ids l1 s l2 : w_sheets b = l1 ++ s :: l2 -> has_vml (ps_u s) = true ->
  let p := prep1 (after (st0 (N.of_nat (length emb))) l1) s in
  let base := 1024 + 1024 * sumN blocks (map ps_u l1) in
  forall x, In x (map fst (vd_buttons (notes_vml p)) ++ map fst (vd_notes (notes_vml p))) <->
            base + 1 <= x < base + 1 + N.of_nat (length (u_buttons (ps_u s)) + length (u_notes (ps_u s))).
Proof.
  intros E Hv p base x. unfold notes_vml. cbn [vd_buttons vd_notes]. rewrite in_app_iff, !in_number_ids.
  change (p_u p) with (ps_u s). change (ps_h (p_sheet p)) with (ps_h s).
  change (v_shape (p_v p)) with (v_shape (snd (prepare_sheet_vml (s_q (after (st0 (N.of_nat (length emb))) l1)) (h_authors (ps_h s)) (ps_u s)))).
  destruct (v_shape_eq (s_q (after (st0 (N.of_nat (length emb))) l1)) (h_authors (ps_h s)) (ps_u s) Hv) as [-> _].
  destruct (after_q l1 (st0 (N.of_nat (length emb)))) as [_ Q]. cbn zeta in Q. rewrite Q. cbn [st0 s_q q0 q_shape].
  assert (Hs := w_hid _ _ _ _ _ _ W). rewrite E in Hs. apply Forall_mid in Hs as (_ & (_ & _ & Hc & Hb) & _). rewrite Hc, Hb. cbn [app]. fold base. lia.
Qed.
Lemma notes_vml_nodup p : NoDup (map fst (vd_buttons (notes_vml p)) ++ map fst (vd_notes (notes_vml p))).
Proof.
  unfold notes_vml. cbn [vd_buttons vd_notes]. apply NoDup_app_intro; [apply number_ids_NoDup|apply number_ids_NoDup|].
  intros x. rewrite !in_number_ids. lia.
Qed.
Lemma sumN_app f (x y : list usheet) : sumN f (x ++ y) = sumN f x + sumN f y.
Proof. induction x as [|u x IH]; [reflexivity|]. cbn [app sumN]. rewrite IH. lia. Qed.
(** Two sheets of a workbook: the same or one before the other. *)
Lemma two_sheets (P : list psheet -> psheet -> list psheet -> psheet -> Prop) L l1 s l2 k1 t k2 :
  L = l1 ++ s :: l2 -> L = k1 ++ t :: k2 ->
  (l1 = k1 -> s = t -> P l1 s k1 t) ->
  (forall r, k1 = l1 ++ s :: r -> P l1 s k1 t) -> (forall r, l1 = k1 ++ t :: r -> P l1 s k1 t) -> P l1 s k1 t.
Proof.
  intros E1 E2 H1 H2 H3.
  assert (C : (l1 = k1 /\ s = t) \/ (exists r, k1 = l1 ++ s :: r) \/ exists r, l1 = k1 ++ t :: r).
  { clear H1 H2 H3 P. rewrite E1 in E2. clear E1. revert k1 E2. induction l1 as [|x l1 IH]; intros [|y k1] E; cbn [app] in E.
    - left. split; congruence.
    - right; left. exists k1. injection E as -> _. reflexivity.
    - right; right. exists l1. injection E as -> _. reflexivity.
    - injection E as -> E. destruct (IH _ E) as [[-> ->]|[[r ->]|[r ->]]]; [left; auto|right; left; exists r; reflexivity|right; right; exists r; reflexivity]. }
  destruct C as [[A B]|[[r A]|[r A]]]; [exact (H1 A B)|exact (H2 r A)|exact (H3 r A)].
Qed.
Lemma pkg_nodup : NoDup pkg.
Proof. assert (H := w_names _ _ _ _ _ _ W). apply NoDup_map_inv in H. exact H. Qed.

Theorem note_ids_unique : (forall u, In u us -> shapes_fit u) -> NoDup (note_shape_ids pkg).
Proof.
  intros Hfit. unfold note_shape_ids. apply NoDup_flat_map; [apply pkg_nodup| |].
  - intros [n c] Hx. cbn [snd]. destruct c as [ | | | |v| | | | | | ]; try constructor.
    apply vml_cases in Hx as (l1 & s & l2 & E & [(_ & _ & ->)|(_ & _ & ->)]); [apply notes_vml_nodup|constructor].
  - intros [n c] [n' c'] z Hx Hy. cbn [snd].
    destruct c as [ | | | |v| | | | | | ]; try (intros []). destruct c' as [ | | | |v'| | | | | | ]; try (intros _ []).
    apply vml_cases in Hx as (l1 & s & l2 & E & [(Hv & -> & ->)|(_ & _ & ->)]); [|intros []].
    apply vml_cases in Hy as (k1 & t & k2 & E' & [(Hv' & -> & ->)|(_ & _ & ->)]); [|intros _ []].
    rewrite (notes_vml_ids l1 s l2 E Hv), (notes_vml_ids k1 t k2 E' Hv').
    assert (F1 : shapes_fit (ps_u s)) by (apply Hfit; rewrite E; apply in_map, in_elt).
    assert (F2 : shapes_fit (ps_u t)) by (apply Hfit; rewrite E'; apply in_map, in_elt).
    assert (B1 : blocks (ps_u s) = N.of_nat (length (u_notes (ps_u s))) / 1024 + 1) by (unfold blocks; rewrite Hv; reflexivity).
    assert (B2 : blocks (ps_u t) = N.of_nat (length (u_notes (ps_u t))) / 1024 + 1) by (unfold blocks; rewrite Hv'; reflexivity).
    unfold shapes_fit in F1, F2. rewrite <- B1 in F1. rewrite <- B2 in F2. clear B1 B2.
    apply (two_sheets (fun l1 s k1 t => 1024 + 1024 * sumN blocks (map ps_u l1) + 1 <= z <
        1024 + 1024 * sumN blocks (map ps_u l1) + 1 + N.of_nat (length (u_buttons (ps_u s)) + length (u_notes (ps_u s))) ->
        1024 + 1024 * sumN blocks (map ps_u k1) + 1 <= z <
        1024 + 1024 * sumN blocks (map ps_u k1) + 1 + N.of_nat (length (u_buttons (ps_u t)) + length (u_notes (ps_u t))) ->
        (render (NVml (1 + sumN n_vml (map ps_u l1))), CVml (notes_vml (prep1 (after (st0 (N.of_nat (length emb))) l1) s))) =
        (render (NVml (1 + sumN n_vml (map ps_u k1))), CVml (notes_vml (prep1 (after (st0 (N.of_nat (length emb))) k1) t))))
       (w_sheets b) l1 s l2 k1 t k2 E E').
    + intros -> -> _ _. reflexivity.
    + intros r -> Z1 Z2. exfalso. rewrite map_app, sumN_app in Z2. cbn [map sumN] in Z2. lia.
    + intros r -> Z1 Z2. exfalso. rewrite map_app, sumN_app in Z1. cbn [map sumN] in Z1. lia.
Qed.
(** The blocks announced for a sheet. *)
Theorem note_ids_blocks n v : In (n, CVml v) pkg -> vd_images v = [] ->
  (forall u, In u us -> N.of_nat (length (u_buttons u) + length (u_notes u)) < 1024 * (N.of_nat (length (u_notes u)) / 1024 + 1)) ->
  exists ds, vd_data v = commas ds /\ forall x, In x (map fst (vd_buttons v) ++ map fst (vd_notes v)) -> In (x / 1024) ds.
Proof.
  intros H Hi Hfit. apply vml_cases in H as (l1 & s & l2 & E & [(Hv & -> & ->)|(Hn & -> & ->)]); cbn zeta in *.
  - set (st := after (st0 (N.of_nat (length emb))) l1).
    exists (seq_from (1 + sumN blocks (map ps_u l1)) (S (N.to_nat (N.of_nat (length (u_notes (ps_u s))) / 1024)))). split.
    + unfold notes_vml. cbn [vd_data].
      change (v_data (p_v (prep1 st s))) with (v_data (snd (prepare_sheet_vml (s_q st) (h_authors (ps_h s)) (ps_u s)))).
      destruct (v_shape_eq (s_q st) (h_authors (ps_h s)) (ps_u s) Hv) as [_ ->]. rewrite oid_map_eq.
      destruct (after_q l1 (st0 (N.of_nat (length emb)))) as [Q _]. fold st in Q. cbn zeta in Q. rewrite Q. reflexivity.
    + intros x Hx. apply (notes_vml_ids l1 s l2 E Hv) in Hx. rewrite in_seq_from.
      assert (F : In (ps_u s) us) by (rewrite E; apply in_map, in_elt). apply Hfit in F.
      set (B := sumN blocks (map ps_u l1)) in *. set (k := N.of_nat (length (u_notes (ps_u s))) / 1024) in *.
      set (c := N.of_nat (length (u_buttons (ps_u s)) + length (u_notes (ps_u s)))) in *. clearbody B k c. clear -Hx F.
      split.
      * apply N.div_le_lower_bound; lia.
      * apply N.div_lt_upper_bound; lia.
  - unfold hf_vml in Hi. cbn [vd_images] in Hi. exists [1 + sumN n_hf (map ps_u l1)]. split; [reflexivity|]. intros x [].
Qed.
(** Header and footer images. *)
Theorem header_ids_unique : (forall u, In u us -> (length (u_hf u) <= 6)%nat) -> NoDup (header_shape_ids pkg).
Proof.
  intros Hfit. unfold header_shape_ids. apply NoDup_flat_map; [apply pkg_nodup| |].
  - intros [n c] Hx. cbn [snd]. destruct c as [ | | | |v| | | | | | ]; try constructor.
    apply vml_cases in Hx as (l1 & s & l2 & E & [(_ & _ & ->)|(_ & _ & ->)]); [constructor|apply number_ids_NoDup].
  - intros [n c] [n' c'] z Hx Hy. cbn [snd].
    destruct c as [ | | | |v| | | | | | ]; try (intros []). destruct c' as [ | | | |v'| | | | | | ]; try (intros _ []).
    apply vml_cases in Hx as (l1 & s & l2 & E & [(Hv & _ & ->)|(Hv & -> & ->)]); [intros []|].
    apply vml_cases in Hy as (k1 & t & k2 & E' & [(Hv' & _ & ->)|(Hv' & -> & ->)]); [intros _ []|].
    unfold hf_vml. cbn [vd_images]. rewrite !in_number_ids, !map_length.
    assert (L : forall l1 s l2, w_sheets b = l1 ++ s :: l2 -> N.of_nat (length (d_hf (p_d (prep1 (after (st0 (N.of_nat (length emb))) l1) s)))) <= 6).
    { intros q1 q q2 Eq. assert (F : In (ps_u q) us) by (rewrite Eq; apply in_map, in_elt). apply Hfit in F.
      change (d_hf (p_d _)) with (d_hf (snd (prepare_sheet_drawings (s_g (after (st0 (N.of_nat (length emb))) q1)) (h_linkage (ps_h q)) (ps_u q)))).
      rewrite d_hf_len. lia. }
    assert (L1 := L _ _ _ E). assert (L2 := L _ _ _ E'). clear L.
    revert L1 L2. apply (two_sheets (fun l1 s k1 t =>
        N.of_nat (length (d_hf (p_d (prep1 (after (st0 (N.of_nat (length emb))) l1) s)))) <= 6 ->
        N.of_nat (length (d_hf (p_d (prep1 (after (st0 (N.of_nat (length emb))) k1) t)))) <= 6 ->
        1024 * (1 + sumN n_hf (map ps_u l1)) + 1 <= z <
        1024 * (1 + sumN n_hf (map ps_u l1)) + 1 + N.of_nat (length (d_hf (p_d (prep1 (after (st0 (N.of_nat (length emb))) l1) s)))) ->
        1024 * (1 + sumN n_hf (map ps_u k1)) + 1 <= z <
        1024 * (1 + sumN n_hf (map ps_u k1)) + 1 + N.of_nat (length (d_hf (p_d (prep1 (after (st0 (N.of_nat (length emb))) k1) t)))) ->
        (render (NVml (1 + sumN n_vml (map ps_u l1) + b2n (has_vml (ps_u s)))), CVml (hf_vml (1 + sumN n_hf (map ps_u l1)) (prep1 (after (st0 (N.of_nat (length emb))) l1) s))) =
        (render (NVml (1 + sumN n_vml (map ps_u k1) + b2n (has_vml (ps_u t)))), CVml (hf_vml (1 + sumN n_hf (map ps_u k1)) (prep1 (after (st0 (N.of_nat (length emb))) k1) t))))
       (w_sheets b) l1 s l2 k1 t k2 E E').
    + intros -> -> _ _ _ _. reflexivity.
    + intros r -> L1 L2 Z1 Z2. exfalso. rewrite map_app, sumN_app in Z2. cbn [map sumN] in Z2.
      assert (Hh : n_hf (ps_u s) = 1) by (unfold n_hf; apply is_nil_false in Hv; rewrite Hv; reflexivity). lia.
    + intros r -> L1 L2 Z1 Z2. exfalso. rewrite map_app, sumN_app in Z1. cbn [map sumN] in Z1.
      assert (Hh : n_hf (ps_u t) = 1) by (unfold n_hf; apply is_nil_false in Hv'; rewrite Hv'; reflexivity). lia.
Qed.
End World.
