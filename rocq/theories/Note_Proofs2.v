(** Notes: the comments part reads back. *)
From Coq Require Import Sorted Permutation.
From Verif Require Import Base Xml_Model Xml_Spec Xml_Read Xml_Tree SMap Fmt_Model Rich_Model Rich_Proofs SheetXml_Spec SheetXml_Proofs3 Doc_Spec View_Spec Props_Doc Tag_Proofs Part_Proofs
  Setup_Spec Note_Model Note_Spec Note_Proofs.
From Verif Require Book_Model Pkg_Model Pkg_Spec Pkg_Proofs13.

Lemma last_all {O A} (P : A -> Prop) (Q : O -> Prop) (f : O -> option A) : (forall o v, Q o -> f o = Some v -> P v) ->
  forall l d, P d -> Forall Q l -> P (last_of f d l).
Proof.
  intros H. unfold last_of. induction l as [|o l IH]; intros d Hd F; [exact Hd|]. cbn [fold_left]. apply IH; [|exact (Forall_inv_tail F)].
  destruct (f o) eqn:E; [exact (H o a (Forall_inv F) E)|exact Hd].
Qed.
Lemma attr_text_ok s : attr_text s <-> attr_ok s. Proof. reflexivity. Qed.

(** Texts of a note that a part can hold. *)
Record fits (n : xnote) : Prop := {
  ft_text : doc_text (xn_text n); ft_size : attr_ok (xn_size n); ft_font : attr_ok (xn_font n); ft_alt : attr_ok (xn_alt n);
  ft_author : forall a, xn_author n = Some a -> doc_text a }.
Lemma made_fits t l : doc_text t -> Forall op_texts l -> fits (make_note t l).
Proof.
  intros T F. split.
  - rewrite text_made. apply (last_all _ op_texts); [|exact T|exact F]. intros [] v H E; try discriminate. injection E as <-. exact H.
  - rewrite size_made. apply (last_all _ op_texts); [|reflexivity|exact F]. intros [] v H E; try discriminate; injection E as <-; [exact H|exact (proj2 H)].
  - rewrite font_made. apply (last_all _ op_texts); [|reflexivity|exact F]. intros [] v H E; try discriminate; injection E as <-; [exact H|exact (proj1 H)].
  - rewrite alt_made. apply (last_all _ op_texts); [|reflexivity|exact F]. intros [] v H E; try discriminate. destruct (short 255 s); [|discriminate]. injection E as <-. exact H.
  - rewrite author_made. apply (last_all (fun o => forall a, o = Some a -> doc_text a) op_texts); [|discriminate|exact F].
    intros [] v H E; try discriminate. cbn in *. destruct (short 52 name); [|discriminate]. intros a Ea. assert (a = name) by congruence. subst. exact H.
Qed.
Lemma shown_fits b n : fits n -> fits (shown_note b n).
Proof. intros [A B C D E]. unfold shown_note. destruct (b && _); split; assumption. Qed.
Lemma seen_fits t l n : doc_text t -> Forall op_texts l -> seen_note t l n -> fits n.
Proof. intros T F [-> | ->]; [|apply shown_fits]; apply made_fits; assumption. Qed.
Lemma note_on_texts ops r c t l : Forall sheet_texts ops -> note_on r c ops = Some (t, l) -> doc_text t /\ Forall op_texts l.
Proof.
  intros F. assert (G : forall o, o = note_on r c ops -> match o with Some (t, l) => doc_text t /\ Forall op_texts l | None => True end).
  { intros o ->. unfold note_on. apply (last_all (fun o => match o with Some (t, l) => doc_text t /\ Forall op_texts l | None => True end) sheet_texts); [|exact I|exact F].
    intros o v H E. destruct o; try discriminate. destruct ((row =? r) && (col =? c) && note_allowed row col text calls); [|discriminate].
    assert (v = Some (text, calls)) by congruence. subst. exact H. }
  intros E. specialize (G _ eq_refl). rewrite E in G. exact G.
Qed.
Lemma get_on ops s k n : sheet_inv ops s -> get k (ns_notes s) = Some n -> exists t l, note_on (k / 16384) (k mod 16384) ops = Some (t, l) /\ on_grid (k / 16384) (k mod 16384) = true /\
  seen_note t l n /\ (no_save ops -> n = make_note t l).
Proof.
  intros I G. assert (K : on_grid (k / 16384) (k mod 16384) = true).
  { apply on_grid_spec. split; [|apply N.mod_lt; discriminate]. assert (J := si_keys _ _ I). rewrite Forall_forall in J. apply J. apply get_keys. congruence. }
  assert (H := si_notes _ _ I _ _ K). rewrite key_eq, G in H. unfold known in H. destruct (note_on _ _ ops) as [[t l]|]; [|destruct H]. exists t, l. tauto.
Qed.

(** ** Authors *)
Lemma bt_keys a v m x : In x (map fst (Pkg_Model.bt_insert a v m)) -> x = a \/ In x (map fst m).
Proof.
  induction m as [|[k w] m IH]; cbn [Pkg_Model.bt_insert map]; [intros [H|[]]; left; auto|].
  destruct (str_eqb a k) eqn:E; [cbn [map]; intros [H|H]; [left; apply str_eqb_eq in E; cbn in *; congruence|right; right; exact H]|].
  destruct (Book_Model.str_leb a k); cbn [map].
  - intros [H|H]; [left; auto|right; exact H].
  - intros [H|H]; [right; left; exact H|]. destruct (IH H) as [H'|H']; [left; exact H'|right; right; exact H'].
Qed.
Lemma assign_keys P l : forall m m' ids, Pkg_Model.assign_authors m l = (m', ids) -> Forall P (map fst m) ->
  (forall n a, In n l -> Pkg_Model.nt_author n = Some a -> P a) -> Forall P (map fst m').
Proof.
  induction l as [|n l IH]; intros m m' ids; cbn [Pkg_Model.assign_authors].
  - intros [= <- <-] H _. exact H.
  - intros E F H. assert (H' : forall n a, In n l -> Pkg_Model.nt_author n = Some a -> P a) by (intros; eapply H; [right; eassumption|assumption]).
    destruct (Pkg_Model.nt_author n) as [a|] eqn:Ea.
    + destruct (Pkg_Model.am_get a m).
      * destruct (Pkg_Model.assign_authors m l) eqn:E1. assert (a0 = m') by congruence. subst. exact (IH _ _ _ E1 F H').
      * destruct (Pkg_Model.assign_authors (Pkg_Model.bt_insert a (Pkg_Model.am_len m) m) l) eqn:E1. assert (a0 = m') by congruence. subst.
        apply (IH _ _ _ E1); [|exact H']. apply Forall_forall. intros x Hx. apply bt_keys in Hx as [->|Hx]; [apply (H n); [left; reflexivity|exact Ea]|].
        rewrite Forall_forall in F. auto.
    + destruct (Pkg_Model.assign_authors m l) eqn:E1. assert (a = m') by congruence. subst. exact (IH _ _ _ E1 F H').
Qed.
Lemma pkg_author m x : In x (pkg_notes m) -> exists k n, In (k, n) m /\ x = {| Pkg_Model.nt_row := k / 16384; Pkg_Model.nt_col := k mod 16384; Pkg_Model.nt_author := xn_author n |}.
Proof. unfold pkg_notes. rewrite in_map_iff. intros ([k n] & <- & H). exists k, n. split; [exact H|reflexivity]. Qed.
Lemma prepare_keys ops s s' ids : Forall sheet_texts ops -> sheet_inv ops s -> Forall doc_text (map fst (ns_authors s)) -> prepare_notes s = (s', ids) ->
  Forall doc_text (map fst (ns_authors s')).
Proof.
  intros F I H E. unfold prepare_notes in E. destruct (Pkg_Model.assign_authors (ns_authors s) (pkg_notes (ns_notes s))) as [au i] eqn:Ea.
  assert (Es : s' = {| ns_notes := smap_map (fun _ => shown_note (ns_show s)) (ns_notes s); ns_authors := au; ns_show := ns_show s |}) by congruence. subst s'. cbn [ns_authors].
  apply (assign_keys doc_text _ _ _ _ Ea H). intros n a Hn Hna. apply pkg_author in Hn as (k & x & Hx & ->). cbn [Pkg_Model.nt_author] in Hna.
  apply (In_get _ _ _ (si_ok _ _ I)) in Hx. destruct (get_on _ _ _ _ I Hx) as (t & l & Hon & _ & Hs & _). destruct (note_on_texts _ _ _ _ _ F Hon) as [T L].
  exact (ft_author _ (seen_fits _ _ _ T L Hs) a Hna).
Qed.
Lemma run_keys ops : Forall sheet_texts ops -> Forall doc_text (map fst (ns_authors (sheet_run ops))).
Proof.
  induction ops as [|o ops IH] using rev_ind; intros F; [constructor; [reflexivity|constructor]|]. apply Forall_app in F as [F Fo]. apply Forall_inv in Fo. specialize (IH F).
  assert (I := sheet_run_inv ops). unfold sheet_run in *. rewrite fold_left_app. cbn [fold_left]. set (s := fold_left _ ops _) in *. destruct o; cbn [sheet_step].
  - destruct (_ || _); [exact IH|]. destruct (over _ _); exact IH.
  - destruct (over 52 name); [exact IH|]. constructor; [exact Fo|constructor].
  - exact IH.
  - destruct (prepare_notes s) as [s' ids] eqn:E. exact (prepare_keys _ _ _ _ F I IH E).
Qed.

(** ** One note *)
Lemma last_rev (s : str) c r : rev s = c :: r -> last s 0 = c.
Proof. intros H. rewrite <- (rev_involutive s), H. cbn [rev]. apply last_last. Qed.
Lemma text_reads s : doc_text s -> wx_ok (text_xml s) /\ kept_text (node_of (text_xml s)) = Some s.
Proof.
  intros D. unfold text_xml. split; [apply ok_data; [reflexivity| |exact D]; destruct (ws_edges s); [apply attrs_one; reflexivity|apply attrs_nil]|].
  rewrite node_data by exact D. unfold kept_text. rewrite text_leaf. cbn [bind attrs_of]. destruct (ws_edges s) eqn:W; [reflexivity|].
  change (attr "xml:space" []) with (@None str). cbv beta iota. destruct s as [|c r]; [reflexivity|].
  unfold ws_edges in W. apply orb_false_elim in W as [W1 W2]. destruct (rev (c :: r)) as [|x y] eqn:R; [apply (f_equal (@length _)) in R; rewrite rev_length in R; discriminate|].
  rewrite (last_rev _ _ _ R). change (ws c) with (is_ws_edge c). change (ws x) with (is_ws_edge x). rewrite W1, W2. reflexivity.
Qed.
Lemma run_reads n b s : fits n -> doc_text s -> wx_ok (Note_Model.note_run n b s) /\
  read_run (node_of (Note_Model.note_run n b s)) = Some {| nr_bold := b; nr_size := xn_size n; nr_font := xn_font n; nr_family := xn_family n; nr_text := s |}.
Proof.
  intros [_ Z F _ _] D. destruct (text_reads s D) as [T R]. unfold Note_Model.note_run, run_props. split.
  - apply wx_ok_elem. split; [reflexivity|]. split; [apply attrs_nil|]. constructor; [|constructor; [exact T|constructor]].
    apply wx_ok_elem. split; [reflexivity|]. split; [apply attrs_nil|]. apply Forall_app. split; [destruct b; [constructor; [split; [reflexivity|apply attrs_nil]|constructor]|constructor]|].
    repeat (constructor; [split; [reflexivity|good]|]). constructor.
  - cbn [node_of map]. unfold read_run. cbn [is_elem]. change (str_eqb (lit "r") (lit "r")) with true. cbv iota. cbn [kids_of].
    rewrite kid_one. change (String.eqb "rPr" "rPr") with true. cbv iota. cbn [bind].
    match goal with |- context [kid "t" ?l] => assert (Kt : kid "t" l = Some (node_of (text_xml s))) by reflexivity; rewrite Kt end. cbn [bind]. rewrite R. cbn [bind kids_of].
    destruct b; unfold val_of; cbn [map app node_of];
      repeat (rewrite kid_one; match goal with |- context [String.eqb ?a ?c] => change (String.eqb a c) with true || change (String.eqb a c) with false end; cbv iota; cbn [bind attrs_of]);
      rewrite !attr_cons; cbn [String.eqb Ascii.eqb Bool.eqb]; cbn [bind]; rewrite number_of_dec; reflexivity.
Qed.
