(** Hyperlinks: the element that is written, and what a reader gets from it. *)
From Coq Require Import Sorted.
From Verif Require Import Base SMap F64 Fmt_Model Sst_Model Ref_Model Ref_Spec Xml_Model Xml_Spec Xml_Proofs Xml_Read Xml_Read_Proofs Xml_Tree Rich_Model Rich_Proofs Cells_Model
  SheetXml_Spec SheetXml_Proofs Doc_Spec DV_Spec DV_Proofs View_Model View_Spec Setup_Spec View_Hist Part_Model Tag_Proofs Part_Proofs Props_Part
  Sheet_Model Pkg_Model Pkg_Spec Url_Model Url_Proofs Link_Model Link_Spec Link_Proofs Link_Hist.

(** ** Characters *)
Lemma keep_app a b : keepable (a ++ b) <-> keepable a /\ keepable b.
Proof. unfold keepable. rewrite forallb_app, andb_true_iff. reflexivity. Qed.
Lemma keep_in s s' : (forall x, In x s' -> In x s) -> keepable s -> keepable s'.
Proof. unfold keepable. rewrite !forallb_forall. auto. Qed.
Lemma keep_chars h s : (forall c e, h c = Some e -> keepable e) -> keepable s -> keepable (escape_chars h s).
Proof.
  intros H. unfold keepable. induction s as [|c s IH]; [reflexivity|]. cbn [escape_chars forallb]. intros K. apply andb_true_iff in K as [K1 K2].
  destruct (h c) as [e|] eqn:E; [rewrite forallb_app, (H _ _ E); exact (IH K2)|]. cbn [forallb]. rewrite K1. exact (IH K2).
Qed.
Lemma split_first_app h s a b : split_first h s = Some (a, b) -> s = a ++ b.
Proof.
  revert a b. induction s as [|c s IH]; intros a b; cbn [split_first]; [discriminate|]. destruct (h c); [intros [= <- <-]; reflexivity|].
  destruct (split_first h s) as [[x y]|]; [|discriminate]. intros [= <- <-]. cbn [app]. f_equal. apply IH. reflexivity.
Qed.
Lemma keep_url s : keepable s -> keepable (escape_url s).
Proof.
  unfold escape_url, escape_string. destruct (split_first _ s) as [[a b]|] eqn:E; [|auto]. apply split_first_app in E. subst s. rewrite !keep_app. intros [A B]. split; [exact A|].
  apply keep_chars; [|exact B]. clear. intros c e. unfold match_url_char. repeat (destruct (_ =? _); [intros [= <-]; reflexivity|]). discriminate.
Qed.
Lemma keep_target s : keepable s -> keepable (stored_target s).
Proof. unfold stored_target. destruct (is_escaped s); [auto|apply keep_url]. Qed.
Lemma keep_strip p s r : strip_prefix p s = Some r -> keepable s -> keepable r.
Proof. intros E. apply strip_prefix_some in E. subst s. rewrite keep_app. tauto. Qed.
Lemma keep_replace p s : keepable s -> keepable (replace_first p [] s).
Proof.
  induction s as [|c s IH]; intros K; cbn [replace_first]; (destruct (strip_prefix p _) eqn:E; [cbn [app]; exact (keep_strip _ _ _ E K)|]); [reflexivity|].
  unfold keepable in *. cbn [forallb] in *. apply andb_true_iff in K as [K1 K2]. rewrite K1. exact (IH K2).
Qed.
Lemma keep_splits l b f : splits l b f -> keepable l -> keepable b /\ keepable f.
Proof.
  intros [(-> & -> & _)|(-> & _)]; [intros; split; [assumption|reflexivity]|]. rewrite keep_app. intros [A B]. split; [exact A|]. unfold keepable in *. cbn [forallb] in B. apply andb_true_iff in B. tauto.
Qed.
Lemma keep_reading l w : leads l w -> keepable l -> keepable (w_base w) /\ keepable (w_place w) /\ keepable (w_text w).
Proof.
  intros H K. destruct H as [l base frag Hw S|r l|r l|l base frag Hp Ha S|l base frag Hp Ha S]; cbn [w_base w_place w_text].
  - destruct (keep_splits _ _ _ S K). auto.
  - unfold l in *. split; [exact K|]. apply keep_app in K as [_ K]. split; [reflexivity|exact K].
  - unfold l in *. split; [exact K|]. apply keep_app in K as [_ K]. auto.
  - assert (P : keepable (file_path l)) by (apply keep_replace, keep_replace; exact K). destruct (keep_splits _ _ _ S P). auto.
  - assert (P : keepable (file_path l)) by (apply keep_replace, keep_replace; exact K). destruct (keep_splits _ _ _ S K). auto.
Qed.
Lemma keep_text_or a b : keepable a -> keepable b -> keepable (text_or a b). Proof. destruct a; auto. Qed.
Record url_clean (u : url) : Prop := { uc_link : keepable (link u); uc_anchor : keepable (anchor u); uc_text : keepable (text u); uc_tip : keepable (tool_tip u) }.
Lemma asked_clean o r c k u : clean o -> asked o r c k -> stored_as k u -> url_clean u /\ on_grid r c = true.
Proof.
  intros C A [Q1 Q2 Q3 Q4 Q5 Q6 Q7]. inversion A as [r0 c0 l shown tip f w G L W T|r0 c0 im l shown tip f w G L W]; subst; cbn [clean k_reading k_text k_tip] in *;
    destruct C as (C1 & C2 & C3); destruct (keep_reading _ _ L C1) as (B1 & B2 & B3); (split; [|assumption]); split; rewrite ?Q2, ?Q4, ?Q5, ?Q6; auto using keep_target, keep_text_or.
Qed.

(** ** One element *)
Definition find_ok (find_rel : str -> option rel) (u : url) (id : option str) : Prop :=
  match ltype u with
  | LUrl | LFile => exists k, id = Some k /\ find_rel k = Some {| r_type := DOC "hyperlink"; r_target := relationship_link u; r_mode := lit "External" |}
  | _ => id = None end.
Definition entry_of (t : table) (r c : N) (u : url) : entry :=
  match ltype u with
  | LUrl | LFile => {| e_place := Outside (relationship_link u) (anchor u); e_tip := tool_tip u;
                       e_display := if is_object_link u || overwritten t r c then link u else [] |}
  | _ => {| e_place := Inside (anchor u); e_tip := tool_tip u; e_display := text u |} end.
Lemma set_rel_fields u n : fst (increment_rel_id u n) = u \/ (ltype u = LUrl \/ ltype u = LFile) /\ rel_id (fst (increment_rel_id u n)) = n /\ snd (increment_rel_id u n) = n + 1.
Proof. unfold increment_rel_id. destruct (ltype u); cbn; auto. Qed.

Section Element.
  Variable m : ovf.
  Variable find_rel : str -> option rel.
  Lemma attr_ne k s l : attr k ((lit s, l) :: nil) = if String.eqb s k then Some l else None.
  Proof. rewrite attr_cons. destruct (String.eqb s k); reflexivity. Qed.
  Lemma nil_default (s : str) : match (if negb (is_nil s) then Some s else None) with Some v => v | None => [] end = s. Proof. destruct s; reflexivity. Qed.
  Lemma link_reads t r c u n id : on_grid r c = true -> url_clean u -> ltype u <> LUnknown ->
    id = (match ltype u with LUrl | LFile => Some (rid n) | _ => None end) -> find_ok find_rel u id ->
    exists x, hyperlink_xml m t r c (fst (increment_rel_id u n)) = Some x /\ wx_ok x /\ read_link find_rel (node_of x) = Some (r, c, entry_of t r c u).
  Proof.
    intros G [U1 U2 U3 U4] Nu Eid F. apply on_grid_lt in G as [Gr Gc]. destruct (cell_text m r c Gr Gc) as (ct & Ec & Oc & _ & Rc).
    unfold hyperlink_xml. rewrite Ec. cbv beta iota delta [obind]. unfold increment_rel_id, find_ok, entry_of in *.
    destruct (ltype u) eqn:El; [congruence| | |];
      cbn [fst ltype link anchor tool_tip text is_object_link rel_id]; rewrite ?El; (eexists; split; [reflexivity|]).
    - destruct F as (k & Ek & F). assert (k = rid n) by congruence. subst k. split.
      + split; [reflexivity|]. eapply sub_attrs; [apply sub_app; [apply sub_refl|]; apply sub_app; [apply sub_refl|]; apply sub_app; [apply sub_when|]; apply sub_app; apply sub_when|]. cbn [app].
        apply attrs_check; [reflexivity|]. repeat (constructor; [split; [reflexivity|first [apply U1|apply U2|apply U4|exact Oc|cbn [snd]; unfold rid; rewrite forallb_app; apply attr_dec]]|]). constructor.
      + cbn [node_of]. unfold read_link. cbn [is_elem attrs_of]. rewrite str_eqb_refl. unfold attr_default. rewrite !attr_app, !attr_when, !attr_cons. cbn [String.eqb Ascii.eqb Bool.eqb].
        unfold attr. cbn [find]. cbn [bind]. rewrite Rc. cbn [bind].
        destruct (negb (is_nil (anchor u))) eqn:Ha, (negb (is_nil (tool_tip u))) eqn:Ht, (is_object_link u || overwritten t r c); cbn [bind]; rewrite F; cbn [bind r_type r_mode r_target]; rewrite !str_eqb_refl; cbn [andb bind];
          repeat match goal with H : negb (is_nil ?a) = false |- _ => destruct a; [clear H|discriminate H] end; reflexivity.
    - split.
      + split; [reflexivity|]. eapply sub_attrs; [apply sub_app; [apply sub_refl|]; apply sub_app; [apply sub_refl|]; apply sub_app; [apply sub_when|]; apply sub_refl|]. cbn [app].
        apply attrs_check; [reflexivity|]. repeat (constructor; [split; [reflexivity|first [apply U2|apply U3|apply U4|exact Oc]]|]). constructor.
      + cbn [node_of]. unfold read_link. cbn [is_elem attrs_of]. rewrite str_eqb_refl. unfold attr_default. rewrite !attr_app, !attr_when, !attr_cons. cbn [String.eqb Ascii.eqb Bool.eqb].
        unfold attr. cbn [find]. cbn [bind]. rewrite Rc. cbn [bind].
        destruct (negb (is_nil (tool_tip u))) eqn:Ht; cbn [bind]; repeat match goal with H : negb (is_nil ?a) = false |- _ => destruct a; [clear H|discriminate H] end; reflexivity.
    - destruct F as (k & Ek & F). assert (k = rid n) by congruence. subst k. split.
      + split; [reflexivity|]. eapply sub_attrs; [apply sub_app; [apply sub_refl|]; apply sub_app; [apply sub_refl|]; apply sub_app; [apply sub_when|]; apply sub_app; apply sub_when|]. cbn [app].
        apply attrs_check; [reflexivity|]. repeat (constructor; [split; [reflexivity|first [apply U1|apply U2|apply U4|exact Oc|cbn [snd]; unfold rid; rewrite forallb_app; apply attr_dec]]|]). constructor.
      + cbn [node_of]. unfold read_link. cbn [is_elem attrs_of]. rewrite str_eqb_refl. unfold attr_default. rewrite !attr_app, !attr_when, !attr_cons. cbn [String.eqb Ascii.eqb Bool.eqb].
        unfold attr. cbn [find]. cbn [bind]. rewrite Rc. cbn [bind].
        destruct (negb (is_nil (anchor u))) eqn:Ha, (negb (is_nil (tool_tip u))) eqn:Ht, (is_object_link u || overwritten t r c); cbn [bind]; rewrite F; cbn [bind r_type r_mode r_target]; rewrite !str_eqb_refl; cbn [andb bind];
          repeat match goal with H : negb (is_nil ?a) = false |- _ => destruct a; [clear H|discriminate H] end; reflexivity.
  Qed.

  Lemma loop_reads t l : forall n ids rels n', write_links n (map snd l) = (ids, rels, n') ->
    Forall (fun p => on_grid (fst (fst p)) (snd (fst p)) = true /\ url_clean (snd p) /\ ltype (snd p) <> LUnknown) l -> Forall2 (find_ok find_rel) (map snd l) ids ->
    exists xs, hyperlinks_loop m t n l = Some (xs, n') /\ Forall wx_ok xs /\
      read_all (read_link find_rel) (map node_of xs) = Some (map (fun p => (fst p, entry_of t (fst (fst p)) (snd (fst p)) (snd p))) l).
  Proof.
    induction l as [|[[r c] u] l IH]; intros n ids rels n' W F Fi; cbn [map snd write_links hyperlinks_loop] in *.
    { injection W as <- <- <-. exists []. repeat split. constructor. }
    inversion F as [|? ? (Ug & Uc & Uk) Fl]; subst. cbn [fst snd] in *.
    assert (Ex : exists ids' rels' id, ids = id :: ids' /\ write_links (snd (increment_rel_id u n)) (map snd l) = (ids', rels', n') /\ id = match ltype u with LUrl | LFile => Some (rid n) | _ => None end).
    { unfold increment_rel_id. destruct (ltype u) eqn:El; cbn [snd];
        match goal with |- context [write_links ?k (map snd l)] => destruct (write_links k (map snd l)) as [[a b] d] end; injection W as <- <- <-; do 3 eexists; (split; [reflexivity|]; split; reflexivity). }
    destruct Ex as (ids' & rels' & id & -> & W' & Eid). inversion Fi as [|? ? ? ? Fu Fr]; subst.
    destruct (link_reads t r c u n _ Ug Uc Uk eq_refl Fu) as (x & Ex & Ox & Rx). destruct (IH _ _ _ _ W' Fl Fr) as (xs & Exs & Oxs & Rxs).
    exists (x :: xs). destruct (increment_rel_id u n) as [u1 n1]. cbn [fst snd] in *. rewrite Ex. cbv beta iota delta [obind]. rewrite Exs. split; [reflexivity|]. split; [constructor; assumption|].
    cbn [map read_all]. rewrite Rx, Rxs. reflexivity.
  Qed.
End Element.
