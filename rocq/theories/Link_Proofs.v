(** Hyperlinks: what an accepted link stores. *)
From Verif Require Import Base Xml_Model Xml_Spec Xml_Proofs Xml_Read Xml_Tree Pkg_Model Pkg_Spec Url_Model Url_Proofs Link_Model Link_Spec.

Lemma absolute_spec p : relative_path p = false <-> absolute_path p.
Proof.
  unfold relative_path, absolute_path. destruct (starts_with [92; 92] p) eqn:E.
  - split; [intros _; left; apply starts_with_true; exact E|reflexivity].
  - assert (No : ~ exists r, p = [92; 92] ++ r) by (intros H; apply starts_with_true in H; congruence).
    destruct p as [|a [|b p]].
    + split; [discriminate|]. intros [H|(c & r & H & _)]; [contradiction|discriminate].
    + split; [discriminate|]. intros [H|(c & r & H & _)]; [contradiction|discriminate].
    + rewrite negb_false_iff, !andb_true_iff, negb_true_iff. unfold is_ascii. split.
      * intros [[[A B] C] D]. right. exists a, p. apply N.eqb_eq in C. apply N.eqb_neq in A. subst b. split; [reflexivity|]. split; [|exact A]. apply N.ltb_lt in D. exact D.
      * intros [H|(c & r & H & Hc & Hn)]; [contradiction|]. injection H as -> -> _. repeat split.
        -- apply N.eqb_neq. exact Hn.
        -- unfold utf8_len. destruct (N.ltb_spec c 128); [reflexivity|lia].
        -- apply N.ltb_lt. exact Hc.
Qed.

(** What [initialize] leaves in an accepted link. *)
Definition fits_kind (w : reading) (u : url) : Prop :=
  if w_inside w then ltype u = LInternal else (ltype u = LUrl \/ ltype u = LFile).
Record holds (w : reading) (txt tip : str) (obj : bool) (u : url) : Prop := {
  h_kind : fits_kind w u; h_link : link u = stored_target (w_base w);
  h_rel : w_inside w = false -> relationship_link u = (if obj then w_object w else stored_target (w_base w));
  h_place : anchor u = w_place w; h_text : text u = text_or txt (w_text w); h_tip : tool_tip u = tip;
  h_obj : is_object_link u = obj }.

Lemma stored_if b : (if is_escaped b then b else escape_url b) = stored_target b. Proof. reflexivity. Qed.
Lemma stored_if2 b : (if negb (is_escaped b) then escape_url b else b) = stored_target b. Proof. unfold stored_target. destruct (is_escaped b); reflexivity. Qed.

Lemma splits_det l b f b' f' : splits l b f -> splits l b' f' -> b' = b /\ f' = f.
Proof.
  intros [(-> & -> & H)|(-> & H)] [(E & -> & H')|(E & H')].
  - auto.
  - exfalso. apply H. rewrite E. apply in_or_app. right. left. reflexivity.
  - exfalso. apply H'. apply in_or_app. right. left. reflexivity.
  - assert (A : split_hash (b ++ 35 :: f) = Some (b, f)) by (apply split_hash_some; auto).
    assert (B : split_hash (b ++ 35 :: f) = Some (b', f')) by (apply split_hash_some; auto).
    rewrite A in B. injection B as -> ->. auto.
Qed.
Lemma split_to l b f : splits l b f -> exists a, set_anchor_split l = (b, a) /\ match a with Some a => a | None => [] end = f.
Proof.
  intros S. destruct (set_anchor_split l) as [b' a] eqn:E. pose proof (set_anchor_split_splits _ _ _ E) as S'.
  destruct (splits_det _ _ _ _ _ S S') as [-> E2]. exists a. auto.
Qed.

Lemma web_shape l : is_web l -> ~ has_prefix "mailto:" l /\ ~ has_prefix "internal:" l /\ ~ has_prefix "file://" l.
Proof. intros (p & r & I & ->). cbn [In] in I. repeat split; intros [r' E]; (destruct I as [<-|[<-|[<-|[<-|[]]]]]; discriminate E). Qed.
Lemma prefix_test p l : starts_with (lit p) l = true <-> has_prefix p l. Proof. apply starts_with_true. Qed.
Lemma false_of b : b <> true -> b = false. Proof. destruct b; congruence. Qed.
Lemma web_false l : ~ is_web l -> starts_with (lit "http://") l || starts_with (lit "https://") l || starts_with (lit "ftp://") l || starts_with (lit "ftps://") l = false.
Proof. intros H. apply false_of. intros E. apply H, web_test. exact E. Qed.

Ltac lens := unfold MAX_URL_LEN, MAX_PARAMETER_LEN in *;
  repeat match goal with |- context [?a <? ?b] => destruct (N.ltb_spec a b) end; cbn [orb];
  try (unfold within; cbn [w_base w_place]; split; [intros; discriminate|intros (? & ? & ?); lia]).

(** Whether a link is accepted, and what is stored: for every link text. *)
Lemma init_leads l w txt tip obj : leads l w ->
  match initialize (url_new l txt tip obj) with
  | Ok u => within w tip /\ holds w txt tip obj u
  | Err _ => ~ within w tip end.
Proof.
  intros H. unfold initialize, parse_url. cbn [link url_new].
  destruct H as [l base frag Hw S|r l|r l|l base frag Hp Ha S|l base frag Hp Ha S].
  - rewrite (proj2 (web_test l) Hw). destruct (split_to _ _ _ S) as (a & -> & Ea).
    cbn [link anchor tool_tip text url_new is_object_link original_url rel_id]. rewrite Ea.
    unfold MAX_URL_LEN, MAX_PARAMETER_LEN.
    destruct (N.ltb_spec 2080 (char_count base)); cbn [orb]; [intros (? & _); cbn [w_base] in *; lia|].
    destruct (N.ltb_spec 2080 (char_count frag)); [intros (_ & ? & _); cbn [w_place] in *; lia|].
    cbn [escape_strings tool_tip]. destruct (N.ltb_spec 255 (char_count tip)); [intros (_ & _ & ?); lia|].
    split; [repeat split; cbn [w_base w_place]; assumption|]. split; cbn [fits_kind w_inside ltype link relationship_link anchor text tool_tip is_object_link w_base w_place w_text w_object escape_strings]; auto.
    + intros _. cbn [link_type_eqb negb andb]. rewrite stored_if2. destruct obj; reflexivity.
    + destruct txt; reflexivity.
  - rewrite web_false by (intros Q; apply (proj1 (web_shape _ Q)); exists r; reflexivity). rewrite (proj2 (prefix_test "mailto:" l)) by (exists r; reflexivity).
    cbn [link anchor tool_tip text url_new is_object_link original_url rel_id]. unfold MAX_URL_LEN, MAX_PARAMETER_LEN. change (2080 <? char_count []) with false. rewrite orb_false_r.
    destruct (N.ltb_spec 2080 (char_count l)); cbn [orb]; [intros (? & _); cbn [w_base] in *; lia|].
    cbn [escape_strings tool_tip]. destruct (N.ltb_spec 255 (char_count tip)); [intros (_ & _ & ?); lia|].
    split; [repeat split; cbn [w_base w_place]; try assumption; cbn; lia|]. split; cbn [fits_kind w_inside ltype link relationship_link anchor text tool_tip is_object_link w_base w_place w_text w_object escape_strings]; auto.
    + intros _. cbn [link_type_eqb negb andb relationship_link url_new]. rewrite stored_if2. destruct obj; reflexivity.
    + unfold l. rewrite replace_first_prefix by discriminate. destruct txt; reflexivity.
  - rewrite web_false by (intros Q; apply (proj1 (proj2 (web_shape _ Q))); exists r; reflexivity).
    change (starts_with (lit "mailto:") l) with false. rewrite (proj2 (prefix_test "internal:" l)) by (exists r; reflexivity).
    assert (El : replace_first (lit "internal:") [] l = r) by (unfold l; rewrite replace_first_prefix by discriminate; reflexivity).
    cbn [link anchor tool_tip text url_new is_object_link original_url rel_id]. rewrite El. unfold MAX_URL_LEN, MAX_PARAMETER_LEN.
    destruct (N.ltb_spec 2080 (char_count l)); cbn [orb]; [intros (? & _); cbn [w_base] in *; lia|].
    destruct (N.ltb_spec 2080 (char_count r)); [intros (_ & ? & _); cbn [w_place] in *; lia|].
    cbn [escape_strings tool_tip]. destruct (N.ltb_spec 255 (char_count tip)); [intros (_ & _ & ?); lia|].
    split; [repeat split; cbn [w_base w_place]; assumption|]. split; cbn [fits_kind w_inside ltype link relationship_link anchor text tool_tip is_object_link w_base w_place w_text w_object escape_strings]; auto.
    + discriminate.
    + destruct txt; reflexivity.
  - destruct Hp as [r Er]. assert (Nw : ~ is_web l) by (intros Q; apply (proj2 (proj2 (web_shape _ Q))); exists r; exact Er). rewrite (web_false l Nw).
    replace (starts_with (lit "mailto:") l) with false by (subst l; reflexivity). replace (starts_with (lit "internal:") l) with false by (subst l; reflexivity).
    rewrite (proj2 (prefix_test "file://" l)) by (exists r; exact Er). change (replace_first (lit "file://") [] (replace_first (lit "file:///") [] l)) with (file_path l). cbv zeta.
    destruct (relative_path (file_path l)) eqn:Rp; [|exfalso; apply Ha, absolute_spec; exact Rp].
    destruct (split_to _ _ _ S) as (a & -> & Ea). cbn [link anchor tool_tip text url_new is_object_link original_url rel_id]. rewrite Ea. unfold MAX_URL_LEN, MAX_PARAMETER_LEN.
    destruct (N.ltb_spec 2080 (char_count base)); cbn [orb]; [intros (? & _); cbn [w_base] in *; lia|].
    destruct (N.ltb_spec 2080 (char_count frag)); [intros (_ & ? & _); cbn [w_place] in *; lia|].
    cbn [escape_strings tool_tip]. destruct (N.ltb_spec 255 (char_count tip)); [intros (_ & _ & ?); lia|].
    split; [repeat split; cbn [w_base w_place]; assumption|]. split; cbn [fits_kind w_inside ltype link relationship_link anchor text tool_tip is_object_link w_base w_place w_text w_object escape_strings]; auto.
    + intros _. cbn [link_type_eqb negb andb]. rewrite stored_if2. pose proof (splits_no_hash _ _ _ S) as Nh. destruct obj; apply replace_char_absent, stored_target_no_hash; [|exact Nh].
      unfold replace_char. rewrite in_flat_map. intros (x & Ix & Q). destruct (x =? 92); cbn in Q; destruct Q as [Q|[]]; [discriminate|subst; contradiction].
    + destruct txt; reflexivity.
  - destruct Hp as [r Er]. assert (Nw : ~ is_web l) by (intros Q; apply (proj2 (proj2 (web_shape _ Q))); exists r; exact Er). rewrite (web_false l Nw).
    replace (starts_with (lit "mailto:") l) with false by (subst l; reflexivity). replace (starts_with (lit "internal:") l) with false by (subst l; reflexivity).
    rewrite (proj2 (prefix_test "file://" l)) by (exists r; exact Er). change (replace_first (lit "file://") [] (replace_first (lit "file:///") [] l)) with (file_path l). cbv zeta.
    rewrite (proj2 (absolute_spec _) Ha).
    destruct (split_to _ _ _ S) as (a & -> & Ea). cbn [link anchor tool_tip text url_new is_object_link original_url rel_id]. rewrite Ea. unfold MAX_URL_LEN, MAX_PARAMETER_LEN.
    destruct (N.ltb_spec 2080 (char_count base)); cbn [orb]; [intros (? & _); cbn [w_base] in *; lia|].
    destruct (N.ltb_spec 2080 (char_count frag)); [intros (_ & ? & _); cbn [w_place] in *; lia|].
    cbn [escape_strings tool_tip]. destruct (N.ltb_spec 255 (char_count tip)); [intros (_ & _ & ?); lia|].
    split; [repeat split; cbn [w_base w_place]; assumption|]. split; cbn [fits_kind w_inside ltype link relationship_link anchor text tool_tip is_object_link w_base w_place w_text w_object escape_strings]; auto.
    + intros _. cbn [link_type_eqb negb andb]. rewrite stored_if2. pose proof (splits_no_hash _ _ _ S) as Nh. destruct obj; [reflexivity|]. apply replace_char_absent, stored_target_no_hash. exact Nh.
    + destruct txt; reflexivity.
Qed.

Lemma splits_ex l : exists b f, splits l b f.
Proof. destruct (set_anchor_split l) as [b a] eqn:E. apply set_anchor_split_splits in E. eauto. Qed.
(** Every link text either has a reading, or is of no known kind. *)
Lemma leads_total l : (exists w, leads l w) \/ (~ is_web l /\ ~ has_prefix "mailto:" l /\ ~ has_prefix "internal:" l /\ ~ has_prefix "file://" l).
Proof.
  destruct (starts_with (lit "http://") l || starts_with (lit "https://") l || starts_with (lit "ftp://") l || starts_with (lit "ftps://") l) eqn:W.
  { apply web_test in W. destruct (splits_ex l) as (b & f & S). left. eexists. eapply leads_web; eassumption. }
  destruct (starts_with (lit "mailto:") l) eqn:A. { apply prefix_test in A as [r ->]. left. eexists. apply leads_mail. }
  destruct (starts_with (lit "internal:") l) eqn:B. { apply prefix_test in B as [r ->]. left. eexists. apply leads_inside. }
  destruct (starts_with (lit "file://") l) eqn:C.
  { apply prefix_test in C. left. destruct (relative_path (file_path l)) eqn:Rp.
    - destruct (splits_ex (file_path l)) as (b & f & S). eexists. eapply leads_relative; [exact C| |exact S]. intros Q. apply absolute_spec in Q. congruence.
    - destruct (splits_ex l) as (b & f & S). eexists. eapply leads_absolute; [exact C|apply absolute_spec; exact Rp|exact S]. }
  right. rewrite <- web_test, <- !prefix_test. rewrite W, A, B, C. repeat split; discriminate.
Qed.
Lemma leads_known l w : leads l w -> is_web l \/ has_prefix "mailto:" l \/ has_prefix "internal:" l \/ has_prefix "file://" l.
Proof. intros H. destruct H; auto; [right; left|right; right; left]; exists r; reflexivity. Qed.
Lemma leads_det l w w' : leads l w -> leads l w' -> w' = w.
Proof.
  intros H. destruct H as [l base frag Hw S|r l|r l|l base frag Hp Ha S|l base frag Hp Ha S]; intros H'.
  - pose proof (web_shape _ Hw) as (N1 & N2 & N3). inversion H'; subst; try (exfalso; apply N1; eexists; reflexivity); try (exfalso; apply N2; eexists; reflexivity); try contradiction.
    match goal with S' : splits l ?b ?f |- _ => destruct (splits_det _ _ _ _ _ S S') as [-> ->] end. reflexivity.
  - unfold l in *; clear l. remember (lit "mailto:" ++ r) as l eqn:El. destruct H' as [l b f Hw S|r0 l0|r0 l0|l b f Hp Ha S|l b f Hp Ha S].
    + exfalso. apply (proj1 (web_shape _ Hw)). exists r. exact El.
    + unfold l0 in *. assert (r0 = r) by (apply app_inv_head in El; exact El). subst r0. reflexivity.
    + discriminate El.
    + destruct Hp as [q Q]. rewrite Q in El. discriminate El.
    + destruct Hp as [q Q]. rewrite Q in El. discriminate El.
  - unfold l in *; clear l. remember (lit "internal:" ++ r) as l eqn:El. destruct H' as [l b f Hw S|r0 l0|r0 l0|l b f Hp Ha S|l b f Hp Ha S].
    + exfalso. apply (proj1 (proj2 (web_shape _ Hw))). exists r. exact El.
    + discriminate El.
    + unfold l0 in *. assert (r0 = r) by (apply app_inv_head in El; exact El). subst r0. reflexivity.
    + destruct Hp as [q Q]. rewrite Q in El. discriminate El.
    + destruct Hp as [q Q]. rewrite Q in El. discriminate El.
  - inversion H' as [l0 b f Hw S' E|r0 l0 E|r0 l0 E|l0 b f Hp' Ha' S' E|l0 b f Hp' Ha' S' E]; subst.
    + exfalso. exact (proj2 (proj2 (web_shape _ Hw)) Hp).
    + destruct Hp as [q Q]. discriminate Q.
    + destruct Hp as [q Q]. discriminate Q.
    + destruct (splits_det _ _ _ _ _ S S') as [-> ->]. reflexivity.
    + contradiction.
  - inversion H' as [l0 b f Hw S' E|r0 l0 E|r0 l0 E|l0 b f Hp' Ha' S' E|l0 b f Hp' Ha' S' E]; subst.
    + exfalso. exact (proj2 (proj2 (web_shape _ Hw)) Hp).
    + destruct Hp as [q Q]. discriminate Q.
    + destruct Hp as [q Q]. discriminate Q.
    + contradiction.
    + destruct (splits_det _ _ _ _ _ S S') as [-> ->]. reflexivity.
Qed.
Lemma init_ok l txt tip obj u : initialize (url_new l txt tip obj) = Ok u -> exists w, leads l w /\ within w tip /\ holds w txt tip obj u.
Proof.
  intros E. destruct (leads_total l) as [[w H]|No].
  - exists w. split; [exact H|]. pose proof (init_leads l w txt tip obj H) as Q. rewrite E in Q. exact Q.
  - apply (unknown_url_spec l txt tip obj) in No. congruence.
Qed.
