(** Proofs about hyperlinks. *)
From Verif Require Import Base Xml_Model Xml_Spec Xml_Proofs Url_Model.

Lemma split_hash_some s a b : split_hash s = Some (a, b) <-> s = a ++ 35 :: b /\ ~ In 35 a.
Proof.
  revert a b; induction s as [|c s IH]; intros a b; cbn [split_hash].
  - split; [discriminate|]. intros [E _]. destruct a; discriminate.
  - destruct (N.eqb_spec c 35) as [->|Hc].
    + split.
      * intros E; injection E as <- <-. auto.
      * intros [E Hn]. destruct a as [|x a]; cbn [app] in E; [injection E as ->; reflexivity|].
        injection E as <- _. cbn in Hn. tauto.
    + destruct (split_hash s) as [[a' b']|] eqn:E0; split.
      * intros E; injection E as <- <-. destruct (proj1 (IH a' b') eq_refl) as [-> Hn]. split; [reflexivity|].
        cbn [In]. intuition congruence.
      * intros [E Hn]. destruct a as [|x a]; cbn [app] in E; injection E as E1 E2; [congruence|]. subst x.
        assert (Some (a', b') = Some (a, b)) as Eq by (apply IH; split; [assumption|cbn in Hn; tauto]).
        injection Eq as -> ->. reflexivity.
      * discriminate.
      * intros [E Hn]. destruct a as [|x a]; cbn [app] in E; injection E as E1 E2; [congruence|]. subst x.
        assert (None = Some (a, b)) as Eq by (apply IH; split; [assumption|cbn in Hn; tauto]). discriminate.
Qed.

Lemma split_hash_none s : split_hash s = None <-> ~ In 35 s.
Proof.
  induction s as [|c s IH]; cbn [split_hash In]; [tauto|].
  destruct (N.eqb_spec c 35) as [->|Hc]; [split; [discriminate|tauto]|].
  destruct (split_hash s) as [[a b]|]; [split; [discriminate|]|].
  - intros H. exfalso. apply H. right. destruct IH as [_ IH]. destruct (in_dec N.eq_dec 35 s); [assumption|].
    specialize (IH n). discriminate.
  - destruct IH as [IH _]. specialize (IH eq_refl). split; [intros _ [E|E]; congruence|reflexivity].
Qed.

(** The stored target of a link text: unchanged if it already holds escapes the
    library recognises, percent-escaped otherwise. *)
Definition stored_target (s : str) : str := if is_escaped s then s else escape_url s.

Lemma str_contains_app w a b : str_contains w (a ++ w ++ b) = true.
Proof.
  induction a as [|c a IH].
  - cbn [app]. assert (starts_with w (w ++ b) = true) by (apply starts_with_true; eauto).
    destruct (w ++ b); cbn [str_contains]; rewrite H; reflexivity.
  - cbn [app str_contains]. rewrite IH. apply orb_true_r.
Qed.

Lemma match_url_code c e : match_url_char c = Some e -> In e escape_codes.
Proof.
  unfold match_url_char, escape_codes. intros H. cbn [In].
  repeat match type of H with context [if ?b then _ else _] => destruct b; [injection H as <-; tauto|] end.
  discriminate.
Qed.

Lemma escape_url_cases s : escape_url s = s \/ is_escaped (escape_url s) = true.
Proof.
  unfold escape_url. rewrite escape_string_chars.
  assert (H : escape_chars match_url_char s = s \/
              exists a e b, escape_chars match_url_char s = a ++ e ++ b /\ In e escape_codes).
  { induction s as [|c s IH]; cbn [escape_chars]; [auto|].
    destruct (match_url_char c) as [e|] eqn:E.
    - right. exists [], e, (escape_chars match_url_char s). split; [reflexivity|]. eapply match_url_code; eauto.
    - destruct IH as [->|(a & e & b & -> & He)]; [auto|]. right. exists (c :: a), e, b. auto. }
  destruct H as [H|(a & e & b & E & He)]; [auto|]. right. rewrite E. unfold is_escaped.
  assert (Hp : has_char 37 (a ++ e ++ b) = true).
  { unfold has_char. apply existsb_exists. exists 37. split; [|reflexivity]. rewrite !in_app_iff. right; left.
    unfold escape_codes in He. cbn [In] in He. repeat (destruct He as [<-|He]; [cbn; auto|]). destruct He. }
  rewrite Hp. cbn [negb]. apply existsb_exists. exists e. split; [assumption|]. apply str_contains_app.
Qed.

Lemma stored_target_stable s : stored_target (stored_target s) = stored_target s.
Proof.
  unfold stored_target. destruct (is_escaped s) eqn:E.
  - rewrite E. reflexivity.
  - destruct (escape_url_cases s) as [H|H].
    + rewrite H, E. assumption.
    + rewrite H. reflexivity.
Qed.

Lemma stored_target_decode s : is_escaped s = false -> percent_decode (stored_target s) = s.
Proof. intros H. unfold stored_target. rewrite H. apply percent_decode_escape_url. Qed.

Lemma replace_char_absent a w s : ~ In a s -> replace_char a w s = s.
Proof.
  unfold replace_char. induction s as [|c s IH]; cbn [flat_map In]; [reflexivity|]. intros H.
  destruct (N.eqb_spec c a) as [->|]; [tauto|]. cbn [app]. f_equal. apply IH. tauto.
Qed.

Lemma escape_url_no_hash s : ~ In 35 s -> ~ In 35 (escape_url s).
Proof.
  unfold escape_url. rewrite escape_string_chars. induction s as [|c s IH]; cbn [escape_chars In]; [tauto|].
  intros H. destruct (match_url_char c) as [e|] eqn:E.
  - rewrite in_app_iff. intros [Hi|Hi]; [|tauto]. apply match_url_code in E. unfold escape_codes in E. cbn [In] in E.
    repeat (destruct E as [<-|E]; [cbn in Hi; intuition lia|]). destruct E.
  - cbn [In]. intuition.
Qed.

Lemma stored_target_no_hash s : ~ In 35 s -> ~ In 35 (stored_target s).
Proof. unfold stored_target. destruct (is_escaped s); [auto|apply escape_url_no_hash]. Qed.

Definition is_web (l : str) : Prop :=
  exists p r, In p [lit "http://"; lit "https://"; lit "ftp://"; lit "ftps://"] /\ l = p ++ r.
Definition has_prefix (p : string) (l : str) : Prop := exists r, l = lit p ++ r.

Lemma web_test l : starts_with (lit "http://") l || starts_with (lit "https://") l
     || starts_with (lit "ftp://") l || starts_with (lit "ftps://") l = true <-> is_web l.
Proof.
  unfold is_web. rewrite !orb_true_iff, !starts_with_true. cbn [In]. split.
  - intros [[[[r ->]|[r ->]]|[r ->]]|[r ->]]; eexists _, r; (split; [|reflexivity]); tauto.
  - intros (p & r & [<-|[<-|[<-|[<-|[]]]]] & ->); eauto 6.
Qed.

Definition text_or (txt dflt : str) : str := match txt with [] => dflt | _ => txt end.

(** How a link is split at the first '#'. *)
Definition splits (l base anchor : str) : Prop :=
  (l = base /\ anchor = [] /\ ~ In 35 l) \/ (l = base ++ 35 :: anchor /\ ~ In 35 base).

Lemma set_anchor_split_splits l b a : set_anchor_split l = (b, a) -> splits l b (match a with Some a => a | None => [] end) .
Proof.
  unfold set_anchor_split. destruct (split_hash l) as [[x y]|] eqn:E; intros H; injection H as <- <-.
  - apply split_hash_some in E. right. tauto.
  - apply split_hash_none in E. left. auto.
Qed.

Lemma splits_no_hash l b a : splits l b a -> ~ In 35 b.
Proof. intros [(<- & _ & H)|(_ & H)]; assumption. Qed.

Lemma web_url_spec l txt tip : is_web l ->
  exists base frag, splits l base frag /\
  ((2080 < char_count base \/ 2080 < char_count frag) /\ initialize (url_new l txt tip false) = Err MaxUrlLengthExceeded
   \/ char_count base <= 2080 /\ char_count frag <= 2080 /\ 255 < char_count tip /\
      initialize (url_new l txt tip false) = Err UrlParameterError
   \/ char_count base <= 2080 /\ char_count frag <= 2080 /\ char_count tip <= 255 /\
      exists u, initialize (url_new l txt tip false) = Ok u /\ ltype u = LUrl /\ target_external u = true /\
        relationship_link u = stored_target base /\ anchor u = frag /\
        text u = text_or txt l /\ tool_tip u = tip).
Proof.
  intros H. apply web_test in H. unfold initialize, parse_url. cbn [link url_new]. rewrite H.
  destruct (set_anchor_split l) as [b a] eqn:E. apply set_anchor_split_splits in E.
  exists b. eexists. split; [exact E|].
  cbn [link anchor tool_tip text url_new is_object_link original_url rel_id].
  set (f := match a with Some _ => _ | None => _ end).
  unfold MAX_URL_LEN, MAX_PARAMETER_LEN.
  destruct (N.ltb_spec 2080 (char_count b)); [left; split; [left; assumption|reflexivity]|].
  destruct (N.ltb_spec 2080 (char_count f)); [left; split; [right; assumption|reflexivity]|].
  cbn [orb]. right. cbn [escape_strings tool_tip].
  destruct (N.ltb_spec 255 (char_count tip)); [left; auto|]. right. repeat split; try assumption.
  eexists. split; [reflexivity|]. cbn. repeat split.
  - unfold stored_target. destruct (is_escaped b); reflexivity.
  - destruct txt; reflexivity.
Qed.

Lemma file_url_spec l txt tip u : has_prefix "file://" l ->
  initialize (url_new l txt tip false) = Ok u ->
  exists path base, (path = replace_first (lit "file://") [] (replace_first (lit "file:///") [] l)) /\
    splits (if relative_path path then path else l) base (anchor u) /\
    relationship_link u = stored_target base /\ ltype u = LFile /\ text u = text_or txt path /\
    char_count base <= 2080 /\ char_count (anchor u) <= 2080.
Proof.
  intros [r ->]. unfold initialize, parse_url. cbn [link url_new].
  change (starts_with (lit "http://") (lit "file://" ++ r) || starts_with (lit "https://") (lit "file://" ++ r)
     || starts_with (lit "ftp://") (lit "file://" ++ r) || starts_with (lit "ftps://") (lit "file://" ++ r)) with false.
  change (starts_with (lit "mailto:") (lit "file://" ++ r)) with false.
  change (starts_with (lit "internal:") (lit "file://" ++ r)) with false.
  change (starts_with (lit "file://") (lit "file://" ++ r)) with true.
  cbn iota.
  set (l := lit "file://" ++ r). set (path := replace_first (lit "file://") [] (replace_first (lit "file:///") [] l)).
  destruct (set_anchor_split (if relative_path path then path else l)) as [b a] eqn:E.
  apply set_anchor_split_splits in E.
  cbn [link anchor tool_tip text url_new is_object_link original_url rel_id].
  unfold MAX_URL_LEN, MAX_PARAMETER_LEN.
  destruct (N.ltb_spec 2080 (char_count b)); [discriminate|]. cbn [orb].
  destruct (N.ltb_spec 2080 (char_count (match a with Some a0 => a0 | None => [] end))); [discriminate|].
  destruct (_ <? _); [discriminate|]. intros Eu; injection Eu as <-.
  exists path, b. split; [reflexivity|]. cbn [anchor escape_strings]. split; [exact E|].
  cbn [relationship_link escape_strings ltype link_type_eqb negb andb text].
  split.
  - assert (Hs : (if negb (is_escaped b) then escape_url b else b) = stored_target b)
      by (unfold stored_target; destruct (is_escaped b); reflexivity).
    rewrite Hs. apply replace_char_absent. apply stored_target_no_hash. eapply splits_no_hash; eauto.
  - repeat split; try assumption; destruct txt; reflexivity.
Qed.

Lemma strip_prefix_app p r : strip_prefix p (p ++ r) = Some r.
Proof. apply strip_prefix_some. reflexivity. Qed.

Lemma replace_first_prefix p q r : p <> [] -> replace_first p q (p ++ r) = q ++ r.
Proof.
  intros Hp. destruct p as [|c p]; [congruence|]. cbn [app replace_first].
  pose proof (strip_prefix_app (c :: p) r) as E. cbn [app] in E. rewrite E. reflexivity.
Qed.

Lemma internal_url_spec r txt tip u : initialize (url_new (lit "internal:" ++ r) txt tip false) = Ok u ->
  ltype u = LInternal /\ target_external u = false /\ anchor u = r /\ text u = text_or txt r /\ tool_tip u = tip /\
  relationship_link u = 35 :: r.
Proof.
  unfold initialize, parse_url. cbn [link url_new].
  change (starts_with (lit "http://") (lit "internal:" ++ r) || starts_with (lit "https://") (lit "internal:" ++ r)
     || starts_with (lit "ftp://") (lit "internal:" ++ r) || starts_with (lit "ftps://") (lit "internal:" ++ r)) with false.
  change (starts_with (lit "mailto:") (lit "internal:" ++ r)) with false.
  change (starts_with (lit "internal:") (lit "internal:" ++ r)) with true.
  cbn iota. rewrite !replace_first_prefix by discriminate.
  cbn [link anchor tool_tip text url_new is_object_link original_url rel_id].
  destruct (_ || _); [discriminate|]. destruct (_ <? _); [discriminate|]. intros E; injection E as <-.
  cbn. repeat split; destruct txt; reflexivity.
Qed.

Lemma mailto_url_spec r txt tip u : initialize (url_new (lit "mailto:" ++ r) txt tip false) = Ok u ->
  ltype u = LUrl /\ target_external u = true /\ anchor u = [] /\ text u = text_or txt r /\ tool_tip u = tip /\
  relationship_link u = stored_target (lit "mailto:" ++ r).
Proof.
  unfold initialize, parse_url. cbn [link url_new].
  change (starts_with (lit "http://") (lit "mailto:" ++ r) || starts_with (lit "https://") (lit "mailto:" ++ r)
     || starts_with (lit "ftp://") (lit "mailto:" ++ r) || starts_with (lit "ftps://") (lit "mailto:" ++ r)) with false.
  change (starts_with (lit "mailto:") (lit "mailto:" ++ r)) with true.
  cbn iota. rewrite !replace_first_prefix by discriminate.
  cbn [link anchor tool_tip text url_new is_object_link original_url rel_id relationship_link].
  destruct (_ || _); [discriminate|]. destruct (_ <? _); [discriminate|]. intros E; injection E as <-.
  cbn [ltype escape_strings target_external anchor text tool_tip relationship_link link_type_eqb negb andb app].
  repeat split; [destruct txt; reflexivity|]. unfold stored_target. destruct (is_escaped _); reflexivity.
Qed.

Lemma unknown_url_spec l txt tip obj :
  initialize (url_new l txt tip obj) = Err UnknownUrlType <->
  ~ is_web l /\ ~ has_prefix "mailto:" l /\ ~ has_prefix "internal:" l /\ ~ has_prefix "file://" l.
Proof.
  unfold has_prefix. rewrite <- web_test. rewrite <- !starts_with_true.
  unfold initialize, parse_url. cbn [link url_new].
  destruct (_ || _ || _ || _).
  { destruct (set_anchor_split l) as [b a]. destruct (_ || _); [split; [discriminate|tauto]|].
    destruct (_ <? _); split; try discriminate; tauto. }
  destruct (starts_with (lit "mailto:") l).
  { destruct (_ || _); [split; [discriminate|tauto]|]. destruct (_ <? _); split; try discriminate; tauto. }
  destruct (starts_with (lit "internal:") l).
  { destruct (_ || _); [split; [discriminate|tauto]|]. destruct (_ <? _); split; try discriminate; tauto. }
  destruct (starts_with (lit "file://") l).
  { destruct (set_anchor_split _) as [b a]. destruct (_ || _); [split; [discriminate|tauto]|].
    destruct (_ <? _); split; try discriminate; tauto. }
  split; [|reflexivity]. intros _. repeat split; discriminate.
Qed.
