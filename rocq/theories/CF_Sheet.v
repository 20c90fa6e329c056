(** Conditional formats: the calls on a sheet and what is written for them. *)
From Coq Require Import Sorted.
From Verif Require Import Base Book_Spec Book_Model Book_Proofs Book_Proofs2 F64 Ref_Model Ref_Spec Xml_Model Xml_Spec Xml_Proofs Xml_Read Xml_Read_Proofs Xml_Tree Fmt_Model Rich_Model Rich_Proofs Props_Rich
  Cells_Model SheetXml_Spec SheetXml_Proofs SheetXml_Proofs3 Doc_Spec Url_Model Formula_Model Doc_Model Props_Doc View_Model View_Spec Setup_Spec View_Hist Tag_Proofs Part_Proofs StrMap
  DV_Model DV_Spec DV_Proofs CF_Model CF_Spec CF_Build CF_Read CF_Asked CF_Read14.

Lemma first_cell_eq s : range_to_anchor s = first_cell s.
Proof.
  unfold range_to_anchor. induction s as [|c s IH]; [reflexivity|]. cbn [until first_cell]. destruct (c =? 32); [reflexivity|]. cbn [until orb]. destruct (c =? 58); [reflexivity|]. rewrite IH. reflexivity.
Qed.
(** ** Names *)
Lemma hex_pad_reads w n : hex_number 0 (hex_pad w n) = Some n.
Proof.
  unfold hex_pad. rewrite hex_number_app, hex_zeros. apply hex_loop_reads. rewrite Nat2N.inj_succ. apply N.lt_le_trans with (2 ^ N.of_nat (N.size_nat n)); [|apply N.pow_le_mono_r; lia].
  destruct n as [|p]; [reflexivity|]. pose proof (N.size_gt (N.pos p)) as S. cbn [N.size N.size_nat] in *.
  replace (N.of_nat (Pos.size_nat p)) with (N.pos (Pos.size p)); [exact S|]. clear. induction p as [p IH|p IH|]; cbn [Pos.size Pos.size_nat]; [| |reflexivity]; rewrite Nat2N.inj_succ, <- IH; lia.
Qed.
Lemma hex_loop_attr f : forall n acc, attr_ok acc -> attr_ok (hex_loop f n acc).
Proof.
  induction f as [|f IH]; intros n acc A; [exact A|]. cbn [hex_loop]. destruct (n =? 0); [exact A|]. apply IH. unfold attr_ok in *. cbn [forallb]. rewrite A, andb_true_r.
  assert (D : n mod 16 < 16) by (apply N.mod_lt; lia). generalize dependent (n mod 16). intros d D. assert (In d [0;1;2;3;4;5;6;7;8;9;10;11;12;13;14;15]) as Q by (cbn; lia). cbn in Q. repeat destruct Q as [<-|Q]; [reflexivity..|destruct Q].
Qed.
Lemma attr_app_ok a b : attr_ok a -> attr_ok b -> attr_ok (a ++ b). Proof. unfold attr_ok. intros A B. rewrite forallb_app, A, B. reflexivity. Qed.
Lemma hex_pad_attr w n : attr_ok (hex_pad w n).
Proof. unfold hex_pad. apply attr_app_ok; [|apply hex_loop_attr; reflexivity]. generalize (w - length (hex_loop (S (N.size_nat n)) n []))%nat. intros k. induction k; [reflexivity|exact IHk]. Qed.
Lemma guid_attr sheet k : attr_ok (guid_text sheet k).
Proof. unfold guid_text. apply attr_app_ok; [reflexivity|]. apply attr_app_ok; [apply hex_pad_attr|]. apply attr_app_ok; [reflexivity|]. apply attr_app_ok; [apply hex_pad_attr|reflexivity]. Qed.
Lemma guid_inj sheet k j : guid_text sheet k = guid_text sheet j -> k = j.
Proof.
  unfold guid_text. intros E. apply app_inv_head in E. apply app_inv_head in E. apply app_inv_head in E. apply app_inv_tail in E. pose proof (hex_pad_reads 12 k) as K. rewrite E, hex_pad_reads in K. congruence.
Qed.

Lemma hex_no_dash f : forall n acc, ~ In 45 acc -> ~ In 45 (hex_loop f n acc).
Proof.
  induction f as [|f IH]; intros n acc A; [exact A|]. cbn [hex_loop]. destruct (n =? 0); [exact A|]. apply IH. intros [H|H]; [|exact (A H)].
  assert (D : n mod 16 < 16) by (apply N.mod_lt; lia). generalize dependent (n mod 16). intros d Hd D. assert (In d [0;1;2;3;4;5;6;7;8;9;10;11;12;13;14;15]) as Q by (cbn; lia). cbn in Q. repeat destruct Q as [<-|Q]; [discriminate Hd..|destruct Q].
Qed.
Lemma hex_pad_no_dash w n : ~ In 45 (hex_pad w n).
Proof. unfold hex_pad. intros H. apply in_app_or in H as [H|H]; [apply repeat_spec in H; discriminate|]. revert H. apply hex_no_dash. intros []. Qed.
Lemma split_dash a b : forall a' b' : str, ~ In 45 a -> ~ In 45 a' -> a ++ 45 :: b = a' ++ 45 :: b' -> a = a' /\ b = b'.
Proof.
  induction a as [|x a IH]; intros [|y a'] b' Ha Ha' E; cbn [app] in E.
  - split; [reflexivity|congruence].
  - exfalso. apply Ha'. left. congruence.
  - exfalso. apply Ha. left. congruence.
  - destruct (IH a' b') as [-> ->]; [intros H; apply Ha; right; exact H|intros H; apply Ha'; right; exact H|congruence|]. split; [congruence|reflexivity].
Qed.
(** The identifiers of two sheets differ, too. *)
Lemma guid_all_inj sheet sheet' k j : guid_text sheet k = guid_text sheet' j -> sheet = sheet' /\ k = j.
Proof.
  unfold guid_text. intros E. apply app_inv_head in E. apply split_dash in E as [E1 E2]; [|apply hex_pad_no_dash..].
  apply app_inv_tail in E2. pose proof (hex_pad_reads 12 k) as K. rewrite E2, hex_pad_reads in K.
  pose proof (hex_pad_reads 4 (sheet + 1)) as S. rewrite E1, hex_pad_reads in S. assert (sheet' + 1 = sheet + 1) by congruence. split; [lia|congruence].
Qed.

(** ** Ranges in the order they were first given *)
Lemma existsb_app_one {A} (f : A -> bool) l x : existsb f (l ++ [x]) = existsb f l || f x.
Proof. rewrite existsb_app. cbn [existsb]. rewrite orb_false_r. reflexivity. Qed.
Lemma firsts_snoc l t : forall before, firsts before (l ++ [t]) = firsts before l ++ (if existsb (str_eqb t) (before ++ l) then [] else [t]).
Proof.
  induction l as [|u l IH]; intros before; cbn [app firsts].
  - rewrite app_nil_r. destruct (existsb (str_eqb t) before); reflexivity.
  - destruct (existsb (str_eqb u) before) eqn:E.
    + rewrite IH. do 2 f_equal. rewrite !existsb_app. cbn [existsb]. destruct (str_eqb t u) eqn:T; [|reflexivity]. apply str_eqb_eq in T. subst u. rewrite E. reflexivity.
    + cbn [app]. rewrite IH. apply f_equal. apply f_equal. assert (Q : existsb (str_eqb t) ((u :: before) ++ l) = existsb (str_eqb t) (before ++ u :: l)); [|rewrite Q; reflexivity].
      rewrite (existsb_app _ before). change ((u :: before) ++ l) with (u :: (before ++ l)). cbn [existsb]. rewrite existsb_app. destruct (existsb (str_eqb t) before), (str_eqb t u); reflexivity.
Qed.
Lemma firsts_in l t : forall before, In t (firsts before l) <-> In t l /\ existsb (str_eqb t) before = false.
Proof.
  induction l as [|u l IH]; intros before; [cbn; tauto|]. cbn [firsts]. destruct (existsb (str_eqb u) before) eqn:E.
  - rewrite IH. cbn [In]. split; [tauto|]. intros [[->|H] F]; [congruence|tauto].
  - cbn [In]. rewrite IH. cbn [existsb]. destruct (str_eqb t u) eqn:T.
    + apply str_eqb_eq in T. subst u. cbn [orb]. intuition congruence.
    + cbn [orb]. assert (u <> t) by (intros ->; rewrite str_eqb_refl in T; discriminate). tauto.
Qed.
Lemma firsts_nodup l : forall before, NoDup (firsts before l).
Proof.
  induction l as [|u l IH]; intros before; [constructor|]. cbn [firsts]. destruct (existsb (str_eqb u) before); [apply IH|]. constructor; [|apply IH].
  intros H. apply firsts_in in H as [_ H]. cbn [existsb] in H. rewrite str_eqb_refl in H. discriminate.
Qed.
Lemma in_existsb t l : existsb (str_eqb t) l = true <-> In t l.
Proof. rewrite existsb_exists. split; [intros (x & H & E); apply str_eqb_eq in E; subst; exact H|intros H; exists t; split; [exact H|apply str_eqb_refl]]. Qed.

Section Sheet.
  Variable num_text : f64 -> str.
  Variable beyond : str -> bool.
  Variable m : ovf.
  Hypothesis plain_numbers : forall x, forallb simple (num_text x) = true.
  Hypothesis percents_ok : usual_percents beyond.
  Notation stored := (fun s => fst (formula_new s)).
  Notation ok := (cf_op_ok stored).
  Notation rule := (cf_class * list cf_op)%type.
  Definition built (r : rule) : cf := cf_build num_text beyond (fst r) (snd r).
  Notation place := (placed num_text beyond stored (cell_range m)).
  Notation hext := (has_ext num_text beyond stored).
  Notation honly := (only_ext num_text beyond stored).
  Definition add_ok (a : cf_add) : Prop := Forall ok (snd (snd a)).

  Lemma build_valid k ops : Forall ok ops -> cf_valid (cf_build num_text beyond k ops) = match asked_rule num_text beyond stored k ops [] [] with Some _ => true | None => false end.
  Proof.
    intros F. unfold cf_valid. destruct k.
    - rewrite (body_cell num_text beyond ops F). cbn [asked_rule]. destruct (last_given of_cell None ops); reflexivity.
    - rewrite body_blank. cbn [asked_rule]. destruct (last_given of_inverted false ops); reflexivity.
    - rewrite body_error. cbn [asked_rule]. destruct (last_given of_inverted false ops); reflexivity.
    - rewrite body_duplicate. reflexivity.
    - rewrite body_formula. cbn [asked_rule]. destruct (last_given (of_expression stored) [] ops); reflexivity.
    - rewrite body_average. reflexivity.
    - rewrite body_top. cbn [asked_rule]. destruct (last_given of_top (Top 10) ops); match goal with |- context [if ?b then _ else _] => destruct b; reflexivity end.
    - rewrite body_text. cbn [asked_rule]. destruct (last_given of_text None ops) as [r|]; [destruct r; reflexivity|reflexivity].
    - rewrite body_date. reflexivity.
    - destruct (scale2_fields num_text beyond ops) as (s & -> & _). reflexivity.
    - destruct (scale3_fields num_text beyond ops) as (s & -> & _). reflexivity.
    - destruct (bar_fields num_text beyond ops) as (b & -> & _). reflexivity.
    - destruct (icons_fields num_text beyond ops percents_ok) as (i & -> & E1 & E2 & E3 & E4 & E5). rewrite E1. cbn [asked_rule]. rewrite <- E5, map_length, <- set_size_eq.
      destruct (Nat.eqb_spec (length (is_icons i)) (icon_count (want_set ops))) as [L|L], (N.eqb_spec (N.of_nat (length (is_icons i))) (N.of_nat (icon_count (want_set ops)))); try lia; reflexivity.
  Qed.

  (** The calls in turn; [None]: a panic. *)
  Fixpoint cf_run (s : cf_state) (adds : list cf_add) : option (cf_state * list bool) :=
    match adds with
    | [] => Some (s, [])
    | ((fr, fc, (lr, lc)), r) :: rest =>
        p <- add_conditional_format m s fr fc lr lc (built r) ;; q <- cf_run (fst p) rest ;; Some (fst q, snd p :: snd q)
    end.
  Definition of_text_ (t : str) (l : list (str * rule)) : list (str * rule) := filter (fun p => str_eqb (fst p) t) l.
  Record inv (s : cf_state) (l : list (str * rule)) : Prop := {
    i_order : fs_order s = firsts [] (map fst l);
    i_sorted : sm_ok (fs_map s);
    i_get : forall t, sm_get t (fs_map s) = match of_text_ t l with [] => None | g => Some (map built (map snd g)) end;
    i_classic : fs_classic s = existsb (fun p => negb (honly (snd p))) l;
    i_x14 : fs_x14 s = existsb (fun p => hext (snd p)) l;
    i_texts : Forall (fun p => attr_ok (fst p) /\ Forall ok (snd (snd p)) /\ cf_valid (built (snd p)) = true) l }.
  Lemma inv_start : inv cf_start [].
  Proof. constructor; try reflexivity; constructor. Qed.
  Lemma text_in t l : of_text_ t l = [] <-> ~ In t (map fst l).
  Proof.
    unfold of_text_. induction l as [|[u r] l IH]; [cbn; tauto|]. cbn [filter map fst In]. destruct (str_eqb u t) eqn:E.
    - apply str_eqb_eq in E. split; [discriminate|intros H; destruct H; left; exact E].
    - rewrite IH. assert (u <> t) by (intros ->; rewrite str_eqb_refl in E; discriminate). tauto.
  Qed.
  Lemma step_inv s l a : inv s l -> add_ok a ->
    exists t, (let '(fr, fc, (lr, lc)) := fst a in add_conditional_format m s fr fc lr lc (built (snd a))) = Some (t, negb (accepted num_text beyond stored a)) /\ inv t (l ++ place [a]).
  Proof.
    intros S O. destruct a as [[[fr fc] [lr lc]] [k ops]]. unfold add_ok in O. cbn [fst snd] in *. unfold add_conditional_format, placed. cbn [flat_map].
    assert (V : cf_valid (built (k, ops)) = match asked_rule num_text beyond stored k ops [] [] with Some _ => true | None => false end) by (apply build_valid; exact O).
    unfold accepted, proper_range. cbn [fst snd]. rewrite <- V. change check_dimensions_only with on_grid.
    assert (Stay : inv s (l ++ [])) by (rewrite app_nil_r; exact S).
    destruct (on_grid fr fc) eqn:A, (on_grid lr lc) eqn:C; cbn [negb orb andb]; try (exists s; split; [reflexivity|exact Stay]).
    destruct (N.ltb_spec lr fr), (N.leb_spec fr lr); try lia; cbn [orb andb]; [exists s; split; [reflexivity|exact Stay]|].
    destruct (N.ltb_spec lc fc), (N.leb_spec fc lc); try lia; cbn [orb andb]; [exists s; split; [reflexivity|exact Stay]|].
    apply on_grid_lt in A as [A1 A2]. apply on_grid_lt in C as [C1 C2]. destruct (range_text m fr fc lr lc A1 A2 C1 C2) as (u & Eu & Au & _ & _). rewrite Eu. cbn [obind].
    destruct (cf_valid (built (k, ops))) eqn:Va; cbn [negb andb]; [|exists s; split; [reflexivity|exact Stay]].
    set (key := if given (cf_multi (built (k, ops))) then cf_multi (built (k, ops)) else u).
    assert (Kt : ranges (cell_range m) ((fr, fc, (lr, lc)), (k, ops)) = Some key).
    { unfold ranges. unfold key, built. cbn [fst snd]. rewrite build_multi, Eu. destruct (last_given of_multi_range [] ops); reflexivity. }
    assert (Ka : attr_ok key) by (unfold key; destruct (given _); [apply multi_attr; exact O|exact Au]).
    rewrite Kt. cbn [app]. destruct S as [i_order0 i_sorted0 i_get0 i_classic0 i_x16 i_texts0].
    assert (Or : firsts [] (map fst (l ++ [(key, (k, ops))])) = fs_order s ++ (if existsb (str_eqb key) (map fst l) then [] else [key])).
    { rewrite map_app. cbn [map fst]. rewrite firsts_snoc, i_order0. reflexivity. }
    assert (Ge : forall t rules, map built (map snd (of_text_ key l)) = rules -> sm_get t (sm_ins key (rules ++ [built (k, ops)]) (fs_map s)) =
      match of_text_ t (l ++ [(key, (k, ops))]) with [] => None | g => Some (map built (map snd g)) end).
    { intros t rules <-. rewrite sm_get_ins. unfold of_text_ at 2. rewrite filter_app. fold (of_text_ t l). cbn [filter fst]. destruct (str_eqb key t) eqn:E; [|rewrite app_nil_r; apply i_get0].
      apply str_eqb_eq in E. subst t. destruct (of_text_ key l ++ [(key, (k, ops))]) eqn:Q; [destruct (of_text_ key l); discriminate|]. rewrite <- Q, !map_app. reflexivity. }
    rewrite (i_get0 key). destruct (of_text_ key l) as [|p g] eqn:Eg.
    - eexists. split; [reflexivity|]. constructor; cbn [fs_map fs_order fs_classic fs_x14].
      + rewrite Or. assert (Q : existsb (str_eqb key) (map fst l) = false).
        { destruct (existsb (str_eqb key) (map fst l)) eqn:Q; [|reflexivity]. apply in_existsb in Q. apply text_in in Eg. contradiction. }
        rewrite Q. reflexivity.
      + apply sm_ins_ok. assumption.
      + intros t. exact (Ge t [] eq_refl).
      + rewrite existsb_app_one, i_classic0. cbn [snd]. unfold honly, built. cbn [fst snd]. rewrite build_only. reflexivity.
      + rewrite existsb_app_one, i_x16. cbn [snd]. unfold hext, built. cbn [fst snd]. rewrite build_x14. reflexivity.
      + apply Forall_app. split; [assumption|]. constructor; [|constructor]. cbn [fst snd]. repeat split; assumption.
    - eexists. split; [reflexivity|]. constructor; cbn [fs_map fs_order fs_classic fs_x14].
      + rewrite Or. assert (Q : existsb (str_eqb key) (map fst l) = true).
        { apply in_existsb. destruct (in_dec (list_eq_dec N.eq_dec) key (map fst l)) as [H'|H']; [exact H'|]. apply text_in in H'. congruence. }
        rewrite Q, app_nil_r. reflexivity.
      + apply sm_ins_ok. assumption.
      + intros t. exact (Ge t _ eq_refl).
      + rewrite existsb_app_one, i_classic0. cbn [snd]. unfold honly, built. cbn [fst snd]. rewrite build_only. reflexivity.
      + rewrite existsb_app_one, i_x16. cbn [snd]. unfold hext, built. cbn [fst snd]. rewrite build_x14. reflexivity.
      + apply Forall_app. split; [assumption|]. constructor; [|constructor]. cbn [fst snd]. repeat split; assumption.
  Qed.
  Lemma place_cons a adds : place (a :: adds) = place [a] ++ place adds.
  Proof. unfold placed. cbn [flat_map]. rewrite app_nil_r. reflexivity. Qed.
  Lemma run_inv adds : Forall add_ok adds -> forall s l, inv s l -> exists t, cf_run s adds = Some (t, map (fun a => negb (accepted num_text beyond stored a)) adds) /\ inv t (l ++ place adds).
  Proof.
    induction 1 as [|a r O F IH]; intros s l S; [exists s; split; [reflexivity|rewrite app_nil_r; exact S]|].
    destruct (step_inv s l a S O) as (t & E & St). cbn [cf_run map]. destruct a as [[[fr fc] [lr lc]] ru]. cbn [fst snd] in E. rewrite E. cbn [obind fst snd].
    destruct (IH t _ St) as (u & Eu & Su). rewrite Eu. exists u. split; [reflexivity|]. rewrite place_cons, app_assoc. exact Su.
  Qed.

  (** ** The rules of a range *)
  Notation asked r a id := (asked_rule num_text beyond stored (fst r) (snd r) a id).
  Notation sure r := (Forall ok (snd r) /\ cf_valid (built r) = true).
  Notation plain_texts r := (Forall easy (snd r)).
  Lemma x14_built r : cf_x14 (built r) = hext r. Proof. apply build_x14. Qed.
  Lemma only_built r : cf_only (built r) = honly r. Proof. apply build_only. Qed.
  Lemma shown_id c a id : cf_x14 c = false -> shown c a id = shown c a []. Proof. intros E. unfold shown. rewrite E. reflexivity. Qed.
  Lemma built_says r a id : sure r -> plain_texts r -> asked r a id = Some (shown (built r) a id).
  Proof. intros [O V] E. unfold built in *. rewrite <- (build_says num_text beyond (fst r) (snd r) a id percents_ok O E), V. reflexivity. Qed.
  Lemma guid_doc sheet k : doc_text (guid_text sheet k). Proof. apply attr_doc, guid_attr. Qed.
  Notation wrules sheet := (wanted_rules num_text beyond stored (guid_text sheet)).
  Lemma classic_rules_read sheet t : attr_ok t -> forall rs k p, Forall (fun r => sure r /\ plain_texts r) rs -> exists xs,
    classic_rules sheet t k p (map built rs) = (xs, k + N.of_nat (length (filter hext rs)), p + N.of_nat (length rs)) /\
    Forall (fun x => wx_ok x /\ tag_of x = lit "cfRule") xs /\ read_all read_rule (map node_of xs) = Some (wrules sheet t (number_rules hext p k rs)).
  Proof.
    intros At. induction rs as [|r rs IH]; intros k p F.
    - exists []. cbn. rewrite !N.add_0_r. split; [reflexivity|]. split; [constructor|reflexivity].
    - inversion_clear F as [|r0 rs0 [Sr Er] Fr]. cbn [map classic_rules]. rewrite x14_built, only_built. destruct (IH (if hext r then k + 1 else k) (p + 1) Fr) as (xs & E & W & R). rewrite E. clear IH E.
      assert (Cn : forall y, (y, (if hext r then k + 1 else k) + N.of_nat (length (filter hext rs)), p + 1 + N.of_nat (length rs)) = (y : list wx, k + N.of_nat (length (filter hext (r :: rs))), p + N.of_nat (length (r :: rs)))).
      { intros y. cbn [filter length]. destruct (hext r); cbn [length]; rewrite ?Nat2N.inj_succ; (apply f_equal2; [apply f_equal2; [reflexivity|lia]|lia]). }
      rewrite Cn. clear Cn. unfold wanted_rules. cbn [number_rules flat_map]. destruct (honly r); cbn [negb app].
      + exists xs. split; [reflexivity|]. split; [exact W|exact R].
      + destruct (cf_rule_reads (built r) p t (if hext r then guid_text sheet k else [])) as (x & Ex & Wx & Tx & Rx).
        { apply Sr. } { apply build_ok; [exact plain_numbers|exact percents_ok|apply Sr]. } { exact At. } { destruct (hext r); [apply guid_doc|reflexivity]. }
        exists (x :: xs). rewrite Ex. cbn [app]. split; [reflexivity|]. split; [constructor; [split; assumption|exact W]|]. cbn [map read_all]. rewrite Rx, R. cbn [bind].
        rewrite (built_says r _ _ Sr Er), first_cell_eq. destruct (hext r) eqn:X; [reflexivity|]. rewrite (shown_id _ _ (guid_text sheet k)); [reflexivity|]. rewrite x14_built. exact X.
  Qed.
  Definition group_sure (g : str * list rule) : Prop := attr_ok (fst g) /\ Forall (fun r => sure r /\ plain_texts r) (snd g).
  Notation wgroups sheet := (wanted_group num_text beyond stored (guid_text sheet)).
  Lemma number_snd {A} (e : A -> bool) l : forall n k, map snd (number_rules e n k l) = l.
  Proof. induction l as [|x l IH]; intros n k; [reflexivity|]. cbn [number_rules map snd]. rewrite IH. reflexivity. Qed.
  Lemma forallb_snd {A} (f : A -> bool) e l n k : forallb (fun x => f (snd x)) (number_rules e n k l) = forallb f l.
  Proof. rewrite <- (number_snd e l n k) at 2. induction (number_rules e n k l) as [|x r IH]; [reflexivity|]. cbn [forallb map]. rewrite IH. reflexivity. Qed.
  Lemma existsb_snd {A} (f : A -> bool) e l n k : existsb (fun x => f (snd x)) (number_rules e n k l) = existsb f l.
  Proof. rewrite <- (number_snd e l n k) at 2. induction (number_rules e n k l) as [|x r IH]; [reflexivity|]. cbn [existsb map]. rewrite IH. reflexivity. Qed.
  Lemma forallb_built rs : forallb cf_only (map built rs) = forallb honly rs.
  Proof. induction rs as [|r rs IH]; [reflexivity|]. cbn [map forallb]. rewrite only_built, IH. reflexivity. Qed.
  Lemma existsb_built rs : existsb cf_x14 (map built rs) = existsb hext rs.
  Proof. induction rs as [|r rs IH]; [reflexivity|]. cbn [map existsb]. rewrite x14_built, IH. reflexivity. Qed.
  Lemma wrules_none sheet t n k rs : forallb honly rs = true -> wrules sheet t (number_rules hext n k rs) = [].
  Proof.
    revert n k. induction rs as [|r rs IH]; intros n k; [reflexivity|]. cbn [forallb number_rules]. intros H. apply andb_prop in H as [H1 H2]. unfold wanted_rules. cbn [flat_map]. rewrite H1. exact (IH _ _ H2).
  Qed.
  Lemma classic_xml_read sheet s gs : Forall group_sure gs -> (forall g, In g gs -> sm_get (fst g) s = Some (map built (snd g))) -> forall k p, exists xs,
    classic_xml sheet k p s (map fst gs) = Some xs /\ Forall wx_ok xs /\ tagged "conditionalFormatting" xs /\
    read_all read_format (map node_of xs) = Some (flat_map (wgroups sheet) (number_groups hext p k gs)).
  Proof.
    intros F. induction F as [|[t rs] gs [At Fr] Fg IH]; intros G k p; [exists []; repeat split; constructor|]. cbn [fst snd map classic_xml] in *. pose proof (G (t, rs) (or_introl eq_refl)) as G0. cbn [fst snd] in G0. rewrite G0. cbn [obind].
    destruct (classic_rules_read sheet t At rs k p Fr) as (l & E & W & R). rewrite E. clear E. destruct (IH (fun g H => G g (or_intror H)) (k + N.of_nat (length (filter hext rs))) (p + N.of_nat (length rs))) as (xs & Ex & Wx & Tx & Rx).
    rewrite Ex. cbn [obind]. rewrite forallb_built. cbn [number_groups flat_map]. unfold wanted_group at 1. cbn [fst snd]. rewrite forallb_snd. destruct (forallb honly rs) eqn:O.
    - rewrite (wrules_none sheet t p k rs O) in R. destruct l as [|x l]; [|cbn [map read_all] in R; destruct (read_rule (node_of x)); [|discriminate]; cbn [bind] in R; destruct (read_all read_rule (map node_of l)); discriminate].
      exists xs. split; [reflexivity|]. repeat split; assumption.
    - exists (WElem (lit "conditionalFormatting") [(lit "sqref", t)] l :: xs). cbn [app]. split; [reflexivity|]. split; [|split; [constructor; [reflexivity|exact Tx]|]].
      + constructor; [|exact Wx]. apply wx_ok_elem. split; [reflexivity|]. split; [good|]. eapply Forall_impl; [|exact W]. intros x [H _]. exact H.
      + cbn [map read_all]. unfold read_format at 1. cbn [node_of attrs_of kids_of]. rewrite attr_cons. cbn [String.eqb Ascii.eqb Bool.eqb bind]. rewrite R. cbn [bind]. rewrite Rx. reflexivity.
  Qed.

  (** ** The state after the calls *)
  Lemma groups_fst {A} (l : list (str * A)) : map fst (groups_of l) = firsts [] (map fst l).
  Proof. unfold groups_of. rewrite map_map. cbn [fst]. apply map_id. Qed.
  Lemma state_groups s l : inv s l -> Forall (fun p => plain_texts (snd p)) l ->
    Forall group_sure (groups_of l) /\ (forall g, In g (groups_of l) -> sm_get (fst g) (fs_map s) = Some (map built (snd g))) /\ fs_order s = map fst (groups_of l).
  Proof.
    intros S E. destruct S as [So Ss Sg Sc Sx St]. split; [|split].
    - apply Forall_forall. intros g Hg. apply in_map_iff in Hg as (t & <- & Ht). apply firsts_in in Ht as [Ht _]. apply in_map_iff in Ht as ([u r] & Eu & Hin). cbn [fst] in Eu. subst u. rewrite Forall_forall in St, E. split.
      + apply (St _ Hin).
      + apply Forall_forall. intros q Hq. cbn [snd] in Hq. apply in_map_iff in Hq as (x & <- & Hx). apply filter_In in Hx as [Hx _]. destruct (St x Hx) as (_ & O & V). split; [split; assumption|apply E; exact Hx].
    - intros g Hg. apply in_map_iff in Hg as (t & <- & Ht). cbn [fst snd]. rewrite Sg. fold (of_text_ t l). apply firsts_in in Ht as [Ht _]. destruct (of_text_ t l) eqn:Q; [|reflexivity]. apply text_in in Q. contradiction.
    - rewrite groups_fst. exact So.
  Qed.
  Lemma no_classic_none l : existsb (fun p => negb (honly (snd p))) l = false -> forall sheet n k, flat_map (wgroups sheet) (number_groups hext n k (groups_of l)) = [].
  Proof.
    intros H sheet. assert (G : Forall (fun g => forallb honly (snd g) = true) (groups_of l)).
    { apply Forall_forall. intros g Hg. apply in_map_iff in Hg as (t & <- & _). cbn [snd]. apply forallb_forall. intros r Hr. apply in_map_iff in Hr as (x & <- & Hx). apply filter_In in Hx as [Hx _].
      destruct (honly (snd x)) eqn:Q; [reflexivity|]. assert (X : existsb (fun p => negb (honly (snd p))) l = true) by (apply existsb_exists; exists x; rewrite Q; split; [exact Hx|reflexivity]). congruence. }
    induction G as [|[t rs] gs Hg G IH]; intros n k; [reflexivity|]. cbn [number_groups flat_map]. unfold wanted_group at 1. cbn [fst snd] in *. rewrite forallb_snd, Hg. apply IH.
  Qed.
  Lemma formats_read sheet s l : inv s l -> Forall (fun p => plain_texts (snd p)) l -> exists xs,
    formats_xml sheet s = Some xs /\ Forall wx_ok xs /\ tagged "conditionalFormatting" xs /\
    read_all read_format (map node_of xs) = Some (flat_map (wgroups sheet) (number_groups hext 1 1 (groups_of l))).
  Proof.
    intros S E. destruct (state_groups s l S E) as (F & G & O). unfold formats_xml. destruct (fs_classic s) eqn:C.
    - rewrite O. apply classic_xml_read; assumption.
    - exists []. split; [reflexivity|]. split; [constructor|]. split; [constructor|]. rewrite (i_classic s l S) in C. rewrite (no_classic_none l C sheet 1 1). reflexivity.
  Qed.

  (** ** The extensions *)
  Notation asked_x r := (asked14 num_text beyond stored (fst r) (snd r)).
  Notation wrule14 sheet := (wanted_rule14 num_text beyond stored (guid_text sheet)).
  Notation wgroup14 sheet := (wanted_group14 num_text beyond stored (guid_text sheet)).
  Notation kept := (kept14 num_text beyond stored).
  Lemma shown_icons l : Forall (fun w => w_greater w = false /\ match fst (w_point w) with TyNumber | TyPercent | TyFormula | TyPercentile => True | _ => False end) (map want_of l) ->
    flat_map thresholds l = map (fun i => (lit (point_name (fst (w_point i))), snd (w_point i), w_greater i)) (map want_of l).
  Proof.
    induction l as [|i l IH]; [reflexivity|]. cbn [map flat_map]. intros F. inversion F as [|w ws [G T] Fl]; subst. rewrite (IH Fl). rewrite G. unfold thresholds. unfold want_of in *. cbn [w_point w_greater fst snd] in *.
    destruct (ic_type i); try (exfalso; exact T); reflexivity.
  Qed.
  Lemma shown_x r n : Forall ok (snd r) -> kept r ->
    shown14 (built r) n = match asked_x r with Some b => Some (match fst r with KIcons => Some n | _ => None end, match fst r with KIcons => last_given of_stop false (snd r) | _ => false end, b) | None => None end.
  Proof.
    destruct r as [k ops]. cbn [fst snd]. intros F K. unfold shown14, built. cbn [fst snd]. destruct k; cbn [asked14].
    - rewrite (body_cell num_text beyond ops F). reflexivity.
    - rewrite body_blank. reflexivity.
    - rewrite body_error. reflexivity.
    - rewrite body_duplicate. reflexivity.
    - rewrite body_formula. reflexivity.
    - rewrite body_average. reflexivity.
    - rewrite body_top. reflexivity.
    - rewrite body_text. reflexivity.
    - rewrite body_date. reflexivity.
    - destruct (scale2_fields num_text beyond ops) as (s & -> & _). reflexivity.
    - destruct (scale3_fields num_text beyond ops) as (s & -> & _). reflexivity.
    - destruct (bar_fields num_text beyond ops) as (b & -> & E1 & E2 & E3 & E4 & E5 & E6 & E7 & E8 & E9 & E10 & E11 & E12). unfold kept14 in K. cbn [fst snd] in K. unfold bar14. rewrite <- E3, <- E4, <- E6 in K. rewrite <- E1, <- E2, <- E3, <- E4, <- E5, <- E6, <- E7, <- E8, <- E9, <- E11, <- E12.
      clear E1 E2 E3 E4 E5 E6 E7 E8 E9 E10 E11 E12. apply f_equal. apply f_equal. f_equal.
      destruct (ba_off b); [reflexivity|]. destruct (color_eq_dec (ba_fill b) (ba_nborder b)) as [Q|Q]; [|reflexivity]. rewrite (K (eq_sym Q)). reflexivity.
    - destruct (icons_fields num_text beyond ops percents_ok) as (i & -> & E1 & E2 & E3 & E4 & E5). destruct K as (K1 & K2 & K3 & K4). cbn [fst snd] in *. rewrite K1, K2, K3, <- E5, <- E1, <- E4 in *. unfold icons14. rewrite (shown_icons _ K4). reflexivity.
  Qed.
  Lemma x14_rules_read sheet : forall rs k p, Forall (fun r => Forall ok (snd r) /\ (hext r = true -> kept r)) rs -> exists xs,
    x14_rules sheet k p (map built rs) = (xs, k + N.of_nat (length (filter hext rs)), p + N.of_nat (length rs)) /\
    Forall (fun x => wx_ok x /\ tag_of x = lit "x14:cfRule") xs /\ read_all read_rule14 (map node_of xs) = Some (flat_map (wrule14 sheet) (number_rules hext p k rs)).
  Proof.
    induction rs as [|r rs IH]; intros k p F.
    - exists []. cbn. rewrite !N.add_0_r. split; [reflexivity|]. split; [constructor|reflexivity].
    - inversion_clear F as [|r0 rs0 [Or Kr] Fr]. cbn [map x14_rules]. rewrite x14_built. destruct (IH (if hext r then k + 1 else k) (p + 1) Fr) as (xs & E & W & R). rewrite E. clear IH E.
      assert (Cn : forall y, (y, (if hext r then k + 1 else k) + N.of_nat (length (filter hext rs)), p + 1 + N.of_nat (length rs)) = (y : list wx, k + N.of_nat (length (filter hext (r :: rs))), p + N.of_nat (length (r :: rs)))).
      { intros y. cbn [filter length]. destruct (hext r); cbn [length]; rewrite ?Nat2N.inj_succ; (apply f_equal2; [apply f_equal2; [reflexivity|lia]|lia]). }
      rewrite Cn. clear Cn. cbn [number_rules flat_map]. unfold wanted_rule14 at 1. destruct (hext r); cbn [app].
      + pose proof (x14_rule_reads (built r) p (guid_text sheet k) (build_ok num_text beyond plain_numbers (fst r) (snd r) percents_ok Or) (guid_attr sheet k)) as X. rewrite (shown_x r p Or (Kr eq_refl)) in X.
        destruct (asked_x r) as [b|].
        * destruct X as (x & Ex & Wx & Tx & Rx). exists (x :: xs). rewrite Ex. cbn [app]. split; [reflexivity|]. split; [constructor; [split; assumption|exact W]|]. cbn [map read_all]. rewrite Rx, R. reflexivity.
        * rewrite X. exists xs. split; [reflexivity|]. split; assumption.
      + exists xs. split; [reflexivity|]. split; assumption.
  Qed.
  Notation group_kept := (fun g : str * list rule => attr_ok (fst g) /\ Forall (fun r => Forall ok (snd r) /\ (hext r = true -> kept r)) (snd g)).
  Notation drop e := (fst e, (snd (fst (snd e)), snd (snd e))).
  Lemma wrule14_unranked sheet rs : forall n p k, map (fun e => drop e) (flat_map (wrule14 sheet) (number_rules hext n k rs)) = map (fun e => drop e) (flat_map (wrule14 sheet) (number_rules hext p k rs)).
  Proof.
    induction rs as [|r rs IH]; intros n p k; [reflexivity|]. cbn [number_rules flat_map]. rewrite !map_app, (IH (n + 1) (p + 1)). apply f_equal2; [|reflexivity]. unfold wanted_rule14. destruct (hext r); [|reflexivity]. destruct (asked_x r); reflexivity.
  Qed.
  Lemma x14_xml_read sheet : forall gs, Forall group_kept gs -> forall k p n, exists out,
    Forall wx_ok (x14_xml sheet k p (map (fun g => (fst g, map built (snd g))) gs)) /\
    read_all read_format14 (map node_of (x14_xml sheet k p (map (fun g => (fst g, map built (snd g))) gs))) = Some out /\
    unranked out = unranked (flat_map (wgroup14 sheet) (number_groups hext n k gs)) /\
    (n = p -> Forall (fun g => existsb hext (snd g) = true) gs -> out = flat_map (wgroup14 sheet) (number_groups hext n k gs)).
  Proof.
    induction 1 as [|[t rs] gs [At Fr] Fg IH]; intros k p n; [exists []; repeat split; constructor|]. cbn [fst snd map x14_xml number_groups flat_map] in *. rewrite existsb_built. unfold wanted_group14 at 1 3. cbn [fst snd]. rewrite existsb_snd. destruct (existsb hext rs) eqn:X; cbn [negb].
    - destruct (x14_rules_read sheet rs k p Fr) as (l & E & W & R). rewrite E. clear E. destruct (IH (k + N.of_nat (length (filter hext rs))) (p + N.of_nat (length rs)) (n + N.of_nat (length rs))) as (out & Wx & Rx & U & Q).
      assert (Dt : doc_text t) by (apply attr_doc; exact At).
      exists ((t, flat_map (wrule14 sheet) (number_rules hext p k rs)) :: out). split; [|split; [|split]].
      + constructor; [|exact Wx]. apply wx_ok_elem. split; [reflexivity|]. split; [good|]. apply Forall_app. split; [eapply Forall_impl; [|exact W]; intros x [H _]; exact H|]. constructor; [|constructor]. apply ok_data; [reflexivity|apply attrs_nil|exact Dt].
      + cbn [map read_all]. unfold read_format14 at 1. cbn [node_of kids_of]. rewrite map_app. cbn [map]. rewrite node_data by exact Dt. rewrite all_named_app.
        rewrite (named_where "x14:cfRule" l W). replace (all_named "x14:cfRule" [Elem (lit "xm:sqref") [] (leaf t)]) with (@nil node) by reflexivity. rewrite app_nil_r. unfold kid_text.
        assert (Kt : kid "xm:sqref" (map node_of l ++ [Elem (lit "xm:sqref") [] (leaf t)]) = Some (Elem (lit "xm:sqref") [] (leaf t))).
        { clear - W. induction W as [|x l [_ Tx] W IH]; [reflexivity|]. cbn [map app]. unfold kid in *. cbn [find]. rewrite is_elem_tag, Tx, str_eqb_lit. exact IH. }
        rewrite Kt, text_leaf. cbn [bind]. rewrite R. cbn [bind]. rewrite Rx. reflexivity.
      + cbn [app]. unfold unranked in *. cbn [map fst snd]. rewrite U, (wrule14_unranked sheet rs p n). reflexivity.
      + intros -> F. inversion F as [|g gs' _ Fgs]; subst. cbn [app]. rewrite <- (Q eq_refl Fgs). reflexivity.
    - assert (Fl : filter hext rs = []). { clear - X. induction rs as [|r rs IH]; [reflexivity|]. cbn [existsb] in X. apply orb_false_iff in X as [X1 X2]. cbn [filter]. rewrite X1. auto. }
      rewrite Fl. cbn [length app]. rewrite N.add_0_r. destruct (IH k p (n + N.of_nat (length rs))) as (out & Wx & Rx & U & Q). exists out. split; [exact Wx|]. split; [exact Rx|]. split; [exact U|].
      intros _ F. inversion F as [|g gs' C _]; subst. cbn [snd] in C. congruence.
  Qed.
  Lemma sorted_same : forall a b : list str, StronglySorted str_lt a -> StronglySorted str_lt b -> (forall x, In x a <-> In x b) -> a = b.
  Proof.
    induction a as [|x a IH]; intros b Sa Sb H.
    - destruct b as [|y b]; [reflexivity|]. destruct (proj2 (H y) (or_introl eq_refl)).
    - destruct b as [|y b]; [destruct (proj1 (H x) (or_introl eq_refl))|]. inversion Sa as [|? ? Sa' Fa]; subst. inversion Sb as [|? ? Sb' Fb]; subst. rewrite Forall_forall in Fa, Fb.
      assert (x = y) as ->.
      { destruct (proj1 (H x) (or_introl eq_refl)) as [E|E]; [symmetry; exact E|]. destruct (proj2 (H y) (or_introl eq_refl)) as [E'|E']; [exact E'|].
        destruct (str_lt_irrefl x). apply (str_lt_trans x y x); auto. }
      f_equal. apply IH; [assumption..|]. intros z. split; intros Hz.
      + destruct (proj1 (H z) (or_intror Hz)) as [<-|]; [|assumption]. destruct (str_lt_irrefl y). auto.
      + destruct (proj2 (H z) (or_intror Hz)) as [<-|]; [|assumption]. destruct (str_lt_irrefl y). auto.
  Qed.
  Lemma map_of_gets {V} (f : str -> V) : forall m0 : list (str * V), NoDup (map fst m0) -> (forall t, In t (map fst m0) -> sm_get t m0 = Some (f t)) -> m0 = map (fun t => (t, f t)) (map fst m0).
  Proof.
    intros m0 Nd H. assert (G : forall p, In p m0 -> snd p = f (fst p)).
    { intros [t v] Hp. pose proof (sm_in_get t v m0 Nd Hp) as E. rewrite (H t) in E by (apply (in_map fst) in Hp; exact Hp). cbn. congruence. }
    clear - G. induction m0 as [|[t v] r IH]; [reflexivity|]. cbn [map fst]. rewrite <- IH by (intros p Hp; apply G; right; exact Hp). pose proof (G (t, v) (or_introl eq_refl)) as Gv. cbn [fst snd] in Gv. rewrite <- Gv. reflexivity.
  Qed.
  Lemma state_map s l : inv s l -> StronglySorted str_lt (firsts [] (map fst l)) -> fs_map s = map (fun g => (fst g, map built (snd g))) (groups_of l).
  Proof.
    intros S Sf. destruct S as [So Ss Sg Sc Sx St]. assert (K : map fst (fs_map s) = firsts [] (map fst l)).
    { apply sorted_same; [exact Ss|exact Sf|]. intros t. rewrite firsts_in, <- sm_get_keys, Sg. cbn [existsb]. destruct (of_text_ t l) eqn:Q.
      - apply text_in in Q. split; [congruence|intros [H _]; contradiction].
      - split; [|discriminate]. intros _. split; [|reflexivity]. destruct (in_dec (list_eq_dec N.eq_dec) t (map fst l)) as [H'|H']; [exact H'|]. apply text_in in H'. congruence. }
    rewrite (map_of_gets (fun t => map built (map snd (of_text_ t l))) (fs_map s)).
    - rewrite K. unfold groups_of. rewrite map_map. reflexivity.
    - apply sm_nodup. exact Ss.
    - intros t Ht. rewrite Sg. rewrite K in Ht. apply firsts_in in Ht as [Ht _]. destruct (of_text_ t l) eqn:Q; [apply text_in in Q; contradiction|reflexivity].
  Qed.
  Lemma no_x14_none l : existsb (fun p => hext (snd p)) l = false -> forall sheet n k, flat_map (wgroup14 sheet) (number_groups hext n k (groups_of l)) = [].
  Proof.
    intros H sheet. assert (G : Forall (fun g => existsb hext (snd g) = false) (groups_of l)).
    { apply Forall_forall. intros g Hg. apply in_map_iff in Hg as (t & <- & _). cbn [snd]. destruct (existsb hext _) eqn:Q; [|reflexivity]. apply existsb_exists in Q as (r & Hr & Er). apply in_map_iff in Hr as (x & <- & Hx). apply filter_In in Hx as [Hx _].
      assert (X : existsb (fun p => hext (snd p)) l = true) by (apply existsb_exists; exists x; split; assumption). congruence. }
    induction G as [|[t rs] gs Hg G IH]; intros n k; [reflexivity|]. cbn [number_groups flat_map]. unfold wanted_group14 at 1. cbn [fst snd] in *. rewrite existsb_snd, Hg. apply IH.
  Qed.
  Lemma formats14_read sheet s l : inv s l -> StronglySorted str_lt (firsts [] (map fst l)) -> Forall (fun p => hext (snd p) = true -> kept (snd p)) l -> exists out,
    match x14_formats_xml sheet s with
    | None => out = []
    | Some xs => Forall wx_ok xs /\ read_all read_format14 (map node_of xs) = Some out
    end /\
    unranked out = unranked (flat_map (wgroup14 sheet) (number_groups hext 1 1 (groups_of l))) /\
    (Forall (fun g => existsb hext (snd g) = true) (groups_of l) -> out = flat_map (wgroup14 sheet) (number_groups hext 1 1 (groups_of l))).
  Proof.
    intros S Sf K. unfold x14_formats_xml. destruct (fs_x14 s) eqn:X.
    - rewrite (state_map s l S Sf). destruct (x14_xml_read sheet (groups_of l)) with (k := 1) (p := 1) (n := 1) as (out & W & R & U & Q).
      + destruct S as [So Ss Sg Sc Sx St]. apply Forall_forall. intros g Hg. apply in_map_iff in Hg as (t & <- & Ht). apply firsts_in in Ht as [Ht _]. apply in_map_iff in Ht as ([u r] & Eu & Hin). cbn [fst] in Eu. subst u. rewrite Forall_forall in St, K. split.
        * apply (St _ Hin).
        * apply Forall_forall. intros q Hq. cbn [snd] in Hq. apply in_map_iff in Hq as (x & <- & Hx). apply filter_In in Hx as [Hx _]. destruct (St x Hx) as (_ & O & V). split; [assumption|apply K; exact Hx].
      + exists out. split; [split; assumption|]. split; [exact U|exact (Q eq_refl)].
    - exists []. split; [reflexivity|]. rewrite (i_x14 s l S) in X. rewrite (no_x14_none l X sheet 1 1). split; reflexivity.
  Qed.
End Sheet.
