(** C64, C65: conditional formats. *)
From Coq Require Import Sorted.
From Verif Require Import Base Book_Spec Book_Model Book_Proofs2 F64 Ref_Model Ref_Spec Ref_Proofs Xml_Model Xml_Spec Xml_Proofs Xml_Read Xml_Read_Proofs Xml_Tree Fmt_Model Rich_Model Rich_Proofs
  Cells_Model SheetXml_Spec SheetXml_Proofs SheetXml_Proofs3 Doc_Spec Url_Model Formula_Model Doc_Model Props_Doc View_Model View_Spec Setup_Spec Part_Model Tag_Proofs Part_Proofs
  Props_Part View_Hist Part_Groups StrMap DV_Model DV_Spec DV_Proofs Props_DV CF_Model CF_Spec CF_Build CF_Read CF_Asked CF_Read14 CF_Sheet.

(** The numbers of the rules of a sheet increase: no two are alike, and an earlier rule
    of a range comes before a later one. *)
Definition priorities {A} (l : list (str * list (N * A))) : list N := map fst (flat_map snd l).
Lemma rules_between {A} (e : A -> bool) l : forall n k x, In x (number_rules e n k l) -> n <= fst (fst x) < n + N.of_nat (length l).
Proof.
  induction l as [|a l IH]; intros n k x H; [destruct H|]. cbn [number_rules length In] in *. rewrite Nat2N.inj_succ. destruct H as [<-|H]; [cbn; lia|]. apply IH in H. lia.
Qed.

Section Formats.
  Variable num_text : f64 -> str.
  (** Whether the text of a number is outside 0 to 100 *)
  Variable beyond : str -> bool.
  Variable m : ovf.
  Hypothesis plain_numbers : forall x, forallb simple (num_text x) = true.
  Hypothesis percents_ok : forall n, n <= 100 -> beyond (dec n) = false.
  Notation stored := (fun s => fst (formula_new s)).
  Notation wanted_in name := (wanted_formats num_text beyond stored (cell_range m) name).
  Notation wanted14_in name := (wanted_formats14 num_text beyond stored (cell_range m) name).
  Notation place := (placed num_text beyond stored (cell_range m)).
  Notation run := (cf_run num_text beyond m cf_start).
  (** All texts can be held by XML; texts searched for have no quotes and only ASCII. *)
  Definition writable (a : cf_add) : Prop := Forall (cf_op_ok stored) (snd (snd a)) /\ Forall easy (snd (snd a)).

  Lemma placed_from adds p : In p (place adds) -> exists a, In a adds /\ snd p = snd a.
  Proof.
    unfold placed. rewrite in_flat_map. intros (a & Ha & H). exists a. split; [exact Ha|]. destruct (accepted _ _ _ a); [|destruct H]. destruct (ranges _ a); [|destruct H]. destruct H as [<-|[]]. reflexivity.
  Qed.
  Lemma x14_rules_ok sheet : forall l k p, Forall (fun c => body_ok (cf_body c)) l -> Forall wx_ok (fst (fst (x14_rules sheet k p l))).
  Proof.
    induction l as [|c l IH]; intros k p F; [constructor|]. inversion_clear F as [|c0 l0 B Fl]. cbn [x14_rules]. specialize (IH (if cf_x14 c then k + 1 else k) (p + 1) Fl). destruct (x14_rules sheet _ _ l) as [[rest g] q]. cbn [fst] in *.
    apply Forall_app. split; [|exact IH]. destruct (cf_x14 c); [|constructor]. pose proof (x14_rule_reads c p (guid_text sheet k) B (guid_attr sheet k)) as X. destruct (shown14 c p); [|rewrite X; constructor].
    destruct X as (x & -> & W & _). constructor; [exact W|constructor].
  Qed.
  Lemma x14_xml_ok sheet : forall s k p, Forall (fun e => attr_ok (fst e) /\ Forall (fun c => body_ok (cf_body c)) (snd e)) s -> Forall wx_ok (x14_xml sheet k p s).
  Proof.
    induction s as [|[t l] s IH]; intros k p F; [constructor|]. inversion_clear F as [|e s0 [At B] Fs]. cbn [fst snd] in *. cbn [x14_xml]. destruct (negb _); [apply IH; exact Fs|].
    pose proof (x14_rules_ok sheet l k p B) as W. destruct (x14_rules sheet k p l) as [[xs g] q]. cbn [fst] in W. constructor; [|apply IH; exact Fs].
    apply wx_ok_elem. split; [reflexivity|]. split; [good|]. apply Forall_app. split; [exact W|]. constructor; [|constructor]. apply ok_data; [reflexivity|apply attrs_nil|apply attr_doc; exact At].
  Qed.
  Lemma state_ok s l : inv num_text beyond s l -> Forall (fun e => attr_ok (fst e) /\ Forall (fun c => body_ok (cf_body c)) (snd e)) (fs_map s).
  Proof.
    intros [So Ss Sg Sc Sx St]. apply Forall_forall. intros [t cs] H. pose proof (sm_in_get t cs _ (sm_nodup _ Ss) H) as G. rewrite Sg in G. cbn [fst snd]. rewrite Forall_forall in St.
    destruct (of_text_ t l) as [|p g] eqn:Q; [discriminate|]. injection G as <-. split.
    - assert (In p (of_text_ t l)) as Hp by (rewrite Q; left; reflexivity). apply filter_In in Hp as [Hp E]. apply str_eqb_eq in E. rewrite <- E. apply (St p Hp).
    - change (Forall (fun c => body_ok (cf_body c)) (map (built num_text beyond) (map snd (p :: g)))). rewrite <- Q. apply Forall_forall. intros c Hc. apply in_map_iff in Hc as (r & <- & Hr). apply in_map_iff in Hr as (x & <- & Hx).
      apply filter_In in Hx as [Hx _]. apply build_ok; [exact plain_numbers|exact percents_ok|]. apply (St x Hx).
  Qed.

  (** What any calls lead to *)
  Lemma formats_run sheet adds : Forall writable adds -> exists s xs,
    run adds = Some (s, map (fun a => negb (accepted num_text beyond stored a)) adds) /\ inv num_text beyond s (place adds) /\
    formats_xml sheet s = Some xs /\ Forall wx_ok xs /\ tagged "conditionalFormatting" xs /\ match x14_formats_xml sheet s with Some l => Forall wx_ok l | None => True end /\
    forall i, n_cf i = xs -> n_x14_cf i = x14_formats_xml sheet s -> sections_ok i -> both_extensions i = false ->
      exists text root, worksheet_text num_text m i = Some text /\ read_document text = Some root /\ read_formats root = Some (wanted_in (guid_text sheet) adds) /\
        kids_named "extLst" (kids_of root) = ext_nodes i.
  Proof.
    intros F. assert (Fo : Forall add_ok adds) by (eapply Forall_impl; [|exact F]; intros a [H _]; exact H).
    destruct (run_inv num_text beyond m percents_ok adds Fo cf_start [] (inv_start num_text beyond)) as (s & E & S). cbn [app] in S.
    assert (Ez : Forall (fun p : str * (cf_class * list cf_op) => Forall easy (snd (snd p))) (place adds)).
    { apply Forall_forall. intros p Hp. destruct (placed_from adds p Hp) as (a & Ha & Ea). rewrite Ea. rewrite Forall_forall in F. apply (F a Ha). }
    destruct (formats_read num_text beyond plain_numbers percents_ok sheet s _ S Ez) as (xs & Ex & W & T & R). exists s, xs. split; [exact E|]. split; [exact S|]. split; [exact Ex|]. split; [exact W|]. split; [exact T|]. split.
    - unfold x14_formats_xml. destruct (fs_x14 s); [|exact I]. apply x14_xml_ok. exact (state_ok s _ S).
    - intros i Hi H14 Ok B. destruct (worksheet_section num_text m plain_numbers i Ok B) as (text & root & Et & Rd & _ & _ & _ & _ & _ & K & _ & _ & _ & _ & _ & _ & Kx). exists text, root. split; [exact Et|]. split; [exact Rd|]. split; [|exact Kx].
      unfold read_formats. change (all_named "conditionalFormatting" (kids_of root)) with (kids_named "conditionalFormatting" (kids_of root)). rewrite K, Hi. exact R.
  Qed.

  (** C64: no call panics, a call fails exactly if its range is not proper or its rule
      must be refused, and the sheet has the rules of the calls that did not, range by
      range, saying what was asked for. *)
  Theorem C64_conditional_formats_partial : exists name : N -> N -> str, (forall sheet sheet' j k, name sheet j = name sheet' k -> sheet = sheet' /\ j = k) /\
    forall sheet adds, Forall writable adds -> exists s xs,
    run adds = Some (s, map (fun a => negb (accepted num_text beyond stored a)) adds) /\
    formats_xml sheet s = Some xs /\ Forall wx_ok xs /\ tagged "conditionalFormatting" xs /\ match x14_formats_xml sheet s with Some l => Forall wx_ok l | None => True end /\
    forall i, n_cf i = xs -> n_x14_cf i = x14_formats_xml sheet s -> sections_ok i -> both_extensions i = false ->
      exists text root, worksheet_text num_text m i = Some text /\ read_document text = Some root /\ read_formats root = Some (wanted_in (name sheet) adds).
  Proof.
    exists guid_text. split; [exact guid_all_inj|]. intros sheet adds F. destruct (formats_run sheet adds F) as (s & xs & E & _ & Ex & W & T & W14 & H). exists s, xs. split; [exact E|]. repeat (split; [assumption|]).
    intros i Hi H14 Ok B. destruct (H i Hi H14 Ok B) as (text & root & Et & R & Rf & _). exists text, root. repeat split; assumption.
  Qed.

  (** The priorities are in order. *)
  Theorem C64_priorities name adds : StronglySorted N.lt (priorities (wanted_in name adds)).
  Proof.
    unfold wanted_formats, numbered. generalize 1 at 2. generalize 1. intros n k. revert n k.
    assert (G : forall (gs : list (str * list (cf_class * list cf_op))) n k,
      StronglySorted N.lt (priorities (flat_map (wanted_group num_text beyond stored name) (number_groups (has_ext num_text beyond stored) n k gs))) /\
      Forall (fun x => n <= x) (priorities (flat_map (wanted_group num_text beyond stored name) (number_groups (has_ext num_text beyond stored) n k gs)))); [|intros n k; apply G].
    induction gs as [|[t rs] gs IH]; intros n k; [split; constructor|]. cbn [number_groups flat_map]. unfold priorities in *. rewrite flat_map_app, map_app.
    destruct (IH (n + N.of_nat (length rs)) (k + N.of_nat (length (filter (has_ext num_text beyond stored) rs)))) as [S F]. clear IH.
    set (tail := map fst (flat_map snd (flat_map (wanted_group num_text beyond stored name) (number_groups _ (n + N.of_nat (length rs)) _ gs)))) in *. clearbody tail.
    assert (H : forall rs n k, let h := map fst (wanted_rules num_text beyond stored name t (number_rules (has_ext num_text beyond stored) n k rs)) in StronglySorted N.lt h /\ Forall (fun x => n <= x < n + N.of_nat (length rs)) h).
    { clear. induction rs as [|r rs IH]; intros n k; [split; constructor|]. cbn [number_rules length]. unfold wanted_rules in *. cbn [flat_map]. rewrite map_app. destruct (IH (n + 1) (if has_ext num_text beyond stored r then k + 1 else k)) as [S F]. clear IH. rewrite Nat2N.inj_succ.
      set (h := map fst (flat_map _ (number_rules _ (n + 1) _ rs))) in *. clearbody h.
      assert (F' : Forall (fun x => n <= x < n + N.succ (N.of_nat (length rs))) h) by (eapply Forall_impl; [|exact F]; cbn; intros; lia).
      destruct (only_ext num_text beyond stored r); [split; assumption|]. destruct (asked_rule _ _ _ _ _ _ _); [|split; assumption]. cbn [map fst app]. split.
      - constructor; [exact S|]. eapply Forall_impl; [|exact F]. cbn. intros; lia.
      - constructor; [lia|exact F']. }
    unfold wanted_group. cbn [fst snd]. destruct (H rs n k) as [Sh Fh]. clear H.
    assert (F2 : Forall (fun x => n <= x) tail) by (eapply Forall_impl; [|exact F]; cbn; intros; lia).
    destruct (forallb _ _); cbn [flat_map app snd map]; [split; assumption|]. rewrite app_nil_r. split.
    - revert Sh Fh. generalize (map fst (wanted_rules num_text beyond stored name t (number_rules (has_ext num_text beyond stored) n k rs))). clear - S F. induction l as [|x l IH]; intros Sh Fh; [exact S|].
      inversion Sh as [|? ? Sl Fl]; subst. inversion Fh as [|? ? Hx Fhl]; subst. cbn [app]. constructor; [apply IH; assumption|]. apply Forall_app. split; [exact Fl|]. eapply Forall_impl; [|exact F]. cbn. intros; lia.
    - apply Forall_app. split; [eapply Forall_impl; [|exact Fh]; cbn; intros; lia|exact F2].
  Qed.

  (** C65: if the ranges come in the order of their texts, the extended rules of the
      sheet are those asked for, each under the name its rule refers to, but for the
      priorities; with their priorities if each range has an extended rule. *)
  Theorem C65_extended_formats_partial : exists name : N -> N -> str, (forall sheet sheet' j k, name sheet j = name sheet' k -> sheet = sheet' /\ j = k) /\
    forall sheet adds, Forall writable adds ->
    StronglySorted str_lt (firsts [] (map fst (place adds))) ->
    Forall (fun p => has_ext num_text beyond stored (snd p) = true -> kept14 num_text beyond stored (snd p)) (place adds) ->
    exists s xs, run adds = Some (s, map (fun a => negb (accepted num_text beyond stored a)) adds) /\
      formats_xml sheet s = Some xs /\ Forall wx_ok xs /\ tagged "conditionalFormatting" xs /\ match x14_formats_xml sheet s with Some l => Forall wx_ok l | None => True end /\
      forall i, n_cf i = xs -> n_x14_cf i = x14_formats_xml sheet s -> sections_ok i -> both_extensions i = false ->
        exists text root l, worksheet_text num_text m i = Some text /\ read_document text = Some root /\ read_formats root = Some (wanted_in (name sheet) adds) /\
          read_formats14 root = Some l /\ unranked l = unranked (wanted14_in (name sheet) adds) /\
          (Forall (fun g => existsb (has_ext num_text beyond stored) (snd g) = true) (groups_of (place adds)) -> l = wanted14_in (name sheet) adds).
  Proof.
    exists guid_text. split; [exact guid_all_inj|]. intros sheet adds F Sf Kp. destruct (formats_run sheet adds F) as (s & xs & E & S & Ex & W & T & W14 & H). exists s, xs. split; [exact E|]. repeat (split; [assumption|]).
    intros i Hi H14 Ok B. destruct (H i Hi H14 Ok B) as (text & root & Et & R & Rf & Kx).
    destruct (formats14_read num_text beyond plain_numbers percents_ok sheet s _ S Sf Kp) as (out & O & U & Q). exists text, root, out. split; [exact Et|]. split; [exact R|]. split; [exact Rf|]. split; [|split; [exact U|exact Q]].
    unfold read_formats14. rewrite kid_is, Kx. unfold ext_nodes. rewrite H14. destruct (x14_formats_xml sheet s) as [l|] eqn:X.
    - destruct O as [_ O]. cbn [kids_of]. rewrite kid_one. cbn [String.eqb Ascii.eqb Bool.eqb bind kids_of]. unfold cf_ext_body. cbn [node_of]. rewrite kid_one. cbn [String.eqb Ascii.eqb Bool.eqb kids_of]. exact O.
    - subst out. destruct (n_sparklines i); [|reflexivity]. cbn [kids_of]. rewrite kid_one. cbn [String.eqb Ascii.eqb Bool.eqb bind kids_of]. unfold spark_ext_body. cbn [node_of]. rewrite kid_one. cbn [String.eqb Ascii.eqb Bool.eqb]. reflexivity.
  Qed.
End Formats.

(** The cell that the formulas of rules are about is the first of the range. *)
Theorem C64_first_cell m fr fc lr lc t : on_grid fr fc = true -> on_grid lr lc = true -> cell_range m fr fc lr lc = Some t -> cell_of (first_cell t) = Some (fr, fc).
Proof.
  intros A B E. apply on_grid_lt in A as [A1 A2]. apply on_grid_lt in B as [B1 B2]. destruct (cell_text m fr fc A1 A2) as (a & Ea & _ & _ & Ca). destruct (cell_text m lr lc B1 B2) as (b & Eb & _).
  assert (Pl : Forall (fun c => c <> 32 /\ c <> 58) a).
  { assert (A' : fr < 2 ^ 32 - 1) by (change (2 ^ 32 - 1) with 4294967295; unfold ROW_MAX in A1; lia). assert (B' : fc < 65535) by (unfold COL_MAX in A2; lia).
    destruct (row_col_to_cell_text m fr fc A' B') as (nm & En & Ez & _). destruct (column_number_to_name_spec m fc B') as (nm2 & En2 & U & _ ). assert (nm2 = nm) by congruence. subst nm2. assert (a = nm ++ dec (fr + 1)) by congruence. subst a.
    apply Forall_app. split; apply Forall_forall; intros c Hc.
    - rewrite forallb_forall in U. specialize (U c Hc). split; intros ->; discriminate U.
    - pose proof (proj1 (dec_spec (fr + 1))) as D. rewrite forallb_forall in D. specialize (D c Hc). split; intros ->; discriminate D. }
  assert (F : forall r, match r with [] => True | c :: _ => c = 58 end -> first_cell (a ++ r) = a).
  { intros r Hr. clear - Pl Hr. induction Pl as [|c a [H1 H2] Pl IH]; [destruct r as [|c r]; [reflexivity|subst c; reflexivity]|]. cbn [app first_cell].
    destruct (N.eqb_spec c 32); [congruence|]. destruct (N.eqb_spec c 58); [congruence|]. cbn [orb]. rewrite IH. reflexivity. }
  unfold cell_range in E. rewrite Ea, Eb in E. cbv beta iota delta [obind] in E. injection E as <-. destruct (str_eqb a b); [|rewrite F by reflexivity; exact Ca].
  specialize (F [] Logic.I). rewrite app_nil_r in F. rewrite F. exact Ca.
Qed.

(** ** What does not hold *)
(** What is read of the two sections after the calls *)
Definition both_read (num_text : f64 -> str) (beyond : str -> bool) (m : ovf) (sheet : N) (adds : list cf_add) : option (list (str * list (N * seen)) * list (str * list (str * seen14))) :=
  match cf_run num_text beyond m cf_start adds with
  | Some (s, _) =>
      bind (formats_xml sheet s) (fun xs => bind (read_all read_format (map node_of xs)) (fun l =>
      match x14_formats_xml sheet s with None => Some (l, []) | Some ys => bind (read_all read_format14 (map node_of ys)) (fun l14 => Some (l, l14)) end))
  | None => None
  end.
(** Two bars, the first in B1 from left to right, the second in A1 from right to left:
    the extension with the name of the bar in B1 is that of A1, and the other way round. *)
Definition two_bars : list cf_add := [((0, 1, (0, 1)), (KBar, [ODirection DirLeftToRight])); ((0, 0, (0, 0)), (KBar, [ODirection DirRightToLeft]))].
Definition bar_id (e : N * seen) : option str := match e_body (snd e) with SBar _ _ _ i => i | _ => None end.
Definition bar_direction_of (e : str * seen14) : option str := match snd (snd e) with XBar _ _ d _ _ _ _ _ => Some d | _ => None end.
Theorem C65_bars_swapped_refuted num_text beyond : exists l l14 id1 id2, both_read num_text beyond Debug 0 two_bars = Some (l, l14) /\ id1 <> id2 /\
  map (fun g => (fst g, map bar_id (snd g))) l = [(lit "B1", [Some id1]); (lit "A1", [Some id2])] /\
  map (fun g => (fst g, map (fun e => (fst e, bar_direction_of e)) (snd g))) l14 = [(lit "A1", [(id1, Some (lit "rightToLeft"))]); (lit "B1", [(id2, Some (lit "leftToRight"))])].
Proof.
  destruct (both_read num_text beyond Debug 0 two_bars) as [[l l14]|] eqn:E; [|vm_compute in E; discriminate E]. exists l, l14, (guid_text 0 1), (guid_text 0 2). split; [reflexivity|].
  split; [intros H; apply guid_inj in H; discriminate H|]. vm_compute in E. injection E as <- <-. split; vm_compute; reflexivity.
Qed.
(** The priority of an icon set can be that of another rule: in A1 an ordinary rule, in
    B1 two icon sets of which the second is an extended one. *)
Definition three_rules : list cf_add := [((0, 0, (0, 0)), (KBlank, [])); ((0, 1, (0, 1)), (KIcons, [OIconType ThreeArrows])); ((0, 1, (0, 1)), (KIcons, [OIconType ThreeStars]))].
Definition none_beyond (_ : str) : bool := false.
Theorem C65_priority_shared_refuted num_text : exists l l14, both_read num_text none_beyond Debug 0 three_rules = Some (l, l14) /\
  priorities l = [1; 2] /\ map (fun e => fst (fst (snd e))) (flat_map snd l14) = [Some 2].
Proof.
  destruct (both_read num_text none_beyond Debug 0 three_rules) as [[l l14]|] eqn:E; [|vm_compute in E; discriminate E]. exists l, l14. split; [reflexivity|]. vm_compute in E. injection E as <- <-. split; reflexivity.
Qed.
(** An extended icon set loses that it is reversed, without values and stopping, and
    its thresholds that they must be exceeded. *)
Definition lost_options : list cf_add :=
  [((0, 0, (0, 0)), (KIcons, [OIconType ThreeStars; OReverse true; OIconsOnly true; OStop true]));
   ((0, 1, (0, 1)), (KIcons, [OIcons [[]; [IRule TyNumber (CInt 5); IGreater true]; [IRule TyNumber (CInt 9); INone true]]]))].
Definition icon_options (e : str * seen14) : option (bool * bool * bool * list bool) :=
  match snd (snd e) with XIcons _ v r p _ => Some (snd (fst (snd e)), v, r, map snd p) | _ => None end.
Theorem C65_icon_options_refuted num_text : exists l l14, both_read num_text none_beyond Debug 0 lost_options = Some (l, l14) /\
  map icon_options (flat_map snd l14) = [Some (false, true, false, [false; false; false]); Some (false, true, false, [false; false; false])] /\
  forall name, map icon_options (flat_map snd (wanted_formats14 num_text none_beyond (fun s => fst (formula_new s)) (cell_range Debug) name lost_options)) =
    [Some (true, false, true, [false; false; false]); Some (false, true, false, [false; true; false])].
Proof.
  destruct (both_read num_text none_beyond Debug 0 lost_options) as [[l l14]|] eqn:E; [|vm_compute in E; discriminate E]. exists l, l14. split; [reflexivity|]. vm_compute in E. injection E as <- <-. split; [reflexivity|].
  intros name. vm_compute. reflexivity.
Qed.
(** A negative border with the colour of the bar loses it if the border has another. *)
Definition lost_border : list cf_add := [((0, 0, (0, 0)), (KBar, [OFill (CRGB 255); OBorder (CRGB 65280); ONegBorder (CRGB 255)]))].
Definition neg_border (e : str * seen14) : option (option N) := match snd (snd e) with XBar _ _ _ _ _ n _ _ => Some n | _ => None end.
Theorem C65_negative_border_refuted num_text : exists l l14, both_read num_text none_beyond Debug 0 lost_border = Some (l, l14) /\
  map neg_border (flat_map snd l14) = [Some (Some 65280)] /\
  forall name, map neg_border (flat_map snd (wanted_formats14 num_text none_beyond (fun s => fst (formula_new s)) (cell_range Debug) name lost_border)) = [Some (Some 255)].
Proof.
  destruct (both_read num_text none_beyond Debug 0 lost_border) as [[l l14]|] eqn:E; [|vm_compute in E; discriminate E]. exists l, l14. split; [reflexivity|]. vm_compute in E. injection E as <- <-. split; [reflexivity|].
  intros name. vm_compute. reflexivity.
Qed.
(** Texts searched for: quotes are not doubled in the formula, and lengths are those of
    the UTF-8 encoding.  A theme colour is written as black. *)
Definition hard_texts : list cf_add := [((0, 0, (0, 0)), (KText, [OText (Contains [34])])); ((0, 0, (0, 0)), (KText, [OText (BeginsWith [233])]))].
Theorem C64_texts_refuted num_text : exists l, both_read num_text none_beyond Debug 0 hard_texts = Some (l, []) /\
  flat_map (fun e => e_formulas (snd e)) (flat_map snd l) = [lit "NOT(ISERROR(SEARCH(" ++ [34; 34; 34] ++ lit ",A1)))"; lit "LEFT(A1,2)=" ++ [34; 233; 34]] /\
  forall name, flat_map (fun e => e_formulas (snd e)) (flat_map snd (wanted_formats num_text none_beyond (fun s => fst (formula_new s)) (cell_range Debug) name hard_texts)) =
    [lit "NOT(ISERROR(SEARCH(" ++ [34; 34; 34; 34] ++ lit ",A1)))"; lit "LEFT(A1,1)=" ++ [34; 233; 34]].
Proof.
  destruct (both_read num_text none_beyond Debug 0 hard_texts) as [[l l14]|] eqn:E; [|vm_compute in E; discriminate E]. vm_compute in E. injection E as <- <-. eexists. split; [reflexivity|]. split; [reflexivity|].
  intros name. vm_compute. reflexivity.
Qed.
Theorem C64_theme_color_refuted num_text : exists l, both_read num_text none_beyond Debug 0 [((0, 0, (0, 0)), (KScale2, [OMinColor (CTheme 4 0); OMaxColor (CTheme 1 0)]))] = Some (l, []) /\
  map (fun e => match e_body (snd e) with SScale _ c => c | _ => [] end) (flat_map snd l) = [[0; 0]].
Proof.
  destruct (both_read num_text none_beyond Debug 0 _) as [[l l14]|] eqn:E; [|vm_compute in E; discriminate E]. vm_compute in E. injection E as <- <-. eexists. split; reflexivity.
Qed.

(** ** An example *)
Definition demo_formats : list cf_add :=
  [((0, 0, (9, 0)), (KCell, [OCell (DGreaterThan (CInt 50)); OFormat 2; OStop true]));
   ((0, 0, (9, 0)), (KTop, [OTop (TopPercent 101)]));
   ((0, 1, (9, 1)), (KBar, [OFill (CRGB 255); OSolid true; OMin TyPercent (CInt 10)]));
   ((5, 0, (4, 0)), (KBlank, []));
   ((0, 0, (9, 0)), (KText, [OText (BeginsWith (lit "ab")); OFormat 0]));
   ((0, 2, (9, 2)), (KIcons, [OMulti (lit "$C$1:$C$10,$E$1"); OIconType ThreeStars]));
   ((0, 3, (9, 3)), (KScale3, [OMid TyNumber (CInt (-3)); OMidColor (CNamed 12)]))].
Example C64_demo num_text :
  Forall writable demo_formats /\ map (accepted num_text none_beyond (fun s => fst (formula_new s))) demo_formats = [true; false; true; false; true; true; true] /\
  StronglySorted str_lt (firsts [] (map fst (placed num_text none_beyond (fun s => fst (formula_new s)) (cell_range Debug) demo_formats))) /\
  Forall (fun p => has_ext num_text none_beyond (fun s => fst (formula_new s)) (snd p) = true -> kept14 num_text none_beyond (fun s => fst (formula_new s)) (snd p)) (placed num_text none_beyond (fun s => fst (formula_new s)) (cell_range Debug) demo_formats) /\
  forall name, map (fun g => (fst g, map (fun e => (fst e, e_type (snd e), e_formulas (snd e))) (snd g))) (wanted_formats num_text none_beyond (fun s => fst (formula_new s)) (cell_range Debug) name demo_formats) =
    [(lit "A1:A10", [(1, lit "cellIs", [lit "50"]); (2, lit "beginsWith", [lit "LEFT(A1,2)=" ++ 34 :: lit "ab" ++ [34]])]); (lit "B1:B10", [(3, lit "dataBar", [])]); (lit "D1:D10", [(5, lit "colorScale", [])])].
Proof.
  split; [|split; [vm_compute; reflexivity|split; [|split]]].
  - unfold demo_formats, writable. cbn [snd]. assert (A : forall s, forallb (fun c => xml_char c && negb (c =? 9) && negb (c =? 13)) s = true -> attr_text s).
    { intros s H c Hc. rewrite forallb_forall in H. specialize (H c Hc). rewrite !andb_true_iff, !negb_true_iff, !N.eqb_neq in H. tauto. }
    repeat (constructor; [split; repeat (constructor; [first [exact Logic.I|reflexivity|apply A; reflexivity|cbn; lia|repeat constructor; cbn; lia]|]); constructor|]). constructor.
  - assert (E : firsts [] (map fst (placed num_text none_beyond (fun s => fst (formula_new s)) (cell_range Debug) demo_formats)) = [lit "A1:A10"; lit "B1:B10"; lit "C1:C10 E1"; lit "D1:D10"]) by (vm_compute; reflexivity).
    rewrite E. repeat constructor; vm_compute; repeat first [left; reflexivity|right; split; [reflexivity|]]; auto.
  - apply Forall_forall. intros p Hp. assert (E : map snd (placed num_text none_beyond (fun s => fst (formula_new s)) (cell_range Debug) demo_formats) = map (fun k => snd (nth k demo_formats ((0, 0, (0, 0)), (KBlank, [])))) [0; 2; 4; 5; 6]%nat) by (vm_compute; reflexivity).
    apply (in_map snd) in Hp. rewrite E in Hp. cbn [map nth demo_formats snd In] in Hp.
    repeat destruct Hp as [<-|Hp]; try (intros X; vm_compute in X; discriminate X); [..|destruct Hp]; intros _; vm_compute; try discriminate; repeat split; repeat constructor.
  - intros name. vm_compute. reflexivity.
Qed.
Print Assumptions C64_conditional_formats_partial.
Print Assumptions C65_extended_formats_partial.
