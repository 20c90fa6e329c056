(** The elements of a sheet part are well formed, and the part reads back as them. *)
From Verif Require Import Base F64 Ref_Model Ref_Spec Ref_Proofs Xml_Model Xml_Spec Xml_Proofs Xml_Read Xml_Read_Proofs Xml_Tree Fmt_Model Rich_Model Rich_Proofs
  Cells_Model SheetXml_Spec SheetXml_Proofs SheetXml_Proofs3 Doc_Spec Props_Ref View_Model View_Spec Part_Model Tag_Proofs.

(** ** Literal attribute lists *)
Fixpoint nodupb (l : list str) : bool := match l with [] => true | x :: r => negb (existsb (str_eqb x) r) && nodupb r end.
Lemma nodupb_ok l : nodupb l = true -> NoDup l.
Proof.
  induction l as [|x l IH]; [constructor|]. cbn [nodupb]. intros H. apply andb_prop in H as [H1 H2]. constructor; [|auto].
  intros Hi. apply negb_true_iff in H1. assert (existsb (str_eqb x) l = true); [|congruence].
  apply existsb_exists. exists x. split; [assumption|apply str_eqb_refl].
Qed.
Lemma attrs_check (l : list (str * str)) : nodupb (map fst l) = true ->
  Forall (fun p => good_name (fst p) = true /\ forallb attr_char (snd p) = true) l -> attrs_good l.
Proof. intros N F. split; [apply nodupb_ok; exact N|]. rewrite Forall_forall in F. exact F. Qed.
Definition attr_ok (s : str) : Prop := forallb attr_char s = true.
Lemma attr_dec n : attr_ok (dec n). Proof. apply simple_attrs, dec_simple. Qed.
Ltac good := apply attrs_check; [reflexivity|];
  repeat (constructor; [split; [reflexivity|first [reflexivity|apply attr_dec|assumption]]|]); try constructor.

(** ** A1 texts *)
Lemma cell_text m r c : r < ROW_MAX -> c < COL_MAX -> exists t, row_col_to_cell m r c = Some t /\ attr_ok t /\ given t = true /\ cell_of t = Some (r, c).
Proof.
  unfold ROW_MAX, COL_MAX. intros Hr Hc. assert (A : r < 2 ^ 32 - 1) by (change (2 ^ 32 - 1) with 4294967295; lia). assert (B : c < 65535) by lia.
  destruct (C02_cell_reference_roundtrip m r c A B) as (t & E & P). exists t. split; [exact E|].
  destruct (row_col_to_cell_text m r c A B) as (nm & En & Ez & _). destruct (column_number_to_name_spec m c B) as (nm2 & En2 & U & _ ).
  assert (nm2 = nm) by congruence. subst nm2. assert (t = nm ++ dec (r + 1)) by congruence. subst t. split; [|split].
  - unfold attr_ok. rewrite forallb_app. apply andb_true_iff. split; apply simple_attrs; [apply upper_simple; exact U|apply dec_simple].
  - destruct nm; [|reflexivity]. cbn [app]. destruct (dec_spec (r + 1)) as (_ & H & _). destruct (dec (r + 1)); [congruence|reflexivity].
  - unfold cell_of. rewrite P. reflexivity.
Qed.
Lemma range_text m fr fc lr lc : fr < ROW_MAX -> fc < COL_MAX -> lr < ROW_MAX -> lc < COL_MAX ->
  exists t, cell_range m fr fc lr lc = Some t /\ attr_ok t /\ given t = true /\ range_of t = Some (fr, fc, (lr, lc)).
Proof.
  intros A B C D. destruct (cell_text m fr fc A B) as (a & Ea & Ha & Ga & _). destruct (cell_text m lr lc C D) as (b & Eb & Hb & _ & _).
  unfold ROW_MAX, COL_MAX in *. destruct (C03_cell_range_roundtrip m fr fc lr lc) as (t & E & P & _); try (change (2 ^ 32 - 1) with 4294967295); try lia.
  exists t. split; [exact E|]. assert (T : t = if str_eqb a b then a else a ++ 58 :: b).
  { unfold cell_range in E. rewrite Ea, Eb in E. cbv beta iota delta [obind] in E. injection E as <-. reflexivity. }
  split; [|split].
  - subst t. destruct (str_eqb a b); [exact Ha|]. unfold attr_ok in *. rewrite forallb_app. cbn [forallb]. rewrite Ha, Hb. reflexivity.
  - subst t. destruct (str_eqb a b); [exact Ga|]. destruct a; [discriminate|reflexivity].
  - unfold range_of. rewrite P. reflexivity.
Qed.

(** ** Elements *)
Definition in_grid (c : N * N) : Prop := fst c < ROW_MAX /\ snd c < COL_MAX.
Record setup_ok (s : setup) : Prop := {
  so_tl : attr_ok (u_top_left s); so_sel : attr_ok (fst (u_selection s)) /\ attr_ok (snd (u_selection s));
  so_freeze : in_grid (u_freeze s); so_top : in_grid (u_top_cell s);
  so_header : doc_text (hf_expand (u_header s)); so_footer : doc_text (hf_expand (u_footer s)) }.
Definition extra_ok (x : pr_extra) : Prop := match p_codename x with Some c => attr_ok c | None => True end.

Lemma doc_writable s : doc_text s -> forallb writable s = true.
Proof.
  unfold doc_text. intros H. apply forallb_forall. intros c Hc. rewrite forallb_forall in H. specialize (H c Hc).
  apply andb_prop in H as [H1 H2]. unfold xml_char, writable, is_scalar in *. lia.
Qed.
Lemma sheet_pr_ok x s : extra_ok x -> Forall wx_ok (sheet_pr_xml x s) /\ at_most_one "sheetPr" (sheet_pr_xml x s).
Proof.
  intros X. unfold sheet_pr_xml. match goal with |- context [if ?b then [] else _] => destruct b end; [split; [constructor|apply amo_nil]|].
  assert (A : attrs_good (match p_codename x with Some c => [(lit "codeName", c)] | None => [] end ++ yes (p_filtered x) "filterMode")).
  { unfold extra_ok in X. destruct (p_codename x) as [c|].
    - eapply sub_attrs; [apply sub_app; [apply sub_refl|apply sub_when]|]. cbn [app]. good.
    - eapply sub_attrs; [apply sub_app; [apply sub_refl|apply sub_when]|]. cbn [app]. good. }
  cbv zeta. match goal with |- context [if ?b then [WElem _ _ _] else _] => destruct b end; (split; [|apply amo_one; reflexivity]); (constructor; [|constructor]).
  - apply wx_ok_elem. split; [reflexivity|]. split; [exact A|]. apply Forall_app. split; [|apply Forall_app; split].
    + destruct (u_fit s); [|constructor]. constructor; [|constructor]. split; [reflexivity|]. apply attrs_one; reflexivity.
    + assert (K : Forall wx_ok [WEmpty (lit "tabColor") (color_attributes (u_tab s))]).
      { constructor; [|constructor]. split; [reflexivity|apply color_attrs_good]. }
      destruct (u_tab s); try exact K. constructor.
    + destruct (p_above x || p_left x); [|constructor]. constructor; [|constructor]. split; [reflexivity|].
      eapply sub_attrs; [apply sub_app; apply sub_when|]. cbn [app]. good.
  - split; [reflexivity|exact A].
Qed.

Lemma given_sub k v : sub (given_attr k v) [(lit k, v)]. Proof. apply sub_when. Qed.
Lemma selection_ok p a r : attr_ok (lit p) -> attr_ok a -> attr_ok r -> wx_ok (selection_xml p a r).
Proof.
  intros P A R. split; [reflexivity|]. eapply sub_attrs; [apply sub_app; [apply given_sub|apply sub_app; apply given_sub]|]. cbn [app]. good.
Qed.
Lemma pane_text m s : setup_ok s -> exists t, panes_top_left m s = Some t /\ attr_ok t /\ cell_of t = Some (if (fst (u_top_cell s) =? 0) && (snd (u_top_cell s) =? 0) then u_freeze s else u_top_cell s).
Proof.
  intros []. unfold panes_top_left. destruct (u_freeze s) as [r c], (u_top_cell s) as [r' c']. unfold in_grid in *. cbn [fst snd] in *.
  destruct ((r' =? 0) && (c' =? 0)).
  - destruct (cell_text m r c) as (t & E & A & _ & C); [tauto|tauto|]. exists t. auto.
  - destruct (cell_text m r' c') as (t & E & A & _ & C); [tauto|tauto|]. exists t. auto.
Qed.
Definition pane_node (s : setup) (t : str) (a : string) : wx :=
  WEmpty (lit "pane") (when (0 <? snd (u_freeze s)) [(lit "xSplit", dec (snd (u_freeze s)))] ++ when (0 <? fst (u_freeze s)) [(lit "ySplit", dec (fst (u_freeze s)))] ++
        [(lit "topLeftCell", t); (lit "activePane", lit a); (lit "state", lit "frozen")]).
Lemma pane_eq m s a t : panes_top_left m s = Some t -> pane_xml m s a = Some (pane_node s t a).
Proof. intros E. unfold pane_xml, pane_node. rewrite E. cbn [obind]. destruct (u_freeze s). reflexivity. Qed.
Lemma pane_ok s t a : attr_ok t -> attr_ok (lit a) -> wx_ok (pane_node s t a).
Proof.
  intros T A. split; [reflexivity|]. eapply sub_attrs; [apply sub_app; [apply sub_when|apply sub_app; [apply sub_when|apply sub_refl]]|]. cbn [app]. good.
Qed.
(** The panes: the <pane> element, then selections that name their pane. *)
Definition has_pane (t : wx) : Prop := tag_of t = lit "selection" /\ attr "pane" (attrs_of (node_of t)) <> None.
Lemma panes_shape m s : setup_ok s -> exists l, panes_xml m s = Some l /\ Forall wx_ok l /\
  (if panes_empty s then l = [] else exists t r, l = pane_node s t (active_pane (fst (u_freeze s)) (snd (u_freeze s))) :: r /\ panes_top_left m s = Some t /\ Forall has_pane r).
Proof.
  intros S. pose proof (pane_text m s S) as (t & Et & At & _). unfold panes_xml. destruct (panes_empty s) eqn:Ep; [exists []; repeat split; constructor|].
  pose proof (fun a => pane_eq m s a t Et) as Pe. destruct S. destruct (u_freeze s) as [r c] eqn:Ef. unfold in_grid in *. cbn [fst snd] in *. unfold active_pane.
  destruct (cell_text m 0 c) as (x & Ex & Ax & Gx & _); [unfold ROW_MAX; lia|tauto|].
  destruct (cell_text m r 0) as (y & Ey & Ay & Gy & _); [tauto|unfold COL_MAX; lia|].
  destruct ((0 <? r) && (0 <? c)).
  - rewrite Pe, Ex, Ey. cbn [obind]. eexists. split; [reflexivity|]. split.
    + constructor; [apply pane_ok; [exact At|reflexivity]|]. repeat (constructor; [apply selection_ok; try assumption; reflexivity|]). constructor.
    + exists t. eexists. split; [reflexivity|]. split; [exact Et|]. repeat constructor; discriminate.
  - destruct (0 <? c); rewrite Pe; cbn [obind]; eexists; (split; [reflexivity|]); (split; [constructor; [apply pane_ok; [exact At|reflexivity]|constructor; [apply selection_ok; reflexivity|constructor]]|]);
      exists t; eexists; (split; [reflexivity|]); (split; [exact Et|]); repeat constructor; discriminate.
Qed.

Lemma view_attrs_good cs s : setup_ok s -> attrs_good (view_attrs cs s).
Proof.
  intros []. unfold view_attrs, no, yes.
  destruct (u_mode s); (eapply sub_attrs; [repeat (apply sub_app; [first [apply sub_when|apply given_sub|apply sub_refl]|]); apply sub_refl|]);
    [destruct cs| |]; cbn [app when negb]; good.
Qed.
Lemma selections_ok s : setup_ok s -> Forall wx_ok (selections_xml s).
Proof.
  intros []. unfold selections_xml. destruct (given (fst (u_selection s))); [|constructor]. constructor; [|constructor].
  apply selection_ok; [reflexivity|tauto|tauto].
Qed.
Lemma views_ok m cs s : setup_ok s -> exists p, panes_xml m s = Some p /\ exists v, sheet_views_xml m cs s = Some v /\ wx_ok v /\ tag_of v = lit "sheetViews" /\
  node_of v = Elem (lit "sheetViews") [] [Elem (lit "sheetView") (view_attrs cs s) (map node_of (p ++ selections_xml s))].
Proof.
  intros S. destruct (panes_shape m s S) as (p & Ep & Fp & Sh). exists p. split; [exact Ep|]. unfold sheet_views_xml. rewrite Ep. cbn [obind]. eexists. split; [reflexivity|].
  split; [|split; [reflexivity|]].
  - apply wx_ok_elem. split; [reflexivity|]. split; [apply attrs_nil|]. constructor; [|constructor].
    destruct (panes_empty s && negb (given (fst (u_selection s)))).
    + split; [reflexivity|apply view_attrs_good; exact S].
    + apply wx_ok_elem. split; [reflexivity|]. split; [apply view_attrs_good; exact S|]. apply Forall_app. split; [exact Fp|apply selections_ok; exact S].
  - cbn [node_of map]. destruct (panes_empty s); cbn [andb]; [|destruct (given (fst (u_selection s))); reflexivity].
    subst p. unfold selections_xml. destruct (given (fst (u_selection s))); reflexivity.
Qed.

Lemma print_options_ok s : wx_ok (print_options_xml s).
Proof. split; [reflexivity|]. eapply sub_attrs; [repeat (apply sub_app; [apply sub_when|]); apply sub_when|]. cbn [app]. good. Qed.
Lemma page_setup_ok s : wx_ok (page_setup_xml s).
Proof.
  split; [reflexivity|]. unfold yes. eapply sub_attrs; [repeat (apply sub_app; [first [apply sub_when|apply sub_refl]|]); apply sub_refl|].
  destruct (negb (u_fit_w s =? 1)), (negb (u_fit_h s =? 1)); cbn [when app];
  destruct (u_portrait s); cbn [app]; good.
Qed.
Lemma margins_ok num_text s : (forall x, forallb simple (num_text x) = true) -> wx_ok (page_margins_xml num_text s).
Proof.
  intros H. split; [reflexivity|]. assert (A : forall x, attr_ok (num_text x)) by (intros; apply simple_attrs, H).
  apply attrs_check; [reflexivity|]. repeat (constructor; [split; [reflexivity|apply A]|]). constructor.
Qed.
Lemma header_footer_ok s : setup_ok s -> wx_ok (header_footer_xml s).
Proof.
  intros []. unfold header_footer_xml. assert (A : attrs_good (no (u_scale_doc s) "scaleWithDoc" ++ no (u_align s) "alignWithMargins")).
  { eapply sub_attrs; [apply sub_app; apply sub_when|]. cbn [app]. good. }
  cbv zeta. destruct (negb _ && negb _); [split; [reflexivity|exact A]|]. apply wx_ok_elem. split; [reflexivity|]. split; [exact A|].
  apply Forall_app. split; (match goal with |- context [when ?b _] => destruct b end; [|constructor]); (constructor; [|constructor]); (split; [reflexivity|]); (split; [apply attrs_nil|apply doc_writable; assumption]).
Qed.
Lemma page_ok num_text s : setup_ok s -> (forall x, forallb simple (num_text x) = true) -> Forall wx_ok (page_xml num_text s).
Proof.
  intros S H. unfold page_xml. apply Forall_app. split; [|apply Forall_app; split; [|apply Forall_app; split]].
  - destruct (u_options s); [|constructor]. constructor; [apply print_options_ok|constructor].
  - constructor; [apply margins_ok; exact H|constructor].
  - destruct (u_setup s); [|constructor]. constructor; [apply page_setup_ok|constructor].
  - destruct (u_hf s); [|constructor]. constructor; [apply header_footer_ok; exact S|constructor].
Qed.

(** ** The other elements of the part *)
Definition dims_ok (d : N * N * N * N) : Prop :=
  let '(fr, fc, lr, lc) := d in (fr = ROW_MAX /\ fc = COL_MAX /\ lr = 0 /\ lc = 0) \/ (fr < ROW_MAX /\ fc < COL_MAX /\ lr < ROW_MAX /\ lc < COL_MAX).
Lemma dimension_ok m d : dims_ok d -> exists t, dimension_xml m d = Some t /\ wx_ok t /\ tag_of t = lit "dimension".
Proof.
  destruct d as [[[fr fc] lr] lc]. intros D. unfold dimension_xml.
  assert (K : exists ref, (if (fr =? 0) && (fc =? 0) && (lr =? 0) && (lc =? COL_MAX - 1) then Some (lit "A1")
          else if negb (fr =? ROW_MAX) || negb (fc =? COL_MAX) || negb (lr =? 0) || negb (lc =? 0)
               then cell_range m fr fc lr lc else Some (lit "A1")) = Some ref /\ attr_ok ref).
  { destruct ((fr =? 0) && (fc =? 0) && (lr =? 0) && (lc =? COL_MAX - 1)); [eexists; split; reflexivity|].
    destruct D as [(-> & -> & -> & ->)|(A & B & C & E)]; [eexists; split; reflexivity|].
    destruct (negb (fr =? ROW_MAX) || _ || _ || _); [|eexists; split; reflexivity].
    destruct (range_text m fr fc lr lc A B C E) as (t & Et & At & _). exists t. auto. }
  destruct K as (ref & -> & A). cbn [obind]. eexists. split; [reflexivity|]. split; [|reflexivity]. split; [reflexivity|]. apply attrs_one; [reflexivity|exact A].
Qed.
Lemma format_pr_ok num_text i : (forall x, forallb simple (num_text x) = true) -> wx_ok (format_pr_xml num_text i).
Proof.
  intros H. split; [reflexivity|]. unfold yes. assert (A : attr_ok (num_text (n_row_height i))) by (apply simple_attrs, H).
  eapply sub_attrs; [apply sub_app; [apply sub_refl|]; repeat (apply sub_app; [apply sub_when|]); apply sub_when|]. cbn [app]. good.
Qed.
Lemma wrap_ok tag l : good_name (lit tag) = true -> Forall wx_ok l -> Forall wx_ok (wrap tag l) /\ at_most_one tag (wrap tag l).
Proof.
  intros G H. unfold wrap. destruct l as [|t l]; [split; [constructor|apply amo_nil]|]. split; [|apply amo_one; reflexivity].
  constructor; [|constructor]. apply wx_ok_elem. split; [exact G|]. split; [apply attrs_nil|exact H].
Qed.
Lemma breaks_ok tag max l : good_name (lit tag) = true -> attr_ok (lit max) -> Forall wx_ok (breaks_xml tag max l) /\ at_most_one tag (breaks_xml tag max l).
Proof.
  intros G M. unfold breaks_xml. destruct l as [|n l]; [split; [constructor|apply amo_nil]|]. split; [|apply amo_one; reflexivity].
  constructor; [|constructor]. apply wx_ok_elem. split; [exact G|]. split; [good|]. apply Forall_forall. intros x Hx.
  apply in_map_iff in Hx as (k & <- & _). split; [reflexivity|]. good.
Qed.
Definition ignored_ok (l : list (string * str)) : Prop := Forall (fun p => (exists k, fst p = ignore_name k) /\ attr_ok (snd p)) l.
Lemma ignored_xml_ok l : ignored_ok l -> Forall wx_ok (ignored_xml l) /\ at_most_one "ignoredErrors" (ignored_xml l).
Proof.
  intros H. apply wrap_ok; [reflexivity|]. apply Forall_forall. intros x Hx. apply in_map_iff in Hx as ([nm v] & <- & Hp).
  unfold ignored_ok in H. rewrite Forall_forall in H. destruct (H _ Hp) as [[k Ek] A]. cbn [fst snd] in *. subst nm. split; [reflexivity|].
  destruct k; good.
Qed.
Lemma rel_ok tag id : good_name (lit tag) = true -> wx_ok (rel_xml tag id).
Proof.
  intros G. split; [exact G|]. apply attrs_one; [reflexivity|]. rewrite forallb_app. apply andb_true_iff. split; [reflexivity|apply attr_dec].
Qed.
Lemma rel_opt_ok b tag id : good_name (lit tag) = true -> Forall wx_ok (fst (rel_opt b tag id)) /\ at_most_one tag (fst (rel_opt b tag id)).
Proof.
  intros G. destruct b; cbn [rel_opt fst]; [|split; [constructor|apply amo_nil]]. split; [|apply amo_one; reflexivity]. constructor; [apply rel_ok; exact G|constructor].
Qed.
Lemma table_parts_ok n id : Forall wx_ok (table_parts_xml n id) /\ at_most_one "tableParts" (table_parts_xml n id).
Proof.
  destruct n as [|n]; [split; [constructor|apply amo_nil]|]. unfold table_parts_xml. split; [|apply amo_one; reflexivity]. constructor; [|constructor].
  apply wx_ok_elem. split; [reflexivity|]. split; [good|]. generalize (S n). clear n. intros n. revert id. induction n as [|n IH]; intros id; [constructor|].
  cbn [table_part_xml]. constructor; [apply rel_ok; reflexivity|apply IH].
Qed.
