(** C96: the text of the autofilter element reads back as the filter asked for. *)
From Verif Require Import Base SMap F64 Ref_Model Xml_Model Xml_Spec Xml_Proofs Xml_Read Xml_Read_Proofs Xml_Tree Fmt_Model Rich_Proofs
  SheetXml_Spec SheetXml_Proofs SheetXml_Proofs3 Doc_Spec View_Spec Part_Proofs
  Cells_Model Cells_Proofs Cells_Hist Date_Parse Book_Model Book_Spec Filter_Model Filter_Spec Filter_Proofs Props_Filter Filter_Xml Filter_Read.
From Coq Require Import Sorted.

Definition read_of_el (e : filter_el) : rfilter :=
  match e with
  | EFilters b vs => RList b vs
  | ECustom cj fs => RCustom cj (map (fun f => (match compare_of (match fst f with Some o => [(lit "operator", o)] | None => [] end) with Some o => o | None => IsEqual end, snd f)) fs)
  end.
Definition op_good (f : option str * str) : Prop :=
  match fst f with Some o => attr_ok o /\ compare_of [(lit "operator", o)] <> None | None => True end /\ attr_ok (snd f).
Definition el_good (e : filter_el) : Prop :=
  match e with EFilters _ vs => Forall attr_ok vs | ECustom _ fs => Forall op_good fs end.

Lemma read_all_map {A B} (g : A -> node) (f : node -> option B) (h : A -> B) (l : list A) (P : A -> Prop) :
  (forall x, P x -> f (g x) = Some (h x)) -> Forall P l -> read_all f (map g l) = Some (map h l).
Proof.
  intros H. induction 1 as [|x l Hx _ IH]; [reflexivity|]. cbn [map read_all]. rewrite (H x Hx). cbn [bind]. rewrite IH. reflexivity.
Qed.
Lemma el_ok e : el_good e -> wx_ok (filter_el_xml e).
Proof.
  destruct e as [b vs|cj fs]; cbn [el_good filter_el_xml]; intros H.
  - assert (A : attrs_good (if b then [(lit "blank", lit "1")] else [])) by (destruct b; [apply attrs_one; reflexivity|apply attrs_nil]).
    destruct vs as [|v vs]; [split; [reflexivity|exact A]|]. apply wx_ok_elem. split; [reflexivity|]. split; [exact A|].
    apply Forall_forall. intros x Hx. apply in_map_iff in Hx as (y & <- & Hy). rewrite Forall_forall in H.
    split; [reflexivity|]. apply attrs_one; [reflexivity|apply H, Hy].
  - apply wx_ok_elem. split; [reflexivity|]. split; [destruct cj; [apply attrs_one; reflexivity|apply attrs_nil]|].
    apply Forall_forall. intros x Hx. apply in_map_iff in Hx as ([o v] & <- & Hy). rewrite Forall_forall in H. destruct (H _ Hy) as [Ho Hv].
    cbn [fst snd] in *. split; [reflexivity|]. cbn [fst snd]. destruct o as [o|]; [|apply attrs_one; [reflexivity|exact Hv]].
    destruct Ho as [Ho _]. apply attrs_check; [reflexivity|]. constructor; [split; [reflexivity|exact Ho]|]. constructor; [split; [reflexivity|exact Hv]|constructor].
Qed.
Lemma el_read e : el_good e -> read_condition (node_of (filter_el_xml e)) = Some (read_of_el e).
Proof.
  destruct e as [b vs|cj fs]; cbn [el_good filter_el_xml]; intros H.
  - destruct vs as [|v vs]; [destruct b; reflexivity|]. set (l := v :: vs) in *. clearbody l.
    cbn [node_of read_condition]. change (str_eqb (lit "filters") (lit "filters")) with true. cbv iota.
    rewrite map_map, (read_all_map _ _ (fun x => x) _ (fun _ => True)); [|intros; reflexivity|apply Forall_forall; auto].
    cbn [bind read_of_el]. rewrite map_id. destruct b; reflexivity.
  - cbn [node_of read_condition]. change (str_eqb (lit "customFilters") (lit "filters")) with false.
    change (str_eqb (lit "customFilters") (lit "customFilters")) with true. cbv iota.
    rewrite map_map, (read_all_map _ _ (fun f => (match compare_of (match fst f with Some o => [(lit "operator", o)] | None => [] end) with Some o => o | None => IsEqual end, snd f)) _ op_good);
      [|intros [o v] [Ho Hv]|exact H].
    + cbn [bind read_of_el]. destruct cj; reflexivity.
    + cbn [fst snd custom_filter_xml node_of read_test] in *. change (str_eqb (lit "customFilter") (lit "customFilter")) with true. cbv iota.
      destruct o as [o|]; [|reflexivity]. destruct Ho as [_ Ho].
      change (compare_of ([(lit "operator", o)] ++ [(lit "val", v)])) with (compare_of [(lit "operator", o)]).
      destruct (compare_of [(lit "operator", o)]); [reflexivity|congruence].
Qed.
Lemma column_read p : el_good (snd p) -> read_filter_column (node_of (filter_column_xml p)) = Some (fst p, read_of_el (snd p)).
Proof.
  intros H. cbn [filter_column_xml node_of map read_filter_column]. change (str_eqb (lit "filterColumn") (lit "filterColumn")) with true. cbv iota.
  change (attr "colId" [(lit "colId", dec (fst p))]) with (Some (dec (fst p))). cbn [bind]. rewrite number_of_dec. cbn [bind]. rewrite el_read by exact H. reflexivity.
Qed.

(** The whole element, for any stored filter whose texts fit. *)
Lemma element_reads m fr fc lr lc l : good4 fr fc lr lc -> Forall (fun p => el_good (snd p)) l ->
  exists t, cell_range m fr fc lr lc = Some t /\
  read_element (write_wx (match l with [] => WEmpty (lit "autoFilter") [(lit "ref", t)] | _ => WElem (lit "autoFilter") [(lit "ref", t)] (map filter_column_xml l) end))
    = Some ((fr, fc, (lr, lc)), map (fun p => (fst p, read_of_el (snd p))) l).
Proof.
  intros (G1 & G2 & G3 & G4) H. destruct (range_text m fr fc lr lc) as (t & Et & At & _ & Rt); try (unfold ROW_MAX, COL_MAX; lia).
  exists t. split; [exact Et|]. set (x := match l with [] => _ | _ => _ end).
  assert (X : wx_ok x).
  { unfold x. destruct l as [|p l]; [split; [reflexivity|apply attrs_one; [reflexivity|exact At]]|]. apply wx_ok_elem. split; [reflexivity|].
    split; [apply attrs_one; [reflexivity|exact At]|]. apply Forall_forall. intros y Hy. apply in_map_iff in Hy as (q & <- & Hq).
    rewrite Forall_forall in H. apply wx_ok_elem. split; [reflexivity|]. split; [apply attrs_one; [reflexivity|apply attr_dec]|].
    constructor; [apply el_ok, H, Hq|constructor]. }
  unfold read_element. rewrite (reads_doc _ _ (write_reads x X)).
  assert (N : node_of x = Elem (lit "autoFilter") [(lit "ref", t)] (map (fun p => node_of (filter_column_xml p)) l)).
  { unfold x. destruct l; [reflexivity|]. cbn [node_of]. rewrite map_map. reflexivity. }
  rewrite N. cbn [read_auto_filter]. change (str_eqb (lit "autoFilter") (lit "autoFilter")) with true. cbv iota.
  change (attr "ref" [(lit "ref", t)]) with (Some t). cbn [bind]. rewrite Rt. cbn [bind].
  rewrite (read_all_map _ _ (fun p => (fst p, read_of_el (snd p))) _ (fun p => el_good (snd p))); [reflexivity| |exact H].
  intros p Hp. apply column_read, Hp.
Qed.

(** ** The conditions *)
Lemma data_text_of nt v k : d_string (new_filter_data nt v k) = value_text nt v. Proof. destruct v; reflexivity. Qed.
Lemma data_criteria_of nt v k : d_criteria (new_filter_data nt v k) = k. Proof. destruct v; reflexivity. Qed.
Lemma custom_test nt k v : (match compare_of (match fst (custom_el (new_filter_data nt v k)) with Some o => [(lit "operator", o)] | None => [] end) with Some o => o | None => IsEqual end,
   snd (custom_el (new_filter_data nt v k))) = test_of k (value_text nt v).
Proof. unfold custom_el, value. rewrite data_criteria_of, data_text_of. destruct k; reflexivity. Qed.
Lemma custom_good nt k v : attr_ok (value_text nt v) -> op_good (custom_el (new_filter_data nt v k)).
Proof.
  intros H. unfold op_good, custom_el, value. rewrite data_criteria_of, data_text_of. cbn [fst snd].
  split; [destruct k; cbn [operator]; try exact Logic.I; (split; [reflexivity|vm_compute; discriminate])|].
  unfold attr_ok in *. destruct k; try exact H; cbn [forallb]; rewrite ?forallb_app, H; reflexivity.
Qed.
Lemma customs_tests nt l : map (fun d => (match compare_of (match fst (custom_el d) with Some o => [(lit "operator", o)] | None => [] end) with Some o => o | None => IsEqual end, snd (custom_el d)))
    (customs_of nt l) = tests_of nt l.
Proof.
  induction l as [|b l IH]; [reflexivity|]. destruct b as [v| |k v|]; cbn [customs_of tests_of flat_map app map]; try exact IH.
  f_equal; [apply custom_test|exact IH].
Qed.
Lemma tests_length nt l : length (customs_of nt l) = length (tests_of nt l).
Proof. rewrite <- customs_tests, map_length. reflexivity. Qed.
Lemma lists_values nt l : map d_string (list_of nt l) = values_of nt l.
Proof.
  induction l as [|b l IH]; [reflexivity|]. destruct b as [v| |k v|]; cbn [list_of values_of flat_map app map]; try exact IH.
  f_equal; [apply data_text_of|exact IH].
Qed.
Lemma firstn_in {A} n (l : list A) x : In x (firstn n l) -> In x l.
Proof. revert l. induction n; intros [|y l]; cbn; try tauto. intros [H|H]; auto. Qed.

Lemma condition_asked nt l : asked nt l (read_of_el (write_filter_column (build nt l))).
Proof.
  destruct (C40_condition_builder nt l) as (B1 & B2 & B3 & _ & B5 & B6). unfold write_filter_column. rewrite B5.
  destruct (rev l) as [|b r] eqn:Er; [|destruct (is_list_call b) eqn:Eb]; cbn [read_of_el asked]; rewrite ?Er.
  - split; [exact Logic.I|]. split; [exact B2|]. rewrite B1. apply lists_values.
  - split; [exact Eb|]. split; [exact B2|]. rewrite B1. apply lists_values.
  - split; [exact Eb|]. split.
    + rewrite B3, map_map, <- customs_tests. symmetry. apply firstn_map.
    + rewrite negb_true_iff, B6. split; intros (a & k & v & p & H1 & H2 & H3); exists a, k, v, p; rewrite ?tests_length in *; auto.
Qed.
Lemma condition_good nt l : Forall (call_fits nt) l -> el_good (write_filter_column (build nt l)).
Proof.
  intros H. rewrite Forall_forall in H. destruct (C40_condition_builder nt l) as (B1 & _ & B3 & _). unfold write_filter_column.
  destruct (is_list_filter _); cbn [el_good].
  - rewrite B1, lists_values. apply Forall_forall. intros x Hx. apply in_flat_map in Hx as (b & Hb & Hx).
    specialize (H b Hb). destruct b as [v| |k v|]; try destruct Hx as []. subst. exact H. contradiction.
  - rewrite B3. apply Forall_forall. intros x Hx. apply in_map_iff in Hx as (d & <- & Hd). apply firstn_in in Hd.
    apply in_flat_map in Hd as (b & Hb & Hd). specialize (H b Hb). destruct b as [v| |k v|]; try destruct Hd as []; [|contradiction].
    subst d. apply custom_good, H.
Qed.

Lemma condition_from ops col c : condition_after ops col = Some c -> exists col', In (FFilterColumn col' c) ops.
Proof.
  induction ops as [|o ops IH]; [discriminate|]. assert (K : condition_after ops col = Some c -> exists col', In (FFilterColumn col' c) (o :: ops)).
  { intros H. destruct (IH H) as [k Hk]. exists k. right. exact Hk. }
  destruct o as [o|fr fc lr lc ov|col' c'| |]; cbn [condition_after]; try exact K.
  - destruct (good4b _ _ _ _); [discriminate|exact K].
  - destruct (_ && _); [|exact K]. intros E. exists col'. left. congruence.
Qed.
Lemma describes_el c e : describes c e -> e = write_filter_column c.
Proof.
  unfold write_filter_column. destruct e as [b vs|cj fs]; cbn [describes]; intros (E & H); rewrite E; [destruct H as [-> ->]; reflexivity|].
  destruct H as (-> & L & H). f_equal. set (ds := opt_list (custom1 c) ++ opt_list (custom2 c)) in *. clearbody ds. clear E.
  revert ds L H. induction fs as [|f fs IH]; intros [|d ds] L H; try discriminate; [reflexivity|]. cbn [map]. f_equal.
  - exact (H 0%nat d f eq_refl eq_refl).
  - apply IH; [cbn in L; lia|]. intros i. exact (H (S i)).
Qed.
Lemma range_good ops fr fc lr lc : range_after ops = Some (fr, fc, lr, lc) -> good4 fr fc lr lc.
Proof.
  induction ops as [|o ops IH]; [discriminate|]. destruct o as [o|a b c d ov|col' c'| |]; cbn [range_after]; try exact IH.
  destruct (good4b a b c d) eqn:G; [|exact IH]. intros E. injection E as -> -> -> ->. unfold good4b in G. unfold good4.
  rewrite !andb_true_iff, !N.leb_le, !N.ltb_lt in G. tauto.
Qed.

(** After any history of calls whose texts fit in attributes (none of the autofilter
    calls rejected for overlapping a table): the element is written exactly when an
    autofilter is in force, and the XML reader finds in it the range of the last
    accepted autofilter call and, by increasing column relative to the first, the
    conditions in force, each saying what the calls that built it asked for. *)
Theorem C96_filter_reads_back lower nt m ops s : made_of_calls nt ops ->
  (forall fr fc lr lc, ~ In (FAutofilter fr fc lr lc true) ops) -> frun lower (fsheet_new ws_standard) ops = Some s ->
  match range_after (rev ops) with
  | None => auto_filter_xml m s = Some None
  | Some (fr, fc, lr, lc) => exists x l, auto_filter_xml m s = Some (Some x) /\ read_element (write_wx x) = Some ((fr, fc, (lr, lc)), l) /\
      StronglySorted N.lt (map fst l) /\
      (forall id r, In (id, r) l -> id <= lc - fc /\ exists calls, condition_after (rev ops) (fc + id) = Some (build nt calls) /\ asked nt calls r) /\
      (forall col c, condition_after (rev ops) col = Some c -> fc <= col <= lc /\ exists calls r, c = build nt calls /\ In (col - fc, r) l /\ asked nt calls r)
  end.
Proof.
  intros Hm Hno Es. assert (Hb : built_ops nt ops) by (intros col c H; destruct (Hm col c H) as (l & E & _); exists l; exact E).
  assert (P := C50_autofilter_element lower nt m ops s Hb Hno Es). unfold auto_filter_xml.
  destruct (range_after (rev ops)) as [[[[fr fc] lr] lc]|] eqn:Er; [|rewrite P; reflexivity].
  destruct P as (l & E & S & A & B). rewrite E. cbn [obind].
  assert (Hc : forall id e, In (id, e) l -> exists calls, condition_after (rev ops) (fc + id) = Some (build nt calls) /\ Forall (call_fits nt) calls /\ e = write_filter_column (build nt calls)).
  { intros id e H. destruct (A id e H) as (_ & c & Ec & D). destruct (condition_from _ _ _ Ec) as [k Hk]. apply in_rev in Hk.
    destruct (Hm k c Hk) as (calls & -> & F). exists calls. split; [exact Ec|]. split; [exact F|apply describes_el, D]. }
  destruct (element_reads m fr fc lr lc l (range_good _ _ _ _ _ Er)) as (t & Et & Rt).
  { apply Forall_forall. intros [id e] H. destruct (Hc id e H) as (calls & _ & F & ->). apply condition_good, F. }
  rewrite Et. cbn [obind]. eexists _, _. split; [reflexivity|]. split; [exact Rt|]. split; [|split].
  - rewrite map_map. exact S.
  - intros id r H. apply in_map_iff in H as ([id' e] & Q & H). cbn [fst snd] in Q. injection Q as -> <-. split; [apply (A id e H)|].
    destruct (Hc id e H) as (calls & Ec & _ & ->). exists calls. split; [exact Ec|apply condition_asked].
  - intros col c Ec. destruct (B col c Ec) as (Hr & e & H & _). split; [exact Hr|]. destruct (Hc _ _ H) as (calls & Ec' & _ & ->).
    replace (fc + (col - fc)) with col in Ec' by lia. exists calls, (read_of_el (write_filter_column (build nt calls))). split; [congruence|].
    split; [|apply condition_asked]. apply in_map_iff. exists (col - fc, write_filter_column (build nt calls)). split; [reflexivity|exact H].
Qed.
Print Assumptions C96_filter_reads_back.

(** What the stored comparison accepts is what the criterion says, for texts
    without the pattern characters. *)
Theorem C96_test_meaning k p t : plain p -> (test_accepts (test_of k p) t <-> text_holds k t p).
Proof.
  intros Hp. assert (Q := fun K => C50_pattern_meaning {| d_is_number := false; d_string := p; d_number := fzero; d_criteria := K |} t).
  destruct k; unfold test_accepts, test_of; cbn [fst snd text_holds]; try tauto.
  - assert (X := Q EqualTo eq_refl Hp). exact X.
  - assert (X := Q NotEqualTo eq_refl Hp). cbn [text_holds d_criteria d_string] in X. rewrite <- X. unfold file_holds. cbn. tauto.
  - assert (X := Q BeginsWith eq_refl Hp). exact X.
  - assert (X := Q DoesNotBeginWith eq_refl Hp). cbn [text_holds d_criteria d_string] in X. rewrite <- X. unfold file_holds. cbn. tauto.
  - assert (X := Q EndsWith eq_refl Hp). exact X.
  - assert (X := Q DoesNotEndWith eq_refl Hp). cbn [text_holds d_criteria d_string] in X. rewrite <- X. unfold file_holds. cbn. tauto.
  - assert (X := Q Contains eq_refl Hp). exact X.
  - assert (X := Q DoesNotContain eq_refl Hp). cbn [text_holds d_criteria d_string] in X. rewrite <- X. unfold file_holds. cbn. tauto.
Qed.
Print Assumptions C96_test_meaning.

Example C96_example : let ops := [text_at 0 1 "Region"; FAutofilter 0 1 5 3 false;
    FFilterColumn 1 (build ntx [BList (FText (lit "R&D")); BBlanks]);
    FFilterColumn 3 (build ntx [BCustom LessThanOrEqualTo (FNumber (f_of_N 7)); BCustom DoesNotContain (FText (lit "x")); BOr])] in
  made_of_calls ntx ops /\
  match frun low (fsheet_new ws_standard) (ops ++ [FSave]) with
  | Some s => match auto_filter_xml Debug s with
              | Some (Some x) => read_element (write_wx x) = Some ((0, 1, (5, 3)),
                  [(0, RList true [lit "R&D"]); (2, RCustom false [(IsLessOrEqual, lit "7"); (IsNotEqual, lit "*x*")])])
              | _ => False end
  | None => False end.
Proof.
  cbv zeta. split; [|vm_compute; reflexivity]. intros col c H. destruct H as [H|[H|[H|[H|[]]]]]; try discriminate H.
  - assert (E : c = build ntx [BList (FText (lit "R&D")); BBlanks]) by congruence. eexists. split; [exact E|]. repeat constructor.
  - assert (E : c = build ntx [BCustom LessThanOrEqualTo (FNumber (f_of_N 7)); BCustom DoesNotContain (FText (lit "x")); BOr]) by congruence.
    eexists. split; [exact E|]. repeat constructor.
Qed.

(** Finding: a rejected autofilter call leaves the columns of the new range in
    force over the range of the old element, so filter columns are accepted that
    the element's range does not have. *)
Theorem C96_rejected_call_refuted : let c := build ntx [BList (FText (lit "x"))] in
  let ops := [FAutofilter 0 0 5 1 false; FAutofilter 0 4 5 9 true; FFilterColumn 9 c] in
  exists s x, frun low (fsheet_new ws_standard) ops = Some s /\ auto_filter_xml Debug s = Some (Some x) /\
    read_element (write_wx x) = Some ((0, 0, (5, 1)), [(5, RList false [lit "x"])]).
Proof. eexists _, _. split; [vm_compute; reflexivity|]. split; [vm_compute; reflexivity|]. vm_compute. reflexivity. Qed.
Print Assumptions C96_rejected_call_refuted.
