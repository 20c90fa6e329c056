(** What the written rows read as. *)
From Verif Require Import Base SMap F64 Fmt_Model Xml_Model Xml_Spec Xml_Proofs Xml_Read Xml_Read_Proofs Xml_Tree
  Sst_Model Ref_Model Ref_Spec Ref_Proofs Cells_Model Cells_Spec Rich_Model Rich_Proofs SheetXml_Model SheetXml_Spec SheetXml_Proofs SheetXml_Proofs2 SheetXml_Proofs3.

(** ** Optional attributes *)
Definition keys_of (l : list (str * str)) : list str := map (fun p => fst p) l.
Lemma notin_when k b l' l : ~ In k (keys_of l') -> ~ In k (keys_of l) -> ~ In k (keys_of (when b l' ++ l)).
Proof. intros H1 H2. destruct b; cbn [when app]; [|assumption]. unfold keys_of. rewrite map_app, in_app_iff. intros [H|H]; auto. Qed.
Lemma notin_one k j v : str_eqb j k = false -> ~ In k (keys_of [(j, v)]).
Proof. intros H [E|[]]. cbn in E. subst. rewrite str_eqb_refl in H. discriminate. Qed.
Lemma notin_two k j v j' v' : str_eqb j k = false -> str_eqb j' k = false -> ~ In k (keys_of [(j, v); (j', v')]).
Proof. intros H H' [E|[E|[]]]; cbn in E; subst; rewrite str_eqb_refl in *; discriminate. Qed.
Lemma notin_nil k : ~ In k (keys_of []).
Proof. intros []. Qed.
Lemma good_when b k v l : good_name k = true -> (b = true -> forallb attr_char v = true) -> ~ In k (keys_of l) -> attrs_good l -> attrs_good (when b [(k, v)] ++ l).
Proof. intros G V N A. destruct b; cbn [when app]; [|assumption]. apply attrs_cons_good; auto. Qed.
Lemma good_when2 b k v k' v' l : good_name k = true -> forallb attr_char v = true -> good_name k' = true -> forallb attr_char v' = true ->
  str_eqb k' k = false -> ~ In k (keys_of l) -> ~ In k' (keys_of l) -> attrs_good l -> attrs_good (when b [(k, v); (k', v')] ++ l).
Proof.
  intros G V G' V' D N N' A. destruct b; cbn [when app]; [|assumption]. apply attrs_cons_good; auto; [|apply attrs_cons_good; auto].
  cbn [map fst In]. intros [E|E]; [|auto]. subst. rewrite str_eqb_refl in D. discriminate.
Qed.
Lemma attr_when_skip k b l' l : attr k l' = None -> attr k (when b l' ++ l) = attr k l.
Proof.
  intros H. destruct b; cbn [when app]; [|reflexivity]. unfold attr in *. induction l' as [|[j v] l' IH]; [reflexivity|].
  cbn [app find fst] in *. destruct (str_eqb j (lit k)); [discriminate|]. auto.
Qed.
Lemma attr_when_hit k b v l : attr k (when b [(lit k, v)] ++ l) = if b then Some v else attr k l.
Proof. destruct b; [|reflexivity]. unfold attr. cbn [when app find fst]. rewrite str_eqb_refl. reflexivity. Qed.
Lemma attr_one_none k j v : str_eqb j (lit k) = false -> attr k [(j, v)] = None.
Proof. intros H. unfold attr. cbn [find fst]. rewrite H. reflexivity. Qed.
Lemma attr_two_none k j v j' v' : str_eqb j (lit k) = false -> str_eqb j' (lit k) = false -> attr k [(j, v); (j', v')] = None.
Proof. intros H H'. unfold attr. cbn [find fst]. rewrite H, H'. reflexivity. Qed.

Ltac notin := repeat (apply notin_when; [first [apply notin_one; reflexivity | apply notin_two; reflexivity]|]); apply notin_nil.
Ltac skips := repeat (rewrite attr_when_skip by (first [apply attr_one_none; reflexivity | apply attr_two_none; reflexivity])).

(** [l] as a [when]. *)
Lemma when_true {A} (l : list A) : when true l = l. Proof. reflexivity. Qed.

Section Rows.
  Variable num_text : f64 -> str.
  Variable read_num : str -> option f64.
  Variable m : ovf.
  Variable image_id : N -> N.
  Hypothesis num_simple : forall x, forallb simple (num_text x) = true.
  Hypothesis num_read : forall x, is_finite x = true -> read_num (num_text x) = Some x.
  Variable items : list node.
  Variable w : ws.
  Variable g : N -> N.
  Variable x14 : bool.

  Definition custom (h : f64) : bool :=
    negb (feq h DEFAULT_ROW_HEIGHT) || (feq h DEFAULT_ROW_HEIGHT && negb (feq (default_row_height w) DEFAULT_ROW_HEIGHT)).
  Definition opt_attrs (o : rowopt) : list (str * str) :=
    when (negb (r_xf o =? 0)) [(lit "s", dec (g (r_xf o))); (lit "customFormat", lit "1")] ++
    when (custom (r_height o)) [(lit "ht", num_text (r_height o))] ++
    when (r_hidden o) [(lit "hidden", lit "1")] ++
    when (custom (r_height o)) [(lit "customHeight", lit "1")] ++
    when (0 <? r_level o) [(lit "outlineLevel", dec (r_level o))] ++
    when (r_collapsed o) [(lit "collapsed", lit "1")] ++ [].
  Definition no_opt_attrs : list (str * str) :=
    when (negb (feq (default_row_height w) DEFAULT_ROW_HEIGHT)) [(lit "ht", num_text (default_row_height w)); (lit "customHeight", lit "1")] ++ [].
  Definition span_attr (sp : option (N * N)) : list (str * str) :=
    when (match sp with Some _ => true | None => false end) [(lit "spans", match sp with Some (a, b) => dec a ++ lit ":" ++ dec b | None => [] end)].
  Lemma row_attributes_eq sp row ro : row_attributes num_text w g x14 sp row ro =
    when true [(lit "r", dec (row + 1))] ++ span_attr sp ++ when x14 [(lit "x14ac:dyDescent", lit "0.25")] ++
    match ro with Some o => opt_attrs o | None => no_opt_attrs end.
  Proof.
    unfold row_attributes. rewrite when_true. f_equal. f_equal; [destruct sp as [[a b]|]; reflexivity|]. f_equal.
    destruct ro as [o|]; [|unfold no_opt_attrs; rewrite app_nil_r; reflexivity]. unfold opt_attrs. rewrite app_nil_r. reflexivity.
  Qed.
  Lemma opt_good ro : attrs_good (match ro with Some o => opt_attrs o | None => no_opt_attrs end).
  Proof.
    destruct ro as [o|].
    - unfold opt_attrs. apply good_when2; [reflexivity|apply dec_attr|reflexivity|reflexivity|reflexivity|notin|notin|].
      apply good_when; [reflexivity|intros _; apply simple_attrs; auto|notin|].
      apply good_when; [reflexivity|reflexivity|notin|].
      apply good_when; [reflexivity|reflexivity|notin|].
      apply good_when; [reflexivity|intros _; apply dec_attr|notin|].
      apply good_when; [reflexivity|reflexivity|notin|]. apply attrs_nil.
    - unfold no_opt_attrs. apply good_when2; [reflexivity|apply simple_attrs; auto|reflexivity|reflexivity|reflexivity|notin|notin|apply attrs_nil].
  Qed.
  Lemma opt_notin k ro : (forall j, In j [lit "s"; lit "customFormat"; lit "ht"; lit "hidden"; lit "customHeight"; lit "outlineLevel"; lit "collapsed"] -> str_eqb j k = false) ->
    ~ In k (keys_of (match ro with Some o => opt_attrs o | None => no_opt_attrs end)).
  Proof.
    intros H. destruct ro as [o|]; [unfold opt_attrs|unfold no_opt_attrs];
      repeat (apply notin_when; [first [apply notin_one; apply H; cbn [In]; auto 10 | apply notin_two; apply H; cbn [In]; auto 10]|]); apply notin_nil.
  Qed.
  Lemma row_attrs_good sp row ro : attrs_good (row_attributes num_text w g x14 sp row ro).
  Proof.
    rewrite row_attributes_eq. unfold span_attr.
    assert (O : forall k, (forall j, In j [lit "s"; lit "customFormat"; lit "ht"; lit "hidden"; lit "customHeight"; lit "outlineLevel"; lit "collapsed"] -> str_eqb j k = false) ->
      ~ In k (keys_of (match ro with Some o => opt_attrs o | None => no_opt_attrs end))) by (intros; apply opt_notin; assumption).
    assert (L : forall k, forallb (fun j => negb (str_eqb j k)) [lit "s"; lit "customFormat"; lit "ht"; lit "hidden"; lit "customHeight"; lit "outlineLevel"; lit "collapsed"] = true ->
      ~ In k (keys_of (match ro with Some o => opt_attrs o | None => no_opt_attrs end))).
    { intros k H. apply O. intros j Hj. rewrite forallb_forall in H. apply H in Hj. destruct (str_eqb j k); [discriminate|reflexivity]. }
    apply good_when; [reflexivity|intros _; apply dec_attr| |].
    { apply notin_when; [apply notin_one; reflexivity|]. apply notin_when; [apply notin_one; reflexivity|]. apply L. reflexivity. }
    apply good_when; [reflexivity| | |].
    { destruct sp as [[a b]|]; [|discriminate]. intros _. rewrite !forallb_app, !dec_attr. reflexivity. }
    { apply notin_when; [apply notin_one; reflexivity|]. apply L. reflexivity. }
    apply good_when; [reflexivity|reflexivity|apply L; reflexivity|]. apply opt_good.
  Qed.

  (** What the attributes say. *)
  Lemma row_attr_r sp row ro : attr "r" (row_attributes num_text w g x14 sp row ro) = Some (dec (row + 1)).
  Proof. reflexivity. Qed.
  Lemma row_attr_opt k sp row ro : str_eqb (lit "r") (lit k) = false -> str_eqb (lit "spans") (lit k) = false -> str_eqb (lit "x14ac:dyDescent") (lit k) = false ->
    attr k (row_attributes num_text w g x14 sp row ro) = attr k (match ro with Some o => opt_attrs o | None => no_opt_attrs end).
  Proof.
    intros H1 H2 H3. rewrite row_attributes_eq. unfold span_attr. rewrite attr_when_skip by (apply attr_one_none; assumption).
    rewrite attr_when_skip by (apply attr_one_none; assumption). rewrite attr_when_skip by (apply attr_one_none; assumption). reflexivity.
  Qed.
  (** The row options found in the file. *)
  Definition row_says (ro : option rowopt) (f : frow) : Prop :=
    match ro with
    | Some o => fr_hidden f = r_hidden o /\ fr_level f = r_level o /\ fr_collapsed f = r_collapsed o /\
                fr_style f = (if r_xf o =? 0 then None else Some (g (r_xf o))) /\
                fr_height f = (if custom (r_height o) then Some (num_text (r_height o)) else None)
    | None => fr_hidden f = false /\ fr_level f = 0 /\ fr_collapsed f = false /\ fr_style f = None /\
              fr_height f = (if negb (feq (default_row_height w) DEFAULT_ROW_HEIGHT) then Some (num_text (default_row_height w)) else None)
    end.
  Lemma row_reads sp row ro kids cells : read_all (read_cell items) kids = Some cells -> Forall (fun c => fc_row c = row) cells ->
    exists f, read_row items (Elem (lit "row") (row_attributes num_text w g x14 sp row ro) kids) = Some f /\
      fr_row f = row /\ fr_cells f = cells /\ row_says ro f.
  Proof.
    intros K F. unfold read_row. change (str_eqb (lit "row") (lit "row")) with true. cbv iota. rewrite row_attr_r. cbn [bind].
    rewrite number_of_dec. cbn [bind]. rewrite K. cbn [bind]. unfold flag_of. rewrite !(row_attr_opt _ sp row ro) by reflexivity.
    assert (E : forallb (fun c => fc_row c =? row + 1 - 1) cells = true).
    { apply forallb_forall. intros c Hc. rewrite Forall_forall in F. rewrite (F c Hc). apply N.eqb_eq. lia. }
    destruct ro as [o|].
    - assert (As : attr "s" (opt_attrs o) = if negb (r_xf o =? 0) then Some (dec (g (r_xf o))) else None).
      { unfold opt_attrs. destruct (negb (r_xf o =? 0)); [reflexivity|]. cbn [when app]. skips. reflexivity. }
      assert (Ac : attr "customFormat" (opt_attrs o) = if negb (r_xf o =? 0) then Some (lit "1") else None).
      { unfold opt_attrs. destruct (negb (r_xf o =? 0)); [reflexivity|]. cbn [when app]. skips. reflexivity. }
      assert (Ah : attr "ht" (opt_attrs o) = if custom (r_height o) then Some (num_text (r_height o)) else None).
      { unfold opt_attrs. rewrite attr_when_skip by (apply attr_two_none; reflexivity). rewrite attr_when_hit. destruct (custom _); [reflexivity|]. skips. reflexivity. }
      assert (Ai : attr "hidden" (opt_attrs o) = if r_hidden o then Some (lit "1") else None).
      { unfold opt_attrs. rewrite attr_when_skip by (apply attr_two_none; reflexivity). rewrite attr_when_skip by (apply attr_one_none; reflexivity).
        rewrite attr_when_hit. destruct (r_hidden o); [reflexivity|]. skips. reflexivity. }
      assert (Au : attr "customHeight" (opt_attrs o) = if custom (r_height o) then Some (lit "1") else None).
      { unfold opt_attrs. rewrite attr_when_skip by (apply attr_two_none; reflexivity). do 2 rewrite attr_when_skip by (apply attr_one_none; reflexivity).
        rewrite attr_when_hit. destruct (custom _); [reflexivity|]. skips. reflexivity. }
      assert (Al : attr "outlineLevel" (opt_attrs o) = if 0 <? r_level o then Some (dec (r_level o)) else None).
      { unfold opt_attrs. rewrite attr_when_skip by (apply attr_two_none; reflexivity). do 3 rewrite attr_when_skip by (apply attr_one_none; reflexivity).
        rewrite attr_when_hit. destruct (0 <? _); [reflexivity|]. skips. reflexivity. }
      assert (Ao : attr "collapsed" (opt_attrs o) = if r_collapsed o then Some (lit "1") else None).
      { unfold opt_attrs. rewrite attr_when_skip by (apply attr_two_none; reflexivity). do 4 rewrite attr_when_skip by (apply attr_one_none; reflexivity).
        rewrite attr_when_hit. destruct (r_collapsed o); reflexivity. }
      rewrite As, Ac, Ah, Ai, Au, Al, Ao, E. replace (1 <=? row + 1) with true by lia. cbn [andb].
      destruct (negb (r_xf o =? 0)) eqn:Ex; cbn [bind]; rewrite ?number_of_dec; cbn [bind];
        destruct (N.ltb_spec 0 (r_level o)) as [Hl|Hl]; rewrite ?number_of_dec; cbn [bind];
        (eexists; split; [reflexivity|]); (split; [cbn [fr_row]; lia|]); (split; [reflexivity|]); cbn [row_says fr_hidden fr_level fr_collapsed fr_style fr_height];
        (split; [destruct (r_hidden o); reflexivity|]); (split; [lia|]); (split; [destruct (r_collapsed o); reflexivity|]);
        (split; [destruct (r_xf o =? 0); [reflexivity || discriminate|reflexivity || discriminate]|destruct (custom _); reflexivity]).
    - unfold no_opt_attrs. rewrite E. replace (1 <=? row + 1) with true by lia. cbn [andb].
      unfold row_says. destruct (negb (feq _ _)); (eexists; split; [reflexivity|]); (split; [cbn [fr_row]; lia|]); (split; [reflexivity|]);
        repeat (split; [reflexivity|]); reflexivity.
  Qed.
End Rows.
