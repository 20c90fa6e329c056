(** What a written cell and a written row read as. *)
From Verif Require Import Base SMap F64 Fmt_Model Xml_Model Xml_Spec Xml_Proofs Xml_Read Xml_Read_Proofs Xml_Tree
  Sst_Model Ref_Model Ref_Spec Ref_Proofs Cells_Model Cells_Spec Rich_Model Rich_Proofs SheetXml_Model SheetXml_Spec SheetXml_Proofs SheetXml_Proofs2.

Lemma number_of_dec n : number_of (dec n) = Some n.
Proof.
  destruct (dec_spec n) as (D & Ne & _ & V). assert (H : forall s acc, forallb is_ascii_digit s = true -> dec_number acc s = Some (digits_value acc s)).
  { clear. induction s as [|c s IH]; intros acc H; [reflexivity|]. cbn [forallb] in H. apply andb_prop in H as [H1 H2].
    cbn [dec_number digits_value]. rewrite H1. apply IH. assumption. }
  unfold number_of. destruct (dec n) as [|c s] eqn:E; [congruence|]. rewrite H by assumption. rewrite V. reflexivity.
Qed.
Lemma data_plain s : plain_text s -> data_text s = s.
Proof. intros H. exact (plain_ctl s H). Qed.
Lemma data_simple s : forallb simple s = true -> data_text s = s.
Proof.
  induction s as [|c s IH]; [reflexivity|]. cbn [forallb]. intros H. apply andb_prop in H as [H1 H2]. unfold data_text. cbn [flat_map]. fold (data_text s).
  rewrite (IH H2). unfold simple, is_ascii_upper, is_ascii_lower, is_ascii_digit in H1. destruct (N.ltb_spec c 32); [lia|]. reflexivity.
Qed.
Lemma text_of_data tag s attrs : text_of (node_of (WData tag s attrs)) = Some (data_text s).
Proof. destruct s; reflexivity. Qed.

Section R.
  Variable num_text : f64 -> str.
  Variable read_num : str -> option f64.
  Variable m : ovf.
  Variable image_id : N -> N.
  Hypothesis num_simple : forall x, forallb simple (num_text x) = true.
  Hypothesis num_read : forall x, is_finite x = true -> read_num (num_text x) = Some x.
  Variable items : list node.

  Definition formula_good (t r : str) : Prop := plain_text t /\ plain_text r /\ ~ special_word r.
  Definition cell_good (c : cell) (xf : N) : Prop :=
    match c with
    | CBlank => 0 < xf
    | CNumber x | CDateTime x => is_finite x = true
    | CString s (Some i) => exists n, nth_error items (N.to_nat i) = Some n /\ read_item n = Some (FText s)
    | CRich s _ (Some i) => exists n runs, nth_error items (N.to_nat i) = Some n /\ read_item n = Some (FRich runs) /\ read_xml s = Some runs
    | CString _ None | CRich _ _ None => False
    | CInline s => forallb writable s = true
    | CFormula f r => formula_good f r
    | CArray f r _ g => formula_good f r /\ forallb simple g = true
    | CBool _ | CError _ => True
    end.

  Lemma attrs_cons_good k v l : good_name k = true -> forallb attr_char v = true -> ~ In k (map (fun p => fst p) l) -> attrs_good l -> attrs_good ((k, v) :: l).
  Proof.
    intros G V N [ND H]. split; [constructor; assumption|]. intros p [<-|Hp]; auto.
  Qed.
  Definition extra_ok (l : list (str * str)) : Prop := attrs_good l /\ ~ In (lit "r") (map (fun p => fst p) l) /\ ~ In (lit "s") (map (fun p => fst p) l).
  Lemma c_attrs_good ref xf extra : forallb simple ref = true -> extra_ok extra -> attrs_good ((lit "r", ref) :: style_attr xf ++ extra).
  Proof.
    intros R (E & N1 & N2). unfold style_attr. destruct (0 <? xf); cbn [when app].
    - apply attrs_cons_good; [reflexivity|apply simple_attrs; assumption| |].
      + cbn [map fst In]. intros [H|H]; [discriminate|contradiction].
      + apply attrs_cons_good; [reflexivity|apply dec_attr| |]; assumption.
    - apply attrs_cons_good; [reflexivity|apply simple_attrs; assumption| |]; assumption.
  Qed.
  Lemma extra_nil : extra_ok [].
  Proof. split; [apply attrs_nil|]. split; intros []. Qed.
  Lemma extra_cons k v l : good_name k = true -> forallb attr_char v = true -> ~ In k (map (fun p => fst p) l) -> lit "r" <> k -> lit "s" <> k -> extra_ok l -> extra_ok ((k, v) :: l).
  Proof.
    intros G V N R S (E & N1 & N2). split; [apply attrs_cons_good; assumption|]. cbn [map fst In]. split; intros [H|H]; auto.
  Qed.
  Lemma extra_t v : forallb attr_char v = true -> extra_ok [(lit "t", v)].
  Proof. intros V. apply extra_cons; [reflexivity|assumption|intros []|discriminate|discriminate|apply extra_nil]. Qed.
  Lemma res_extra r : extra_ok (res_attr r).
  Proof.
    unfold res_attr. destruct (negb _); [|apply extra_nil]. destruct (existsb _ _); [apply extra_t; reflexivity|].
    destruct (_ || _); apply extra_t; reflexivity.
  Qed.
  Lemma res_only_t r k : k <> lit "t" -> ~ In k (map (fun p => fst p) (res_attr r)).
  Proof.
    intros H. unfold res_attr. destruct (negb _); [|intros []]. destruct (existsb _ _); [intros [E|[]]; apply H; symmetry; exact E|].
    destruct (_ || _); intros [E|[]]; apply H; symmetry; exact E.
  Qed.
  Lemma cm_extra d r : extra_ok (when d [(lit "cm", lit "1")] ++ res_attr r).
  Proof.
    destruct d; cbn [when app]; [|apply res_extra]. apply extra_cons; [reflexivity|reflexivity| |discriminate|discriminate|apply res_extra].
    apply res_only_t. discriminate.
  Qed.

  (** Attribute look-ups. *)
  Lemma attr_r ref l : attr "r" ((lit "r", ref) :: l) = Some ref. Proof. reflexivity. Qed.
  Lemma attr_skip k v j l : str_eqb k (lit j) = false -> attr j ((k, v) :: l) = attr j l.
  Proof. intros H. unfold attr. cbn [find fst]. rewrite H. reflexivity. Qed.
  Lemma attr_none k l : ~ In (lit k) (map (fun p => fst p) l) -> attr k l = None.
  Proof.
    induction l as [|[a b] l IH]; [reflexivity|]. cbn [map fst In]. intros H. rewrite attr_skip; [apply IH; tauto|].
    destruct (str_eqb_spec a (lit k)); [subst; tauto|reflexivity].
  Qed.
  Lemma style_read ref xf extra : extra_ok extra -> style_of ((lit "r", ref) :: style_attr xf ++ extra) = Some xf.
  Proof.
    intros (_ & _ & N). unfold style_of. rewrite attr_skip by reflexivity. unfold style_attr. destruct (N.ltb_spec 0 xf) as [H|H]; cbn [when app].
    - unfold attr. cbn [find fst]. change (str_eqb (lit "s") (lit "s")) with true. cbv iota. cbn [snd]. apply number_of_dec.
    - rewrite attr_none by assumption. f_equal. lia.
  Qed.
  Lemma attr_past k ref xf extra : str_eqb (lit "r") (lit k) = false -> str_eqb (lit "s") (lit k) = false ->
    attr k ((lit "r", ref) :: style_attr xf ++ extra) = attr k extra.
  Proof.
    intros H1 H2. rewrite attr_skip by assumption. unfold style_attr. destruct (0 <? xf); [|reflexivity]. cbn [when app]. apply attr_skip. assumption.
  Qed.

  Lemma v_ok s : forallb writable s = true -> wx_ok (v_elem s).
  Proof. intros H. split; [reflexivity|]. split; [apply attrs_nil|assumption]. Qed.
  Lemma c_ok ref xf extra kids : forallb simple ref = true -> extra_ok extra -> Forall wx_ok kids -> wx_ok (c_elem ref xf extra kids).
  Proof. intros R E K. apply wx_ok_elem. split; [reflexivity|]. split; [apply c_attrs_good; assumption|assumption]. Qed.
  Lemma res_writable r : plain_text r -> forallb writable (res_value r) = true.
  Proof.
    intros P. unfold res_value. destruct (str_eqb _ _); [reflexivity|]. destruct (str_eqb _ _); [reflexivity|]. apply storable_writable. apply P.
  Qed.
  Lemma res_plain r : plain_text r -> data_text (res_value r) = res_value r.
  Proof.
    intros P. unfold res_value. destruct (str_eqb _ _); [reflexivity|]. destruct (str_eqb _ _); [reflexivity|]. apply data_plain. assumption.
  Qed.
  Lemma esc_writable s : forallb writable s = true -> forallb writable (esc s) = true.
  Proof.
    intros H. apply esc_chars; [|assumption]. intros c Hc. assert (F : forallb writable (lit "_x005F") = true) by reflexivity.
    rewrite forallb_forall in F. auto.
  Qed.

  Lemma cell_wx_ok ref c xf : forallb simple ref = true -> cell_good c xf -> Forall wx_ok (cell_wx num_text image_id ref c xf).
  Proof.
    intros R G. assert (One : forall x, wx_ok x -> Forall wx_ok [x]) by (intros x H; constructor; [assumption|constructor]).
    destruct c as [|n|s [i|]|x|b|f r|x|s raw [i|]|s|f r d g]; cbn [cell_wx cell_good] in *.
    - replace (0 <? xf) with true by lia. cbn [when]. apply One. split; [reflexivity|].
      pose proof (c_attrs_good ref xf [] R extra_nil) as A. rewrite app_nil_r in A. exact A.
    - apply One, c_ok; [assumption| |apply One, v_ok; reflexivity].
      apply extra_cons; [reflexivity|reflexivity| |discriminate|discriminate|].
      + cbn. intros [H|[]]; discriminate.
      + apply extra_cons; [reflexivity|apply dec_attr|intros []|discriminate|discriminate|apply extra_nil].
    - apply One, c_ok; [assumption|apply extra_t; reflexivity|apply One, v_ok, simple_writables, dec_simple].
    - destruct G.
    - apply One, c_ok; [assumption|apply extra_nil|apply One, v_ok, simple_writables, num_simple].
    - apply One, c_ok; [assumption|apply extra_t; reflexivity|apply One, v_ok]. destruct b; reflexivity.
    - destruct G as (P1 & P2 & Ns). apply One, c_ok; [assumption|apply res_extra|]. constructor; [|apply One, v_ok, res_writable; assumption].
      split; [reflexivity|]. split; [apply attrs_nil|]. apply storable_writable. apply P1.
    - apply One, c_ok; [assumption|apply extra_nil|apply One, v_ok, simple_writables, num_simple].
    - apply One, c_ok; [assumption|apply extra_t; reflexivity|apply One, v_ok, simple_writables, dec_simple].
    - destruct G.
    - apply One, c_ok; [assumption|apply extra_t; reflexivity|]. apply One, wx_ok_elem. split; [reflexivity|]. split; [apply attrs_nil|].
      apply One. split; [reflexivity|]. split; [|apply esc_writable; assumption]. destruct (ws_edges s); [apply attrs_one; reflexivity|apply attrs_nil].
    - destruct G as ((P1 & P2 & Ns) & Sg). apply One, c_ok; [assumption|apply cm_extra|]. constructor; [|apply One, v_ok, res_writable; assumption].
      split; [reflexivity|]. split; [|apply storable_writable; apply P1].
      apply attrs_cons_good; [reflexivity|reflexivity| |apply attrs_one; [reflexivity|apply simple_attrs; assumption]].
      cbn. intros [H|[]]; discriminate.
  Qed.

  (** The metadata record of a cell: only dynamic array formulas have one. *)
  Definition cell_meta (c : cell) : option N := match c with CArray _ _ true _ => Some 1 | _ => None end.
  Lemma meta_past ref xf extra : extra_ok extra -> meta_of ((lit "r", ref) :: style_attr xf ++ extra) = meta_of extra.
  Proof. intros E. unfold meta_of. rewrite (attr_past "cm") by reflexivity. reflexivity. Qed.
  Lemma read_c row col ref xf extra kids v mt : parse_a1 ref = Some {| a1_row := row; a1_col := col; a1_absrow := false; a1_abscol := false |} ->
    extra_ok extra -> read_value items ((lit "r", ref) :: style_attr xf ++ extra) kids = Some v -> meta_of extra = Some mt ->
    read_cell items (Elem (lit "c") ((lit "r", ref) :: style_attr xf ++ extra) kids) = Some {| fc_row := row; fc_col := col; fc_style := xf; fc_value := v; fc_meta := mt |}.
  Proof.
    intros P E V Mt. unfold read_cell. change (str_eqb (lit "c") (lit "c")) with true. cbv iota. rewrite attr_r. cbn [bind].
    rewrite P. cbn [bind]. rewrite (style_read ref xf extra E). cbn [bind]. rewrite V. cbn [bind]. rewrite meta_past, Mt by assumption. reflexivity.
  Qed.
  Lemma kid_text_v s : kid_text "v" [node_of (v_elem s)] = Some (data_text s).
  Proof. exact (text_of_data (lit "v") s []). Qed.
  Lemma read_value_v ref xf extra s k : extra_ok extra -> attr "t" extra = k ->
    read_value items ((lit "r", ref) :: style_attr xf ++ extra) [node_of (v_elem s)] =
    match k with
    | None => Some (FNumber (data_text s))
    | Some k => if str_eqb k (lit "s") then bind (number_of (data_text s)) (fun i => bind (nth_error items (N.to_nat i)) read_item)
            else if str_eqb k (lit "inlineStr") then None
            else if str_eqb k (lit "b") then bind (read_result (Some k) (data_text s)) (fun r => match r with RBool b => Some (FBool b) | _ => None end)
            else if str_eqb k (lit "e") then bind (attr "vm" extra) (fun v => bind (number_of v) (fun i => Some (FImage i)))
            else None
    end.
  Proof.
    intros E <-. unfold read_value. assert (Kf : kid "f" [node_of (v_elem s)] = None) by reflexivity.
    assert (Ki : kid "is" [node_of (v_elem s)] = None) by reflexivity. rewrite Kf, Ki, kid_text_v.
    rewrite (attr_past "t"), (attr_past "vm") by reflexivity. cbn [bind]. destruct (attr "t" extra); reflexivity.
  Qed.
  Lemma kid_f f fa s : kid "f" [node_of (WData (lit "f") f fa); node_of (v_elem s)] = Some (node_of (WData (lit "f") f fa)).
  Proof. reflexivity. Qed.
  Lemma kid_v f fa s : kid_text "v" [node_of (WData (lit "f") f fa); node_of (v_elem s)] = Some (data_text s).
  Proof. exact (text_of_data (lit "v") s []). Qed.
  Lemma attr_res r d : attr "t" (when d [(lit "cm", lit "1")] ++ res_attr r) = attr "t" (res_attr r).
  Proof. destruct d; [|reflexivity]. cbn [when app]. apply attr_skip. reflexivity. Qed.
  Lemma read_value_f ref xf d f fa r : plain_text f -> plain_text r -> ~ special_word r ->
    exists q, read_value items ((lit "r", ref) :: style_attr xf ++ when d [(lit "cm", lit "1")] ++ res_attr r) [node_of (WData (lit "f") f fa); node_of (v_elem (res_value r))]
      = Some (FFormula f (match attr "t" fa with Some k => if str_eqb k (lit "array") then attr "ref" fa else None | None => None end) q) /\ result_read r q.
  Proof.
    intros Pf Pr Ns. destruct (result_reads r Pr Ns) as (q & Q & RR). exists q. split; [|assumption].
    unfold read_value. rewrite kid_f, kid_v. cbn [node_of]. 
    change (text_of (Elem (lit "f") fa match f with [] => [] | _ => [Txt (data_text f)] end)) with (text_of (node_of (WData (lit "f") f fa))).
    rewrite text_of_data. cbn [bind]. rewrite (attr_past "t") by reflexivity. rewrite attr_res, res_plain, Q by assumption. cbn [bind].
    rewrite data_plain by assumption. do 2 f_equal. apply Pf.
  Qed.

  Lemma meta_res r : meta_of (res_attr r) = Some None.
  Proof. unfold meta_of, res_attr. repeat match goal with |- context [if ?b then _ else _] => destruct b end; reflexivity. Qed.
  Lemma cell_reads row col ref c xf :
    parse_a1 ref = Some {| a1_row := row; a1_col := col; a1_absrow := false; a1_abscol := false |} ->
    cell_good c xf -> exists f, map (read_cell items) (map node_of (cell_wx num_text image_id ref c xf)) = [Some f] /\
      fc_row f = row /\ fc_col f = col /\ fc_style f = xf /\ value_read read_num image_id (contents c) (fc_value f) /\ fc_meta f = cell_meta c.
  Proof.
    intros P G.
    assert (One : forall extra kids v, extra_ok extra -> read_value items ((lit "r", ref) :: style_attr xf ++ extra) (map node_of kids) = Some v ->
      meta_of extra = Some (cell_meta c) -> value_read read_num image_id (contents c) v ->
      exists f, map (read_cell items) (map node_of [c_elem ref xf extra kids]) = [Some f] /\
      fc_row f = row /\ fc_col f = col /\ fc_style f = xf /\ value_read read_num image_id (contents c) (fc_value f) /\ fc_meta f = cell_meta c).
    { intros extra kids v E V Mt R. eexists. split; [cbn [map node_of c_elem]; f_equal; apply read_c; eassumption|]. cbn. auto. }
    destruct c as [|n|s [i|]|x|b|f r|x|s raw [i|]|s|f r d g]; cbn [cell_wx cell_good contents] in *.
    - replace (0 <? xf) with true by lia. cbn [when map node_of]. eexists. split.
      + f_equal. pose proof (read_c row col ref xf [] [] FBlank None P extra_nil eq_refl eq_refl) as A. rewrite app_nil_r in A. exact A.
      + cbn. split; [reflexivity|]. split; [reflexivity|]. split; [reflexivity|]. split; [constructor|reflexivity].
    - eapply One.
      + apply extra_cons; [reflexivity|reflexivity| |discriminate|discriminate|].
        * cbn. intros [H|[]]; discriminate.
        * apply extra_cons; [reflexivity|apply dec_attr|intros []|discriminate|discriminate|apply extra_nil].
      + cbn [map]. erewrite read_value_v; [|apply extra_cons; [reflexivity|reflexivity| |discriminate|discriminate|]|reflexivity].
        * change (attr "vm" [(lit "t", lit "e"); (lit "vm", dec (image_id n))]) with (Some (dec (image_id n))). cbn [bind].
          rewrite number_of_dec. reflexivity.
        * cbn. intros [H|[]]; discriminate.
        * apply extra_cons; [reflexivity|apply dec_attr|intros []|discriminate|discriminate|apply extra_nil].
      + reflexivity.
      + constructor.
    - destruct G as (nd & Hn & Hi). eapply One; [apply extra_t; reflexivity| |reflexivity|].
      + cbn [map]. erewrite read_value_v; [|apply extra_t; reflexivity|reflexivity]. rewrite data_simple by apply dec_simple.
        rewrite number_of_dec. cbn [bind]. rewrite Hn. cbn [bind]. change (str_eqb (lit "s") (lit "s")) with true. cbv iota. exact Hi.
      + constructor.
    - destruct G.
    - eapply One; [apply extra_nil| |reflexivity|].
      + cbn [map]. erewrite read_value_v; [|apply extra_nil|reflexivity]. rewrite data_simple by auto. reflexivity.
      + constructor. apply num_read. assumption.
    - eapply One; [apply extra_t; reflexivity| |reflexivity|].
      + cbn [map]. erewrite read_value_v; [|apply extra_t; reflexivity|reflexivity]. rewrite data_simple by apply dec_simple.
        instantiate (1 := FBool b). destruct b; reflexivity.
      + constructor.
    - destruct G as (P1 & P2 & Ns). destruct (read_value_f ref xf false f [] r P1 P2 Ns) as (q & Q & RR).
      eapply One; [apply res_extra|exact Q|apply meta_res|]. constructor. assumption.
    - eapply One; [apply extra_nil| |reflexivity|].
      + cbn [map]. erewrite read_value_v; [|apply extra_nil|reflexivity]. rewrite data_simple by auto. reflexivity.
      + constructor. apply num_read. assumption.
    - destruct G as (nd & runs & Hn & Hi & Hr). eapply One; [apply extra_t; reflexivity| |reflexivity|].
      + cbn [map]. erewrite read_value_v; [|apply extra_t; reflexivity|reflexivity]. rewrite data_simple by apply dec_simple.
        rewrite number_of_dec. cbn [bind]. rewrite Hn. cbn [bind]. change (str_eqb (lit "s") (lit "s")) with true. cbv iota. exact Hi.
      + constructor. assumption.
    - destruct G.
    - eapply One; [apply extra_t; reflexivity| |reflexivity|].
      + cbn [map]. unfold read_value. rewrite (attr_past "t") by reflexivity.
        instantiate (1 := FText s). cbn [node_of map].
        change (kid "f" [Elem (lit "is") [] [Elem (lit "t") (if ws_edges s then [(lit "xml:space", lit "preserve")] else []) match esc s with [] => [] | _ => [Txt (data_text (esc s))] end]]) with (@None node).
        cbv iota. change (attr "t" [(lit "t", lit "inlineStr")]) with (Some (lit "inlineStr")). cbv iota beta.
        change (str_eqb (lit "inlineStr") (lit "s")) with false. change (str_eqb (lit "inlineStr") (lit "inlineStr")) with true. cbv iota.
        unfold kid. cbn [find is_elem]. change (str_eqb (lit "is") (lit "is")) with true. cbv iota. cbn [bind read_item is_elem].
        change (str_eqb (lit "t") (lit "t")) with true. cbv iota.
        change (text_of (Elem (lit "t") (if ws_edges s then [(lit "xml:space", lit "preserve")] else []) match esc s with [] => [] | _ => [Txt (data_text (esc s))] end))
          with (text_of (node_of (WData (lit "t") (esc s) (if ws_edges s then [(lit "xml:space", lit "preserve")] else [])))).
        rewrite text_of_data. do 2 f_equal. exact (excel_decode_ctl_esc s).
      + constructor.
    - destruct G as ((P1 & P2 & Ns) & Sg). destruct (read_value_f ref xf d f [(lit "t", lit "array"); (lit "ref", g)] r P1 P2 Ns) as (q & Q & RR).
      eapply One; [apply cm_extra|exact Q|destruct d; [|apply meta_res]; reflexivity|]. constructor. assumption.
  Qed.
End R.
