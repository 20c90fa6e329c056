(** C67: the table part describes the table that was asked for. *)
From Coq Require Import Lia.
From Verif Require Import Base SMap Ref_Model Ref_Spec Ref_Proofs Xml_Model Xml_Spec Xml_Proofs Xml_Read Xml_Read_Proofs Xml_Tree Fmt_Model Formula_Model Url_Model Rich_Model Rich_Proofs
  Cells_Model Sheet_Model SheetXml_Spec SheetXml_Proofs SheetXml_Proofs3 Doc_Model Doc_Spec Props_Doc View_Model View_Spec Tag_Proofs Part_Model Part_Proofs View_Hist DV_Spec Sheet_Hist5 Tbl_Model Tbl_Spec.

(** ** The builder *)
Lemma last_fold {A O S} (f : S -> A) (g : O -> option A) (step : S -> O -> S) :
  (forall s o, f (step s o) = match g o with Some v => v | None => f s end) ->
  forall l s, f (fold_left step l s) = DV_Spec.last_given g (f s) l.
Proof.
  intros H. induction l as [|o l IH]; intros s; [reflexivity|]. cbn [fold_left]. rewrite IH, H. reflexivity.
Qed.
Lemma built calls : let t := xtable_of calls in
  x_columns t = DV_Spec.last_given of_columns [] calls /\ x_name t = DV_Spec.last_given of_name [] calls /\
  x_style t = DV_Spec.last_given of_style (SMedium 9) calls /\ x_header t = DV_Spec.last_given of_header true calls /\
  x_total t = DV_Spec.last_given of_total false calls /\ x_first t = DV_Spec.last_given of_first false calls /\
  x_last t = DV_Spec.last_given of_last false calls /\ x_rows t = DV_Spec.last_given of_rows true calls /\
  x_cols t = DV_Spec.last_given of_cols false calls /\ x_filter t = DV_Spec.last_given of_filter true calls.
Proof.
  cbv zeta. unfold xtable_of.
  repeat split; refine (last_fold _ _ _ _ calls xtable_new); intros t o; destruct t; destruct o as [[]| | | | | | | | | ]; reflexivity.
Qed.
Lemma built_column calls : let c := tcol_of calls in
  k_name c = DV_Spec.last_given of_cname [] calls /\ k_fun c = DV_Spec.last_given of_fun FNone calls /\
  k_label c = DV_Spec.last_given of_label [] calls /\ k_format c = DV_Spec.last_given of_format None calls.
Proof.
  cbv zeta. unfold tcol_of.
  repeat split; refine (last_fold _ _ _ _ calls tcol_new); intros t o; destruct t, o; reflexivity.
Qed.

(** ** Columns *)
Section Names.
  Variable lower : str -> str.
  Lemma init_matches headers : forall cols seen,
    name_columns lower headers (map to_tcolumn cols) seen = option_map (map to_tcolumn) (init_columns lower headers cols seen).
  Proof.
    induction headers as [|h headers IH]; intros cols seen; [reflexivity|]. cbn [name_columns init_columns].
    destruct cols as [|c r]; cbn [map].
    - change (tc_name tcolumn_new) with (k_name tcol_new). cbv iota. destruct (existsb _ seen); [reflexivity|]. rewrite (IH [] _). cbn [map].
      destruct (init_columns lower headers [] _); reflexivity.
    - change (tc_name (to_tcolumn c)) with (k_name c). destruct (existsb _ seen); [reflexivity|]. rewrite (IH r _).
      destruct (init_columns lower headers r _); reflexivity.
  Qed.

  Fixpoint numbered (dxf : Format -> N) (i : N) (l : list tcol) : list rcolumn :=
    match l with [] => [] | c :: r => asked_column dxf i (k_name c) c :: numbered dxf (i + 1) r end.
  Lemma init_asked headers : forall cols seen l dxf i, init_columns lower headers cols seen = Some l ->
    length l = length headers /\ asked_columns dxf i (map k_name l) cols = numbered dxf i l /\
    (Forall column_fits cols -> Forall fits (map k_name l) -> Forall column_fits l) /\
    (forall j, (j < length headers)%nat -> nth j (map k_name l) [] = match k_name (nth j cols tcol_new) with [] => nth j headers [] | s => s end).
  Proof.
    induction headers as [|h headers IH]; intros cols seen l dxf i; cbn [init_columns].
    - intros [= <-]. repeat split; auto. cbn [length]. intros j Hj. lia.
    - destruct (match cols with [] => (tcol_new, []) | c :: r => (c, r) end) as [c r] eqn:Ec. cbv zeta.
      destruct (existsb _ seen); [discriminate|]. destruct (init_columns lower headers r _) as [l'|] eqn:E; [|discriminate].
      intros H. assert (L : l = with_name c (match k_name c with [] => h | n => n end) :: l') by congruence. clear H. subst l.
      destruct (IH r _ l' dxf (i + 1) E) as (A & B & C & D). cbn [length map asked_columns numbered].
      assert (Hc : c = hd tcol_new cols /\ r = tl cols) by (destruct cols; cbn [hd tl]; split; congruence).
      destruct Hc as [Hc Hr]. split; [congruence|]. split; [|split].
      + rewrite <- Hc, <- Hr, B. reflexivity.
      + intros F1 F2. pose proof (Forall_inv F2) as G1. pose proof (Forall_inv_tail F2) as G2.
        assert (Fc : column_fits c) by (subst c; destruct F1; [repeat split; exact I|assumption]).
        constructor; [|apply C; [|exact G2]; subst r; destruct F1; [constructor|assumption]].
        destruct Fc as (_ & F4). split; [exact G1|exact F4].
      + intros j Hj. destruct j as [|j]; cbn [nth].
        * cbn [with_name k_name]. replace (nth 0 cols tcol_new) with (hd tcol_new cols) by (destruct cols; reflexivity). rewrite <- Hc. reflexivity.
        * rewrite D by lia. replace (nth (S j) cols tcol_new) with (nth j (tl cols) tcol_new) by (destruct cols; [destruct j|]; reflexivity). rewrite Hr. reflexivity.
  Qed.
End Names.

(** ** Reading the part *)
Section Part.
  Variable dxf : Format -> N.
  Lemma fits_attr s : fits s -> attr_ok s.
  Proof. exact (fun H => H). Qed.
  Lemma attrs_eq i c : column_attrs dxf i c = (lit "id", dec i) :: (lit "name", k_name c) :: (match k_label c with
         | [] => match function_code (k_fun c) with Some s => [(lit "totalsRowFunction", lit s)] | None => [] end
         | _ :: _ => [(lit "totalsRowLabel", k_label c)] end ++ match k_format c with Some f => [(lit "dataDxfId", dec (dxf f))] | None => [] end).
  Proof. unfold column_attrs. cbn [app]. destruct (k_label c); [destruct (k_fun c)|]; reflexivity. Qed.
  Definition all_attrs (i : N) (c : tcol) (f : Format) : list (str * str) :=
    [(lit "id", dec i); (lit "name", k_name c); (lit "totalsRowLabel", k_label c); (lit "totalsRowFunction", lit (tfun_name (k_fun c))); (lit "dataDxfId", dec (dxf f))].
  Lemma column_attrs_ok i c : column_fits c -> attrs_good (column_attrs dxf i c).
  Proof.
    intros (F1 & F2 & _). pose proof (fits_attr _ F1) as A1. pose proof (fits_attr _ F2) as A2.
    assert (A3 : attr_ok (lit (tfun_name (k_fun c)))) by (destruct (k_fun c); reflexivity).
    apply (sub_attrs _ (all_attrs i c (match k_format c with Some f => f | None => format_default end))).
    - unfold column_attrs, all_attrs. cbn [app]. constructor. constructor. change (?a :: ?b :: [?c]) with ([a; b] ++ [c]). apply sub_app.
      + destruct (k_label c); [|constructor; constructor; constructor]. destruct (k_fun c); constructor; constructor; constructor.
      + destruct (k_format c); constructor; constructor.
    - unfold all_attrs. good.
  Qed.
  Lemma formulas_ok c : column_fits c -> Forall wx_ok (column_formulas c).
  Proof.
    intros (_ & _ & F & G). unfold column_formulas. apply Forall_app. split.
    - destruct (k_formula c); [constructor; [|constructor]; apply ok_data; [reflexivity|apply attrs_nil|exact F]|constructor].
    - destruct (k_fun c); try constructor; [|constructor]. apply ok_data; [reflexivity|apply attrs_nil|exact G].
  Qed.
  Lemma column_ok i c : column_fits c -> wx_ok (column_xml dxf i c).
  Proof.
    intros F. assert (E : wx_ok (WElem (lit "tableColumn") (column_attrs dxf i c) (column_formulas c))).
    { apply wx_ok_elem. split; [reflexivity|]. split; [apply column_attrs_ok, F|apply formulas_ok, F]. }
    unfold column_xml. destruct (k_formula c); [exact E|]. destruct (k_fun c); try exact E; (split; [reflexivity|apply column_attrs_ok, F]).
  Qed.
  Lemma column_node i c : node_of (column_xml dxf i c) = Elem (lit "tableColumn") (column_attrs dxf i c) (map node_of (column_formulas c)).
  Proof. unfold column_xml, column_formulas. destruct (k_formula c); [reflexivity|]. destruct (k_fun c); reflexivity. Qed.
  Lemma column_reads i c : column_fits c -> read_column (node_of (column_xml dxf i c)) = Some (asked_column dxf i (k_name c) c).
  Proof.
    intros (_ & _ & F & G). rewrite column_node. unfold read_column. rewrite str_eqb_lit. cbn [String.eqb Ascii.eqb Bool.eqb].
    rewrite attrs_eq. rewrite !attr_cons. cbn [String.eqb Ascii.eqb Bool.eqb]. cbn [bind]. rewrite number_of_dec. cbn [bind].
    assert (D : opt_number "dataDxfId" ((lit "id", dec i) :: (lit "name", k_name c) :: (match k_label c with
         | [] => match function_code (k_fun c) with Some s => [(lit "totalsRowFunction", lit s)] | None => [] end
         | _ :: _ => [(lit "totalsRowLabel", k_label c)] end ++ match k_format c with Some f => [(lit "dataDxfId", dec (dxf f))] | None => [] end)) =
      Some (match k_format c with Some f => Some (dxf f) | None => None end)).
    { unfold opt_number. rewrite !attr_cons, attr_app. cbn [String.eqb Ascii.eqb Bool.eqb].
      destruct (k_label c); [destruct (function_code (k_fun c))|]; rewrite ?attr_cons, ?attr_nil; cbn [String.eqb Ascii.eqb Bool.eqb];
        (destruct (k_format c); rewrite ?attr_cons, ?attr_nil; cbn [String.eqb Ascii.eqb Bool.eqb]; [rewrite number_of_dec|]; reflexivity). }
    rewrite D. cbn [bind].
    assert (K1 : opt_text "calculatedColumnFormula" (map node_of (column_formulas c)) = Some (match k_formula c with Some fm => Some (f_text fm) | None => None end) /\
                 opt_text "totalsRowFormula" (map node_of (column_formulas c)) = Some (match k_fun c with FCustom fm => Some (f_text fm) | _ => None end)).
    { unfold opt_text, column_formulas. destruct (k_formula c) as [fm|]; destruct (k_fun c) as [| | | | | | | | |g]; cbn [app map];
        rewrite ?(node_data _ _ _ F), ?(node_data _ _ _ G), ?kid_one; cbn [String.eqb Ascii.eqb Bool.eqb]; rewrite ?kid_one; cbn [String.eqb Ascii.eqb Bool.eqb]; rewrite ?text_leaf; split; reflexivity. }
    destruct K1 as [K1 K2]. rewrite K1, K2. cbn [bind]. unfold asked_column. rewrite !attr_app.
    f_equal. f_equal; destruct (k_label c); [destruct (function_code (k_fun c))| |destruct (function_code (k_fun c))|]; rewrite ?attr_cons, ?attr_nil; cbn [String.eqb Ascii.eqb Bool.eqb]; destruct (k_format c); reflexivity.
  Qed.
  Lemma columns_read l : forall i, Forall column_fits l -> read_all read_column (map node_of (columns_from dxf i l)) = Some (numbered dxf i l).
  Proof.
    induction l as [|c l IH]; intros i F; [reflexivity|]. inversion F as [|? ? F1 F2]; subst. cbn [columns_from map read_all numbered].
    rewrite column_reads by assumption. cbn [bind]. rewrite IH by assumption. reflexivity.
  Qed.
  Lemma columns_from_ok l : forall i, Forall column_fits l -> Forall wx_ok (columns_from dxf i l).
  Proof. induction l as [|c l IH]; intros i F; [constructor|]. inversion F; subst. constructor; [apply column_ok; assumption|apply IH; assumption]. Qed.
  Lemma numbered_length l : forall i, length (numbered dxf i l) = length l.
  Proof. induction l; intros i; cbn [numbered length]; [reflexivity|f_equal; auto]. Qed.
  Lemma columns_length l : forall i, length (columns_from dxf i l) = length l.
  Proof. induction l; intros i; cbn [columns_from length]; [reflexivity|f_equal; auto]. Qed.
End Part.

Definition full_attrs (index : N) (range name : str) : list (str * str) :=
  [(lit "xmlns", lit "http://schemas.openxmlformats.org/spreadsheetml/2006/main"); (lit "id", dec index); (lit "name", name);
     (lit "displayName", name); (lit "ref", range); (lit "headerRowCount", lit "0"); (lit "totalsRowCount", lit "1"); (lit "totalsRowShown", lit "0")].
Lemma attrs_table index range t : attr_ok range -> fits (x_name t) -> attrs_good (table_attrs index range t).
Proof.
  intros A F. assert (B : attr_ok (match x_name t with [] => lit "Table" ++ dec index | n => n end)).
  { destruct (x_name t); [|exact F]. unfold attr_ok. rewrite forallb_app. change (forallb attr_char (lit "Table")) with true. exact (attr_dec index). }
  apply (sub_attrs _ (full_attrs index range (match x_name t with [] => lit "Table" ++ dec index | n => n end))); [|unfold full_attrs; good].
  unfold table_attrs, full_attrs. cbv zeta. cbn [app]. do 5 constructor.
  destruct (x_header t), (x_total t); cbn [app]; repeat (first [apply sub_keep; solve [repeat constructor] | apply sub_drop | apply sub_nil]).
Qed.
Lemma style_name_attr s : attr_ok (tstyle_name s).
Proof. destruct s; [reflexivity| | |]; unfold tstyle_name, attr_ok; rewrite forallb_app; exact (attr_dec n). Qed.
Lemma style_ok t : wx_ok (style_info_xml t).
Proof.
  split; [reflexivity|]. pose proof (style_name_attr (x_style t)) as A. assert (B : forall b, attr_ok (xbool b)) by (intros []; reflexivity).
  pose proof (B (x_first t)). pose proof (B (x_last t)). pose proof (B (x_rows t)). pose proof (B (x_cols t)).
  eapply (sub_attrs _ ([(lit "name", tstyle_name (x_style t))] ++ _)); [apply sub_app; [|apply sub_refl]|cbn [app]; good].
  destruct (x_style t); [apply sub_none| | |]; apply sub_refl.
Qed.
Lemma xbool_flag k b l : flag_of k ((lit k, xbool b) :: l) = b.
Proof. unfold flag_of. rewrite attr_cons, String.eqb_refl. destruct b; reflexivity. Qed.

(** ** C67 *)
Lemma names_are (l : list str) n (f : nat -> str) : length l = n -> (forall j, (j < n)%nat -> nth j l [] = f j) -> l = map f (seq 0 n).
Proof.
  intros L H. apply (nth_ext _ _ [] []); [rewrite map_length, seq_length; exact L|]. intros j Hj. rewrite H by lia.
  rewrite (nth_indep _ [] (f O)) by (rewrite map_length, seq_length; lia). rewrite map_nth, seq_nth by lia. reflexivity.
Qed.
Lemma headers_nth w fr fc header n j : (j < n)%nat ->
  nth j (map (default_header w fr fc header) (map (fun k => fc + N.of_nat k) (seq 0 n))) [] = fallback_name w fr fc header j.
Proof.
  intros Hj. rewrite map_map. rewrite (nth_indep _ [] (default_header w fr fc header (fc + N.of_nat 0))) by (rewrite map_length, seq_length; lia).
  rewrite (map_nth (fun k => default_header w fr fc header (fc + N.of_nat k)) (seq 0 n) O j), seq_nth by lia. cbn [Nat.add].
  unfold default_header, fallback_name, cell_text_of. replace (fc + N.of_nat j - fc) with (N.of_nat j) by lia.
  destruct header; cbn [negb]; [|reflexivity]. destruct (table_get fr (fc + N.of_nat j) (data w)) as [[[] ?]|]; reflexivity.
Qed.
Lemma init_distinct lower headers : forall cols seen l, init_columns lower headers cols seen = Some l ->
  NoDup (map lower (map k_name l)) /\ (forall s, In s (map lower (map k_name l)) -> ~ In s seen).
Proof.
  induction headers as [|h headers IH]; intros cols seen l; cbn [init_columns].
  - intros [= <-]. split; [constructor|intros s []].
  - destruct (match cols with [] => (tcol_new, []) | c :: r => (c, r) end) as [c r]. cbv zeta.
    destruct (existsb _ seen) eqn:X; [discriminate|]. destruct (init_columns lower headers r _) as [l'|] eqn:E; [|discriminate].
    intros H. assert (L : l = with_name c (match k_name c with [] => h | n => n end) :: l') by congruence. clear H. subst l.
    destruct (IH _ _ _ E) as [A B]. cbn [map with_name k_name]. split.
    + constructor; [|exact A]. intros Hi. apply (B _ Hi). left. reflexivity.
    + intros s [<-|Hs] Hi; [|apply (B _ Hs); right; exact Hi].
      assert (existsb (str_eqb (lower match k_name c with [] => h | n => n end)) seen = true); [|congruence].
      apply existsb_exists. eexists. split; [exact Hi|apply str_eqb_refl].
Qed.

Definition read_table_part (text : str) : option rtable := bind (read_document text) read_table.

Theorem C67_table_part lower m dxf s fr fc lr lc calls R0 s1 index :
  let given := DV_Spec.last_given of_columns [] calls in
  let header := DV_Spec.last_given of_header true calls in
  let total := DV_Spec.last_given of_total false calls in
  let name := DV_Spec.last_given of_name [] calls in
  let names := map (asked_name (cells s) fr fc header given) (seq 0 (N.to_nat (lc + 1 - fc))) in
  let R := {| r0 := fr; c0 := fc; r1 := lr; c1 := lc |} in
  add_table lower s fr fc lr lc (to_tbl (xtable_of calls) R0) = Some (s1, None) ->
  Forall column_fits given -> fits name -> Forall fits names ->
  NoDup (map lower names) /\
  exists p doc, tables s1 = tables s ++ [to_tbl p R] /\ table_xml m dxf index R p = Some doc /\
    read_table_part (document doc) = Some
      {| rt_id := index;
         rt_name := match name with [] => lit "Table" ++ dec index | n => n end;
         rt_display := match name with [] => lit "Table" ++ dec index | n => n end;
         rt_range := (fr, fc, (lr, lc));
         rt_header_rows := if header then 1 else 0;
         rt_total_rows := if total then 1 else 0;
         rt_filter := if header && DV_Spec.last_given of_filter true calls
                      then Some (fr, fc, (if total then lr - 1 else lr, lc)) else None;
         rt_columns := asked_columns dxf 1 names given;
         rt_style := match DV_Spec.last_given of_style (SMedium 9) calls with SNone => None | st => Some (tstyle_name st) end;
         rt_first := DV_Spec.last_given of_first false calls;
         rt_last := DV_Spec.last_given of_last false calls;
         rt_row_stripes := DV_Spec.last_given of_rows true calls;
         rt_column_stripes := DV_Spec.last_given of_cols false calls |}.
Proof.
  cbv zeta. destruct (built calls) as (B1 & B2 & B3 & B4 & B5 & B6 & B7 & B8 & B9 & B10). cbv zeta in *.
  rewrite <- B1, <- B2, <- B3, <- B4, <- B5, <- B6, <- B7, <- B8, <- B9, <- B10. clear B1 B2 B3 B4 B5 B6 B7 B8 B9 B10.
  set (t := xtable_of calls). intros H Fg Fn Fs.
  apply table_cells in H as [[_ H]|(Hr & Hc & Hh & Ht & cols & T & Nc & -> & e1 & _ & Q)]; [congruence|]. destruct (Q eq_refl) as [_ Tb]. clear Q e1.
  cbn [to_tbl t_header t_total t_columns t_name t_autofilter t_serde] in *.
  rewrite init_matches in Nc. destruct (init_columns lower _ (x_columns t) []) as [l|] eqn:E; [|discriminate]. cbn [option_map] in Nc.
  assert (cols = map to_tcolumn l) by congruence. subst cols. clear Nc.
  destruct (init_asked lower _ _ _ _ dxf 1 E) as (L & A & Ff & D). destruct (init_distinct lower _ _ _ _ E) as [Nd _].
  assert (Nm : map k_name l = map (asked_name (cells s) fr fc (x_header t) (x_columns t)) (seq 0 (N.to_nat (lc + 1 - fc)))).
  { apply names_are; [rewrite map_length, L, map_length, range_incl_length; reflexivity|]. intros j Hj.
    rewrite D by (rewrite map_length, range_incl_length; exact Hj). unfold asked_name. destruct (k_name (nth j (x_columns t) tcol_new)); [|reflexivity].
    unfold range_incl. apply headers_nth. exact Hj. }
  rewrite <- Nm in *. split; [exact Nd|]. specialize (Ff Fg Fs).
  exists (with_columns t l). assert (P : fr < ROW_MAX /\ fc < COL_MAX /\ lr < ROW_MAX /\ lc < COL_MAX) by (unfold ROW_MAX, COL_MAX; lia).
  destruct P as (P1 & P2 & P3 & P4). destruct (range_text m fr fc lr lc P1 P2 P3 P4) as (range & Er & Ar & _ & Rr).
  assert (P5 : (if x_total t then lr - 1 else lr) < ROW_MAX) by (destruct (x_total t); [unfold ROW_MAX in *; lia|exact P3]).
  destruct (range_text m fr fc _ lc P1 P2 P5 P4) as (fil & Ef & Af & _ & Rf).
  set (fs := if x_filter t && x_header t then [WEmpty (lit "autoFilter") [(lit "ref", fil)]] else []).
  exists (WElem (lit "table") (table_attrs index range t) (fs ++ [columns_xml dxf l; style_info_xml t])).
  split; [exact Tb|]. split.
  { unfold table_xml. cbn [r0 c0 r1 c1]. rewrite Er. cbn [obind]. change (x_filter (with_columns t l)) with (x_filter t). change (x_header (with_columns t l)) with (x_header t).
    change (x_total (with_columns t l)) with (x_total t). subst fs. destruct (x_filter t && x_header t); [rewrite Ef|]; reflexivity. }
  assert (Ok : wx_ok (WElem (lit "table") (table_attrs index range t) (fs ++ [columns_xml dxf l; style_info_xml t]))).
  { apply wx_ok_elem. split; [reflexivity|]. split; [apply attrs_table; assumption|]. apply Forall_app. split.
    - subst fs. destruct (x_filter t && x_header t); constructor; [|constructor]. split; [reflexivity|]. good.
    - constructor; [|constructor; [apply style_ok|constructor]]. unfold columns_xml. apply wx_ok_elem. split; [reflexivity|].
      split; [good|apply columns_from_ok, Ff]. }
  unfold read_table_part. rewrite document_reads by exact Ok. cbn [bind]. clear Ok.
  assert (No : node_of (WElem (lit "table") (table_attrs index range t) (fs ++ [columns_xml dxf l; style_info_xml t])) =
    Elem (lit "table") (table_attrs index range t) (map node_of fs ++ [Elem (lit "tableColumns") [(lit "count", dec (N.of_nat (length l)))] (map node_of (columns_from dxf 1 l)); node_of (style_info_xml t)])).
  { cbn [node_of]. rewrite map_app. reflexivity. }
  rewrite No. clear No. unfold read_table. rewrite str_eqb_lit. cbn [String.eqb Ascii.eqb Bool.eqb].
  unfold table_attrs. cbv zeta. cbn [app]. unfold number_or. rewrite !attr_cons. cbn [String.eqb Ascii.eqb Bool.eqb bind]. rewrite number_of_dec, Rr. cbn [bind].
  set (nm := match x_name t with [] => lit "Table" ++ dec index | n => n end). rewrite !attr_app.
  assert (Hd : match match attr "headerRowCount" (if x_header t then [] else [(lit "headerRowCount", lit "0")]) with
     | Some v => Some v
     | None => attr "headerRowCount" (if x_total t then [(lit "totalsRowCount", lit "1")] else [(lit "totalsRowShown", lit "0")]) end with
     | None => Some 1 | Some s0 => number_of s0 end = Some (if x_header t then 1 else 0)) by (destruct (x_header t), (x_total t); reflexivity).
  assert (Tt : match match attr "totalsRowCount" (if x_header t then [] else [(lit "headerRowCount", lit "0")]) with
     | Some v => Some v
     | None => attr "totalsRowCount" (if x_total t then [(lit "totalsRowCount", lit "1")] else [(lit "totalsRowShown", lit "0")]) end with
     | None => Some 0 | Some s0 => number_of s0 end = Some (if x_total t then 1 else 0)) by (destruct (x_header t), (x_total t); reflexivity).
  rewrite Hd, Tt. cbn [bind]. clear Hd Tt.
  assert (Kf : match kid "autoFilter" (map node_of fs ++ [Elem (lit "tableColumns") [(lit "count", dec (N.of_nat (length l)))] (map node_of (columns_from dxf 1 l)); node_of (style_info_xml t)]) with
     | None => Some None
     | Some (Elem _ fl _) => bind (attr "ref" fl) (fun r => bind (range_of r) (fun r => Some (Some r)))
     | Some (Txt _) => None end = Some (if x_header t && x_filter t then Some (fr, fc, (if x_total t then lr - 1 else lr, lc)) else None)).
  { subst fs. destruct (x_filter t), (x_header t); cbn [andb map app node_of]; unfold style_info_xml; cbn [node_of]; rewrite !kid_one; cbn [String.eqb Ascii.eqb Bool.eqb];
      try reflexivity. rewrite attr_cons. cbn [String.eqb Ascii.eqb Bool.eqb bind]. rewrite Rf. reflexivity. }
  rewrite Kf. cbn [bind]. clear Kf.
  assert (Kc : forall k, String.eqb "autoFilter" k = false -> kid k (map node_of fs ++ [Elem (lit "tableColumns") [(lit "count", dec (N.of_nat (length l)))] (map node_of (columns_from dxf 1 l)); node_of (style_info_xml t)]) =
     kid k [Elem (lit "tableColumns") [(lit "count", dec (N.of_nat (length l)))] (map node_of (columns_from dxf 1 l)); node_of (style_info_xml t)]).
  { intros k Hk. subst fs. destruct (_ && _); [|reflexivity]. cbn [map app node_of]. rewrite kid_one, Hk. reflexivity. }
  rewrite (Kc "tableColumns"%string), (Kc "tableStyleInfo"%string) by reflexivity. unfold style_info_xml. cbn [node_of].
  rewrite !kid_one. cbn [String.eqb Ascii.eqb Bool.eqb bind]. rewrite attr_cons. cbn [String.eqb Ascii.eqb Bool.eqb bind].
  rewrite number_of_dec. cbn [bind]. rewrite columns_read by exact Ff. cbn [bind]. rewrite numbered_length, N.eqb_refl.
  rewrite A. f_equal. unfold flag_of.
  f_equal; rewrite ?attr_app, ?attr_cons, ?attr_nil; cbn [String.eqb Ascii.eqb Bool.eqb].
  - subst nm. destruct (x_name t); reflexivity.
  - subst nm. destruct (x_name t); reflexivity.
  - destruct (x_style t); reflexivity.
  - destruct (x_style t), (x_first t); reflexivity.
  - destruct (x_style t), (x_last t); reflexivity.
  - destruct (x_style t), (x_rows t); reflexivity.
  - destruct (x_style t), (x_cols t); reflexivity.
Qed.

(** ** Total formulas *)
Lemma replace_cons a b c s : replace_char a b (c :: s) = (if c =? a then b else [c]) ++ replace_char a b s.
Proof. reflexivity. Qed.
Definition escaped_char (c : N) : str := if (c =? 39) || (c =? 35) || (c =? 91) || (c =? 93) then [39; c] else [c].
Lemma escaped_cons c s : escaped_name (c :: s) = escaped_char c ++ escaped_name s.
Proof.
  unfold escaped_name, escaped_char. rewrite (replace_cons 39).
  destruct (N.eqb_spec c 39) as [->|H1]; [reflexivity|]. cbn [app orb]. rewrite (replace_cons 35).
  destruct (N.eqb_spec c 35) as [->|H2]; [reflexivity|]. cbn [app orb]. rewrite (replace_cons 93).
  destruct (N.eqb_spec c 93) as [->|H3]; [rewrite orb_true_r; reflexivity|]. cbn [app]. rewrite (replace_cons 91), orb_false_r.
  destruct (N.eqb_spec c 91) as [->|H4]; reflexivity.
Qed.
Lemma escaped_specified s : specified (escaped_name s) = Some s.
Proof.
  induction s as [|c s IH]; [reflexivity|]. rewrite escaped_cons. unfold escaped_char.
  destruct (N.eqb_spec c 39) as [->|H1]; [cbn [orb app specified]; rewrite IH; reflexivity|].
  destruct (N.eqb_spec c 35) as [->|H2]; [cbn [orb app specified]; rewrite IH; reflexivity|].
  destruct (N.eqb_spec c 91) as [->|H3]; [cbn [orb app specified]; rewrite IH; reflexivity|].
  destruct (N.eqb_spec c 93) as [->|H4]; [cbn [orb app specified]; rewrite IH; reflexivity|].
  cbn [orb app specified]. apply N.eqb_neq in H1, H2, H3, H4. rewrite H1, H2, H3, H4. cbn [orb]. rewrite IH. reflexivity.
Qed.
Lemma plain_loop s : forall tok, ~ In 34 s -> ~ In 40 s -> escape_loop s tok false = (match tok with Some t => rev t | None => [] end ++ s, false).
Proof.
  induction s as [|c s IH]; intros tok Q P; cbn [escape_loop].
  - rewrite app_nil_r. reflexivity.
  - assert (Q1 : c =? 34 = false) by (apply N.eqb_neq; intros ->; apply Q; left; reflexivity).
    assert (P1 : c =? 40 = false) by (apply N.eqb_neq; intros ->; apply P; left; reflexivity).
    assert (Q2 : ~ In 34 s) by (intros H; apply Q; right; exact H). assert (P2 : ~ In 40 s) by (intros H; apply P; right; exact H).
    rewrite Q1, P1. destruct tok as [t|]; destruct (is_function_char c); rewrite IH by assumption; cbn [rev app]; rewrite <- ?app_assoc; reflexivity.
Qed.
Lemma plain_copy s : forall tok, ~ In 34 s -> ~ In 40 s -> copy_loop s tok false = false.
Proof.
  induction s as [|c s IH]; intros tok Q P; cbn [copy_loop]; [reflexivity|].
  assert (Q1 : c =? 34 = false) by (apply N.eqb_neq; intros ->; apply Q; left; reflexivity).
  assert (P1 : c =? 40 = false) by (apply N.eqb_neq; intros ->; apply P; left; reflexivity).
  assert (Q2 : ~ In 34 s) by (intros H; apply Q; right; exact H). assert (P2 : ~ In 40 s) by (intros H; apply P; right; exact H).
  rewrite Q1, P1. destruct tok as [t|]; [destruct (is_function_char c)|destruct (is_function_start_char c)]; rewrite IH by assumption; reflexivity.
Qed.
Lemma in_escaped c s : c <> 39 -> In c (escaped_name s) -> In c s.
Proof.
  intros Hc. induction s as [|d s IH]; [intros []|]. rewrite escaped_cons. intros H. apply in_app_or in H as [H|H]; [left|right; auto].
  unfold escaped_char in H. destruct (_ || _); cbn [In] in H; intuition congruence.
Qed.
Lemma strip_end s c : c <> 125 -> strip_last 125 (s ++ [c]) = s ++ [c].
Proof. intros H. unfold strip_last. rewrite rev_app_distr. cbn [rev app]. apply N.eqb_neq in H. rewrite H. reflexivity. Qed.
Lemma plain_new rest : ~ In 34 rest -> ~ In 40 rest -> formula_new (lit "SUBTOTAL(" ++ rest ++ [41]) = (lit "SUBTOTAL(" ++ rest ++ [41], false).
Proof.
  intros Q P. unfold formula_new. change (strip_first 123 (lit "SUBTOTAL(" ++ rest ++ [41])) with (lit "SUBTOTAL(" ++ rest ++ [41]).
  change (strip_first 61 (lit "SUBTOTAL(" ++ rest ++ [41])) with (lit "SUBTOTAL(" ++ rest ++ [41]).
  rewrite app_assoc, strip_end, <- app_assoc by discriminate.
  assert (Q' : ~ In 34 (rest ++ [41])) by (intros H; apply in_app_or in H as [H|[H|[]]]; [auto|discriminate]).
  assert (P' : ~ In 40 (rest ++ [41])) by (intros H; apply in_app_or in H as [H|[H|[]]]; [auto|discriminate]).
  destruct (str_contains _ _).
  - unfold copy_escaped_formula. f_equal. change (lit "SUBTOTAL(" ++ rest ++ [41]) with (83 :: 85 :: 66 :: 84 :: 79 :: 84 :: 65 :: 76 :: 40 :: (rest ++ [41])).
    generalize dependent (rest ++ [41]). intros z Q' P'.
    change (copy_loop (83 :: 85 :: 66 :: 84 :: 79 :: 84 :: 65 :: 76 :: 40 :: z) None false) with (false || copy_loop z None false). apply plain_copy; assumption.
  - unfold escape_formula. generalize dependent (rest ++ [41]). intros z Q' P'.
    change (escape_loop (lit "SUBTOTAL(" ++ z) None false) with (let '(o, d) := escape_loop z None false in (lit "SUBTOTAL(" ++ o, d)).
    rewrite plain_loop by assumption. reflexivity.
Qed.
(** The formula of the total row, for a column whose name has no opening bracket
    and no double quote. *)
Theorem C67_total_formula_partial f code name : subtotal_code f = Some code -> ~ In 40 name -> ~ In 34 name ->
  exists spec, total_formula f name = {| f_text := lit "SUBTOTAL(" ++ dec code ++ lit ",[" ++ spec ++ lit "])"; f_result := []; f_dynamic := false |} /\
    specified spec = Some name.
Proof.
  intros C P Q. exists (escaped_name name). split; [|apply escaped_specified].
  assert (E : total_formula f name = subtotal code name) by (destruct f; try discriminate; assert (H : Some code = Some code) by reflexivity; rewrite <- C in H at 1; cbn [subtotal_code] in H; injection H as <-; reflexivity).
  rewrite E. unfold subtotal, new_formula.
  set (rest := dec code ++ lit ",[" ++ escaped_name name ++ lit "]").
  replace (lit "SUBTOTAL(" ++ dec code ++ lit ",[" ++ escaped_name name ++ lit "])") with (lit "SUBTOTAL(" ++ rest ++ [41]) by (unfold rest; rewrite <- !app_assoc; reflexivity).
  assert (K : forall c, c = 34 \/ c = 40 -> ~ In c rest).
  { intros c Hc H. unfold rest in H. apply in_app_or in H as [H|H].
    - destruct (dec_spec code) as (D & _). rewrite forallb_forall in D. specialize (D _ H). destruct Hc; subst c; discriminate.
    - apply in_app_or in H as [[H|[H|[]]]|H]; [destruct Hc; subst c; discriminate|destruct Hc; subst c; discriminate|].
      apply in_app_or in H as [H|[H|[]]]; [|destruct Hc; subst c; discriminate].
      apply in_escaped in H; [destruct Hc; subst c; contradiction|lia]. }
  rewrite plain_new by (apply K; auto). reflexivity.
Qed.
(** With such characters the reference is damaged: the column is named IFS(x) but
    the formula refers to _xlfn.IFS(x);
    a quote right after a capital letter makes the rest of the formula appear twice. *)
Theorem C67_total_bracket_refuted : f_text (total_formula FSum (lit "IFS(x)")) = lit "SUBTOTAL(109,[_xlfn.IFS(x)])".
Proof. vm_compute. reflexivity. Qed.
Theorem C67_total_quote_refuted : f_text (total_formula FSum [65; 34; 66]) = lit "SUBTOTAL(109,[" ++ [34; 66] ++ lit "])" ++ [65; 34; 66] ++ lit "])".
Proof. vm_compute. reflexivity. Qed.

(** ** Example: a table of three columns with a total row, over a sheet whose header cell D3 already holds text. *)
Example C67_meets :
  let calls := [TTotal true; TFirst true; TName (lit "Sales"); TStyle (SLight 11);
                TColumns [tcol_of [CHeader (lit "Item"); CLabel (lit "Total")]; tcol_of [CFun FSum; CFormula' {| f_text := lit "[@Qty]*2"; f_result := []; f_dynamic := false |}]]] in
  match srun (map ascii_lower) (sheet_new ws_standard) [SCell (WriteString 2 3 (lit "Qty") None)] with
  | Some s =>
    match add_table (map ascii_lower) s 2 1 5 3 (to_tbl (xtable_of calls) {| r0 := 0; c0 := 0; r1 := 0; c1 := 0 |}) with
    | Some (s1, None) =>
      length (tables s1) = 1%nat /\
      match table_xml Debug (fun _ => 7) 4 {| r0 := 2; c0 := 1; r1 := 5; c1 := 3 |}
              (with_columns (xtable_of calls)
                 (match init_columns (map ascii_lower) (map (default_header (cells s) 2 1 true) (range_incl 1 3)) (x_columns (xtable_of calls)) [] with Some l => l | None => [] end)) with
      | Some doc =>
        match read_table_part (document doc) with
        | Some r => rt_name r = lit "Sales" /\ rt_range r = (2, 1, (5, 3)) /\ rt_filter r = Some (2, 1, (4, 3)) /\ rt_style r = Some (lit "TableStyleLight11") /\
                    map rc_name (rt_columns r) = [lit "Item"; lit "Column2"; lit "Qty"] /\
                    map rc_function (rt_columns r) = [None; Some (lit "sum"); None] /\
                    map rc_formula (rt_columns r) = [None; Some (lit "[[#This Row],Qty]*2"); None] /\ rt_total_rows r = 1
        | None => False end
      | None => False end
    | _ => False end
  | None => False end.
Proof. vm_compute. repeat split. Qed.
