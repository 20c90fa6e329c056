(** The text of the flushed rows reads back. *)
From Verif Require Import Base SMap F64 Fmt_Model Xml_Model Xml_Spec Xml_Proofs Xml_Read Xml_Read_Proofs Xml_Tree
  Sst_Model Sst_Proofs Ref_Model Ref_Spec Ref_Proofs Cells_Model Cells_Spec Cells_Proofs Cells_Proofs2 Cells_Inv Cells_Save
  Rich_Model Rich_Proofs SheetXml_Model SheetXml_Spec SheetXml_Proofs SheetXml_Proofs2 SheetXml_Proofs3 SheetXml_Proofs4 SheetXml_Proofs5 SheetXml_Proofs6
  Stream_Model Stream_Spec.

Definition bare (o : rowopt) : rowopt :=
  {| r_height := r_height o; r_xf := r_xf o; r_level := 0; r_hidden := r_hidden o; r_collapsed := false; r_format := r_format o |}.
Definition with_default (h : f64) : ws := upd_texts ws_standard [] [] [] [] h.

Lemma streamed_attributes_eq num_text h x14 row ro :
  streamed_attributes num_text h x14 row ro = row_attributes num_text (with_default h) (fun i => i) x14 None row (option_map bare ro).
Proof.
  unfold streamed_attributes, row_attributes. cbn [with_default upd_texts default_row_height]. f_equal. cbn [app]. f_equal.
  destruct ro as [o|]; [|reflexivity]. cbn [option_map bare r_xf r_height r_hidden r_level r_collapsed N.ltb N.compare when app]. rewrite app_nil_r. reflexivity.
Qed.

Section Stream.
  Variable num_text : f64 -> str.
  Variable read_num : str -> option f64.
  Variable m : ovf.
  Hypothesis num_simple : forall x, forallb simple (num_text x) = true.
  Hypothesis num_read : forall x, is_finite x = true -> read_num (num_text x) = Some x.
  Variable items : list node.
  Notation image_id := (fun i : N => i).

  Definition stream_good (c : cell) (xf : N) : Prop :=
    match c with CRich s _ _ => rich_ok s | CError _ => False | _ => cell_good items c xf end.
  Definition good_stream (x : N * cell * N) : Prop := fst (fst x) < 65535 /\ stream_good (snd (fst x)) (snd x).
  Definition good_entry (e : entry) : Prop := o_row (snd e) < 2 ^ 32 - 1 /\ Forall good_stream (cells_of (snd e)).
  Definition entry_rel (e : entry) (f : frow) : Prop :=
    fr_row f = o_row (snd e) /\ streamed_row_says num_text (fst (fst e)) (o_opts (snd e)) f /\
    Forall2 (cell_rel read_num image_id (o_row (snd e))) (cells_of (snd e)) (fr_cells f).

  Lemma rich_cell_reads row col s raw i xf ref : rich_ok s -> forallb simple ref = true ->
    parse_a1 ref = Some {| a1_row := row; a1_col := col; a1_absrow := false; a1_abscol := false |} ->
    exists nodes f, reads (write_inline_rich_string_cell ref s xf) nodes /\ map (read_cell items) nodes = [Some f] /\
      cell_rel read_num image_id row (col, CRich s raw i, xf) f.
  Proof.
    intros (segs & rw & E & Ok) Sr P. destruct (rich_reads segs s rw E Ok) as [R Ne]. set (runs := map node_of (runs_xml true segs)) in *.
    set (extra := [(lit "t", lit "inlineStr")]).
    assert (X : extra_ok extra) by (apply extra_t; reflexivity).
    assert (A : attrs_good ((lit "r", ref) :: style_attr xf ++ extra)) by (apply c_attrs_good; assumption).
    assert (T : write_inline_rich_string_cell ref s xf = xml_start_tag (lit "c") ((lit "r", ref) :: style_attr xf ++ extra) ++ (lit "<is>" ++ s ++ lit "</is>") ++ xml_end_tag (lit "c")).
    { unfold write_inline_rich_string_cell, xml_start_tag, xml_end_tag, extra. cbn [flat_map]. rewrite wa_simple by assumption. rewrite flat_map_app, style_text.
      cbn [flat_map]. rewrite wa_simple by reflexivity. unfold style. destruct (0 <? xf); rewrite ?app_nil_r, <- ?app_assoc; reflexivity. }
    exists [Elem (lit "c") ((lit "r", ref) :: style_attr xf ++ extra) [Elem (lit "is") [] runs]],
           {| fc_row := row; fc_col := col; fc_style := xf; fc_value := FRich runs; fc_meta := None |}.
    split; [|split].
    - rewrite T, start_tag_open, end_tag_close. apply reads_elem; [reflexivity|apply attrs_good_ok; assumption|].
      change (lit "<is>") with (open_tag (lit "is") []). change (lit "</is>") with (close_tag (lit "is")).
      apply reads_elem; [reflexivity|exact (attrs_good_ok [] attrs_nil)|assumption].
    - cbn [map]. f_equal. apply (read_c (fun i : N => i) items row col ref xf extra [Elem (lit "is") [] runs] (FRich runs) None P X); [|reflexivity].
      unfold read_value. rewrite (attr_past "t") by reflexivity.
      change (kid "f" [Elem (lit "is") [] runs]) with (@None node). cbv iota. change (attr "t" extra) with (Some (lit "inlineStr")). cbv iota beta.
      change (str_eqb (lit "inlineStr") (lit "s")) with false. change (str_eqb (lit "inlineStr") (lit "inlineStr")) with true. cbv iota.
      unfold kid. cbn [find is_elem]. change (str_eqb (lit "is") (lit "is")) with true. cbv iota. cbn [bind].
      pose proof (runs_not_t segs true) as Tn. fold runs in Tn.
      assert (Z : forallb (is_elem "r") runs = true) by (apply forallb_forall; intros n Hn; apply Tn; assumption).
      assert (Nn : runs <> []) by (unfold runs; destruct segs; [congruence|discriminate]). unfold read_item.
      destruct runs as [|n0 rs]; [congruence|]. rewrite (proj1 (Tn n0 (or_introl eq_refl))), Z. reflexivity.
    - unfold cell_rel. cbn [fst snd fc_row fc_col fc_style fc_value fc_meta contents]. repeat (split; [reflexivity|]). split; [|reflexivity].
      constructor. apply reads_doc. assumption.
  Qed.

  Lemma streamed_cell_writes row x : row < 2 ^ 32 - 1 -> good_stream x ->
    exists text nodes f, write_streamed_cell num_text m row x = Some text /\ reads text nodes /\ map (read_cell items) nodes = [Some f] /\
      cell_rel read_num image_id row x f.
  Proof.
    destruct x as [[col c] xf]. intros Hr [Hc Hg]. cbn [fst snd] in *.
    assert (Std : cell_good items c xf -> write_streamed_cell num_text m row (col, c, xf) = write_cell num_text m image_id row (col, c, xf) ->
      exists text nodes f, write_streamed_cell num_text m row (col, c, xf) = Some text /\ reads text nodes /\ map (read_cell items) nodes = [Some f] /\
        cell_rel read_num image_id row (col, c, xf) f).
    { intros G E. rewrite E. apply (cell_writes num_text read_num m image_id num_simple num_read items (fun i : N => i) row (col, c, xf) Hr). split; assumption. }
    destruct c as [|n|s i|y|b|f r|y|s raw i|s|f r d g]; try (apply Std; [exact Hg|reflexivity]); [destruct Hg|].
    clear Std. cbn [stream_good] in Hg. destruct (row_col_to_cell_text m row col Hr Hc) as (nm & En & _ & _ & P).
    destruct (column_number_to_name_spec m col Hc) as (ls & El & Up & _ & _). assert (ls = nm) by congruence. subst ls.
    specialize (P false [] no_digit_nil). rewrite app_nil_r in P. cbn [app] in P.
    assert (Pa : parse_a1 (nm ++ dec (row + 1)) = Some {| a1_row := row; a1_col := col; a1_absrow := false; a1_abscol := false |})
      by (unfold parse_a1; rewrite P; reflexivity).
    assert (Sn : forallb simple (nm ++ dec (row + 1)) = true) by (rewrite forallb_app, upper_simple, dec_simple by assumption; reflexivity).
    destruct (rich_cell_reads row col s raw i xf _ Hg Sn Pa) as (nodes & f & R & M & C).
    exists (write_inline_rich_string_cell (nm ++ dec (row + 1)) s xf), nodes, f. split; [|auto].
    unfold write_streamed_cell. rewrite col_name_eq by assumption. rewrite El. cbn [obind]. rewrite add32_ok by lia. reflexivity.
  Qed.
  Lemma streamed_cells_write row cs : row < 2 ^ 32 - 1 -> Forall good_stream cs ->
    exists text nodes fs, concat_opt (write_streamed_cell num_text m row) cs = Some text /\ reads text nodes /\
      read_all (read_cell items) nodes = Some fs /\ Forall2 (cell_rel read_num image_id row) cs fs.
  Proof.
    intros Hr F. induction F as [|x cs G F IH].
    - exists [], [], []. split; [reflexivity|]. split; [apply reads_nil|]. split; [reflexivity|constructor].
    - destruct (streamed_cell_writes row x Hr G) as (t & ns & f & T & R & M & C). destruct IH as (t2 & ns2 & fs & T2 & R2 & M2 & C2).
      exists (t ++ t2), (ns ++ ns2), (f :: fs). cbn [concat_opt]. rewrite T, T2. cbn [obind]. split; [reflexivity|].
      split; [apply reads_app; assumption|]. split; [|constructor; assumption].
      change (f :: fs) with ([f] ++ fs). apply read_all_app; [apply read_all_one; assumption|assumption].
  Qed.
  Lemma entry_says h x14 row ro kids cells : read_all (read_cell items) kids = Some cells -> Forall (fun c => fc_row c = row) cells ->
    exists f, read_row items (Elem (lit "row") (streamed_attributes num_text h x14 row ro) kids) = Some f /\
      fr_row f = row /\ fr_cells f = cells /\ streamed_row_says num_text h ro f.
  Proof.
    intros K F. rewrite streamed_attributes_eq.
    destruct (row_reads num_text image_id items (with_default h) (fun i => i) x14 None row (option_map bare ro) kids cells K F) as (f & E1 & E2 & E3 & S).
    exists f. repeat (split; [assumption|]). unfold row_says in S. unfold streamed_row_says. destruct ro as [o|]; cbn [option_map] in S.
    - destruct S as (S1 & S2 & S3 & S4 & S5). cbn [bare r_hidden r_level r_collapsed r_xf r_height] in *. split; [assumption|]. split; [assumption|].
      split; [assumption|]. split; [assumption|]. rewrite S5. unfold custom. cbn [with_default upd_texts default_row_height].
      destruct (feq (r_height o) DEFAULT_ROW_HEIGHT), (feq h DEFAULT_ROW_HEIGHT); reflexivity.
    - destruct S as (S1 & S2 & S3 & S4 & S5). repeat (split; [assumption|]). exact S5.
  Qed.
  Lemma entry_writes e : good_entry e ->
    exists text node f, write_entry num_text m e = Some text /\ reads text [node] /\ read_row items node = Some f /\ entry_rel e f.
  Proof.
    destruct e as [[h x14] o]. intros [Hr F]. cbn [fst snd] in *. unfold write_entry. cbn [fst snd]. set (attrs := streamed_attributes num_text h x14 (o_row o) (o_opts o)).
    assert (A : attrs_good attrs) by (unfold attrs; rewrite streamed_attributes_eq; apply row_attrs_good; assumption).
    destruct (streamed_cells_write (o_row o) (cells_of o) Hr F) as (t & ns & fs & T & R & M & C).
    assert (Fr : Forall (fun c => fc_row c = o_row o) fs) by (clear - C; induction C as [|x y xs ys HH]; constructor; [apply HH|assumption]).
    destruct (entry_says h x14 (o_row o) (o_opts o) ns fs M Fr) as (f & E & E1 & E2 & E3).
    fold attrs in E. unfold cells_of in *. destruct (o_cells o) as [cs|] eqn:Eo.
    - rewrite T. cbn [obind]. eexists _, _, f. split; [reflexivity|]. split; [|split; [exact E|]].
      + rewrite start_tag_open, end_tag_close. apply reads_elem; [reflexivity|apply attrs_good_ok; assumption|assumption].
      + split; [assumption|]. split; [assumption|]. unfold cells_of. cbn [snd]. rewrite Eo, E2. assumption.
    - cbn [concat_opt] in T. assert (t = []) by congruence. subst t. apply reads_doc in R. cbn in R. assert (ns = []) by congruence. subst ns.
      eexists _, _, f. split; [reflexivity|]. split; [|split; [exact E|]].
      + apply write_reads with (t := WEmpty (lit "row") attrs). split; [reflexivity|assumption].
      + split; [assumption|]. split; [assumption|]. unfold cells_of. cbn [snd]. rewrite Eo, E2. assumption.
  Qed.
  Lemma entries_write es : Forall good_entry es ->
    exists text nodes fs, concat_opt (write_entry num_text m) es = Some text /\ reads text nodes /\
      read_all (read_row items) nodes = Some fs /\ Forall2 entry_rel es fs.
  Proof.
    intros F. induction F as [|x cs G F IH].
    - exists [], [], []. split; [reflexivity|]. split; [apply reads_nil|]. split; [reflexivity|constructor].
    - destruct (entry_writes x G) as (t & ns & f & T & R & M & C). destruct IH as (t2 & ns2 & fs & T2 & R2 & M2 & C2).
      exists (t ++ t2), ([ns] ++ ns2), (f :: fs). cbn [concat_opt]. rewrite T, T2. cbn [obind]. split; [reflexivity|].
      split; [apply reads_app; assumption|]. split; [|constructor; assumption].
      cbn [app read_all]. rewrite M, M2. reflexivity.
  Qed.
  Lemma streamed_writes w calls x14 : Forall good_entry (file_log w calls x14) ->
    (data (after_calls w calls) = [] -> notes (after_calls w calls) = [] -> changed_rows (after_calls w calls) = [] -> file_log w calls x14 = []) ->
    exists text rows, streamed_text num_text m w calls x14 = Some text /\ (exists node, read_xml text = Some [node]) /\ read_sheet_data items text = Some rows /\
      Forall2 entry_rel (file_log w calls x14) rows.
  Proof.
    intros F Z. destruct (entries_write _ F) as (t & ns & fs & T & R & M & C). unfold streamed_text. rewrite T. cbn [obind].
    destruct (is_nil (data _) && is_nil (notes _) && is_nil (changed_rows _)) eqn:En.
    - apply andb_prop in En as [En E3]. apply andb_prop in En as [E1 E2].
      assert (Zl : file_log w calls x14 = []) by (apply Z; [destruct (data _)|destruct (notes _)|destruct (changed_rows _)]; try reflexivity; discriminate).
      rewrite Zl in *. cbn [concat_opt] in T. assert (t = []) by congruence. subst t. exists (lit "<sheetData/>"), []. split; [reflexivity|].
      assert (Rd : reads (lit "<sheetData/>") [Elem (lit "sheetData") [] []]) by (apply (write_reads (WEmpty (lit "sheetData") [])), ok_empty; reflexivity).
      pose proof (reads_doc _ _ Rd) as D. split; [eauto|]. split; [|constructor]. unfold read_sheet_data. rewrite D. reflexivity.
    - exists (lit "<sheetData>" ++ t ++ lit "</sheetData>"), fs. split; [reflexivity|].
      assert (Rd : reads (lit "<sheetData>" ++ t ++ lit "</sheetData>") [Elem (lit "sheetData") [] ns]).
      { change (lit "<sheetData>") with (open_tag (lit "sheetData") []). change (lit "</sheetData>") with (close_tag (lit "sheetData")).
        apply reads_elem; [reflexivity|exact (attrs_good_ok [] attrs_nil)|assumption]. }
      pose proof (reads_doc _ _ Rd) as D. split; [eauto|]. split; [|assumption]. unfold read_sheet_data. rewrite D. exact M.
  Qed.
  (** The cells shown at each position. *)
  Lemma entries_show es fs : Forall2 entry_rel es fs -> forall r c,
    Forall2 (fun v f => value_read read_num image_id (fst v) (fst f) /\ snd f = snd v) (shown (map snd es) r c) (cells_at fs r c).
  Proof.
    intros F r c. unfold shown, cells_at. induction F as [|e f es fs (R1 & _ & R3) F IH]; [constructor|]. cbn [map flat_map]. apply Forall2_app; [|exact IH]. clear IH F.
    unfold row_at. destruct (N.eqb_spec (o_row (snd e)) r) as [Er|Hne].
    - assert (E : match o_cells (snd e) with Some cs => flat_map (cell_at c) cs | None => [] end = flat_map (cell_at c) (cells_of (snd e)))
        by (unfold cells_of; destruct (o_cells (snd e)); reflexivity).
      rewrite E. eapply F2_flat; [exact R3|]. intros [[col k] xf] y (C1 & C2 & C3 & C4 & C5). cbn [fst snd] in *. unfold cell_at. rewrite C1, C2, Er.
      rewrite N.eqb_refl. cbn [andb]. destruct (col =? c); constructor; [|constructor]. cbn [fst snd]. auto.
    - assert (Z : flat_map (fun x => if (fc_row x =? r) && (fc_col x =? c) then [(fc_value x, fc_style x)] else []) (fr_cells f) = []).
      { apply flat_map_nil. intros x Hx. assert (Hr : fc_row x = o_row (snd e)) by (clear - R3 Hx; induction R3 as [|a b l l' HH]; [destruct Hx|destruct Hx as [<-|Hx]; [apply HH|auto]]).
        rewrite Hr. destruct (N.eqb_spec (o_row (snd e)) r); [contradiction|reflexivity]. }
      rewrite Z. constructor.
  Qed.
End Stream.
