(** The whole <sheetData>, and the shared string part. *)
From Verif Require Import Base SMap F64 Fmt_Model Xml_Model Xml_Spec Xml_Proofs Xml_Read Xml_Read_Proofs Xml_Tree
  Sst_Model Sst_Proofs Ref_Model Ref_Spec Ref_Proofs Cells_Model Cells_Spec Cells_Proofs Cells_Proofs2 Cells_Inv Cells_Save Cells_Hist
  Rich_Model Rich_Proofs SheetXml_Model SheetXml_Spec SheetXml_Proofs SheetXml_Proofs2 SheetXml_Proofs3 SheetXml_Proofs4.

Lemma read_all_app {A B} (f : A -> option B) l l' a b : read_all f l = Some a -> read_all f l' = Some b -> read_all f (l ++ l') = Some (a ++ b).
Proof.
  revert a. induction l as [|x l IH]; intros a; cbn [read_all app].
  - intros [= <-] H. exact H.
  - destruct (f x); [|discriminate]. cbn [bind]. destruct (read_all f l) as [r|]; [|discriminate]. cbn [bind]. intros [= <-] H.
    rewrite (IH r eq_refl H). reflexivity.
Qed.
Lemma read_all_one {A B} (f : A -> option B) l x : map f l = [Some x] -> read_all f l = Some [x].
Proof. destruct l as [|a [|b l]]; cbn [map]; intros H; try discriminate. injection H as H. cbn [read_all]. rewrite H. reflexivity. Qed.

Lemma col_name_eq m col : col < 65535 -> col_name m col = column_number_to_name m col.
Proof.
  intros H. unfold col_name. destruct (N.ltb_spec col 26) as [L|L]; [|reflexivity].
  unfold column_number_to_name. rewrite add16_ok by lia. cbn [obind].
  assert (E : forall f, col_name_loop (S (S f)) (col + 1) [] = Some [65 + col]).
  { intros f. cbn [col_name_loop]. replace (0 <? col + 1) with true by lia.
    replace ((col + 1 - 1) / 26) with 0 by (symmetry; apply N.div_small; lia). cbn [N.ltb N.compare].
    f_equal. f_equal. destruct (N.eq_dec col 25) as [->|Hn]; [reflexivity|]. rewrite N.mod_small by lia.
    destruct (N.eqb_spec (col + 1) 0); lia. }
  symmetry. apply (E 15%nat).
Qed.

Section Sheet.
  Variable num_text : f64 -> str.
  Variable read_num : str -> option f64.
  Variable m : ovf.
  Variable image_id : N -> N.
  Hypothesis num_simple : forall x, forallb simple (num_text x) = true.
  Hypothesis num_read : forall x, is_finite x = true -> read_num (num_text x) = Some x.
  Variable items : list node.
  Variable w : ws.
  Variable g : N -> N.
  Variable x14 : bool.

  Definition cell_rel (row : N) (x : N * cell * N) (f : fcell) : Prop :=
    fc_row f = row /\ fc_col f = fst (fst x) /\ fc_style f = snd x /\ value_read read_num image_id (contents (snd (fst x))) (fc_value f) /\
    fc_meta f = cell_meta (snd (fst x)).
  Definition cells_of (o : orow) : list (N * cell * N) := match o_cells o with Some cs => cs | None => [] end.
  Definition row_rel (o : orow) (f : frow) : Prop :=
    fr_row f = o_row o /\ row_says num_text w g (o_opts o) f /\ Forall2 (cell_rel (o_row o)) (cells_of o) (fr_cells f).
  Definition good_cell (x : N * cell * N) : Prop := fst (fst x) < 65535 /\ cell_good items (snd (fst x)) (snd x).
  Definition good_row (o : orow) : Prop := o_row o < 2 ^ 32 - 1 /\ Forall good_cell (cells_of o).

  Lemma good_text_ok c xf : cell_good items c xf -> cell_text_ok c.
  Proof.
    destruct c as [|n|s [i|]|x|b|f r|x|s raw [i|]|s|f r d rg]; cbn; auto.
    - intros (P & Q & _). split; [apply storable_writable; apply P|assumption].
    - intros ((P & Q & _) & S). split; [apply storable_writable; apply P|auto].
  Qed.
  Lemma cell_writes row x : row < 2 ^ 32 - 1 -> good_cell x ->
    exists text nodes f, write_cell num_text m image_id row x = Some text /\ reads text nodes /\ map (read_cell items) nodes = [Some f] /\ cell_rel row x f.
  Proof.
    destruct x as [[col c] xf]. intros Hr [Hc Hg]. cbn [fst snd] in *.
    destruct (row_col_to_cell_text m row col Hr Hc) as (nm & En & _ & _ & P).
    destruct (column_number_to_name_spec m col Hc) as (ls & El & Up & _ & _). assert (ls = nm) by congruence. subst ls.
    specialize (P false [] no_digit_nil). rewrite app_nil_r in P. cbn [app] in P.
    assert (Pa : parse_a1 (nm ++ dec (row + 1)) = Some {| a1_row := row; a1_col := col; a1_absrow := false; a1_abscol := false |})
      by (unfold parse_a1; rewrite P; reflexivity).
    assert (Sn : forallb simple (nm ++ dec (row + 1)) = true) by (rewrite forallb_app, upper_simple, dec_simple by assumption; reflexivity).
    pose proof (cell_wx_ok num_text image_id num_simple items _ c xf Sn Hg) as W.
    destruct (cell_reads num_text read_num image_id num_simple num_read items row col _ c xf Pa Hg) as (f & Rf & F1 & F2 & F3 & F4 & F5).
    exists (flat_map write_wx (cell_wx num_text image_id (nm ++ dec (row + 1)) c xf)), (map node_of (cell_wx num_text image_id (nm ++ dec (row + 1)) c xf)), f.
    split; [|split; [|split; [exact Rf|unfold cell_rel; auto 8]]].
    - apply write_cell_wx; [assumption|rewrite col_name_eq by assumption; assumption|apply add32_ok; lia|apply upper_simple; assumption|].
      eapply good_text_ok. eassumption.
    - apply reads_flat_one. intros x Hx. apply write_reads. rewrite Forall_forall in W. auto.
  Qed.
  Lemma cells_write row cs : row < 2 ^ 32 - 1 -> Forall good_cell cs ->
    exists text nodes fs, concat_opt (write_cell num_text m image_id row) cs = Some text /\ reads text nodes /\
      read_all (read_cell items) nodes = Some fs /\ Forall2 (cell_rel row) cs fs.
  Proof.
    intros Hr F. induction F as [|x cs G F IH].
    - exists [], [], []. split; [reflexivity|]. split; [apply reads_nil|]. split; [reflexivity|constructor].
    - destruct (cell_writes row x Hr G) as (t & ns & f & T & R & M & C). destruct IH as (t2 & ns2 & fs & T2 & R2 & M2 & C2).
      exists (t ++ t2), (ns ++ ns2), (f :: fs). cbn [concat_opt]. rewrite T, T2. cbn [obind]. split; [reflexivity|].
      split; [apply reads_app; assumption|]. split; [|constructor; assumption].
      change (f :: fs) with ([f] ++ fs). apply read_all_app; [apply read_all_one; assumption|assumption].
  Qed.
  Lemma xml_start_raw tag attrs : attrs_good attrs -> exists l, xml_start_tag tag attrs = open_tag tag l /\ attrs_ok l attrs.
  Proof.
    intros A. exists (map (fun kv => (fst kv, escape_attributes (snd kv))) attrs). split; [apply start_tag_open|apply attrs_good_ok; assumption].
  Qed.
  Lemma row_writes o : good_row o ->
    exists text node f, write_row num_text m image_id w g x14 o = Some text /\ reads text [node] /\ read_row items node = Some f /\ row_rel o f.
  Proof.
    intros [Hr F]. unfold write_row. set (attrs := row_attributes num_text w g x14 (get (o_row o / 16) (calculate_spans w)) (o_row o) (o_opts o)).
    assert (A : attrs_good attrs) by (apply row_attrs_good; assumption).
    destruct (cells_write (o_row o) (cells_of o) Hr F) as (t & ns & fs & T & R & M & C).
    assert (Fr : Forall (fun c => fc_row c = o_row o) fs) by (clear - C; induction C as [|x y xs ys HH]; constructor; [apply HH|assumption]).
    destruct (row_reads num_text image_id items w g x14 (get (o_row o / 16) (calculate_spans w)) (o_row o) (o_opts o) ns fs M Fr) as (f & E & E1 & E2 & E3).
    fold attrs in E. unfold cells_of in *. destruct (o_cells o) as [cs|] eqn:Eo.
    - rewrite T. cbn [obind]. eexists _, _, f. split; [reflexivity|]. split; [|split; [exact E|]].
      + rewrite start_tag_open, end_tag_close. apply reads_elem; [reflexivity|apply attrs_good_ok; assumption|assumption].
      + split; [assumption|]. split; [assumption|]. unfold cells_of. rewrite Eo, E2. assumption.
    - cbn [concat_opt] in T. assert (t = []) by congruence. subst t. apply reads_doc in R. cbn in R. assert (ns = []) by congruence. subst ns.
      eexists _, _, f. split; [reflexivity|]. split; [|split; [exact E|]].
      + apply write_reads with (t := WEmpty (lit "row") attrs). split; [reflexivity|assumption].
      + split; [assumption|]. split; [assumption|]. unfold cells_of. rewrite Eo, E2. assumption.
  Qed.
  Lemma rows_write rows : Forall good_row rows ->
    exists text nodes fs, concat_opt (write_row num_text m image_id w g x14) rows = Some text /\ reads text nodes /\
      read_all (read_row items) nodes = Some fs /\ Forall2 row_rel rows fs.
  Proof.
    intros F. induction F as [|x cs G F IH].
    - exists [], [], []. split; [reflexivity|]. split; [apply reads_nil|]. split; [reflexivity|constructor].
    - destruct (row_writes x G) as (t & ns & f & T & R & M & C). destruct IH as (t2 & ns2 & fs & T2 & R2 & M2 & C2).
      exists (t ++ t2), ([ns] ++ ns2), (f :: fs). cbn [concat_opt]. rewrite T, T2. cbn [obind]. split; [reflexivity|].
      split; [apply reads_app; assumption|]. split; [|constructor; assumption].
      cbn [app read_all]. rewrite M, M2. reflexivity.
  Qed.
  Lemma no_rows : data w = [] -> notes w = [] -> changed_rows w = [] -> write_data_table w g = [].
  Proof.
    intros H1 H2 H3. unfold write_data_table. apply flat_map_nil. intros r _. unfold emit_row. rewrite H1, H2, H3. reflexivity.
  Qed.
  Lemma sheet_writes : Forall good_row (write_data_table w g) ->
    exists text rows, sheet_data_text num_text m image_id w g x14 = Some text /\ (exists node, reads text [node]) /\ read_sheet_data items text = Some rows /\
      Forall2 row_rel (write_data_table w g) rows.
  Proof.
    intros F. destruct (rows_write _ F) as (t & ns & fs & T & R & M & C). unfold sheet_data_text.
    destruct (is_nil (data w) && is_nil (notes w) && is_nil (changed_rows w)) eqn:En.
    - apply andb_prop in En as [En E3]. apply andb_prop in En as [E1 E2].
      assert (Z : write_data_table w g = []) by (apply no_rows; [destruct (data w)|destruct (notes w)|destruct (changed_rows w)]; try reflexivity; discriminate).
      rewrite Z in *. cbn [concat_opt obind]. exists (lit "<sheetData/>"), []. split; [reflexivity|].
      assert (Rd : reads (lit "<sheetData/>") [Elem (lit "sheetData") [] []]) by (apply (write_reads (WEmpty (lit "sheetData") [])), ok_empty; reflexivity).
      split; [eauto|]. split; [|constructor]. unfold read_sheet_data. rewrite (reads_doc _ _ Rd). reflexivity.
    - rewrite T. cbn [obind]. exists (lit "<sheetData>" ++ t ++ lit "</sheetData>"), fs. split; [reflexivity|].
      assert (Rd : reads (lit "<sheetData>" ++ t ++ lit "</sheetData>") [Elem (lit "sheetData") [] ns]).
      { change (lit "<sheetData>") with (open_tag (lit "sheetData") []). change (lit "</sheetData>") with (close_tag (lit "sheetData")).
        apply reads_elem; [reflexivity|exact (attrs_good_ok [] attrs_nil)|assumption]. }
      split; [eauto|]. split; [|assumption]. unfold read_sheet_data. rewrite (reads_doc _ _ Rd). exact M.
  Qed.

  (** The cells shown at each position. *)
  Lemma F2_flat {A B C D} (R : A -> B -> Prop) (S : C -> D -> Prop) (f : A -> list C) (h : B -> list D) l l' :
    Forall2 R l l' -> (forall a b, R a b -> Forall2 S (f a) (h b)) -> Forall2 S (flat_map f l) (flat_map h l').
  Proof. intros F H. induction F; [constructor|]. cbn [flat_map]. apply Forall2_app; auto. Qed.
  Lemma rows_show rows fs : Forall2 row_rel rows fs -> forall r c,
    Forall2 (fun v f => value_read read_num image_id (fst v) (fst f) /\ snd f = snd v) (shown rows r c) (cells_at fs r c).
  Proof.
    intros F r c. unfold shown, cells_at. eapply F2_flat; [exact F|]. intros o f (R1 & _ & R3). unfold row_at.
    destruct (N.eqb_spec (o_row o) r) as [Er|Hne].
    - assert (E : match o_cells o with Some cs => flat_map (cell_at c) cs | None => [] end = flat_map (cell_at c) (cells_of o))
        by (unfold cells_of; destruct (o_cells o); reflexivity).
      rewrite E. eapply F2_flat; [exact R3|]. intros [[col k] xf] y (C1 & C2 & C3 & C4 & C5). cbn [fst snd] in *. unfold cell_at. rewrite C1, C2, Er.
      rewrite N.eqb_refl. cbn [andb]. destruct (col =? c); constructor; [|constructor]. cbn [fst snd]. auto.
    - assert (Z : flat_map (fun x => if (fc_row x =? r) && (fc_col x =? c) then [(fc_value x, fc_style x)] else []) (fr_cells f) = []).
      { apply flat_map_nil. intros x Hx. assert (Hr : fc_row x = o_row o) by (clear - R3 Hx; induction R3 as [|a b l l' HH]; [destruct Hx|destruct Hx as [<-|Hx]; [apply HH|auto]]).
        rewrite Hr. destruct (N.eqb_spec (o_row o) r); [contradiction|reflexivity]. }
      rewrite Z. constructor.
  Qed.
  (** The metadata records at each position. *)
  Definition meta_at (c : N) (x : N * cell * N) : list (option N) := if fst (fst x) =? c then [cell_meta (snd (fst x))] else [].
  Definition metas (rows : list orow) (r c : N) : list (option N) :=
    flat_map (fun o => if o_row o =? r then flat_map (meta_at c) (cells_of o) else []) rows.
  Lemma rows_metas rows fs : Forall2 row_rel rows fs -> forall r c, metas rows r c = metas_at fs r c.
  Proof.
    intros F r c. assert (Q : Forall2 eq (metas rows r c) (metas_at fs r c)).
    2:{ induction Q; congruence. }
    unfold metas, metas_at. eapply F2_flat; [exact F|]. intros o f (R1 & _ & R3).
    destruct (N.eqb_spec (o_row o) r) as [Er|Hne].
    - eapply F2_flat; [exact R3|]. intros [[col k] xf] y (C1 & C2 & C3 & C4 & C5). cbn [fst snd] in *. unfold meta_at. cbn [fst snd]. rewrite C1, C2, Er.
      rewrite N.eqb_refl. cbn [andb]. destruct (col =? c); constructor; [|constructor]. auto.
    - assert (Z : flat_map (fun x => if (fc_row x =? r) && (fc_col x =? c) then [fc_meta x] else []) (fr_cells f) = []).
      { apply flat_map_nil. intros x Hx. assert (Hr : fc_row x = o_row o) by (clear - R3 Hx; induction R3 as [|a b l l' HH]; [destruct Hx|destruct Hx as [<-|Hx]; [apply HH|auto]]).
        rewrite Hr. destruct (N.eqb_spec (o_row o) r); [contradiction|reflexivity]. }
      rewrite Z. constructor.
  Qed.
End Sheet.

(** ** Shared strings *)
Definition string_ok (s : str) : Prop :=
  (storable s /\ ~ looks_like_runs s) \/ (exists segs raw, get_rich_string segs = Some (s, raw) /\ Forall seg_ok segs).
Lemma looks_iff s : looks_rich s = true <-> looks_like_runs s.
Proof.
  unfold looks_rich, looks_like_runs. rewrite andb_true_iff, starts_with_true, ends_with_true. tauto.
Qed.
(** What an item reads as. *)
Definition item_says (s : str) (n : node) : Prop :=
  (~ looks_like_runs s -> read_item n = Some (FText s)) /\
  (looks_like_runs s -> exists runs, read_xml s = Some runs /\ read_item n = Some (FRich runs)).
Lemma rich_looks segs mk raw : get_rich_string segs = Some (mk, raw) -> looks_like_runs mk.
Proof. intros H. destruct (rich_wrapped segs mk raw H) as [b ->]. split; [exists (b ++ lit "</r>"); reflexivity|]. exists (lit "<r>" ++ b). rewrite <- app_assoc. reflexivity. Qed.
Lemma runs_not_t segs first : forall n, In n (map node_of (runs_xml first segs)) -> is_elem "t" n = false /\ is_elem "r" n = true.
Proof.
  revert first. induction segs as [|s segs IH]; intros first n; cbn [runs_xml map In]; [intros []|].
  intros [<-|H]; [|eauto]. unfold run_xml. destruct (_ && _); split; reflexivity.
Qed.
Lemma si_writes s : string_ok s -> exists text node, write_si s = Some text /\ reads text [node] /\ item_says s node.
Proof.
  intros [[St Nl]|(segs & raw & E & Ok)].
  - assert (L : looks_rich s = false) by (destruct (looks_rich s) eqn:E; [apply looks_iff in E; contradiction|reflexivity]).
    unfold write_si. unfold looks_rich in L. rewrite L. unfold xml_si_element. rewrite escape_xml_escapes_esc. cbn [obind].
    set (t := WElem (lit "si") [] [WData (lit "t") (esc s) (if ws_edges s then [(lit "xml:space", lit "preserve")] else [])]).
    exists (write_wx t), (node_of t). split; [|split].
    + f_equal. unfold t. cbn [write_wx flat_map]. fold (ws_edges s). rewrite app_nil_r. destruct (ws_edges s); unfold xml_data_element, xml_start_tag, xml_end_tag;
        cbn [flat_map]; rewrite ?wa_simple by reflexivity; rewrite <- ?app_assoc; reflexivity.
    + apply write_reads. apply wx_ok_elem. split; [reflexivity|]. split; [apply attrs_nil|]. constructor; [|constructor].
      split; [reflexivity|]. split; [|apply esc_writable; apply storable_writable; assumption]. destruct (ws_edges s); [apply attrs_one; reflexivity|apply attrs_nil].
    + split; [intros _|contradiction]. unfold t. cbn [node_of map read_item is_elem]. change (str_eqb (lit "t") (lit "t")) with true. cbv iota.
      change (text_of (Elem (lit "t") (if ws_edges s then [(lit "xml:space", lit "preserve")] else []) match esc s with [] => [] | _ => [Txt (data_text (esc s))] end))
        with (text_of (node_of (WData (lit "t") (esc s) (if ws_edges s then [(lit "xml:space", lit "preserve")] else [])))).
      rewrite text_of_data. do 2 f_equal. exact (excel_decode_ctl_esc s).
  - pose proof (rich_looks _ _ _ E) as L. pose proof (proj2 (looks_iff s) L) as Lr. destruct (rich_reads segs s raw E Ok) as [R Ne].
    unfold write_si. unfold looks_rich in Lr. rewrite Lr. unfold xml_rich_si_element.
    exists (lit "<si>" ++ s ++ lit "</si>"), (Elem (lit "si") [] (map node_of (runs_xml true segs))). split; [reflexivity|]. split.
    + change (lit "<si>") with (open_tag (lit "si") []). change (lit "</si>") with (close_tag (lit "si")).
      apply reads_elem; [reflexivity|exact (attrs_good_ok [] attrs_nil)|assumption].
    + split; [contradiction|]. intros _. exists (map node_of (runs_xml true segs)). split; [apply reads_doc; assumption|].
      pose proof (runs_not_t segs true) as T. destruct segs as [|sg segs]; [congruence|]. cbn [runs_xml map] in *. unfold read_item.
      rewrite (proj1 (T _ (or_introl eq_refl))).
      assert (Z : forallb (is_elem "r") (node_of (run_xml true sg) :: map node_of (runs_xml false segs)) = true)
        by (apply forallb_forall; intros n Hn; apply T; assumption).
      rewrite Z. reflexivity.
Qed.
Lemma sis_write l : Forall string_ok l -> exists text items, concat_opt write_si l = Some text /\ reads text items /\ Forall2 item_says l items.
Proof.
  intros F. induction F as [|s l H F IH].
  - exists [], []. split; [reflexivity|]. split; [apply reads_nil|constructor].
  - destruct (si_writes s H) as (t & n & T & R & I). destruct IH as (t2 & ns & T2 & R2 & I2). exists (t ++ t2), (n :: ns).
    cbn [concat_opt]. rewrite T, T2. cbn [obind]. split; [reflexivity|]. split; [apply reads_cons; assumption|constructor; assumption].
Qed.
Lemma sst_part_writes t entries : Forall string_ok (written_order entries) ->
  exists text attrs items, shared_strings_part t entries = Some text /\ read_document text = Some (Elem (lit "sst") attrs items) /\
    attr "count" attrs = Some (dec (count t)) /\ attr "uniqueCount" attrs = Some (dec (unique_count t)) /\
    Forall2 item_says (written_order entries) items.
Proof.
  intros F. destruct (sis_write _ F) as (b & items & T & R & I). unfold shared_strings_part. rewrite T. cbn [obind].
  eexists _, [(lit "xmlns", lit "http://schemas.openxmlformats.org/spreadsheetml/2006/main"); (lit "count", dec (count t)); (lit "uniqueCount", dec (unique_count t))], items.
  split; [reflexivity|]. split; [|split; [reflexivity|split; [reflexivity|exact I]]].
  apply reads_document; [|discriminate]. rewrite start_tag_open, end_tag_close. apply reads_elem; [reflexivity| |assumption].
  apply attrs_good_ok. apply attrs_cons_good; [reflexivity|reflexivity| |].
  { cbn. intros [H|[H|[]]]; discriminate. }
  apply attrs_cons_good; [reflexivity|apply dec_attr| |].
  { cbn. intros [H|[]]; discriminate. }
  apply attrs_one; [reflexivity|apply dec_attr].
Qed.
