(** Property C98, tables: xl/tables/table1.xml stands in the order of the schema. *)
From Coq Require Import Lia.
From Verif Require Import Base SMap Ref_Model Ref_Spec Ref_Proofs Xml_Model Xml_Spec Xml_Proofs Xml_Read Xml_Read_Proofs Xml_Tree Fmt_Model Formula_Model Url_Model Rich_Model Rich_Proofs
  Cells_Model Sheet_Model SheetXml_Spec SheetXml_Proofs SheetXml_Proofs3 Doc_Model Doc_Spec Props_Doc View_Model View_Spec Tag_Proofs Part_Model Part_Proofs View_Hist DV_Spec Sheet_Hist5 Tbl_Model Tbl_Spec Props_TablePart.
From Verif Require Chart_Order Chart_Order_Proofs Order_Spec Order_Proofs Order_Proofs2.

Theorem C98_table lower m dxf s fr fc lr lc calls R0 s1 index :
  let names := map (asked_name (cells s) fr fc (DV_Spec.last_given of_header true calls) (DV_Spec.last_given of_columns [] calls)) (seq 0 (N.to_nat (lc + 1 - fc))) in
  let R := {| r0 := fr; c0 := fc; r1 := lr; c1 := lc |} in
  add_table lower s fr fc lr lc (to_tbl (xtable_of calls) R0) = Some (s1, None) ->
  Forall column_fits (DV_Spec.last_given of_columns [] calls) -> fits (DV_Spec.last_given of_name [] calls) -> Forall fits names ->
  exists p doc root, tables s1 = tables s ++ [to_tbl p R] /\ table_xml m dxf index R p = Some doc /\
    read_document (document doc) = Some root /\ Order_Spec.in_schema_order Order_Spec.sml "table" root.
Proof.
  cbv zeta. destruct (built calls) as (B1 & B2 & B3 & B4 & B5 & B6 & B7 & B8 & B9 & B10). cbv zeta in *.
  rewrite <- ?B1, <- ?B2, <- ?B3, <- ?B4, <- ?B5, <- ?B6, <- ?B7, <- ?B8, <- ?B9, <- ?B10. clear B1 B2 B3 B4 B5 B6 B7 B8 B9 B10.
  set (t := xtable_of calls). intros H Fg Fn Fs.
  apply table_cells in H as [[_ H]|(Hr & Hc & Hh & Ht & cols & T & Nc & -> & e1 & _ & Q)]; [congruence|]. destruct (Q eq_refl) as [_ Tb]. clear Q e1.
  cbn [to_tbl t_header t_total t_columns t_name t_autofilter t_serde] in *.
  rewrite init_matches in Nc. destruct (init_columns lower _ (x_columns t) []) as [l|] eqn:E; [|discriminate]. cbn [option_map] in Nc.
  assert (cols = map to_tcolumn l) by congruence. subst cols. clear Nc.
  destruct (init_asked lower _ _ _ _ dxf 1 E) as (L & A & Ff & D).
  assert (Nm : map k_name l = map (asked_name (cells s) fr fc (x_header t) (x_columns t)) (seq 0 (N.to_nat (lc + 1 - fc)))).
  { apply names_are; [rewrite map_length, L, map_length, range_incl_length; reflexivity|]. intros j Hj.
    rewrite D by (rewrite map_length, range_incl_length; exact Hj). unfold asked_name. destruct (k_name (nth j (x_columns t) tcol_new)); [|reflexivity].
    unfold range_incl. apply headers_nth. exact Hj. }
  rewrite <- Nm in *. specialize (Ff Fg Fs).
  assert (Ll : l <> []) by (intros ->; rewrite map_length, range_incl_length in L; cbn [length] in L; lia).
  assert (P : fr < ROW_MAX /\ fc < COL_MAX /\ lr < ROW_MAX /\ lc < COL_MAX) by (unfold ROW_MAX, COL_MAX; lia).
  destruct P as (P1 & P2 & P3 & P4). destruct (range_text m fr fc lr lc P1 P2 P3 P4) as (range & Er & Ar & _ & Rr).
  assert (P5 : (if x_total t then lr - 1 else lr) < ROW_MAX) by (destruct (x_total t); [unfold ROW_MAX in *; lia|exact P3]).
  destruct (range_text m fr fc _ lc P1 P2 P5 P4) as (fil & Ef & Af & _ & Rf).
  set (fs := if x_filter t && x_header t then [WEmpty (lit "autoFilter") [(lit "ref", fil)]] else []).
  set (doc := WElem (lit "table") (table_attrs index range t) (fs ++ [columns_xml dxf l; style_info_xml t])).
  assert (Ed : table_xml m dxf index {| r0 := fr; c0 := fc; r1 := lr; c1 := lc |} (with_columns t l) = Some doc).
  { unfold table_xml. cbn [r0 c0 r1 c1]. rewrite Er. cbn [obind]. change (x_filter (with_columns t l)) with (x_filter t). change (x_header (with_columns t l)) with (x_header t).
    change (x_total (with_columns t l)) with (x_total t). subst doc fs. destruct (x_filter t && x_header t); [rewrite Ef|]; reflexivity. }
  assert (Ok : wx_ok doc).
  { apply wx_ok_elem. split; [reflexivity|]. split; [apply attrs_table; assumption|]. apply Forall_app. split.
    - subst fs. destruct (x_filter t && x_header t); constructor; [|constructor]. split; [reflexivity|]. good.
    - constructor; [|constructor; [apply style_ok|constructor]]. unfold columns_xml. apply wx_ok_elem. split; [reflexivity|].
      split; [good|apply columns_from_ok, Ff]. }
  exists (with_columns t l), doc, (node_of doc). split; [exact Tb|]. split; [exact Ed|]. split; [apply document_reads, Ok|]. split; [reflexivity|].
  apply (Order_Proofs2.table_st m dxf index _ (with_columns t l) doc Ll Ed).
Qed.
Print Assumptions C98_table.

(** The table of C67_meets is added, with writable texts. *)
Example C98_table_meets :
  let calls := [TTotal true; TName (lit "Sales"); TColumns [tcol_of [CHeader (lit "Item"); CLabel (lit "Total")]; tcol_of [CFun FSum]]] in
  match add_table (map ascii_lower) (sheet_new ws_standard) 2 1 5 3 (to_tbl (xtable_of calls) {| r0 := 0; c0 := 0; r1 := 0; c1 := 0 |}) with
  | Some (s1, None) => length (tables s1) = 1%nat | _ => False end /\
  forallb (fun c => forallb attr_char (k_name c)) (DV_Spec.last_given of_columns [] calls) = true.
Proof. vm_compute. split; reflexivity. Qed.
