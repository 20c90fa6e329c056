(** Property C67, cells: the cells of a table show what the calls on its builder ask for. *)
From Coq Require Import Lia.
From Verif Require Import Base SMap Ref_Model Ref_Spec Ref_Proofs Xml_Model Xml_Spec Fmt_Model Formula_Model Rich_Model
  Cells_Model Cells_Spec Sheet_Model Sheet_Spec Sheet_Hist Sheet_Hist5 View_Spec DV_Spec Table_Spec Tbl_Model Tbl_Spec Props_TablePart Props_Table.

(** What the cell in row [r] of the column at place [j] should show: in the header row
    the name of the column; in the rows between header and total the formula of the
    column; in the total row its label, or else its total formula. *)
Inductive asked_value (default : str) (header total : bool) (top bottom : N) (given : tcol) (name : str) (r : N) : Cells_Spec.value -> Prop :=
| av_header : header = true -> r = top -> name <> [] -> asked_value default header total top bottom given name r (Cells_Spec.VText name)
| av_formula fm : k_formula given = Some fm -> (if header then top < r else top <= r) -> (if total then r < bottom else r <= bottom) ->
    asked_value default header total top bottom given name r (formula_value default fm)
| av_label : total = true -> r = bottom -> k_label given <> [] -> asked_value default header total top bottom given name r (Cells_Spec.VText (k_label given))
| av_total : total = true -> r = bottom -> k_label given = [] -> k_fun given <> FNone ->
    asked_value default header total top bottom given name r (formula_value default (total_formula (k_fun given) name)).

(** After a table was added by any chain of calls on its builder to any reachable
    sheet, and after any further calls that leave the cell alone, the cell shows
    what was asked for, with the name the table part states (C67_table_part):
    the given one, else the text that stood in the header cell, else the default. *)
Theorem C67_cells lower pre s fr fc lr lc calls R0 s1 post s2 st g j r v :
  let header := DV_Spec.last_given of_header true calls in
  let columns := DV_Spec.last_given of_columns [] calls in
  srun lower (sheet_new ws_standard) pre = Some s ->
  add_table lower s fr fc lr lc (to_tbl (xtable_of calls) R0) = Some (s1, None) ->
  (j < N.to_nat (lc + 1 - fc))%nat ->
  asked_value (default_result (cells s)) header (DV_Spec.last_given of_total false calls) fr lr (nth j columns tcol_new) (asked_name (cells s) fr fc header columns j) r v ->
  srun lower s1 post = Some s2 -> (forall o, In o post -> stouches o r (fc + N.of_nat j) = false) ->
  exists style, Cells_Spec.shown (sheet_rows (cells s2) st g) r (fc + N.of_nat j) = [(v, style)].
Proof.
  cbv zeta. destruct (built calls) as (B1 & B2 & B3 & B4 & B5 & B6 & B7 & B8 & B9 & B10). cbv zeta in *.
  rewrite <- ?B1, <- ?B2, <- ?B3, <- ?B4, <- ?B5. intros Hp H Hj Av Hpost Hn. clear B1 B2 B3 B4 B5 B6 B7 B8 B9 B10. set (t := xtable_of calls) in *.
  pose proof H as H'. apply table_cells in H' as [[_ Q]|(Hr & Hc & _ & Ht & cols & T & Nc & ET & e1 & _ & Q)]; [congruence|]. destruct (Q eq_refl) as [_ Tb]. clear Q e1.
  cbn [to_tbl t_header t_total t_columns t_name t_autofilter t_serde] in *.
  rewrite init_matches in Nc. destruct (init_columns lower _ (x_columns t) []) as [l|] eqn:E; [|discriminate]. cbn [option_map] in Nc.
  assert (cols = map to_tcolumn l) by congruence. subst cols. clear Nc.
  destruct (init_asked lower _ _ _ _ (fun _ => 0) 1 E) as (L & _ & _ & D).
  assert (Nm : map k_name l = map (asked_name (cells s) fr fc (x_header t) (x_columns t)) (seq 0 (N.to_nat (lc + 1 - fc)))).
  { apply names_are; [rewrite map_length, L, map_length, range_incl_length; reflexivity|]. intros i Hi.
    rewrite D by (rewrite map_length, range_incl_length; exact Hi). unfold asked_name. destruct (k_name (nth i (x_columns t) tcol_new)); [|reflexivity].
    unfold range_incl. apply headers_nth. exact Hi. }
  assert (Lj : (j < length l)%nat) by (rewrite L, map_length, range_incl_length; exact Hj).
  destruct (nth_error l j) as [c|] eqn:Ec; [|apply nth_error_None in Ec; lia].
  assert (Kc : k_name c = asked_name (cells s) fr fc (x_header t) (x_columns t) j).
  { pose proof (f_equal (fun m => nth_error m j) Nm) as K. cbv beta in K. rewrite !nth_error_map, Ec in K. cbn [option_map] in K.
    assert (Sj : nth_error (seq 0 (N.to_nat (lc + 1 - fc))) j = Some j) by (rewrite (nth_error_nth' _ 0%nat) by (rewrite seq_length; exact Hj); rewrite seq_nth by exact Hj; reflexivity).
    rewrite Sj in K. cbn [option_map] in K. congruence. }
  rewrite <- Kc in *.
  assert (Tj : nth_error (t_columns T) j = Some (to_tcolumn c)) by (rewrite ET; cbn [t_columns]; rewrite nth_error_map, Ec; reflexivity).
  destruct (C54_columns lower pre s fr fc lr lc _ s1 Hp H) as (T' & Tb' & _ & _ & _ & _ & _ & _ & _ & _ & Q).
  rewrite Tb in Tb'. apply app_inv_head in Tb'. assert (T' = T) by congruence. subst T'. destruct (Q j _ Tj) as [(S1 & S2 & S3 & _ & _) _]. clear Q Tb'.
  cbn [to_tbl t_columns] in S1, S2, S3. change tcolumn_new with (to_tcolumn tcol_new) in S1, S2, S3. rewrite map_nth in S1, S2, S3.
  apply (C54_file lower pre s fr fc lr lc _ s1 T post s2 st g j (to_tcolumn c) r v Hp H Tb Tj); [|exact Hpost|exact Hn].
  cbn [to_tbl t_header t_serde t_total]. unfold column_value. destruct Av as [A1 A2 A3|fm A1 A2 A3|A1 A2 A3|A1 A2 A3 A4].
  - left. repeat split; assumption.
  - right. left. exists fm. rewrite S3. repeat split; assumption.
  - right. right. left. rewrite S2. repeat split; assumption.
  - right. right. right. rewrite S2. repeat split; [exact A1|exact A2|exact A3|]. exists (total_formula (k_fun (nth j (x_columns t) tcol_new))).
    split; [|reflexivity]. rewrite S1. cbn [to_tcolumn tc_total]. destruct (k_fun (nth j (x_columns t) tcol_new)); try reflexivity. congruence.
Qed.
Print Assumptions C67_cells.

(** A case that meets the hypotheses: one given name, one default name, one name from the text in D3. *)
Example C67_cells_meets :
  let calls := [TName (lit "Sales"); TColumns [tcol_of [CHeader (lit "Item")]; tcol_of [CFun FSum]]] in
  match srun (map ascii_lower) (sheet_new ws_standard) [SCell (WriteString 2 3 (lit "Qty") None)] with
  | Some s =>
    match add_table (map ascii_lower) s 2 1 5 3 (to_tbl (xtable_of calls) {| r0 := 0; c0 := 0; r1 := 0; c1 := 0 |}) with
    | Some (_, None) => map (asked_name (cells s) 2 1 true (DV_Spec.last_given of_columns [] calls)) (seq 0 3) = [lit "Item"; lit "Column2"; lit "Qty"]
    | _ => False end
  | None => False end.
Proof. vm_compute. reflexivity. Qed.
