(** C54: the columns of a table and the cells it fills in. *)
From Verif Require Import Base SMap F64 Fmt_Model Sst_Model Cells_Model Cells_Spec Cells_Inv Cells_Proofs Cells_Proofs2 Cells_Save Cells_Hist
  Sheet_Model Sheet_Spec Sheet_Proofs Opts_Frame Sheet_Hist Sheet_Hist2 Sheet_Hist3 Sheet_Hist4 Sheet_Hist5 Table_Spec Props_Sheet.

(** The name of column number [j] (from 0): the one given, else the text that is
    already in the header cell, else Column1, Column2, ... *)
Definition expected_name (given : tcolumn) (header : bool) (cell : option (cell * N)) (j : N) : str :=
  match tc_name given with
  | [] => match header, cell with
          | true, Some (k, _) => match contents k with VText s => s | _ => lit "Column" ++ dec (j + 1) end
          | _, _ => lit "Column" ++ dec (j + 1) end
  | n => n
  end.
(** All the settings of a column except its name. *)
Definition same_but_name (a b : tcolumn) : Prop :=
  tc_total a = tc_total b /\ tc_total_label a = tc_total_label b /\ tc_formula a = tc_formula b /\
  tc_format a = tc_format b /\ tc_header_format a = tc_header_format b.

Section Lower.
(** [str::to_lowercase] is arbitrary. *)
Variable lower : str -> str.

Lemma names_spec hs : forall cols seen out, name_columns lower hs cols seen = Some out ->
  NoDup (map (fun c => lower (tc_name c)) out) /\
  (forall c, In c out -> ~ In (lower (tc_name c)) seen) /\
  forall j c, nth_error out j = Some c ->
    let given := nth j cols tcolumn_new in
    exists h, nth_error hs j = Some h /\ tc_name c = match tc_name given with [] => h | n => n end /\ same_but_name c given.
Proof.
  induction hs as [|h hs IH]; intros cols seen out; cbn [name_columns].
  { intros [= <-]. split; [constructor|]. split; [intros c []|]. intros [|j] c; discriminate. }
  set (c0 := match cols with [] => tcolumn_new | c :: _ => c end). set (rest := match cols with [] => [] | _ :: r => r end).
  replace (match cols with [] => (tcolumn_new, []) | c :: r => (c, r) end) with (c0, rest) by (destruct cols; reflexivity). cbv zeta.
  set (name := match tc_name c0 with [] => h | n => n end).
  destruct (existsb (str_eqb (lower name)) seen) eqn:Ex; [discriminate|].
  destruct (name_columns lower hs rest (lower name :: seen)) as [out'|] eqn:E; [|discriminate].
  intros H. assert (Eo : out = {| tc_name := name; tc_total := tc_total c0; tc_total_label := tc_total_label c0; tc_formula := tc_formula c0;
                 tc_format := tc_format c0; tc_header_format := tc_header_format c0 |} :: out') by congruence. subst out. clear H.
  destruct (IH _ _ _ E) as (A & B & C). split; [|split].
  - cbn [map tc_name]. constructor; [|exact A]. intros Hi. apply in_map_iff in Hi as (c & Ec & Hc). apply (B c Hc). left. congruence.
  - intros c [<-|Hc] Hs; [|exact (B c Hc (or_intror Hs))]. cbn [tc_name] in Hs.
    assert (existsb (str_eqb (lower name)) seen = true); [|congruence]. apply existsb_exists. exists (lower name). split; [exact Hs|apply str_eqb_refl].
  - intros [|j] c Hj; cbn [nth_error] in Hj.
    + assert (c = {| tc_name := name; tc_total := tc_total c0; tc_total_label := tc_total_label c0; tc_formula := tc_formula c0;
                 tc_format := tc_format c0; tc_header_format := tc_header_format c0 |}) by congruence. subst c. cbv zeta.
      replace (nth 0 cols tcolumn_new) with c0 by (destruct cols; reflexivity). exists h. split; [reflexivity|]. split; [reflexivity|]. repeat split.
    + destruct (C j c Hj) as (h' & H1 & H2 & H3). exists h'. cbv zeta.
      replace (nth (S j) cols tcolumn_new) with (nth j rest tcolumn_new) by (destruct cols; [destruct j; reflexivity|reflexivity]). auto.
Qed.
Lemma nth_range_incl a b j : (j < N.to_nat (b + 1 - a))%nat -> nth_error (range_incl a b) j = Some (a + N.of_nat j).
Proof.
  intros H. unfold range_incl. rewrite nth_error_map.
  replace (nth_error (seq 0 (N.to_nat (b + 1 - a))) j) with (Some j); [reflexivity|].
  symmetry. rewrite nth_error_nth' with (d := 0%nat) by (rewrite seq_length; exact H). rewrite seq_nth by exact H. reflexivity.
Qed.

(** An accepted table is recorded with one column per column of its range; the
    names are pairwise different, ignoring case; each column has the settings
    given for it (the defaults if none were given) and the name given for it, or
    else the text found in its header cell, or else ColumnN. *)
Theorem C54_columns pre s fr fc lr lc t s1 :
  srun lower (sheet_new ws_standard) pre = Some s ->
  add_table lower s fr fc lr lc t = Some (s1, None) ->
  exists T, tables s1 = tables s ++ [T] /\ t_range T = {| r0 := fr; c0 := fc; r1 := lr; c1 := lc |} /\
    t_header T = t_header t /\ t_total T = t_total t /\ t_serde T = t_serde t /\ t_autofilter T = t_autofilter t /\ t_name T = t_name t /\
    N.of_nat (length (t_columns T)) = lc - fc + 1 /\
    NoDup (map (fun c => lower (tc_name c)) (t_columns T)) /\
    forall j c, nth_error (t_columns T) j = Some c ->
      let given := nth j (t_columns t) tcolumn_new in
      same_but_name c given /\
      tc_name c = expected_name given (t_header t) (table_get fr (fc + N.of_nat j) (data (cells s))) (N.of_nat j).
Proof.
  intros Hp H. apply table_cells in H as [[_ Q]|(Hr & Hc & Hh & Ht & cols & T & Nc & ET & e1 & E & Q)]; [congruence|].
  destruct (Q eq_refl) as [_ Tb]. exists T. split; [exact Tb|]. rewrite ET. cbn [t_range t_header t_total t_serde t_autofilter t_columns t_name].
  repeat (split; [reflexivity|]). pose proof (names_length _ _ _ _ _ Nc) as L. rewrite map_length, range_incl_length in L.
  split; [lia|]. destruct (names_spec _ _ _ _ Nc) as (A & _ & C). split; [exact A|].
  intros j c Hj. destruct (C j c Hj) as (h & H1 & H2 & H3). cbv zeta in *. split; [exact H3|]. rewrite H2. unfold expected_name.
  rewrite nth_error_map in H1. rewrite nth_range_incl in H1.
  2:{ assert (j < length cols)%nat by (apply nth_error_Some; congruence). lia. }
  cbn [option_map] in H1. assert (Eh : h = default_header (cells s) fr fc (t_header t) (fc + N.of_nat j)) by congruence. rewrite Eh.
  destruct (tc_name (nth j (t_columns t) tcolumn_new)); [|reflexivity]. unfold default_header.
  replace (fc + N.of_nat j - fc + 1) with (N.of_nat j + 1) by lia.
  destruct (t_header t); cbn [negb]; [|reflexivity]. destruct (table_get fr (fc + N.of_nat j) (data (cells s))) as [[[] i]|]; reflexivity.
Qed.

(** The cells of the columns of an accepted table, given the cells before
    ([column_cells] in Table_Spec: header, data formulas, total row, formats, and
    everything else unchanged).  Cells outside the range of the table do not
    change at all, even if the table is rejected. *)
Theorem C54_cells pre s fr fc lr lc t s1 T :
  srun lower (sheet_new ws_standard) pre = Some s ->
  add_table lower s fr fc lr lc t = Some (s1, None) -> tables s1 = tables s ++ [T] ->
  forall j c, nth_error (t_columns T) j = Some c ->
    column_cells (t_header t) (t_serde t) (t_total t) fr lr (default_result (cells s)) (xfs (cells s1)) c
      (fun r => table_get r (fc + N.of_nat j) (data (cells s))) (fun r => table_get r (fc + N.of_nat j) (data (cells s1))).
Proof.
  intros Hp H HT j c Hj. destruct (srun_std lower pre (sheet_new ws_standard) s std_start Hp) as (S0 & _).
  apply table_cells in H as [[_ Q]|(Hr & Hc & Hh & Ht & cols & T' & Nc & ET & e1 & E & Q)]; [congruence|].
  destruct (Q eq_refl) as [-> Tb]. rewrite Tb in HT. apply app_inv_head in HT. assert (T = T') by congruence. subst T. rewrite ET in *.
  destruct (columns_spec _ _ _ _ _ _ _ _ S0 E) as (_ & _ & _ & _ & C); cbn [t_range r0 r1 t_header t_total]; [lia|exact Hh|exact Ht|reflexivity|reflexivity|].
  exact (proj1 (C eq_refl j c Hj)).
Qed.
Theorem C54_outside_unchanged pre s fr fc lr lc t s1 e r c :
  srun lower (sheet_new ws_standard) pre = Some s ->
  add_table lower s fr fc lr lc t = Some (s1, e) -> ~ (fr <= r <= lr /\ fc <= c <= lc) ->
  table_get r c (data (cells s1)) = table_get r c (data (cells s)).
Proof.
  intros Hp H Hn. destruct (srun_std lower pre (sheet_new ws_standard) s std_start Hp) as (S0 & _).
  apply (proj2 (proj2 (table_std lower _ _ _ _ _ _ _ _ S0 H))). unfold in_rect. rewrite !andb_false_iff, !N.leb_gt. lia.
Qed.

(** In the file: after any further calls that do not mention the cell, the
    header shows the name of the column, the data cells the column formula, and
    the total cell the total label or the total formula. *)
Definition column_value (default : str) (header serde : bool) (total : bool) (top bottom : N) (c : tcolumn) (r : N) (v : value) : Prop :=
  (header = true /\ serde = false /\ r = top /\ v = VText (tc_name c) /\ tc_name c <> []) \/
  (exists fm, tc_formula c = Some fm /\ (if header then top < r else top <= r) /\ (if total then r < bottom else r <= bottom) /\ v = formula_value default fm) \/
  (total = true /\ r = bottom /\ tc_total_label c <> [] /\ v = VText (tc_total_label c)) \/
  (total = true /\ r = bottom /\ tc_total_label c = [] /\ exists mk, tc_total c = Some mk /\ v = formula_value default (mk (tc_name c))).
Theorem C54_file pre s fr fc lr lc t s1 T post s2 st g j c r v :
  srun lower (sheet_new ws_standard) pre = Some s ->
  add_table lower s fr fc lr lc t = Some (s1, None) -> tables s1 = tables s ++ [T] ->
  nth_error (t_columns T) j = Some c ->
  column_value (default_result (cells s)) (t_header t) (t_serde t) (t_total t) fr lr c r v ->
  srun lower s1 post = Some s2 -> (forall o, In o post -> stouches o r (fc + N.of_nat j) = false) ->
  exists style, shown (sheet_rows (cells s2) st g) r (fc + N.of_nat j) = [(v, style)].
Proof.
  intros Hp H HT Hj Hv Hpost Hn. pose proof (C54_cells _ _ _ _ _ _ _ _ _ Hp H HT j c Hj) as Cc.
  destruct (srun_std lower pre (sheet_new ws_standard) s std_start Hp) as (S0 & _).
  pose proof (proj1 (table_std lower _ _ _ _ _ _ _ _ S0 H)) as S1.
  apply table_cells in H as [[_ Q]|(Hr & Hc & Hh & Ht & cols & T' & Nc & ET & e1 & E & Q)]; [congruence|].
  destruct (Q eq_refl) as [-> Tb]. rewrite Tb in HT. apply app_inv_head in HT. assert (T = T') by congruence. subst T. rewrite ET in *.
  destruct (columns_spec _ _ _ _ _ _ _ _ S0 E) as (_ & _ & _ & _ & C); cbn [t_range r0 r1 t_header t_total]; [lia|exact Hh|exact Ht|reflexivity|reflexivity|].
  destruct (C eq_refl j c Hj) as [_ Cov]. cbn [t_range r0 r1 t_header t_total t_serde] in Cov.
  destruct (srun_std lower post _ _ S1 Hpost) as (S2 & M2 & F2). specialize (F2 r _ Hn).
  assert (Hol : holds (table_get r (fc + N.of_nat j) (data (cells s1))) v /\ filled_in (t_header t) (t_serde t) (t_total t) fr lr c r /\ v <> VBlank).
  { destruct Hv as [(A & B & -> & -> & D)|[(fm & A & B & D & ->)|[(A & -> & B & ->)|(A & -> & B & mk & D & ->)]]].
    - split; [exact (cc_header _ _ _ _ _ _ _ _ _ _ Cc A B D)|]. split; [left; auto|discriminate].
    - split; [exact (cc_data _ _ _ _ _ _ _ _ _ _ Cc fm r A B D)|]. split; [right; left; split; [congruence|auto]|]. unfold formula_value. destruct (f_dynamic fm); discriminate.
    - split; [exact (cc_label _ _ _ _ _ _ _ _ _ _ Cc A B)|]. split; [right; right; auto|discriminate].
    - split; [exact (cc_total _ _ _ _ _ _ _ _ _ _ Cc A B mk D)|]. split; [right; right; split; [exact A|]; split; [right; congruence|reflexivity]|].
      unfold formula_value. destruct (f_dynamic _); discriminate. }
  destruct Hol as ((k & i & G1 & G2) & Fi & Nb). rewrite G1 in F2. rewrite <- G2.
  apply (std_shows _ st g r _ k i S2 F2 (covers_meta _ _ _ _ M2 (Cov r Fi))). congruence.
Qed.
End Lower.

(** A table over B3:D6 whose second header is already there. *)
Definition f_of (s : string) : formula := {| f_text := lit s; f_result := []; f_dynamic := false |}.
Definition two_columns : list tcolumn :=
  [{| tc_name := lit "Name"; tc_total := None; tc_total_label := lit "Sum"; tc_formula := None; tc_format := None; tc_header_format := None |};
   {| tc_name := []; tc_total := Some (fun n => f_of "SUBTOTAL(109,[Qty])"); tc_total_label := []; tc_formula := Some (f_of "1+1"); tc_format := None; tc_header_format := None |}].
Example C54_example :
  let t := {| t_columns := two_columns; t_name := []; t_header := true; t_total := true; t_autofilter := true; t_serde := false;
              t_range := {| r0 := 0; c0 := 0; r1 := 0; c1 := 0 |} |} in
  match srun (map ascii_lower) (sheet_new ws_standard) [SCell (WriteString 2 2 (lit "Qty") None); STable 2 1 5 3 t] with
  | Some s =>
    map (fun c => tc_name c) (flat_map t_columns (tables s)) = [lit "Name"; lit "Qty"; lit "Column3"] /\
    map (fun p => map fst (shown (sheet_rows (cells s) sst_new (fun i => i)) (fst p) (snd p))) [(2, 1); (2, 2); (2, 3); (3, 2); (4, 2); (5, 1); (5, 2); (5, 3)] =
      [[VText (lit "Name")]; [VText (lit "Qty")]; [VText (lit "Column3")]; [VFormula (lit "1+1") (lit "0")]; [VFormula (lit "1+1") (lit "0")];
       [VText (lit "Sum")]; [VFormula (lit "SUBTOTAL(109,[Qty])") (lit "0")]; []]
  | None => False
  end.
Proof. vm_compute. split; reflexivity. Qed.

Print Assumptions C54_columns.
Print Assumptions C54_cells.
Print Assumptions C54_outside_unchanged.
Print Assumptions C54_file.
