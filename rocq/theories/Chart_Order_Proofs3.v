From Verif Require Import Base F64 Xml_Model Xml_Spec Xml_Proofs Xml_Read Xml_Read_Proofs Xml_Tree Fmt_Model Rich_Model Rich_Proofs SheetXml_Spec SheetXml_Proofs SheetXml_Proofs3 Doc_Model Doc_Spec Props_Doc Tag_Proofs Part_Proofs
  CF_Spec CF_Model CF_Build CF_Read Ref_Model Ref_Proofs Ref_Spec Quote_Proofs Note_Spec Note_Proofs Note_Proofs2 Note_Proofs4 Note_Proofs5 Cache_Model Spark_Model Spark_Spec Dml_Model Dml_Spec Dml_Proofs Draw_Model Draw_Proofs Draw_Proofs3
  Chart_Model Chart_Series Chart_Axis Chart_Whole Chart_Proofs Chart_Proofs10 Chart_Order Chart_Order2 Chart_Order_Proofs Chart_Order_Proofs2.



(** From the calls to the chart. *)
Lemma label_fold k l : forallb (label_fits k) l = true -> forall b, lb_font b = None -> (is_round k = true -> lb_leader b = false) -> let r := fold_left label_step l b in lb_font r = None /\ (is_round k = true -> lb_leader r = false).
Proof.
  induction l as [|o l IH]; intros H b F R; [split; assumption|]. cbn [forallb] in H. apply andb_prop in H as [H1 H2]. cbv zeta. cbn [fold_left]. apply (IH H2); destruct o; cbn [label_step lb_font lb_leader]; try assumption; try discriminate H1. intros Q. cbn [label_fits] in H1. rewrite Q in H1. discriminate.
Qed.
Lemma round_same k : round (group_of k) = is_round k. Proof. destruct k; reflexivity. Qed.
Lemma series_fold k l : forallb (series_fits k) l = true -> forall s, ser_good k s -> ser_good k (fold_left series_step l s).
Proof.
  induction l as [|o l IH]; intros H s G; [exact G|]. cbn [forallb] in H. apply andb_prop in H as [H1 H2]. cbn [fold_left]. apply (IH H2). destruct G as [G1 G2 G3 G4 G5 G6].
  constructor; try (intros Q; destruct o; cbn [series_step se_marker se_format se_invert se_inverted se_trend se_xbars se_ybars]; auto; cbn [series_fits] in H1; congruence).
  destruct o as [| | | | | | |ls| | | | | | | | | | |]; cbn [series_step se_custom]; try exact G6. cbn [series_fits] in H1. apply Forall_map, Forall_forall. intros b Hb. rewrite round_same.
  rewrite forallb_forall in H1. apply (label_fold k b (H1 b Hb) label_new); reflexivity.
Qed.
Lemma new_good k : ser_good k (dress k series_new).
Proof. constructor; try (intros Q; destruct k; cbn in *; first [reflexivity | discriminate | split; reflexivity]). constructor. Qed.
Lemma dress_good k s : ser_good k s -> ser_good k (dress k s).
Proof.
  intros [G1 G2 G3 G4 G5 G6]. constructor; cbn [dress se_marker se_format se_invert se_inverted se_trend se_xbars se_ybars se_custom]; try assumption.
  - intros Q. destruct k; cbn in *; first [discriminate | auto].
  - intros Q. destruct k; cbn in *; first [discriminate | auto].
Qed.
Lemma plain_good k : ser_good k series_new.
Proof. constructor; try (intros; reflexivity); try (intros; split; reflexivity). constructor. Qed.
Lemma kind_fold l : forall c, ch_kind (fold_left chart_step l c) = ch_kind c.
Proof. induction l as [|o l IH]; intros c; [reflexivity|]. cbn [fold_left]. rewrite IH. reflexivity. Qed.
Lemma chart_fold k l : forallb (call_fits k) l = true -> forall c, ch_kind c = k -> series_all c -> series_all (fold_left chart_step l c).
Proof.
  induction l as [|o l IH]; intros H c K S; [exact S|]. cbn [forallb] in H. apply andb_prop in H as [H1 H2]. cbn [fold_left]. apply (IH H2); [exact K|]. unfold series_all in *. cbn [chart_step ch_kind]. rewrite K in *.
  destruct o; cbn [chart_step ch_series call_fits] in *; try exact S; rewrite K; (apply Forall_app; split; [exact S|]); (constructor; [|constructor]).
  - apply series_fold; [exact H1|apply new_good].
  - apply dress_good. apply series_fold; [exact H1|apply plain_good].
Qed.
Lemma some_series l : existsb adds_series l = true -> forall c, ch_series (fold_left chart_step l c) <> [].
Proof.
  assert (K : forall l c, ch_series c <> [] -> ch_series (fold_left chart_step l c) <> []).
  { clear l. induction l as [|o l IH]; intros c H; [exact H|]. cbn [fold_left]. apply IH. destruct o; cbn [chart_step ch_series]; try exact H; intros Q; apply app_eq_nil in Q as [_ Q]; discriminate Q. }
  induction l as [|o l IH]; [discriminate|]. cbn [existsb fold_left]. intros H c. destruct (adds_series o) eqn:A.
  - apply K. destruct o; try discriminate A; cbn [chart_step ch_series]; intros Q; apply app_eq_nil in Q as [_ Q]; discriminate Q.
  - apply IH. exact H.
Qed.
Lemma overlay_fold l : existsb overlays l = false -> forall c, lg_overlay (ch_legend c) = false -> lg_overlay (ch_legend (fold_left chart_step l c)) = false.
Proof.
  induction l as [|o l IH]; intros H c F; [exact F|]. cbn [existsb] in H. apply orb_false_iff in H as [H1 H2]. cbn [fold_left]. apply (IH H2). destruct o as [| | | | | | |g| | | | | | | | | | | | | | | | |]; try exact F. cbn [chart_step ch_legend]. destruct g as [| |b| | | |]; try exact F. destruct b; [discriminate H1|reflexivity].
Qed.
Lemma shape_fold l : existsb shapes_legend l = false -> forall c, lg_format (ch_legend c) = format_new -> lg_format (ch_legend (fold_left chart_step l c)) = format_new.
Proof.
  induction l as [|o l IH]; intros H c F; [exact F|]. cbn [existsb] in H. apply orb_false_iff in H as [H1 H2]. cbn [fold_left]. apply (IH H2). destruct o as [| | | | | | |g| | | | | | | | | | | | | | | | |]; try exact F. cbn [chart_step ch_legend]. destruct g; try exact F. discriminate H1.
Qed.
Lemma dates_fold l : existsb dates l = false -> forall c, is_date (ch_x c) = false -> is_date (ch_x (fold_left chart_step l c)) = false.
Proof.
  induction l as [|o l IH]; intros H c F; [exact F|]. cbn [existsb] in H. apply orb_false_iff in H as [H1 H2]. cbn [fold_left]. apply (IH H2). destruct o as [| | |a| | | | | | | | | | | | | | | | | | | | |]; try exact F. cbn [chart_step ch_x]. destruct a as [| | | | | |b| | | | | | | | | | | | | | | | | | | | | | | |]; try exact F. destruct b; [discriminate H1|reflexivity].
Qed.
Lemma axis_unskipped a o : skips_some o = false -> unskipped a -> unskipped (axis_step a o).
Proof. intros H [U1 U2]. destruct o; try (split; assumption); cbn [skips_some] in H; (split; cbn [axis_step ax_label_interval ax_tick_interval]; [|]); first [assumption | apply N.ltb_ge; exact H]. Qed.
Definition all_unskipped (c : chart) : Prop := unskipped (ch_x c) /\ unskipped (ch_y c) /\ unskipped (ch_x2 c) /\ unskipped (ch_y2 c).
Lemma skips_fold l : existsb skips_axis l = false -> forall c, all_unskipped c -> all_unskipped (fold_left chart_step l c).
Proof.
  induction l as [|o l IH]; intros H c F; [exact F|]. cbn [existsb] in H. apply orb_false_iff in H as [H1 H2]. cbn [fold_left]. apply (IH H2). destruct F as (F1 & F2 & F3 & F4).
  destruct o; cbn [skips_axis] in H1; unfold all_unskipped; cbn [chart_step ch_x ch_y ch_x2 ch_y2]; (split; [|split; [|split]]); try assumption; apply axis_unskipped; assumption.
Qed.
Lemma new_unskipped k : all_unskipped (chart_new k).
Proof. destruct k; unfold all_unskipped, unskipped; cbn; repeat split; discriminate. Qed.
Lemma calls_good k l : calls_fit k l = true -> existsb adds_series l = true -> let c := make_chart k l in series_all c /\ ch_series c <> [] /\ axes_good c /\ legend_good c.
Proof.
  intros H N. cbv zeta. unfold calls_fit in H. apply andb_prop in H as [H H3]. apply andb_prop in H as [H1 H2]. unfold make_chart. split; [|split; [|split]].
  - apply (chart_fold k l H1); [reflexivity|constructor].
  - apply some_series. exact N.
  - constructor. intros D. apply orb_prop in H3 as [H3|H3]; apply negb_true_iff in H3.
    + exfalso. assert (Q : existsb dates l = false /\ is_date (ch_x (chart_new k)) = false) by (destruct k; first [discriminate H3 | split; [exact H3|reflexivity]]). destruct Q as [Q1 Q2]. rewrite (dates_fold l Q1 _ Q2) in D. discriminate.
    + exact (skips_fold l H3 (chart_new k) (new_unskipped k)).
  - apply orb_prop in H2 as [H2|H2]; apply negb_true_iff in H2; [left; apply (overlay_fold l H2); reflexivity|right; apply (shape_fold l H2); reflexivity].
Qed.
