From Verif Require Import Base F64 Xml_Model Xml_Spec Xml_Proofs Xml_Read Xml_Read_Proofs Xml_Tree Fmt_Model Rich_Model Rich_Proofs SheetXml_Spec SheetXml_Proofs SheetXml_Proofs3 Doc_Model Doc_Spec Props_Doc Tag_Proofs Part_Proofs
  CF_Spec CF_Model CF_Build CF_Read Ref_Model Ref_Proofs Ref_Spec Quote_Proofs Note_Spec Note_Proofs Note_Proofs2 Note_Proofs4 Note_Proofs5 Cache_Model Spark_Model Spark_Spec Dml_Model Dml_Spec Dml_Proofs Draw_Model Draw_Proofs Draw_Proofs3
  Chart_Model Chart_Series Chart_Axis Chart_Whole Chart_Spec Chart_Spec2 Chart_Spec3 Chart_Spec4 Chart_Proofs Chart_Proofs2 Chart_Proofs3 Chart_Proofs4 Chart_Proofs5 Chart_Proofs6 Chart_Proofs7 Chart_Proofs8 Chart_Proofs9 Chart_Proofs10.
From Verif Require Color_Spec Props_Spark Xml_Spec Note_Proofs3 Draw_Proofs2.
From Coq Require Import Permutation.

From Verif Require Import Chart_Order Chart_Order2 Chart_Order_Proofs Chart_Order_Proofs2 Chart_Order_Proofs3 Props_Chart.

(** C82: the elements of a chart part stand in the order the schema wants. *)
(** The calls of the chart combined with the first one only concern its series: its axes and legend are not written. *)
Definition other_fits (comb : option (kind * list chart_op)) : bool := match comb with Some (k2, l2) => forallb (call_fits k2) l2 | None => true end.
Section Env.
Variable E : env.
Hypothesis Env : env_ok E.
Theorem C82_chart_elements_ordered_partial sheet protected id k l comb : chart_ready (quotable E) k l -> joined_ready E comb -> existsb adds_series l = true -> calls_fit k l = true -> other_fits comb = true ->
  exists root, read_document (chart_file E sheet protected id k l comb) = Some root /\ conforms [] root = true.
Proof.
  intros G J N F O. destruct (chart_reads E Env sheet protected id k l comb G J) as [W _]. exists (node_of (written_chart E sheet protected id k l comb)). split; [apply document_reads; exact W|].
  destruct (calls_good k l F N) as (S & Ns & A & L). unfold written_chart. apply part_conf; try assumption. destruct comb as [[k2 l2]|]; [|exact I]. cbn [joined other_fits] in *. apply (chart_fold k2 l2 O); [reflexivity|constructor].
Qed.
End Env.
Definition tidy_series : list series_op := [SrValues (cells 1); SrCategories (cells 0); SrName (text_arg "Sales"); SrTrend [TrType (TrPolynomial 3); TrEquation true]; SrYBars [EbType BtError]; SrFormat [FoSolid [SoColor (CRGB 255)]]; SrInvert;
  SrLabel [LbValue; LbPosition 1]; SrCustom [[LbCustom (text_arg "first")]; [LbHidden]]; SrPoints [[FoNoFill]; [FoNoLine]]].
Definition tidy_line : list series_op := [SrValues (cells 2); SrName (range_arg (cells 3)); SrSecondary true; SrMarker [MkType 2; MkFormat [FoNoFill]]; SrSmooth true].
Definition tidy_calls : list chart_op := [ChAdd tidy_series; ChTitle (TiName (text_arg "Sales & costs")); ChX (XName (range_arg (cells 4))); ChX (XTickInterval 3); ChY (XMax (f_of_N 9)); ChY (XUnits 2); ChY2 (XReverse); ChLegend (LgPosition 2);
  ChLegend (LgFormat [FoNoFill]); ChLegend (LgDelete [0]); ChStyle 7; ChTable [DtKeys true]; ChNa].
Definition tidy_other : kind * list chart_op := (KLine, [ChAdd tidy_line; ChDrop true; ChUpDown true]).
Example C82_meets : chart_ready (quotable demo_env) KColumn tidy_calls /\ joined_ready demo_env (Some tidy_other) /\ existsb adds_series tidy_calls = true /\ calls_fit KColumn tidy_calls = true /\ other_fits (Some tidy_other) = true.
Proof.
  split; [|split; [|repeat split; reflexivity]]; repeat split; ready.
  intros p q m H. destruct p as [|a [|b [|c p]]]; discriminate.
Qed.
Definition out_of_order (k : kind) (l : list chart_op) : Prop := exists root, read_document (chart_file demo_env false false 1 k l None) = Some root /\ conforms [] root = false.
Lemma disordered k l : chart_ready (quotable demo_env) k l -> conforms [] (node_of (written_chart demo_env false false 1 k l None)) = false -> out_of_order k l.
Proof. intros G C. destruct (chart_reads demo_env demo_ok false false 1 k l None G I) as [W _]. eexists. split; [apply document_reads; exact W|exact C]. Qed.
(** A legend that is laid over the chart and has a format: the format is written first. *)
Theorem C82_legend_refuted : out_of_order KColumn [ChAdd [SrValues (cells 1)]; ChLegend (LgOverlay true); ChLegend (LgFormat [FoNoLine])].
Proof. apply disordered; [repeat split; ready|vm_compute; reflexivity]. Qed.
(** Markers of a scatter chart are written before the format of the series, which such a chart always has; so any marker is out of place. *)
Theorem C82_scatter_marker_refuted : out_of_order KScatter [ChAdd [SrCategories (cells 0); SrValues (cells 1); SrMarker [MkType 1]]].
Proof. apply disordered; [repeat split; ready|vm_compute; reflexivity]. Qed.
(** The same when the series of a scatter chart with straight lines is given a format. *)
Theorem C82_scatter_format_refuted : out_of_order KScatterStraight [ChAdd [SrCategories (cells 0); SrValues (cells 1); SrFormat [FoNoFill]]].
Proof. apply disordered; [repeat split; ready|vm_compute; reflexivity]. Qed.
(** Intervals of ticks on an axis of dates. *)
Theorem C82_date_interval_refuted : out_of_order KLine [ChAdd [SrCategories (cells 0); SrValues (cells 1)]; ChX (XDate true); ChX (XTickInterval 3)].
Proof. apply disordered; [repeat split; ready|vm_compute; reflexivity]. Qed.
(** A label of its own text and with a font. *)
Theorem C82_label_font_refuted : out_of_order KColumn [ChAdd [SrValues (cells 1); SrCustom [[LbCustom (text_arg "first"); LbFont [CfBold]]]]].
Proof. apply disordered; [repeat split; ready|vm_compute; reflexivity]. Qed.
(** Trendlines of a pie chart, inverted colours of lines. *)
Theorem C82_pie_trend_refuted : out_of_order KPie [ChAdd [SrValues (cells 1); SrTrend [TrType TrLinear]]].
Proof. apply disordered; [repeat split; ready|vm_compute; reflexivity]. Qed.
Theorem C82_line_invert_refuted : out_of_order KLine [ChAdd [SrValues (cells 1); SrSmooth true; SrInvertColor (CRGB 7)]].
Proof. apply disordered; [repeat split; ready|vm_compute; reflexivity]. Qed.
